(** What holds of a law body that the plain-text parser builds, line by line: for a property of
    structures that can be checked at each structure separately, the body has it exactly when each
    line that was read satisfies the corresponding condition. *)
From Coq Require Import String List NArith Bool Arith Lia.
From Verif Require Import Base NumStr Ast Regex NumText TextParse TextSpec TextFacts OutlineFacts.
Import ListNotations.
Open Scope list_scope.

Definition few {A} (l : list A) : Prop := (N.of_nat (length l) < 2 ^ 64)%N.

Lemma few_app : forall A (a b : list A), few (a ++ b) -> few a /\ few b.
Proof. unfold few. intros A a b. rewrite app_length. lia. Qed.
Lemma few_cons : forall A (x : A) l, few (x :: l) -> few l.
Proof. unfold few. intros A x l. cbn [length]. lia. Qed.

Lemma then_ok : forall A B (x : Run A) (f : A -> Run B) b, then_ x f = Some (Ok b) ->
  exists a, x = Some (Ok a) /\ f a = Some (Ok b).
Proof. intros A B [[a|e|]|] f b H; try discriminate H. exists a. auto. Qed.

Ltac runs H := match type of H with
  | then_ ?x ?f = _ => let a := fresh "a" in let E := fresh "E" in
      apply then_ok in H; destruct H as (a & E & H); destruct a; cbn [fst snd] in H
  end.

Section Lines.
Context (G : forall k, Knot k -> Prop) (okn : ArticleNumber -> Prop) (okt : ustr -> Prop) (oka : Prop).

Definition ok_line (l : line) : Prop :=
  match l with
  | LCaption _ | LSuppl _ => True
  | LPart n t | LChapter n t | LSection n t | LSubsection n t | LDivision n t | LParagraph n t => okn n /\ okt t
  | LArticle n t => oka /\ okn n /\ okt t
  | LItem i t => okn (from_item_number i) /\ okt t
  | LText t => okt t
  end.

Hypothesis G_item : forall l i t ts c, few (t :: ts) ->
  (G (KItem l) (item_of l i t ts c) <->
   okn (from_item_number i) /\ Forall okt (t :: ts) /\ Forall (G (sub_item l)) c).
Hypothesis G_paragraph : forall n t ts c, few (t :: ts) ->
  (G KParagraph (paragraph_of n (sentences (t :: ts)) c) <->
   okn n /\ Forall okt (t :: ts) /\ Forall (G (KItem Item0)) c).
Hypothesis G_article : forall cap p ps n d,
  (G KArticle (mkArticle (mkArticleF (option_map (fun s => mkCaption (text_of s) None) cap) (text_of []) (p :: ps)
     None n d false)) <-> oka /\ okn n /\ Forall (G KParagraph) (p :: ps)).
Hypothesis okn_one : okn (mkAN 1 [] []).

Lemma take_texts_ok : forall l a b, take_texts l = (a, b) ->
  exists u, l = u ++ b /\ length u = length a /\ (Forall ok_line u <-> Forall okt a).
Proof.
  induction l as [|x l IH]; intros a b H.
  - cbn in H. injection H as <- <-. exists []. split; [reflexivity|]. split; [reflexivity|]. split; constructor.
  - destruct x; cbn [take_texts] in H; try (injection H as <- <-; exists []; split; [reflexivity|]; split;
      [reflexivity|]; split; constructor).
    destruct (take_texts l) as [a' b'] eqn:E. injection H as <- <-. destruct (IH _ _ eq_refl) as (u & -> & L & I).
    exists (LText s :: u). split; [reflexivity|]. split; [cbn; congruence|].
    rewrite !Forall_cons_iff, I. reflexivity.
Qed.

Ltac texts H := match type of H with
  | context [take_texts ?l] => let a := fresh "ts" in let b := fresh "r" in let E := fresh "T" in
      destruct (take_texts l) as [a b] eqn:E; apply take_texts_ok in E;
      let u := fresh "u" in let L := fresh "L" in let I := fresh "I" in
      destruct E as (u & -> & L & I)
  end.

Lemma subitems_ok : forall f l p q lines xs rest, subitems f l p q lines = Some (Ok (xs, rest)) -> few lines ->
  exists u, lines = u ++ rest /\ (Forall (G (KItem l)) xs <-> Forall ok_line u).
Proof.
  induction f as [|f IH]; intros l p q lines xs rest H W; [discriminate|].
  cbn [subitems] in H.
  assert (Z : done ([], lines) = Some (Ok (xs, rest)) ->
     exists u, lines = u ++ rest /\ (Forall (G (KItem l)) xs <-> Forall ok_line u)).
  { intros Q. injection Q as <- <-. exists []. split; [reflexivity|]. split; constructor. }
  destruct lines as [|[] lines]; try exact (Z H).
  destruct (pat_eqb (inum_pattern i) p); [exact (Z H)|].
  destruct (pat_eqb (inum_pattern i) q); [|discriminate]. clear Z.
  texts H. runs H. runs H. injection H as <- <-.
  assert (W2 : few (t :: ts)).
  { revert W. unfold few. cbn [length]. rewrite app_length. lia. }
  assert (W1 : few r) by (apply few_cons in W; apply few_app in W; tauto).
  assert (S : exists u', r = u' ++ l1 /\ (Forall (G (sub_item l)) l0 <-> Forall ok_line u')).
  { assert (Z : done ([], r) = Some (Ok (l0, l1)) ->
     exists u, r = u ++ l1 /\ (Forall (G (sub_item l)) l0 <-> Forall ok_line u)).
    { intros Q. injection Q as <- <-. exists []. split; [reflexivity|]. split; constructor. }
    destruct r as [|[] r]; try exact (Z E).
    destruct (negb (pat_eqb (inum_pattern i0) q) && negb (pat_eqb (inum_pattern i0) p)); [|exact (Z E)].
    destruct l; try exact (Z E); exact (IH _ _ _ _ _ _ E W1). }
  destruct S as (u2 & -> & S).
  destruct (IH _ _ _ _ _ _ E0) as (u3 & -> & S3); [apply few_app in W1; tauto|].
  exists (LItem i t :: u ++ u2 ++ u3). split; [cbn; rewrite <- !app_assoc; reflexivity|].
  rewrite Forall_cons_iff, (G_item _ _ _ _ _ W2), !Forall_cons_iff, !Forall_app, I, S, S3. cbn [ok_line]. tauto.
Qed.

Lemma items_ok : forall f lines xs rest, items f lines = Some (Ok (xs, rest)) -> few lines ->
  exists u, lines = u ++ rest /\ (Forall (G (KItem Item0)) xs <-> Forall ok_line u).
Proof.
  induction f as [|f IH]; intros lines xs rest H W; [discriminate|].
  cbn [items] in H.
  assert (Z : done ([], lines) = Some (Ok (xs, rest)) ->
     exists u, lines = u ++ rest /\ (Forall (G (KItem Item0)) xs <-> Forall ok_line u)).
  { intros Q. injection Q as <- <-. exists []. split; [reflexivity|]. split; constructor. }
  destruct lines as [|[] lines]; try exact (Z H). clear Z.
  texts H. runs H. runs H. injection H as <- <-.
  assert (W2 : few (t :: ts)).
  { revert W. unfold few. cbn [length]. rewrite app_length. lia. }
  assert (W1 : few r) by (apply few_cons in W; apply few_app in W; tauto).
  assert (S : exists u', r = u' ++ l0 /\ (Forall (G (sub_item Item0)) l <-> Forall ok_line u')).
  { assert (Z : done ([], r) = Some (Ok (l, l0)) ->
     exists u, r = u ++ l0 /\ (Forall (G (sub_item Item0)) l <-> Forall ok_line u)).
    { intros Q. injection Q as <- <-. exists []. split; [reflexivity|]. split; constructor. }
    destruct r as [|[] r]; try exact (Z E).
    destruct (negb (pat_eqb (inum_pattern i0) (inum_pattern i))); [|exact (Z E)].
    exact (subitems_ok _ _ _ _ _ _ _ E W1). }
  destruct S as (u2 & -> & S).
  destruct (IH _ _ _ E0) as (u3 & -> & S3); [apply few_app in W1; tauto|].
  exists (LItem i t :: u ++ u2 ++ u3). split; [cbn; rewrite <- !app_assoc; reflexivity|].
  rewrite Forall_cons_iff, (G_item _ _ _ _ _ W2), !Forall_cons_iff, !Forall_app, I, S, S3. cbn [ok_line]. tauto.
Qed.

Lemma parse_paragraph_ok : forall f n t lines x rest, parse_paragraph f n t lines = Some (Ok (x, rest)) ->
  few (t :: map (fun _ => t) lines) ->
  exists u, lines = u ++ rest /\ (G KParagraph x <-> okn n /\ okt t /\ Forall ok_line u).
Proof.
  intros f n t lines x rest H W. unfold parse_paragraph in H. texts H. runs H. injection H as <- <-.
  assert (W2 : few (t :: ts)).
  { revert W. unfold few. cbn [length]. rewrite map_length, app_length. lia. }
  assert (W1 : few r).
  { revert W. unfold few. cbn [length]. rewrite map_length, app_length. lia. }
  destruct (items_ok _ _ _ _ E W1) as (u2 & -> & S).
  exists (u ++ u2). split; [rewrite <- app_assoc; reflexivity|].
  rewrite (G_paragraph _ _ _ _ W2), Forall_cons_iff, Forall_app, I, S. tauto.
Qed.

Lemma paragraphs_ok : forall f lines xs rest, paragraphs f lines = Some (Ok (xs, rest)) -> few lines ->
  exists u, lines = u ++ rest /\ (Forall (G KParagraph) xs <-> Forall ok_line u).
Proof.
  induction f as [|f IH]; intros lines xs rest H W; [discriminate|].
  cbn [paragraphs] in H.
  assert (Z : done ([], lines) = Some (Ok (xs, rest)) ->
     exists u, lines = u ++ rest /\ (Forall (G KParagraph) xs <-> Forall ok_line u)).
  { intros Q. injection Q as <- <-. exists []. split; [reflexivity|]. split; constructor. }
  destruct lines as [|[] lines]; try exact (Z H). clear Z.
  runs H. runs H. injection H as <- <-.
  destruct (parse_paragraph_ok _ _ _ _ _ _ E) as (u & -> & S).
  { revert W. unfold few. cbn [length]. rewrite map_length. trivial. }
  destruct (IH _ _ _ E0) as (u2 & -> & S2); [apply few_cons in W; apply few_app in W; tauto|].
  exists (LParagraph n t :: u ++ u2). split; [cbn; rewrite <- !app_assoc; reflexivity|].
  rewrite !Forall_cons_iff, Forall_app, S, S2. cbn [ok_line]. tauto.
Qed.

Lemma parse_article_ok : forall f cap n t lines x rest, parse_article f cap n t lines = Some (Ok (x, rest)) ->
  few (LArticle n t :: lines) ->
  exists u, lines = u ++ rest /\ (G KArticle x <-> ok_line (LArticle n t) /\ Forall ok_line u).
Proof.
  intros f cap n t lines x rest H W. unfold parse_article in H. runs H. runs H. injection H as <- <-.
  destruct (parse_paragraph_ok _ _ _ _ _ _ E) as (u & -> & S).
  { revert W. unfold few. cbn [length]. rewrite map_length. trivial. }
  destruct (paragraphs_ok _ _ _ _ E0) as (u2 & -> & S2); [apply few_cons in W; apply few_app in W; tauto|].
  exists (u ++ u2). split; [rewrite <- app_assoc; reflexivity|].
  rewrite G_article, Forall_cons_iff, Forall_app, S, S2. cbn [ok_line]. tauto.
Qed.

(** Headings. *)
Lemma head_loop_ok : forall C (article : Knot KArticle -> C) sub (GC : C -> Prop),
  (forall x, GC (article x) <-> G KArticle x) ->
  (forall f l lines r c rest, sub f l lines = Some r -> r = Some (Ok (c, rest)) -> few (l :: lines) ->
     exists u, lines = u ++ rest /\ (GC c <-> ok_line l /\ Forall ok_line u)) ->
  forall f cap lines cs rest, head_loop article sub f cap lines = Some (Ok (cs, rest)) -> few lines ->
  exists u, lines = u ++ rest /\ (Forall GC cs <-> Forall ok_line u).
Proof.
  intros C article sub GC HA HS. induction f as [|f IH]; intros cap lines cs rest H W; [discriminate|].
  cbn [head_loop] in H.
  assert (Z : done ([], lines) = Some (Ok (cs, rest)) ->
     exists u, lines = u ++ rest /\ (Forall GC cs <-> Forall ok_line u)).
  { intros Q. injection Q as <- <-. exists []. split; [reflexivity|]. split; constructor. }
  destruct lines as [|l lines]; [exact (Z H)|].
  assert (K : forall r, sub f l lines = Some r ->
    (x <~ r; (y <~ head_loop article sub f None (snd x); done (fst x :: fst y, snd y))) = Some (Ok (cs, rest)) ->
    exists u, l :: lines = u ++ rest /\ (Forall GC cs <-> Forall ok_line u)).
  { intros r Es Q. runs Q. runs Q. injection Q as <- <-.
    destruct (HS _ _ _ _ _ _ Es E W) as (u & -> & S).
    destruct (IH _ _ _ _ E0) as (u2 & -> & S2); [apply few_cons in W; apply few_app in W; tauto|].
    exists (l :: u ++ u2). split; [cbn; rewrite <- !app_assoc; reflexivity|].
    rewrite !Forall_cons_iff, Forall_app, S, S2. tauto. }
  destruct l; try match type of H with
    | match ?x with _ => _ end = _ => destruct x as [r|] eqn:Es; [exact (K r eq_refl H)|exact (Z H)]
    end.
  - destruct (IH _ _ _ _ H) as (u & -> & S); [apply few_cons in W; exact W|].
    exists (LCaption s :: u). split; [reflexivity|]. rewrite Forall_cons_iff, S. cbn [ok_line]. tauto.
  - runs H. runs H. injection H as <- <-.
    destruct (parse_article_ok _ _ _ _ _ _ _ E W) as (u & -> & S).
    destruct (IH _ _ _ _ E0) as (u2 & -> & S2); [apply few_cons in W; apply few_app in W; tauto|].
    exists (LArticle n t :: u ++ u2). split; [cbn; rewrite <- !app_assoc; reflexivity|].
    rewrite !Forall_cons_iff, Forall_app, HA, S, S2. tauto.
Qed.

Definition G_suc (c : SubsectionContents Knot) : Prop :=
  match c with SuC_Article v => G KArticle v | SuC_Division v => G KDivision v end.
Definition G_sec (c : SectionContents Knot) : Prop :=
  match c with SeC_Article v => G KArticle v | SeC_Subsection v => G KSubsection v | SeC_Division v => G KDivision v end.
Definition G_chc (c : ChapterContents Knot) : Prop :=
  match c with ChC_Article v => G KArticle v | ChC_Section v => G KSection v end.
Definition G_pc (c : PartContents Knot) : Prop :=
  match c with PC_Article v => G KArticle v | PC_Chapter v => G KChapter v end.
Definition G_mc (c : MainContents Knot) : Prop :=
  match c with
  | MC_Part v => G KPart v | MC_Chapter v => G KChapter v | MC_Section v => G KSection v
  | MC_Article v => G KArticle v | MC_Paragraph v => G KParagraph v
  end.

Hypothesis G_division : forall n t c, G KDivision (mkDivision (head_of n t c)) <-> okn n /\ okt t /\ Forall (G KArticle) c.
Hypothesis G_subsection : forall n t c, G KSubsection (mkSubsection (head_of n t c)) <-> okn n /\ okt t /\ Forall G_suc c.
Hypothesis G_section : forall n t c, G KSection (mkSection (head_of n t c)) <-> okn n /\ okt t /\ Forall G_sec c.
Hypothesis G_chapter : forall n t c, G KChapter (mkChapter (head_of n t c)) <-> okn n /\ okt t /\ Forall G_chc c.
Hypothesis G_part : forall n t c, G KPart (mkPart (head_of n t c)) <-> okn n /\ okt t /\ Forall G_pc c.

Lemma parse_division_ok : forall f n t lines x rest, parse_division f n t lines = Some (Ok (x, rest)) ->
  few (LDivision n t :: lines) ->
  exists u, lines = u ++ rest /\ (G KDivision x <-> ok_line (LDivision n t) /\ Forall ok_line u).
Proof.
  intros f n t lines x rest H W. unfold parse_division in H. runs H. injection H as <- <-.
  eapply (head_loop_ok _ _ _ (G KArticle)) in E; [| |discriminate|exact (few_cons _ _ _ W)]; [|reflexivity].
  destruct E as (u & -> & S). exists u. split; [reflexivity|]. rewrite G_division, S. cbn [ok_line]. tauto.
Qed.

Ltac heading GC lem sub_ok :=
  let f := fresh "f" in let H := fresh "H" in let W := fresh "W" in
  intros f n t lines x rest H W; runs H; injection H as <- <-;
  match goal with E : head_loop _ _ _ _ _ = _ |- _ =>
    eapply (head_loop_ok _ _ _ GC) in E;
      [ let u := fresh "u" in let S := fresh "S" in
        destruct E as (u & -> & S); exists u; split; [reflexivity|]; rewrite lem, S; cbn [ok_line]; tauto
      | reflexivity
      | let g := fresh "g" in let l := fresh "l" in let R := fresh "R" in let V := fresh "V" in
        intros g l ? r ? ? R -> V; destruct l; try discriminate R; injection R as R; runs R; injection R as <- <-;
        match goal with Q : _ = Some (Ok _) |- _ => exact (sub_ok _ _ _ _ _ _ Q V) end
      | exact (few_cons _ _ _ W) ]
  end.

Lemma parse_subsection_ok : forall f n t lines x rest, parse_subsection f n t lines = Some (Ok (x, rest)) ->
  few (LSubsection n t :: lines) ->
  exists u, lines = u ++ rest /\ (G KSubsection x <-> ok_line (LSubsection n t) /\ Forall ok_line u).
Proof. unfold parse_subsection. heading G_suc G_subsection parse_division_ok. Qed.
Lemma parse_section_ok : forall f n t lines x rest, parse_section f n t lines = Some (Ok (x, rest)) ->
  few (LSection n t :: lines) ->
  exists u, lines = u ++ rest /\ (G KSection x <-> ok_line (LSection n t) /\ Forall ok_line u).
Proof. unfold parse_section. heading G_sec G_section parse_subsection_ok. Qed.
Lemma parse_chapter_ok : forall f n t lines x rest, parse_chapter f n t lines = Some (Ok (x, rest)) ->
  few (LChapter n t :: lines) ->
  exists u, lines = u ++ rest /\ (G KChapter x <-> ok_line (LChapter n t) /\ Forall ok_line u).
Proof. unfold parse_chapter. heading G_chc G_chapter parse_section_ok. Qed.
Lemma parse_part_ok : forall f n t lines x rest, parse_part f n t lines = Some (Ok (x, rest)) ->
  few (LPart n t :: lines) ->
  exists u, lines = u ++ rest /\ (G KPart x <-> ok_line (LPart n t) /\ Forall ok_line u).
Proof. unfold parse_part. heading G_pc G_part parse_chapter_ok. Qed.

(** The body. *)
Definition no_suppl (st : body_state) : Prop :=
  bs_suppl st = [] /\ bs_suppl_num st = None.

Lemma suppl_stuck : forall f st o r, body_loop f st (LSuppl o :: r) = None.
Proof. induction f as [|f IH]; intros st o r; [reflexivity|]. cbn [body_loop]. apply IH. Qed.

Lemma body_loop_ok : forall f st lines st' rest, body_loop f st lines = Some (Ok (st', rest)) ->
  no_suppl st -> few lines ->
  exists u p m, lines = u ++ rest /\ no_suppl st' /\
    bs_preamble st' = bs_preamble st ++ p /\ bs_main st' = bs_main st ++ m /\
    (length p <= length u)%nat /\
    (Forall okt p /\ Forall G_mc m <-> Forall ok_line u).
Proof.
  induction f as [|f IH]; intros st lines st' rest H N W; [discriminate|].
  cbn [body_loop] in H.
  assert (Z : done (st, lines) = Some (Ok (st', rest)) ->
    exists u p m, lines = u ++ rest /\ no_suppl st' /\
    bs_preamble st' = bs_preamble st ++ p /\ bs_main st' = bs_main st ++ m /\
    (length p <= length u)%nat /\
    (Forall okt p /\ Forall G_mc m <-> Forall ok_line u)).
  { intros Q. injection Q as <- <-. exists [], [], []. rewrite !app_nil_r.
    split; [reflexivity|]. split; [exact N|]. split; [reflexivity|]. split; [reflexivity|]. split; [apply le_n|].
    split; [constructor|split; constructor]. }
  assert (M : forall l c u lines2, lines = l :: u ++ lines2 -> (G_mc c <-> ok_line l /\ Forall ok_line u) ->
    body_loop f (add_main st c) lines2 = Some (Ok (st', rest)) ->
    exists u p m, lines = u ++ rest /\ no_suppl st' /\
    bs_preamble st' = bs_preamble st ++ p /\ bs_main st' = bs_main st ++ m /\
    (length p <= length u)%nat /\
    (Forall okt p /\ Forall G_mc m <-> Forall ok_line u)).
  { intros l c u lines2 -> S Q. destruct (IH _ _ _ _ Q) as (u2 & p & m & -> & N2 & P & A & L & I).
    - destruct N as [N1 N2]. split; [exact N1|exact N2].
    - apply few_cons in W. apply few_app in W. tauto.
    - exists (l :: u ++ u2), p, (c :: m). split; [cbn; rewrite <- !app_assoc; reflexivity|]. split; [exact N2|].
      split; [exact P|]. split; [rewrite A; cbn [bs_main add_main]; rewrite <- app_assoc; reflexivity|].
      split; [cbn [length]; rewrite app_length; lia|].
      rewrite !Forall_cons_iff, Forall_app, S, <- I. tauto. }
  destruct N as [N1 N2].
  destruct lines as [|[] lines]; try exact (Z H).
  - (* caption *)
    destruct (IH _ _ _ _ H) as (u & p & m & -> & V & P & A & L & I); [split; [exact N1|first [exact N2|reflexivity]]|exact (few_cons _ _ _ W)|].
    exists (LCaption s :: u), p, m. split; [reflexivity|]. split; [exact V|]. split; [exact P|]. split; [exact A|].
    split; [cbn [length]; lia|]. rewrite Forall_cons_iff, I. cbn [ok_line]. tauto.
  - runs H. destruct (parse_part_ok _ _ _ _ _ _ E W) as (u & -> & S). exact (M _ (MC_Part k) _ _ eq_refl S H).
  - rewrite N2 in H. runs H. destruct (parse_chapter_ok _ _ _ _ _ _ E W) as (u & -> & S).
    exact (M _ (MC_Chapter k) _ _ eq_refl S H).
  - runs H. destruct (parse_section_ok _ _ _ _ _ _ E W) as (u & -> & S). exact (M _ (MC_Section k) _ _ eq_refl S H).
  - rewrite N2 in H. runs H. destruct (parse_article_ok _ _ _ _ _ _ _ E W) as (u & -> & S).
    exact (M _ (MC_Article k) _ _ eq_refl S H).
  - rewrite suppl_stuck in H. discriminate.
  - destruct (bs_is_preamble st).
    + destruct (IH _ _ _ _ H) as (u & p & m & -> & V & P & A & L & I); [split; [exact N1|first [exact N2|reflexivity]]|exact (few_cons _ _ _ W)|].
      exists (LText s :: u), (s :: p), m. split; [reflexivity|]. split; [exact V|].
      split; [rewrite P; cbn [bs_preamble]; rewrite <- app_assoc; reflexivity|]. split; [exact A|].
      split; [cbn [length]; lia|]. rewrite !Forall_cons_iff, <- I. cbn [ok_line]. tauto.
    + exact (IH _ _ _ _ H (conj N1 N2) W).
Qed.

Hypothesis G_preamble_paragraph : forall k s, (k < 2 ^ 64)%N ->
  (G KParagraph (paragraph_of (mkAN k [] []) [text_to_sentence 0 s] []) <-> okt s).
Hypothesis G_body : forall title st, no_suppl st ->
  (G KLawBody (body_of_state title st) <->
   okt title /\ Forall (G KParagraph) (preamble_paragraphs 0 (bs_preamble st)) /\ Forall G_mc (bs_main st)).

Lemma preamble_ok : forall l k, (k + N.of_nat (length l) <= 2 ^ 64)%N ->
  (Forall (G KParagraph) (preamble_paragraphs k l) <-> Forall okt l).
Proof.
  induction l as [|s l IH]; intros k W; [split; constructor|]. cbn [preamble_paragraphs].
  cbn [length] in W. rewrite !Forall_cons_iff, G_preamble_paragraph by lia. rewrite IH by lia. reflexivity.
Qed.

Theorem body_ok : forall fuel title lines b, parse_lines fuel title lines = Some (Ok b) -> few lines ->
  exists u rest, lines = u ++ rest /\ readable u /\ (rest = [] \/ exists l r, rest = l :: r /\ misplaced u l) /\
    (exists st, body_loop fuel initial lines = Some (Ok (st, rest))) /\
    (G KLawBody b <-> okt title /\ Forall ok_line u).
Proof.
  intros fuel title lines b H W. unfold parse_lines in H.
  apply then_ok in H. destruct H as ((st & rest) & E & H). cbn [fst] in H. injection H as <-.
  destruct (body_loop_ok _ _ _ _ _ E) as (u & p & m & El & N & P & A & L & I); [split; reflexivity|exact W|].
  cbn [initial bs_preamble bs_main app] in P, A.
  pose proof (body_loop_spec fuel initial (MPre 0) lines) as O. rewrite E in O. cbn [body_result] in O.
  destruct O as (_ & _ & _ & es & O & _); [repeat split|]. change (outline lines = (es, Ends rest)) in O.
  exists u, rest. split; [exact El|].
  assert (X : readable u /\ (rest = [] \/ exists l r, rest = l :: r /\ misplaced u l)).
  { destruct (reading_ends lines) as [[Rd [es' E']]|[a' [l [r [El' [Rd [[M [es' E']]|[[M [es' E']]|[M [es' E']]]]]]]]]];
    rewrite O in E'; try discriminate E'.
    - injection E' as _ ->. rewrite app_nil_r in El. subst lines. auto.
    - injection E' as _ ->. rewrite El' in El. apply app_inv_tail in El. subst a'. eauto 7. }
  destruct X as [X Y]. split; [exact X|]. split; [exact Y|]. split; [exists st; exact E|].
  rewrite G_body by exact N. rewrite preamble_ok, P, A.
  - rewrite <- I. tauto.
  - rewrite P. revert W. unfold few. rewrite El, app_length. lia.
Qed.
End Lines.
