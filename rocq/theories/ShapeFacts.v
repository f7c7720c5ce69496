(** The law bodies that plain text gives have the shape of ShapeSpec.v. *)
From Coq Require Import String List NArith Bool Arith Lia.
From Verif Require Import Base NumStr Ast Regex NumText TextParse TextSpec TextFacts BodyFacts ShapeSpec.
Import ListNotations.
Open Scope list_scope.

Lemma every_forall : forall A (P : A -> Prop) l, every P l <-> Forall P l.
Proof.
  intros A P l. induction l as [|x l IH]; cbn [every]; [split; constructor|].
  rewrite Forall_cons_iff, <- IH. reflexivity.
Qed.
Lemma chain_app1 : forall A (R : A -> A -> Prop) a b, chain R (a ++ b) -> chain R a.
Proof.
  intros A R a b. induction a as [|x a IH]; [intros _; exact I|]. cbn [app chain]. intros [H1 H2]. split; [|exact (IH H2)].
  destruct a as [|y a]; [exact I|exact H1].
Qed.

Lemma says_sentences : forall ts k, says k ts (sentences_from k ts).
Proof. induction ts as [|t ts IH]; intros k; cbn [sentences_from]; constructor; [reflexivity|apply IH]. Qed.
Lemma says_only_one : forall k ts ss, says k ts ss -> ss = sentences_from k ts.
Proof. intros k ts ss H. induction H; cbn [sentences_from]; [reflexivity|]. subst s. f_equal. exact IHsays. Qed.
Lemma preface_paragraphs : forall ts k, preface k ts (preamble_paragraphs k ts).
Proof. induction ts as [|t ts IH]; intros k; cbn [preamble_paragraphs]; econstructor; first [reflexivity|apply IH]. Qed.
Lemma preface_only_one : forall k ts ps, preface k ts ps -> ps = preamble_paragraphs k ts.
Proof. intros k ts ps H. induction H; cbn [preamble_paragraphs]; [reflexivity|]. subst. reflexivity. Qed.

Lemma two_others : forall (p : ItemPattern) (up : option ItemPattern), exists q, q <> p /\ up <> Some q.
Proof.
  intros p up.
  assert (Z : exists a b c : ItemPattern, a <> b /\ a <> c /\ b <> c)
    by (exists NoParenKansuji, ParenKansuji, ParenZenkakuNum; repeat split; discriminate).
  destruct Z as (a & b & c & Hab & Hac & Hbc).
  assert (D : forall x y : ItemPattern, {x = y} + {x <> y}) by decide equality.
  assert (E : forall q, {up = Some q} + {up <> Some q}).
  { intros q. destruct up as [r|]; [|right; discriminate]. destruct (D r q); [left; congruence|right; congruence]. }
  destruct (D a p); [|destruct (E a); [|exists a; auto]]; (destruct (D b p); [|destruct (E b); [|exists b; auto]]);
    exists c; split; congruence.
Qed.

Section Shape.
Context (ok : line -> Prop).
Notation item_shape := (item_shape ok).

Lemma take_texts_are : forall l a b, take_texts l = (a, b) -> l = map LText a ++ b /\ no_text b.
Proof.
  induction l as [|x l IH]; intros a b H.
  - injection H as <- <-. split; [reflexivity|exact I].
  - destruct x; cbn [take_texts] in H; try (injection H as <- <-; split; [reflexivity|exact I]).
    destruct (take_texts l) as [a' b']. injection H as <- <-. destruct (IH _ _ eq_refl) as [-> H].
    split; [reflexivity|exact H].
Qed.
Lemma texts_ok : forall ts, Forall ok (map LText ts) <-> ok_texts ok ts.
Proof. intros ts. unfold ok_texts. apply Forall_map. Qed.

Definition at_item (l : list line) : Prop := match l with LItem _ _ :: _ => True | _ => False end.
(** The first item, if any, has this pattern. *)
Definition first_pattern (p : ItemPattern) (l : list line) : Prop :=
  match l with LItem i _ :: _ => inum_pattern i = p | _ => True end.

Lemma item_of_shape : forall l p up i t ts c, inum_pattern i = p -> ok (LItem i t) -> ok_texts ok ts ->
  (c = [] \/ exists q, q <> p /\ up <> Some q /\ every (item_shape q (Some p) (k := sub_item l)) c) ->
  chain (fun y _ => short y) c -> item_shape p up (item_of l i t ts c).
Proof.
  intros l p up i t ts c Hp Hi Ht Hc Hs. unfold item_of. cbn [ShapeSpec.item_shape it_title it_struct_list it_hide it_num it_delete it_sentence it_children].
  split; [|split; [|exact Hs]].
  - exists i, t, ts. repeat (split; [first [assumption|reflexivity]|]). split; [symmetry; apply says_deleted_eq|].
    eexists. split; [reflexivity|]. apply (says_sentences (t :: ts)).
  - destruct Hc as [-> | Hc]; [|exact Hc]. destruct (two_others p up) as (q & Hq & Hu). exists q. auto.
Qed.

Definition last_leaf {k} (l : list (Knot k)) : Prop := forall r c, l = r ++ [c] -> leaf c.

Lemma subitems_at : forall f l up p lines x xs rest, subitems f l up p lines = Some (Ok (x :: xs, rest)) -> at_item lines.
Proof.
  intros [|f] l up p lines x xs rest H; [discriminate|]. cbn [subitems] in H.
  destruct lines as [|[] lines]; try discriminate H. exact I.
Qed.
Lemma subitems_shape : forall f l up p lines xs rest, subitems f l up p lines = Some (Ok (xs, rest)) -> up <> p ->
  Forall ok lines ->
  every (item_shape p (Some up)) xs /\ chain (fun y _ => short y) xs /\ (at_item rest -> last_leaf xs) /\
  first_pattern up rest /\ Forall ok rest /\ (xs = [] -> rest = lines).
Proof.
  induction f as [|f IH]; intros l up p lines xs rest H N W; [discriminate|].
  cbn [subitems] in H.
  assert (Z : done ([], lines) = Some (Ok (xs, rest)) -> first_pattern up lines ->
    every (item_shape p (Some up)) xs /\ chain (fun y _ => short y) xs /\ (at_item rest -> last_leaf xs) /\
    first_pattern up rest /\ Forall ok rest /\ (xs = [] -> rest = lines)).
  { intros Q Y. injection Q as <- <-. split; [exact I|]. split; [exact I|]. split; [intros _ r c E; destruct r; discriminate E|]. auto. }
  destruct lines as [|[] lines]; try exact (Z H I).
  destruct (pat_eqb (inum_pattern i) up) eqn:Eu; [apply pat_eqb_eq in Eu; exact (Z H Eu)|].
  destruct (pat_eqb (inum_pattern i) p) eqn:Ep; [|discriminate]. clear Z. apply pat_eqb_eq in Ep.
  destruct (take_texts lines) as [ts r] eqn:T. apply take_texts_are in T as [-> NT].
  apply Forall_cons_iff in W as [Wi W]. apply Forall_app in W as [Wt W]. apply texts_ok in Wt.
  runs H. runs H. injection H as <- <-.
  rename l0 into cs, l1 into r1, l2 into ys, l3 into r2.
  assert (C : (cs = [] \/ exists q, q <> p /\ Some up <> Some q /\ every (item_shape q (Some p) (k := sub_item l)) cs) /\
    chain (fun y _ => short y) cs /\ (at_item r1 -> last_leaf cs) /\ (cs <> [] -> first_pattern p r1) /\ Forall ok r1).
  { assert (Z : done ([], r) = Some (Ok (cs, r1)) -> 
      (cs = [] \/ exists q, q <> p /\ Some up <> Some q /\ every (item_shape q (Some p) (k := sub_item l)) cs) /\
      chain (fun y _ => short y) cs /\ (at_item r1 -> last_leaf cs) /\ (cs <> [] -> first_pattern p r1) /\ Forall ok r1).
    { intros Q. injection Q as <- <-. split; [left; reflexivity|]. split; [exact I|].
      split; [intros _ u c E'; destruct u; discriminate E'|]. split; [intros Q; contradiction|exact W]. }
    destruct r as [|[] r]; try exact (Z E).
    destruct (negb (pat_eqb (inum_pattern i0) p) && negb (pat_eqb (inum_pattern i0) up)) eqn:B; [|exact (Z E)].
    apply andb_prop in B as [B1 B2]. apply negb_true_iff in B1, B2. apply pat_eqb_neq in B1, B2.
    destruct l; try exact (Z E); apply IH in E as (E1 & E2 & E3 & E4 & E5 & E6); try exact W; try congruence;
      (split; [right; exists (inum_pattern i0); split; [exact B1|]; split; [congruence|exact E1]|]; auto). }
  destruct C as (C1 & C2 & C3 & C4 & C5).
  pose proof E0 as E0'. apply IH in E0 as (D1 & D2 & D3 & D4 & D5 & D6); [|exact N|exact C5].
  split; [|split; [|split; [|split; [exact D4|split; [exact D5|discriminate]]]]].
  - split; [|exact D1]. apply item_of_shape; auto.
  - split; [|exact D2]. destruct ys as [|y ys]; [exact I|]. cbn [short item_of it_children]. apply C3.
    exact (subitems_at _ _ _ _ _ _ _ _ E0').
  - intros A. destruct ys as [|y ys].
    + rewrite (D6 eq_refl) in A, D4. intros u c Q. destruct u as [|x u]; [|destruct u; discriminate Q]. injection Q as <-.
      cbn [leaf item_of it_children]. destruct cs as [|c cs]; [reflexivity|]. exfalso.
      assert (F : first_pattern p r1) by (apply C4; discriminate).
      destruct r1 as [|[] r1]; try exact A. cbn in D4, F. congruence.
    + intros u c Q. destruct u as [|x u]; [discriminate Q|]. injection Q as _ Q. exact (D3 A u c Q).
Qed.

Lemma items_loop_shape : forall f lines xs rest, items f lines = Some (Ok (xs, rest)) -> Forall ok lines ->
  (forall p, (at_item lines -> first_pattern p lines) -> every (item_shape p None) xs) /\
  chain (fun y _ => short y) xs /\ Forall ok rest /\ ~ at_item rest.
Proof.
  induction f as [|f IH]; intros lines xs rest H W; [discriminate|].
  cbn [items] in H.
  assert (Z : done ([], lines) = Some (Ok (xs, rest)) -> ~ at_item lines ->
    (forall p, (at_item lines -> first_pattern p lines) -> every (item_shape p None) xs) /\
    chain (fun y _ => short y) xs /\ Forall ok rest /\ ~ at_item rest).
  { intros Q Y. injection Q as <- <-. split; [intros p _; exact I|]. split; [exact I|]. auto. }
  destruct lines as [|[] lines]; try exact (Z H (fun x => x)). clear Z.
  destruct (take_texts lines) as [ts r] eqn:T. apply take_texts_are in T as [-> NT].
  apply Forall_cons_iff in W as [Wi W]. apply Forall_app in W as [Wt W]. apply texts_ok in Wt.
  runs H. runs H. injection H as <- <-.
  rename l into cs, l0 into r1, l1 into ys, l2 into r2.
  set (p := inum_pattern i) in *.
  assert (C : (cs = [] \/ exists q, q <> p /\ None <> Some q /\ every (item_shape q (Some p) (k := KItem Sub1)) cs) /\
    chain (fun y _ => short y) cs /\ (at_item r1 -> last_leaf cs) /\ first_pattern p r1 /\ Forall ok r1).
  { assert (Z : done ([], r) = Some (Ok (cs, r1)) -> first_pattern p r ->
      (cs = [] \/ exists q, q <> p /\ None <> Some q /\ every (item_shape q (Some p) (k := KItem Sub1)) cs) /\
      chain (fun y _ => short y) cs /\ (at_item r1 -> last_leaf cs) /\ first_pattern p r1 /\ Forall ok r1).
    { intros Q Y. injection Q as <- <-. split; [left; reflexivity|]. split; [exact I|].
      split; [intros _ u c E'; destruct u; discriminate E'|]. split; [exact Y|exact W]. }
    destruct r as [|[] r]; try exact (Z E I).
    destruct (negb (pat_eqb (inum_pattern i0) p)) eqn:B; [|apply negb_false_iff, pat_eqb_eq in B; exact (Z E B)].
    apply negb_true_iff, pat_eqb_neq in B. 
    apply subitems_shape in E as (E1 & E2 & E3 & E4 & E5 & E6); [|congruence|exact W].
    split; [right; exists (inum_pattern i0); split; [exact B|]; split; [discriminate|exact E1]|]; auto. }
  destruct C as (C1 & C2 & C3 & C4 & C5).
  assert (A : ys <> [] -> at_item r1).
  { intros Q. destruct f; [discriminate|]. cbn [items] in E0. destruct r1 as [|[] r1]; try exact I; injection E0 as <- <-; contradiction. }
  apply IH in E0 as (D1 & D2 & D3 & D4); [|exact C5].
  split; [|split; [|auto]].
  - intros q Hq. specialize (Hq I). cbn in Hq. subst q. split; [|apply D1; intros _; exact C4].
    apply (item_of_shape Item0); auto.
  - split; [|exact D2]. destruct ys as [|y ys]; [exact I|]. cbn [short item_of it_children]. apply C3, A. discriminate.
Qed.
Lemma items_are_shaped : forall f lines xs rest, items f lines = Some (Ok (xs, rest)) -> Forall ok lines ->
  items_shape ok xs /\ Forall ok rest.
Proof.
  intros f lines xs rest H W. apply items_loop_shape in H as (H1 & H2 & H3 & _); [|exact W]. split; [|exact H3].
  split; [|exact H2].
  exists (match lines with LItem i _ :: _ => inum_pattern i | _ => ParenKansuji end). apply H1. intros A.
  destruct lines as [|[] lines]; try destruct A. reflexivity.
Qed.

Lemma paragraph_is_shaped : forall f n t lines p rest, parse_paragraph f n t lines = Some (Ok (p, rest)) -> Forall ok lines ->
  paragraph_shape ok n t p /\ Forall ok rest.
Proof.
  intros f n t lines p rest H W. unfold parse_paragraph in H.
  destruct (take_texts lines) as [ts r] eqn:T. apply take_texts_are in T as [-> NT].
  apply Forall_app in W as [Wt W]. apply texts_ok in Wt. runs H. injection H as <- <-.
  apply items_are_shaped in E as [E1 E2]; [|exact W]. split; [|exact E2].
  exists ts, (sentences (t :: ts)), l. split; [reflexivity|]. split; [exact Wt|]. split; [apply (says_sentences (t :: ts))|exact E1].
Qed.
Lemma paragraphs_are_shaped : forall f lines ps rest, paragraphs f lines = Some (Ok (ps, rest)) -> Forall ok lines ->
  Forall (fun p => exists n t, ok (LParagraph n t) /\ paragraph_shape ok n t p) ps /\ Forall ok rest.
Proof.
  induction f as [|f IH]; intros lines ps rest H W; [discriminate|]. cbn [paragraphs] in H.
  destruct lines as [|[] lines]; try (injection H as <- <-; split; [constructor|exact W]).
  runs H. runs H. injection H as <- <-. apply Forall_cons_iff in W as [Wl W].
  apply paragraph_is_shaped in E as [E1 E2]; [|exact W]. apply IH in E0 as [D1 D2]; [|exact E2].
  split; [|exact D2]. constructor; [|exact D1]. eauto.
Qed.
Lemma article_is_shaped : forall f cap n t lines a rest, parse_article f cap n t lines = Some (Ok (a, rest)) ->
  (forall s, cap = Some s -> ok (LCaption s)) -> ok (LArticle n t) -> Forall ok lines -> article_shape ok a /\ Forall ok rest.
Proof.
  intros f cap n t lines a rest H Hc Ha W. unfold parse_article in H. runs H. runs H. injection H as <- <-.
  apply paragraph_is_shaped in E as [E1 E2]; [|exact W]. apply paragraphs_are_shaped in E0 as [D1 D2]; [|exact E2].
  split; [|exact D2]. exists cap, n, t, k, l0. rewrite says_deleted_eq. split; [reflexivity|]. auto.
Qed.

(** Not before a caption or an article. *)
Definition settled (l : list line) : Prop := match l with LCaption _ :: _ | LArticle _ _ :: _ => False | _ => True end.

Lemma head_loop_shape : forall C (article : Knot KArticle -> C) sub (P : C -> Prop) (T : list line -> Prop),
  (forall f l lines c rest, sub f l lines = Some (Some (Ok (c, rest))) -> ok l -> Forall ok lines ->
     P c /\ Forall ok rest /\ settled rest /\ T rest) ->
  forall f cap lines cs rest, head_loop article sub f cap lines = Some (Ok (cs, rest)) ->
  (forall s, cap = Some s -> ok (LCaption s)) -> Forall ok lines ->
  exists arts subs, cs = map article arts ++ subs /\ Forall (article_shape ok) arts /\ Forall P subs /\ Forall ok rest /\
    settled rest /\ (forall l r, rest = l :: r -> exists f, sub f l r = None) /\ (settled lines -> arts = []) /\
    (subs = [] \/ T rest) /\ (settled lines -> subs = [] -> rest = lines).
Proof.
  intros C article sub P T S. induction f as [|f IH]; intros cap lines cs rest H Hc W; [discriminate|].
  cbn [head_loop] in H.
  assert (Z : settled lines -> forall l r, lines = l :: r ->
    match sub f l r with
    | Some x => y <~ x; z <~ head_loop article sub f None (snd y); done (fst y :: fst z, snd z)
    | None => done ([], lines)
    end = Some (Ok (cs, rest)) ->
    exists arts subs, cs = map article arts ++ subs /\ Forall (article_shape ok) arts /\ Forall P subs /\ Forall ok rest /\
    settled rest /\ (forall l r, rest = l :: r -> exists f, sub f l r = None) /\ (settled lines -> arts = []) /\
    (subs = [] \/ T rest) /\ (settled lines -> subs = [] -> rest = lines)).
  { intros Q l r -> Y. apply Forall_cons_iff in W as [Wl W]. destruct (sub f l r) as [x|] eqn:B.
    - runs Y. runs Y. injection Y as <- <-. subst x. destruct (S _ _ _ _ _ B Wl W) as (S1 & S2 & S3 & S4).
      apply IH in E0 as (arts & subs & -> & A1 & A2 & A3 & A4 & A5 & A6 & A7 & A8); [|discriminate|exact S2].
      rewrite (A6 S3). exists [], (c :: subs). split; [reflexivity|]. split; [constructor|]. split; [constructor; assumption|].
      split; [exact A3|]. split; [exact A4|]. split; [exact A5|]. split; [reflexivity|]. split; [right|discriminate].
      destruct A7 as [A7|A7]; [|exact A7]. rewrite (A8 S3 A7). exact S4.
    - injection Y as <- <-. exists [], []. split; [reflexivity|]. split; [constructor|]. split; [constructor|].
      split; [constructor; assumption|]. split; [exact Q|]. split; [|auto]. intros l' r' X. injection X as <- <-. exists f. exact B. }
  destruct lines as [|[] lines]; try exact (Z I _ _ eq_refl H); clear Z.
  - injection H as <- <-. exists [], []. split; [reflexivity|]. split; [constructor|]. split; [constructor|].
    split; [constructor|]. split; [exact I|]. split; [discriminate|]. auto.
  - apply Forall_cons_iff in W as [Wl W]. apply IH in H as (arts & subs & -> & A1 & A2 & A3 & A4 & A5 & A6 & A7 & A8);
      [|intros x Q; injection Q as <-; exact Wl|exact W].
    exists arts, subs. split; [reflexivity|]. repeat (split; [assumption|]). split; [intros []|]. split; [exact A7|intros []].
  - apply Forall_cons_iff in W as [Wl W]. runs H. runs H. injection H as <- <-.
    apply article_is_shaped in E as [E1 E2]; [|exact Hc|exact Wl|exact W].
    apply IH in E0 as (arts & subs & -> & A1 & A2 & A3 & A4 & A5 & A6 & A7 & A8); [|discriminate|exact E2].
    exists (k :: arts), subs. split; [reflexivity|]. split; [constructor; assumption|]. repeat (split; [assumption|]).
    split; [intros []|]. split; [exact A7|intros []].
Qed.

(** What each heading leaves. *)
Definition left_by (r : list line) (taken : line -> Prop) : Prop :=
  settled r /\ match r with l :: _ => ~ taken l | [] => True end.
Definition is_division (l : line) : Prop := match l with LDivision _ _ => True | _ => False end.
Definition is_subsection (l : line) : Prop := match l with LSubsection _ _ => True | _ => False end.
Definition is_section (l : line) : Prop := match l with LSection _ _ => True | _ => False end.
Definition is_chapter (l : line) : Prop := match l with LChapter _ _ => True | _ => False end.

Ltac no_more := let f := fresh in let E := fresh in
  match goal with H : forall l r, _ = l :: r -> exists f, _ = None |- match ?r with _ => _ end =>
    destruct r as [|[] r]; try exact I; try (intros []); destruct (H _ _ eq_refl) as [f E]; discriminate E end.

Lemma division_is_shaped : forall f n t lines x rest, parse_division f n t lines = Some (Ok (x, rest)) ->
  ok (LDivision n t) -> Forall ok lines -> division_shape ok x /\ Forall ok rest /\ settled rest.
Proof.
  intros f n t lines x rest H Hl W. unfold parse_division in H. runs H. injection H as <- <-.
  eapply (head_loop_shape _ _ _ (fun _ => False) (fun _ => True)) in E as (arts & subs & -> & A1 & A2 & A3 & A4 & A5 & A6 & A7 & A8);
    [|discriminate|discriminate|exact W].
  split; [|auto]. exists n, t, arts, subs. unfold head_of. rewrite <- says_deleted_eq. auto.
Qed.
Lemma subsection_is_shaped : forall f n t lines x rest, parse_subsection f n t lines = Some (Ok (x, rest)) ->
  ok (LSubsection n t) -> Forall ok lines -> subsection_shape ok x /\ Forall ok rest /\ settled rest.
Proof.
  intros f n t lines x rest H Hl W. unfold parse_subsection in H. runs H. injection H as <- <-.
  eapply (head_loop_shape _ _ _ (fun c => exists y, c = SuC_Division y /\ division_shape ok y) (fun _ => True))
    in E as (arts & subs & -> & A1 & A2 & A3 & A4 & A5 & A6 & A7 & A8); [| |discriminate|exact W].
  - split; [|auto]. exists n, t, arts, subs. unfold head_of. rewrite <- says_deleted_eq. auto.
  - clear. intros f l lines c rest H Hl W. destruct l; try discriminate H. injection H as H. runs H. injection H as <- <-.
    apply division_is_shaped in E as (E1 & E2 & E3); auto. split; [eauto|]. auto.
Qed.
Lemma section_is_shaped : forall f n t lines x rest, parse_section f n t lines = Some (Ok (x, rest)) ->
  ok (LSection n t) -> Forall ok lines -> section_shape ok x /\ Forall ok rest /\ settled rest.
Proof.
  intros f n t lines x rest H Hl W. unfold parse_section in H. runs H. injection H as <- <-.
  eapply (head_loop_shape _ _ _ (fun c => exists y, c = SeC_Subsection y /\ subsection_shape ok y) (fun _ => True))
    in E as (arts & subs & -> & A1 & A2 & A3 & A4 & A5 & A6 & A7 & A8); [| |discriminate|exact W].
  - split; [|auto]. exists n, t, arts, subs. unfold head_of. rewrite <- says_deleted_eq. auto.
  - clear. intros f l lines c rest H Hl W. destruct l; try discriminate H. injection H as H. runs H. injection H as <- <-.
    apply subsection_is_shaped in E as (E1 & E2 & E3); auto. split; [eauto|]. auto.
Qed.
Lemma chapter_is_shaped : forall f n t lines x rest, parse_chapter f n t lines = Some (Ok (x, rest)) ->
  ok (LChapter n t) -> Forall ok lines -> chapter_shape ok x /\ Forall ok rest /\ left_by rest is_section.
Proof.
  intros f n t lines x rest H Hl W. unfold parse_chapter in H. runs H. injection H as <- <-.
  eapply (head_loop_shape _ _ _ (fun c => exists y, c = ChC_Section y /\ section_shape ok y) (fun _ => True))
    in E as (arts & subs & -> & A1 & A2 & A3 & A4 & A5 & A6 & A7 & A8); [| |discriminate|exact W].
  - split; [|split; [exact A3|split; [exact A4|no_more]]]. exists n, t, arts, subs. unfold head_of. rewrite <- says_deleted_eq. auto.
  - clear. intros f l lines c rest H Hl W. destruct l; try discriminate H. injection H as H. runs H. injection H as <- <-.
    apply section_is_shaped in E as (E1 & E2 & E3); auto. split; [eauto|]. auto.
Qed.
Lemma part_is_shaped : forall f n t lines x rest, parse_part f n t lines = Some (Ok (x, rest)) ->
  ok (LPart n t) -> Forall ok lines -> part_shape ok x /\ Forall ok rest /\ left_by rest is_chapter /\
  ((forall c, In (PC_Chapter c) (hd_children (un KPart x)) -> False) \/ left_by rest is_section).
Proof.
  intros f n t lines x rest H Hl W. unfold parse_part in H. runs H. injection H as <- <-.
  eapply (head_loop_shape _ _ _ (fun c => exists y, c = PC_Chapter y /\ chapter_shape ok y) (fun r => left_by r is_section))
    in E as (arts & subs & -> & A1 & A2 & A3 & A4 & A5 & A6 & A7 & A8); [| |discriminate|exact W].
  - split; [|split; [exact A3|split; [split; [exact A4|no_more]|]]].
    + exists n, t, arts, subs. unfold head_of. rewrite <- says_deleted_eq. auto.
    + destruct A7 as [-> |A7]; [left|right; exact A7]. cbn [un hd_children head_of fst]. rewrite app_nil_r. intros c Hc.
      apply in_map_iff in Hc as (a & Q & _). discriminate Q.
  - clear. intros f l lines c rest H Hl W. destruct l; try discriminate H. injection H as H. runs H. injection H as <- <-.
    apply chapter_is_shaped in E as (E1 & E2 & E3); auto. split; [eauto|]. split; [exact E2|]. split; [apply E3|exact E3].
Qed.

(** What can follow a part of the main provision. *)
Definition after (o : option (MainContents Knot)) (lines : list line) : Prop :=
  match o with
  | Some (MC_Part x) => left_by lines is_chapter /\
      ((forall c, In (PC_Chapter c) (hd_children (un KPart x)) -> False) \/ left_by lines is_section)
  | Some (MC_Chapter _) => left_by lines is_section
  | Some (MC_Section _) => settled lines
  | Some (MC_Paragraph _) => False
  | _ => True
  end.
Definition opt_list {A} (o : option A) : list A := match o with Some x => [x] | None => [] end.

Lemma stuck_text : forall f st s r, bs_is_preamble st = false -> body_loop f st (LText s :: r) = None.
Proof. induction f as [|f IH]; intros st s r H; [reflexivity|]. cbn [body_loop]. rewrite H. apply IH, H. Qed.
Lemma stuck_suppl : forall f st o r, body_loop f st (LSuppl o :: r) = None.
Proof. induction f as [|f IH]; intros st o r; [reflexivity|]. cbn [body_loop]. apply IH. Qed.

Lemma body_loop_shape : forall f st lines st' rest prev, body_loop f st lines = Some (Ok (st', rest)) ->
  Forall ok lines -> bs_suppl_num st = None -> bs_suppl st = [] -> (forall s, bs_caption st = Some s -> ok (LCaption s)) -> after prev lines ->
  (bs_is_preamble st = true -> prev = None) ->
  exists new pre, bs_main st' = bs_main st ++ new /\ Forall (main_shape ok) new /\ chain beside (opt_list prev ++ new) /\
    bs_preamble st' = bs_preamble st ++ pre /\ ok_texts ok pre /\ bs_suppl_num st' = None /\ bs_suppl st' = [].
Proof.
  induction f as [|f IH]; intros st lines st' rest prev H W S1 S2 Hc Ha Hp; [discriminate|].
  assert (Z : done (st, lines) = Some (Ok (st', rest)) ->
    exists new pre, bs_main st' = bs_main st ++ new /\ Forall (main_shape ok) new /\ chain beside (opt_list prev ++ new) /\
    bs_preamble st' = bs_preamble st ++ pre /\ ok_texts ok pre /\ bs_suppl_num st' = None /\ bs_suppl st' = []).
  { intros Q. injection Q as <- <-. exists [], []. rewrite !app_nil_r. split; [reflexivity|]. split; [constructor|].
    split; [destruct prev; cbn; auto|]. split; [reflexivity|]. split; [constructor|]. auto. }
  assert (Y : forall c r, Forall ok r -> main_shape ok c -> after (Some c) r -> chain beside (opt_list prev ++ [c]) ->
    body_loop f (add_main st c) r = Some (Ok (st', rest)) ->
    exists new pre, bs_main st' = bs_main st ++ new /\ Forall (main_shape ok) new /\ chain beside (opt_list prev ++ new) /\
    bs_preamble st' = bs_preamble st ++ pre /\ ok_texts ok pre /\ bs_suppl_num st' = None /\ bs_suppl st' = []).
  { intros c r Wr Hm Hr Hb Q. apply (IH _ _ _ _ (Some c)) in Q as (new & pre & N1 & N2 & N3 & N4 & N5 & N6 & N7); auto; [|discriminate|discriminate].
    exists (c :: new), pre. cbn [add_main bs_main bs_preamble] in N1, N4. rewrite N1, <- app_assoc. split; [reflexivity|].
    split; [constructor; assumption|]. split; [|auto]. destruct prev as [x|]; [|exact N3].
    cbn [opt_list app chain] in Hb |- *. split; [apply Hb|exact N3]. }
  cbn [body_loop] in H. destruct lines as [|l lines]; [exact (Z H)|]. apply Forall_cons_iff in W as [Wl W].
  destruct l as [s|n t|n t|n t|n t|n t|n t|n t|i t|o|s]; try exact (Z H).
  - apply (IH _ _ _ _ None) in H as (new & pre & N1 & N2 & N3 & N4 & N5 & N6 & N7); auto;
      [|cbn; intros x Q; injection Q as <-; exact Wl|exact I].
    exists new, pre. split; [exact N1|]. split; [exact N2|]. split; [|auto].
    destruct prev as [[x|x|x|x|x]|]; try exact N3; unfold after, left_by, settled in Ha; try tauto.
    cbn [opt_list app chain]. split; [destruct new; exact I|exact N3].
  - runs H. apply part_is_shaped in E as (E1 & E2 & E3 & E4); auto. apply (Y (MC_Part k) l); auto; [split; assumption|].
    destruct prev as [[x|x|x|x|x]|]; cbn; auto.
  - runs H. rewrite S1 in H. apply chapter_is_shaped in E as (E1 & E2 & E3); auto. apply (Y (MC_Chapter k) l); auto.
    destruct prev as [[x|x|x|x|x]|]; cbn; auto. destruct Ha as [[_ Ha] _]. cbn in Ha. split; [|auto]. exact (Ha I).
  - runs H. apply section_is_shaped in E as (E1 & E2 & E3); auto. apply (Y (MC_Section k) l); auto.
    destruct prev as [[x|x|x|x|x]|]; cbn; auto.
    + destruct Ha as [_ [Ha|[_ Ha]]]; [split; auto|destruct (Ha I)].
    + destruct Ha as [_ Ha]. destruct (Ha I).
  - runs H. rewrite S1 in H. apply article_is_shaped in E as (E1 & E2); auto. apply (Y (MC_Article k) l); auto; try exact I.
    destruct prev as [[x|x|x|x|x]|]; cbn; auto; unfold after, left_by, settled in Ha; tauto.
  - rewrite stuck_suppl in H. discriminate H.
  - destruct (bs_is_preamble st) eqn:B; [|rewrite stuck_text in H by exact B; discriminate H].
    apply (IH _ _ _ _ prev) in H as (new & pre & N1 & N2 & N3 & N4 & N5 & N6 & N7); auto.
    + exists new, (s :: pre). cbn [bs_preamble bs_main] in *. rewrite N4, <- app_assoc. repeat (split; [first [assumption|reflexivity]|]).
      split; [constructor; assumption|]. auto.
    + rewrite (Hp eq_refl). exact I.
Qed.

Theorem body_is_shaped : forall fuel title lines b, parse_lines fuel title lines = Some (Ok b) -> Forall ok lines ->
  body_shape ok title b.
Proof.
  intros fuel title lines b H W. unfold parse_lines in H. runs H. injection H as <-.
  apply (body_loop_shape _ _ _ _ _ None) in E as (new & pre & N1 & N2 & N3 & N4 & N5 & N6 & N7); auto; try reflexivity; try exact I; [|discriminate].
  unfold body_of_state, close_suppl. cbn [fst]. rewrite N1, N4, N6, N7. cbn [initial bs_main bs_preamble app].
  exists (preamble_of pre), new. split; [reflexivity|]. split; [|split; [exact N2|exact N3]].
  destruct pre as [|t pre]; [left; reflexivity|right]. exists (t :: pre), (preamble_paragraphs 0 (t :: pre)).
  split; [reflexivity|]. split; [discriminate|]. split; [exact N5|apply (preface_paragraphs (t :: pre))].
Qed.
End Shape.
