(** The recursive descent of the plain-text parser agrees with the machine of TextSpec.v. *)
From Coq Require Import String List NArith ZArith Bool Lia.
From Verif Require Import Base NumStr Ast Regex NumText TextParse TextSpec.
Import ListNotations.
Open Scope list_scope.

Lemma pat_eqb_eq : forall p q, pat_eqb p q = true <-> p = q.
Proof. intros p q. split; [destruct p, q; intros H; (reflexivity || discriminate H)|intros ->; destruct q; reflexivity]. Qed.
Lemma pat_eqb_refl : forall p, pat_eqb p p = true.
Proof. intros p. apply pat_eqb_eq. reflexivity. Qed.
Lemma pat_eqb_neq : forall p q, pat_eqb p q = false <-> p <> q.
Proof.
  intros p q. split.
  - intros H E. apply pat_eqb_eq in E. congruence.
  - intros H. destruct (pat_eqb p q) eqn:E; [|reflexivity]. apply pat_eqb_eq in E. contradiction.
Qed.

Lemma says_deleted_eq : forall t, says_deleted t = deleted t.
Proof. intros t. unfold says_deleted, deleted. cbn [existsb]. rewrite orb_false_r. reflexivity. Qed.

Lemma add_add : forall a b x, add a (add b x) = add (a ++ b) x.
Proof. intros a b [e d]. unfold add. cbn. rewrite app_assoc. reflexivity. Qed.
Lemma add_nil : forall x, add [] x = x.
Proof. intros [e d]. reflexivity. Qed.

(** First lines that an open article or paragraph, or an open list of items, does not take. *)
Definition no_text (l : list line) : Prop := match l with LText _ :: _ => False | _ => True end.
Definition no_item (l : list line) : Prop := match l with LText _ :: _ | LItem _ _ :: _ => False | _ => True end.
Definition no_par (l : list line) : Prop :=
  match l with LText _ :: _ | LItem _ _ :: _ | LParagraph _ _ :: _ => False | _ => True end.

Lemma no_item_text : forall l, no_item l -> no_text l.
Proof. intros [|[] l]; cbn; tauto. Qed.

Lemma text_free : forall open its k k' l, no_text l -> outline_from open (MArt its k) l = outline_from open (MArt its k') l.
Proof. intros open its k k' [|[] l] H; try reflexivity. destruct H. Qed.
Lemma item_free : forall open its its' k k' l, no_item l ->
  outline_from open (MArt its k) l = outline_from open (MArt its' k') l.
Proof. intros open its its' k k' [|[] l] H; try reflexivity; destruct H. Qed.
Lemma par_free : forall open its k l, no_par l ->
  outline_from open (MArt its k) l = outline_from open (MTop None) l.
Proof. intros open its k [|[] l] H; try reflexivity; destruct H. Qed.

Lemma sentences_list : forall ts k, map ESent (sentences_from k ts) = map (fun x => sentence (fst x) (snd x)) (combine (map (fun i => (k + N.of_nat i)%N) (seq 0 (length ts))) ts).
Proof.
  induction ts as [|t ts IH]; intros k; [reflexivity|]. cbn [sentences_from map length seq combine fst snd].
  rewrite N.add_0_r. f_equal. rewrite IH. rewrite <- seq_shift, !map_map. f_equal. f_equal. apply map_ext.
  intros i. lia.
Qed.

(** Texts. *)
Lemma take_texts_spec : forall lines ts rest, take_texts lines = (ts, rest) ->
  no_text rest /\ length rest <= length lines /\
  forall open its k, exists k', outline_from open (MArt its k) lines =
    add (map ESent (sentences_from k ts)) (outline_from open (MArt its k') rest).
Proof.
  induction lines as [|l lines IH]; intros ts rest H.
  - injection H as <- <-. cbn. split; [exact I|]. split; [lia|]. intros. exists k. reflexivity.
  - destruct l; try (injection H as <- <-; split; [exact I|]; split; [lia|]; intros open its k; exists k; symmetry; apply add_nil).
    cbn [take_texts] in H. destruct (take_texts lines) as [a b]. injection H as <- <-.
    destruct (IH a b eq_refl) as [H1 [H2 H3]]. split; [exact H1|]. split; [cbn; lia|].
    intros open its k. destruct (H3 open its (k + 1)%N) as [k' E]. exists k'. cbn [outline_from]. rewrite E, add_add. reflexivity.
Qed.

(** The next level. *)
Definition deeper (l : lvl) : option lvl :=
  match l with
  | Item0 => Some Sub1 | Sub1 => Some Sub2 | Sub2 => Some Sub3 | Sub3 => Some Sub4 | Sub4 => Some Sub5
  | Sub5 => Some Sub6 | Sub6 => Some Sub7 | Sub7 => Some Sub8 | Sub8 => Some Sub9 | Sub9 => Some Sub10 | Sub10 => None
  end.

Definition first_is (p : ItemPattern) (l : list line) : Prop :=
  match l with LItem i _ :: _ => inum_pattern i = p | _ => False end.

Definition item_result {k} (open : list rank) (its : list ItemPattern) (stop : list line -> Prop) (fuel : nat)
    (before : list ItemPattern) (lines : list line) (r : Run (list (Knot k) * list line)) : Prop :=
  match r with
  | None => fuel <= length lines
  | Some (Ok (v, rest)) =>
      length rest <= length lines /\ stop rest /\
      forall n, outline_from open (MArt before n) lines =
        add (flat_map (fun y => list_item y) v) (outline_from open (MArt its n) rest)
  | Some (Err _) => False
  | Some Panic => forall n, exists es, outline_from open (MArt before n) lines = (es, Crashes)
  end.

Definition sub_stop (parent : ItemPattern) (l : list line) : Prop := first_is parent l \/ no_item l.

(** What an item loop finds first: an item of the present pattern or of the one around it. *)
Definition known_first (l : lvl) (parent now : ItemPattern) (lines : list line) : Prop :=
  match lines with LItem i _ :: _ => inum_pattern i = now \/ inum_pattern i = parent \/ l = Sub10 | _ => True end.

(** Result of the nested call in an item loop. *)
Definition nested_result {k} (open : list rank) (now : ItemPattern) (its : list ItemPattern) (fuel : nat)
    (l : lvl) (parent : ItemPattern) (lines : list line) (r : Run (list (Knot k) * list line)) : Prop :=
  match r with
  | None => fuel <= length lines
  | Some (Ok (v, rest)) =>
      length rest <= length lines /\ no_text rest /\ known_first l parent now rest /\
      exists before, (before = its \/ (first_is now rest /\ next_items now before = Some its)) /\
      forall n, outline_from open (MArt its n) lines =
        add (flat_map (fun y => list_item y) v) (outline_from open (MArt before n) rest)
  | Some (Err _) => False
  | Some Panic => forall n, exists es, outline_from open (MArt its n) lines = (es, Crashes)
  end.

Lemma stays : forall {k} open now its fuel l parent lines, no_text lines -> known_first l parent now lines ->
  nested_result (k := k) open now its fuel l parent lines (done ([], lines)).
Proof.
  intros k open now its fuel l parent lines H1 H2. cbn. split; [lia|]. split; [exact H1|]. split; [exact H2|].
  exists its. split; [left; reflexivity|]. intros n. symmetry. apply add_nil.
Qed.

(** From the result of a nested loop at level [l'] to the loop around it. *)
Lemma nested_from : forall l' open its now p up fuel l parent lines r,
  its = now :: up -> p <> now ->
  item_result (k := KItem l') open (p :: its) (sub_stop now) fuel its lines r ->
  nested_result (k := KItem l') open now its fuel l parent lines r.
Proof.
  intros l' open its now p up fuel l parent lines r Ei Hp H. destruct r as [[[v rest]|e|]|]; cbn in H |- *; try exact H.
  destruct H as [H1 [[H2|H2] H3]]; (split; [exact H1|]).
  - split; [destruct rest as [|[]]; cbn in H2; try contradiction; exact I|].
    split; [destruct rest as [|[]]; cbn in H2 |- *; auto|].
    exists (p :: its). split; [right|exact H3]. split; [exact H2|]. subst its. cbn [next_items].
    apply not_eq_sym in Hp. apply pat_eqb_neq in Hp. rewrite Hp, pat_eqb_refl. reflexivity.
  - split; [apply no_item_text, H2|]. split; [destruct rest as [|[]]; cbn in H2 |- *; try contradiction; auto|].
    exists its. split; [left; reflexivity|]. intros n. rewrite H3. f_equal. apply item_free, H2.
Qed.

Lemma item_of_list : forall l i t ts c, list_item (item_of l i t ts c) =
  EItem (lvl_nat l) None [] (Some (mkAN (inum_base i) (inum_eda i) (inum_range i))) (says_deleted t) false
  :: map ESent (sentences (t :: ts)) ++ flat_map (fun y => list_item y) c.
Proof. intros l i t ts c. rewrite says_deleted_eq. reflexivity. Qed.

Lemma subitems_spec : forall fuel l parent now lines open before its up,
  now <> parent -> its = now :: parent :: up -> length its = S (lvl_nat l) -> no_text lines ->
  known_first l parent now lines ->
  (before = its \/ (first_is now lines /\ next_items now before = Some its)) ->
  item_result open its (sub_stop parent) fuel before lines (subitems fuel l parent now lines).
Proof.
  induction fuel as [|f IH]; intros l parent now lines open before its up Hd Hi Hl Ht Hk Hb; [cbn; lia|].
  assert (Stop : no_item lines -> item_result open its (sub_stop parent) (S f) before lines (done ([] : list (Knot (KItem l)), lines))).
  { intros H. cbn. split; [lia|]. split; [right; exact H|]. intros n. rewrite add_nil. apply item_free, H. }
  cbn [subitems]. destruct lines as [|[] rest]; try (apply Stop; exact I); [|destruct Ht]. clear Stop.
  destruct (pat_eqb (inum_pattern i) parent) eqn:Ep.
  { apply pat_eqb_eq in Ep. destruct Hb as [->|[Hb _]]; [|cbn in Hb; congruence].
    cbn. split; [lia|]. split; [left; exact Ep|]. intros n. symmetry. apply add_nil. }
  destruct (pat_eqb (inum_pattern i) now) eqn:En.
  2:{ apply pat_eqb_neq in Ep, En. cbn in Hk. destruct Hk as [Hk|[Hk| ->]]; try contradiction.
      destruct Hb as [->|[Hb _]]; [|cbn in Hb; congruence]. intros n. subst its.
      cbn [outline_from next_items]. apply pat_eqb_neq in Ep, En. rewrite En, Ep. rewrite Hl. cbn. eexists. reflexivity. }
  apply pat_eqb_eq in En. clear Ep.
  assert (Nb : next_items now before = Some its).
  { destruct Hb as [->|[_ Hb]]; [|exact Hb]. subst its. cbn [next_items]. rewrite pat_eqb_refl. reflexivity. }
  destruct (take_texts rest) as [ts rest1] eqn:Et. destruct (take_texts_spec rest ts rest1 Et) as [T1 [T2 T3]].
  match goal with |- item_result _ _ _ _ _ _ (then_ ?x _) => set (X := x) end.
  assert (HX : nested_result open now its f l parent rest1 X).
  { unfold X. destruct rest1 as [|[] rest2]; try (apply stays; [exact T1|exact I]).
    destruct (negb (pat_eqb (inum_pattern i0) now) && negb (pat_eqb (inum_pattern i0) parent)) eqn:Eb.
    - apply andb_prop in Eb as [E1 E2]. apply negb_true_iff, pat_eqb_neq in E1. apply negb_true_iff, pat_eqb_neq in E2.
      assert (Push : forall l', deeper l = Some l' -> nested_result open now its f l parent (LItem i0 t0 :: rest2)
                       (subitems f l' now (inum_pattern i0) (LItem i0 t0 :: rest2))).
      { intros l' El. apply (nested_from l' open its now (inum_pattern i0) (parent :: up) f l parent); [exact Hi|exact E1|].
        apply (IH l' now (inum_pattern i0) _ open its (inum_pattern i0 :: its) (parent :: up)); [exact E1| | |exact I| |].
        - rewrite Hi. reflexivity.
        - cbn [length]. rewrite Hl. destruct l; try discriminate El; injection El as <-; reflexivity.
        - cbn. auto.
        - right. split; [reflexivity|]. rewrite Hi at 1. cbn [next_items].
          apply pat_eqb_neq in E1, E2. rewrite E1, E2. rewrite <- Hi, Hl.
          assert (L : Nat.ltb (S (lvl_nat l)) 11 = true) by (destruct l; try reflexivity; discriminate El).
          rewrite L. reflexivity. }
      destruct l; try (apply Push; reflexivity). apply stays; [exact I|cbn; auto].
    - apply stays; [exact I|]. cbn. apply andb_false_iff in Eb as [Eb|Eb]; apply negb_false_iff, pat_eqb_eq in Eb; auto. }
  assert (Run1 : forall n, exists k', outline_from open (MArt before n) (LItem i t :: rest) =
     add (EItem (lvl_nat l) None [] (Some (mkAN (inum_base i) (inum_eda i) (inum_range i))) (says_deleted t) false
          :: map ESent (sentences (t :: ts))) (outline_from open (MArt its k') rest1)).
  { intros n. cbn [outline_from]. rewrite En, Nb. destruct (T3 open its 2%N) as [k' E]. exists k'. rewrite E, add_add.
    rewrite Hl. replace (S (lvl_nat l) - 1) with (lvl_nat l) by lia. reflexivity. }
  destruct X as [[[v rest2]|e|]|]; cbn [then_].
  - destruct HX as [X1 [X2 [X3 [b2 [X4 X5]]]]]. cbn [fst snd].
    pose proof (IH l parent now rest2 open b2 its up Hd Hi Hl X2 X3 X4) as H.
    destruct (subitems f l parent now rest2) as [[[w rest3]|e|]|]; cbn [then_ done] in *.
    + destruct H as [H1 [H2 H3]]. cbn [item_result fst snd]. split; [cbn; lia|]. split; [exact H2|]. intros n.
      destruct (Run1 n) as [k' ->]. rewrite X5, H3, !add_add. cbn [flat_map]. rewrite item_of_list.
      cbn [app]. rewrite <- !app_assoc. f_equal. apply text_free. destruct H2 as [H2|H2].
      * destruct rest3 as [|[]]; cbn in H2; try contradiction; exact I.
      * apply no_item_text, H2.
    + destruct H.
    + intros n. destruct (Run1 n) as [k' ->]. destruct (H k') as [es E]. rewrite X5, E. eexists. reflexivity.
    + cbn in H |- *. lia.
  - destruct HX.
  - intros n. destruct (Run1 n) as [k' ->]. destruct (HX k') as [es ->]. eexists. reflexivity.
  - cbn in HX |- *. lia.
Qed.

(** The items of a paragraph. *)
Lemma items_spec : forall fuel lines open before, no_text lines ->
  (match lines with LItem i _ :: _ => next_items (inum_pattern i) before = Some [inum_pattern i] | _ => True end) ->
  match items fuel lines with
  | None => fuel <= length lines
  | Some (Ok (v, rest)) =>
      length rest <= length lines /\ no_item rest /\
      forall n its k, outline_from open (MArt before n) lines =
        add (flat_map (fun y => list_item y) v) (outline_from open (MArt its k) rest)
  | Some (Err _) => False
  | Some Panic => forall n, exists es, outline_from open (MArt before n) lines = (es, Crashes)
  end.
Proof.
  induction fuel as [|f IH]; intros lines open before Ht Hb; [cbn; lia|].
  assert (Stop : no_item lines -> length lines <= length lines /\ no_item lines /\
      forall n its k, outline_from open (MArt before n) lines = add [] (outline_from open (MArt its k) lines)).
  { intros H. split; [lia|]. split; [exact H|]. intros n its k. rewrite add_nil. apply item_free, H. }
  cbn [items]. destruct lines as [|[] rest]; try (apply Stop; exact I); [|destruct Ht]. clear Stop.
  set (now := inum_pattern i) in *.
  destruct (take_texts rest) as [ts rest1] eqn:Et. destruct (take_texts_spec rest ts rest1 Et) as [T1 [T2 T3]].
  match goal with |- context [then_ ?x _] => set (X := x) end.
  assert (HX : nested_result open now [now] f Item0 now rest1 X).
  { unfold X. destruct rest1 as [|[] rest2]; try (apply stays; [exact T1|exact I]).
    destruct (negb (pat_eqb (inum_pattern i0) now)) eqn:Eb.
    - apply negb_true_iff, pat_eqb_neq in Eb.
      apply (nested_from Sub1 open [now] now (inum_pattern i0) [] f Item0 now); [reflexivity|exact Eb|].
      apply (subitems_spec f Sub1 now (inum_pattern i0) _ open [now] [inum_pattern i0; now] []);
        [exact Eb|reflexivity|reflexivity|exact I|cbn; auto|].
      right. split; [reflexivity|]. cbn [next_items]. apply pat_eqb_neq in Eb. rewrite Eb. reflexivity.
    - apply stays; [exact I|]. apply negb_false_iff, pat_eqb_eq in Eb. cbn. auto. }
  assert (Run1 : forall n, exists k', outline_from open (MArt before n) (LItem i t :: rest) =
     add (EItem 0 None [] (Some (mkAN (inum_base i) (inum_eda i) (inum_range i))) (says_deleted t) false
          :: map ESent (sentences (t :: ts))) (outline_from open (MArt [now] k') rest1)).
  { intros n. cbn [outline_from]. fold now. rewrite Hb. destruct (T3 open [now] 2%N) as [k' E]. exists k'.
    rewrite E, add_add. reflexivity. }
  destruct X as [[[v rest2]|e|]|]; cbn [then_].
  - destruct HX as [X1 [X2 [X3 [b2 [X4 X5]]]]]. cbn [fst snd].
    assert (Hb2 : match rest2 with LItem j _ :: _ => next_items (inum_pattern j) b2 = Some [inum_pattern j] | _ => True end).
    { destruct rest2 as [|[] rest2]; try exact I. cbn in X3. destruct X3 as [X3|[X3|X3]]; [| |discriminate X3]; rewrite X3;
        (destruct X4 as [->|[_ X4]]; [|exact X4]); cbn [next_items]; rewrite pat_eqb_refl; reflexivity. }
    pose proof (IH rest2 open b2 X2 Hb2) as H.
    destruct (items f rest2) as [[[w rest3]|e|]|]; cbn [then_ done] in *.
    + destruct H as [H1 [H2 H3]]. cbn [fst snd]. split; [cbn; lia|]. split; [exact H2|]. intros n its k.
      destruct (Run1 n) as [k' ->]. rewrite X5, (H3 k' its k), !add_add. cbn [flat_map]. rewrite item_of_list.
      cbn [app]. rewrite <- !app_assoc. reflexivity.
    + destruct H.
    + intros n. destruct (Run1 n) as [k' ->]. destruct (H k') as [es E]. rewrite X5, E. eexists. reflexivity.
    + cbn in H |- *. lia.
  - destruct HX.
  - intros n. destruct (Run1 n) as [k' ->]. destruct (HX k') as [es ->]. eexists. reflexivity.
  - cbn in HX |- *. lia.
Qed.

(** Paragraphs and articles, from the line after their first one. *)
Lemma parse_paragraph_spec : forall fuel n t lines open,
  match parse_paragraph fuel n t lines with
  | None => fuel <= length lines
  | Some (Ok (p, rest)) =>
      length rest <= length lines /\ no_item rest /\
      forall its k, add [paragraph false n; sentence 1 t] (outline_from open (MArt [] 2) lines) =
        add (list_paragraph false p) (outline_from open (MArt its k) rest)
  | Some (Err _) => False
  | Some Panic => exists es, outline_from open (MArt [] 2) lines = (es, Crashes)
  end.
Proof.
  intros fuel n t lines open. unfold parse_paragraph. destruct (take_texts lines) as [ts rest] eqn:Et.
  destruct (take_texts_spec lines ts rest Et) as [T1 [T2 T3]]. destruct (T3 open [] 2%N) as [k' E].
  assert (Hb : match rest with LItem i _ :: _ => next_items (inum_pattern i) [] = Some [inum_pattern i] | _ => True end)
    by (destruct rest as [|[]]; try exact I; reflexivity).
  pose proof (items_spec fuel rest open [] T1 Hb) as H.
  destruct (items fuel rest) as [[[v rest2]|e|]|]; cbn [then_ done fst snd].
  - destruct H as [H1 [H2 H3]]. split; [lia|]. split; [exact H2|]. intros its k. rewrite E, (H3 k' its k), !add_add. reflexivity.
  - destruct H.
  - destruct (H k') as [es Es]. rewrite E, Es. eexists. reflexivity.
  - lia.
Qed.

Lemma paragraphs_spec : forall fuel lines open, no_item lines ->
  match paragraphs fuel lines with
  | None => fuel <= length lines
  | Some (Ok (v, rest)) =>
      length rest <= length lines /\ no_par rest /\
      forall its k, outline_from open (MArt its k) lines =
        add (flat_map (list_paragraph false) v) (outline_from open (MTop None) rest)
  | Some (Err _) => False
  | Some Panic => forall its k, exists es, outline_from open (MArt its k) lines = (es, Crashes)
  end.
Proof.
  induction fuel as [|f IH]; intros lines open Hn; [cbn; lia|].
  assert (Stop : no_par lines -> length lines <= length lines /\ no_par lines /\
      forall its k, outline_from open (MArt its k) lines = add [] (outline_from open (MTop None) lines)).
  { intros H. split; [lia|]. split; [exact H|]. intros its k. rewrite add_nil. apply par_free, H. }
  cbn [paragraphs]. destruct lines as [|[] rest]; try (apply Stop; exact I); try (destruct Hn; fail). clear Stop.
  pose proof (parse_paragraph_spec f n t rest open) as H.
  destruct (parse_paragraph f n t rest) as [[[p rest2]|e|]|]; cbn [then_ fst snd].
  - destruct H as [H1 [H2 H3]]. pose proof (IH rest2 open H2) as G.
    destruct (paragraphs f rest2) as [[[v rest3]|e|]|]; cbn [then_ done fst snd] in *.
    + destruct G as [G1 [G2 G3]]. split; [cbn; lia|]. split; [exact G2|]. intros its k. cbn [outline_from].
      rewrite (H3 [] 0%N), G3, add_add. reflexivity.
    + destruct G.
    + intros its k. cbn [outline_from]. rewrite (H3 [] 0%N). destruct (G [] 0%N) as [es ->]. eexists. reflexivity.
    + cbn [length] in *; lia.
  - destruct H.
  - intros its k. cbn [outline_from]. destruct H as [es ->]. eexists. reflexivity.
  - cbn. lia.
Qed.

Definition caption_of (cap : option ustr) : option (Caption Knot) :=
  option_map (fun s => mkCaption (as_text s) None) cap.

Lemma parse_article_spec : forall fuel cap n t lines open,
  match parse_article fuel cap n t lines with
  | None => fuel <= length lines
  | Some (Ok (a, rest)) =>
      length rest <= length lines /\ no_par rest /\
      outline_from open (MTop cap) (LArticle n t :: lines) =
        add (list_article (length open) a) (outline_from open (MTop None) rest)
  | Some (Err _) => False
  | Some Panic => exists es, outline_from open (MTop cap) (LArticle n t :: lines) = (es, Crashes)
  end.
Proof.
  intros fuel cap n t lines open. unfold parse_article.
  pose proof (parse_paragraph_spec fuel (mkAN 1 [] []) t lines open) as H.
  assert (E : outline_from open (MTop cap) (LArticle n t :: lines) =
     add [EArt (length open) (caption_of cap) (as_text []) None n (says_deleted t) false]
       (add [paragraph false (mkAN 1 [] []); sentence 1 t] (outline_from open (MArt [] 2) lines))).
  { rewrite add_add. cbn [outline_from app]. destruct cap; reflexivity. }
  destruct (parse_paragraph fuel (mkAN 1 [] []) t lines) as [[[p rest]|e|]|]; cbn [then_ fst snd].
  - destruct H as [H1 [H2 H3]]. pose proof (paragraphs_spec fuel rest open H2) as G.
    destruct (paragraphs fuel rest) as [[[v rest3]|e|]|]; cbn [then_ done fst snd] in *.
    + destruct G as [G1 [G2 G3]]. split; [lia|]. split; [exact G2|]. rewrite E, (H3 [] 0%N), G3, !add_add.
      unfold list_article. cbn [un art_caption art_title art_suppl_note art_num art_delete art_hide art_paragraph].
      rewrite <- says_deleted_eq. destruct cap; reflexivity.
    + destruct G.
    + rewrite E, (H3 [] 0%N). destruct (G [] 0%N) as [es ->]. eexists. reflexivity.
    + cbn [length] in *; lia.
  - destruct H.
  - rewrite E. destruct H as [es ->]. eexists. reflexivity.
  - exact H.
Qed.

(** ** Headings *)
Definition below (r : rank) : option rank :=
  match r with
  | RPart => Some RChapter | RChapter => Some RSection | RSection => Some RSubsection
  | RSubsection => Some RDivision | RDivision => None
  end.
Definition head_rank (l : line) : option rank :=
  match l with
  | LPart _ _ => Some RPart | LChapter _ _ => Some RChapter | LSection _ _ => Some RSection
  | LSubsection _ _ => Some RSubsection | LDivision _ _ => Some RDivision | _ => None
  end.
Definition is_below (r : rank) (l : line) : bool :=
  match head_rank l, below r with Some a, Some b => rank_eqb a b | _, _ => false end.
(** First lines that an open heading does not take. *)
Definition stops_head (r : rank) (lines : list line) : Prop :=
  match lines with
  | [] => True
  | LCaption _ :: _ | LArticle _ _ :: _ => False
  | l :: _ => is_below r l = false
  end.

Lemma close_head : forall r up c c' lines, stops_head r lines ->
  outline_from (r :: up) (MTop c) lines = outline_from up (MTop c') lines.
Proof. intros r up c c' [|[] lines] H; try reflexivity; try (destruct H; fail);
  destruct r; cbn in H; try discriminate H; reflexivity. Qed.

Definition list_result {C} (open : list rank) (below : nat -> C -> list entry) (stop : list line -> Prop) (fuel : nat)
    (cap : option ustr) (lines : list line) (r : Run (list C * list line)) : Prop :=
  match r with
  | None => fuel <= length lines
  | Some (Ok (v, rest)) =>
      length rest <= length lines /\ stop rest /\
      outline_from open (MTop cap) lines = add (flat_map (below (length open)) v) (outline_from open (MTop None) rest)
  | Some (Err _) => False
  | Some Panic => exists es, outline_from open (MTop cap) lines = (es, Crashes)
  end.

(** A heading, from its own line on. *)
Definition one_result {C} (open : list rank) (below : nat -> C -> list entry) (fuel : nat)
    (cap : option ustr) (l : line) (lines : list line) (r : Run (C * list line)) : Prop :=
  match r with
  | None => fuel <= length lines
  | Some (Ok (v, rest)) =>
      length rest <= length lines /\
      outline_from open (MTop cap) (l :: lines) = add (below (length open) v) (outline_from open (MTop None) rest)
  | Some (Err _) => False
  | Some Panic => exists es, outline_from open (MTop cap) (l :: lines) = (es, Crashes)
  end.

Lemma head_loop_spec : forall {C} (art : Knot KArticle -> C) sub (lister : nat -> C -> list entry) r up,
  (forall d a, lister d (art a) = list_article d a) ->
  (forall f l lines cap, match sub f l lines with
                     | Some x => is_below r l = true /\ one_result (r :: up) lister f cap l lines x
                     | None => is_below r l = false
                     end) ->
  forall fuel cap lines, list_result (r :: up) lister (stops_head r) fuel cap lines (head_loop art sub fuel cap lines).
Proof.
  intros C art sub lister r up Ha Hs. induction fuel as [|f IH]; intros cap lines; [cbn; lia|].
  destruct lines as [|l lines].
  { cbn. split; [lia|]. split; [exact I|]. reflexivity. }
  assert (Sub : (match l with LCaption _ | LArticle _ _ => False | _ => True end) ->
     list_result (r :: up) lister (stops_head r) (S f) cap (l :: lines)
       (match sub f l lines with
        | Some x => x0 <~ x; y <~ head_loop art sub f None (snd x0); done (fst x0 :: fst y, snd y)
        | None => done ([], l :: lines)
        end)).
  { intros Hl. specialize (Hs f l lines cap). destruct (sub f l lines) as [x|].
    - destruct Hs as [_ H]. destruct x as [[[v rest]|e|]|]; cbn [then_ fst snd].
      + destruct H as [H1 H2]. specialize (IH None rest).
        destruct (head_loop art sub f None rest) as [[[w rest2]|e|]|]; cbn [then_ done fst snd] in *.
        * destruct IH as [G1 [G2 G3]]. split; [cbn; lia|]. split; [exact G2|]. rewrite H2, G3, add_add. reflexivity.
        * destruct IH.
        * cbn [list_result] in IH |- *. destruct IH as [es E]. rewrite H2, E. eexists. reflexivity.
        * cbn [list_result length] in IH |- *. lia.
      + destruct H.
      + exact H.
      + cbn [list_result length one_result] in H |- *. lia.
    - cbn [list_result done]. split; [lia|]. split; [destruct l; try exact Hs; destruct Hl|]. cbn [flat_map]. rewrite add_nil.
      rewrite (close_head r up cap None) by (destruct l; try exact Hs; destruct Hl).
      symmetry. apply close_head. destruct l; try exact Hs; destruct Hl. }
  cbn [head_loop]. destruct l; try (apply Sub; exact I); clear Sub.
  - specialize (IH (Some s) lines).
    destruct (head_loop art sub f (Some s) lines) as [[[w rest2]|e|]|]; cbn [list_result] in IH |- *.
    + destruct IH as [G1 [G2 G3]]. split; [cbn; lia|]. split; [exact G2|]. exact G3.
    + destruct IH.
    + exact IH.
    + cbn. lia.
  - pose proof (parse_article_spec f cap n t lines (r :: up)) as H.
    destruct (parse_article f cap n t lines) as [[[a rest]|e|]|]; cbn [then_ fst snd].
    + destruct H as [H1 [_ H2]]. specialize (IH None rest).
      destruct (head_loop art sub f None rest) as [[[w rest2]|e|]|]; cbn [then_ done fst snd] in *.
      * destruct IH as [G1 [G2 G3]]. split; [cbn; lia|]. split; [exact G2|]. rewrite H2, G3, add_add. cbn [flat_map]. rewrite Ha. reflexivity.
      * destruct IH.
      * cbn [list_result] in IH |- *. destruct IH as [es E]. rewrite H2, E. eexists. reflexivity.
      * cbn [list_result length] in IH |- *. lia.
    + destruct H.
    + exact H.
    + cbn [list_result length] in *. lia.
Qed.

(** A heading whose children are read by such a loop. *)
Lemma head_spec : forall {C D} (sub_list : nat -> C -> list entry) (lister : nat -> D -> list entry)
    (wrap : HeadF Knot C -> D) r open fuel cap l n t lines (x : Run (list C * list line)),
  (forall d h, lister d (wrap h) = list_head d r sub_list h) ->
  (outline_from open (MTop cap) (l :: lines) =
    add [EHead (length open) r (as_text t) n (says_deleted t) false] (outline_from (r :: open) (MTop None) lines)) ->
  list_result (r :: open) sub_list (stops_head r) fuel None lines x ->
  one_result open lister fuel cap l lines (x0 <~ x; done (wrap (head_of n t (fst x0)), snd x0)).
Proof.
  intros C D sub_list lister wrap r open fuel cap l n t lines x Hw He H.
  destruct x as [[[v rest]|e|]|]; cbn [then_ done one_result fst snd list_result] in *.
  - destruct H as [H1 [H2 H3]]. split; [exact H1|]. rewrite He, H3, add_add, Hw. unfold list_head, head_of.
    cbn [hd_title hd_num hd_delete hd_hide hd_children app length]. rewrite says_deleted_eq. f_equal.
    apply close_head, H2.
  - exact H.
  - destruct H as [es E]. rewrite He, E. eexists. reflexivity.
  - exact H.
Qed.
Lemma one_map : forall {C D} (wrap : C -> D) (lister : nat -> C -> list entry) (lister' : nat -> D -> list entry) open fuel cap l lines x,
  (forall d c, lister' d (wrap c) = lister d c) ->
  one_result open lister fuel cap l lines x ->
  one_result open lister' fuel cap l lines (x0 <~ x; done (wrap (fst x0), snd x0)).
Proof.
  intros C D wrap lister lister' open fuel cap l lines x Hw H.
  destruct x as [[[v rest]|e|]|]; cbn [then_ done one_result fst snd] in *; try exact H. rewrite Hw. exact H.
Qed.

Lemma parse_division_spec : forall fuel n t lines cap up,
  one_result (RSubsection :: up) list_division fuel cap (LDivision n t) lines (parse_division fuel n t lines).
Proof.
  intros fuel n t lines cap up. apply (head_spec list_article list_division mkDivision RDivision); [reflexivity|reflexivity|].
  apply head_loop_spec; [reflexivity|]. intros f l ls c. destruct l; reflexivity.
Qed.
Lemma parse_subsection_spec : forall fuel n t lines cap up,
  one_result (RSection :: up) list_subsection fuel cap (LSubsection n t) lines (parse_subsection fuel n t lines).
Proof.
  intros fuel n t lines cap up.
  apply (head_spec (fun d c => match c with SuC_Article a => list_article d a | SuC_Division a => list_division d a end)
    list_subsection mkSubsection RSubsection); [reflexivity|reflexivity|].
  apply head_loop_spec; [reflexivity|]. intros f l ls c. destruct l; try reflexivity. split; [reflexivity|].
  apply (one_map SuC_Division list_division); [reflexivity|]. apply parse_division_spec.
Qed.
Lemma parse_section_spec : forall fuel n t lines cap open, open = [] \/ (exists up, open = RChapter :: up) ->
  one_result open list_section fuel cap (LSection n t) lines (parse_section fuel n t lines).
Proof.
  intros fuel n t lines cap open Ho.
  apply (head_spec (fun d c => match c with SeC_Article a => list_article d a | SeC_Subsection a => list_subsection d a
    | SeC_Division a => list_division d a end) list_section mkSection RSection); [reflexivity| |].
  { destruct Ho as [->|[up ->]]; reflexivity. }
  apply head_loop_spec; [reflexivity|]. intros f l ls c. destruct l; try reflexivity. split; [reflexivity|].
  apply (one_map SeC_Subsection list_subsection); [reflexivity|]. apply parse_subsection_spec.
Qed.
Lemma parse_chapter_spec : forall fuel n t lines cap open, open = [] \/ (exists up, open = RPart :: up) ->
  one_result open list_chapter fuel cap (LChapter n t) lines (parse_chapter fuel n t lines).
Proof.
  intros fuel n t lines cap open Ho.
  apply (head_spec (fun d c => match c with ChC_Article a => list_article d a | ChC_Section a => list_section d a end)
    list_chapter mkChapter RChapter); [reflexivity| |].
  { destruct Ho as [->|[up ->]]; reflexivity. }
  apply head_loop_spec; [reflexivity|]. intros f l ls c. destruct l; try reflexivity. split; [reflexivity|].
  apply (one_map ChC_Section list_section); [reflexivity|]. apply parse_section_spec. right. eauto.
Qed.
Lemma parse_part_spec : forall fuel n t lines cap,
  one_result [] list_part fuel cap (LPart n t) lines (parse_part fuel n t lines).
Proof.
  intros fuel n t lines cap.
  apply (head_spec (fun d c => match c with PC_Article a => list_article d a | PC_Chapter a => list_chapter d a end)
    list_part mkPart RPart); [reflexivity|reflexivity|].
  apply head_loop_spec; [reflexivity|]. intros f l ls c. destruct l; try reflexivity. split; [reflexivity|].
  apply (one_map PC_Chapter list_chapter); [reflexivity|]. apply parse_chapter_spec. right. eauto.
Qed.

(** ** The body *)
Definition list_state (st : body_state) : list entry :=
  list_preamble (preamble_of (bs_preamble st)) ++ flat_map list_main (bs_main st).

(** The part of the state that the machine knows. *)
Definition follows (st : body_state) (m : mode) : Prop :=
  bs_suppl st = [] /\ bs_suppl_children st = [] /\ bs_suppl_num st = None /\
  match m with
  | MPre k => bs_is_preamble st = true /\ bs_main st = [] /\ bs_caption st = None /\ k = N.of_nat (length (bs_preamble st))
  | MTop c => bs_is_preamble st = false /\ bs_caption st = c
  | MArt _ _ => False
  end.

Lemma preamble_list : forall l k, flat_map (list_paragraph true) (preamble_paragraphs k l) =
  flat_map (fun x => [paragraph true (mkAN (fst x) [] []); sentence 0 (snd x)])
    (combine (map (fun i => (k + N.of_nat i)%N) (seq 0 (length l))) l).
Proof.
  induction l as [|t l IH]; intros k; [reflexivity|]. cbn [preamble_paragraphs flat_map length seq map combine fst snd].
  rewrite N.add_0_r. rewrite IH. rewrite <- seq_shift, !map_map.
  rewrite (map_ext (fun x => (k + 1 + N.of_nat x)%N) (fun x => (k + N.of_nat (S x))%N)) by (intros i; lia). reflexivity.
Qed.
Lemma preamble_of_list : forall l, list_preamble (preamble_of l) = flat_map (list_paragraph true) (preamble_paragraphs 0 l).
Proof. intros [|t l]; reflexivity. Qed.
Lemma preamble_snoc : forall l t k, preamble_paragraphs k (l ++ [t]) =
  preamble_paragraphs k l ++ preamble_paragraphs (k + N.of_nat (length l)) [t].
Proof.
  induction l as [|x l IH]; intros t k; cbn [app preamble_paragraphs length].
  - rewrite N.add_0_r. reflexivity.
  - rewrite IH. do 2 f_equal. cbn [preamble_paragraphs]. do 3 f_equal. lia.
Qed.

Lemma suppl_loops : forall fuel st o lines, body_loop fuel st (LSuppl o :: lines) = None.
Proof. induction fuel as [|f IH]; intros st o lines; [reflexivity|]. cbn [body_loop]. apply IH. Qed.
Lemma text_loops : forall fuel st s lines, bs_is_preamble st = false -> body_loop fuel st (LText s :: lines) = None.
Proof. induction fuel as [|f IH]; intros st s lines H; [reflexivity|]. cbn [body_loop]. rewrite H. apply IH, H. Qed.

(** Outside a heading, the preamble and the place after a caption differ for text only. *)
Lemma pre_top : forall k lines, no_text lines -> outline_from [] (MPre k) lines = outline_from [] (MTop None) lines.
Proof. intros k [|[] lines] H; try reflexivity; destruct H. Qed.

Definition body_result (fuel : nat) (st : body_state) (x : list entry * ending) (lines : list line)
    (r : Run (body_state * list line)) : Prop :=
  match r with
  | None => fuel <= length lines \/ exists es, x = (es, Loops)
  | Some (Ok (st', rest)) =>
      bs_suppl st' = [] /\ bs_suppl_children st' = [] /\ bs_suppl_num st' = None /\
      exists es, x = (es, Ends rest) /\ list_state st' = list_state st ++ es
  | Some (Err _) => False
  | Some Panic => exists es, x = (es, Crashes)
  end.

Lemma body_loop_spec : forall fuel st m lines, follows st m ->
  body_result fuel st (outline_from [] m lines) lines (body_loop fuel st lines).
Proof.
  induction fuel as [|f IH]; intros st m lines Hf; [left; lia|].
  destruct Hf as [S1 [S2 [S3 Hm]]].
  (* after an article or heading that the machine lists as [es] *)
  assert (Step : forall cap l ls {C} (lister : nat -> C -> list entry) (inj : C -> MainContents Knot) (x : Run (C * list line)),
     (forall c, list_main (inj c) = lister 0 c) ->
     outline_from [] m (l :: ls) = outline_from [] (MTop cap) (l :: ls) ->
     one_result [] lister f cap l ls x ->
     body_result (S f) st (outline_from [] m (l :: ls)) (l :: ls)
       (x0 <~ x; body_loop f (add_main st (inj (fst x0))) (snd x0))).
  { intros cap l ls C lister inj x Hi He H. rewrite He.
    destruct x as [[[v rest]|e|]|]; cbn [then_ one_result fst snd] in *.
    - destruct H as [H1 H2]. cbn [length] in H2. rewrite H2.
      assert (F : follows (add_main st (inj v)) (MTop None)) by (repeat split; assumption).
      specialize (IH (add_main st (inj v)) (MTop None) rest F).
      destruct (body_loop f (add_main st (inj v)) rest) as [[[st' r']|e|]|]; cbn [body_result] in *.
      + destruct IH as [A1 [A2 [A3 [es [E1 E2]]]]]. do 3 (split; [assumption|]). rewrite E1. eexists. split; [reflexivity|].
        rewrite E2. unfold list_state, add_main. cbn [bs_preamble bs_main]. rewrite flat_map_app. cbn [flat_map].
        rewrite Hi, app_nil_r, !app_assoc. reflexivity.
      + exact IH.
      + destruct IH as [es ->]. eexists. reflexivity.
      + destruct IH as [IH|[es ->]]; [left; cbn; lia|right; eexists; reflexivity].
    - destruct H.
    - exact H.
    - left. cbn. lia. }
  assert (End0 : forall ls, outline_from [] m ls = ([], Ends ls) -> body_result (S f) st (outline_from [] m ls) ls (done (st, ls))).
  { intros ls E. cbn [body_result done]. do 3 (split; [assumption|]). rewrite E. exists []. split; [reflexivity|]. rewrite app_nil_r. reflexivity. }
  destruct lines as [|l lines]; [apply End0; reflexivity|].
  assert (Art : bs_caption st = match m with MTop c => c | _ => None end)
    by (destruct m; [apply Hm|apply Hm|destruct Hm]).
  destruct l; cbn [body_loop]; rewrite ?S3.
  - (* caption *)
    set (st1 := mkBS _ _ _ _ _ _ _).
    assert (F : follows st1 (MTop (Some s))) by (repeat split; assumption).
    specialize (IH st1 (MTop (Some s)) lines F). cbn [outline_from].
    destruct (body_loop f st1 lines) as [[[st' r']|e|]|]; cbn [body_result] in *; try exact IH.
    destruct IH as [IH|IH]; [left; cbn; lia|right; exact IH].
  - apply (Step None _ _ _ list_part); [reflexivity|destruct m; reflexivity|apply parse_part_spec].
  - apply (Step None _ _ _ list_chapter); [reflexivity|destruct m; reflexivity|apply parse_chapter_spec; left; reflexivity].
  - apply (Step None _ _ _ list_section); [reflexivity|destruct m; reflexivity|apply parse_section_spec; left; reflexivity].
  - apply End0. reflexivity.
  - apply End0. reflexivity.
  - (* article *)
    apply (Step (bs_caption st) _ _ _ list_article); [reflexivity| |].
    { rewrite Art. destruct m as [k|c|its k]; [reflexivity|reflexivity|destruct Hm]. }
    pose proof (parse_article_spec f (bs_caption st) n t lines []) as H.
    destruct (parse_article f (bs_caption st) n t lines) as [[[a rest]|e|]|]; cbn [one_result]; try exact H.
    destruct H as [H1 [_ H2]]. split; assumption.
  - apply End0. destruct m; [reflexivity|reflexivity|destruct Hm].
  - apply End0. destruct m; [reflexivity|reflexivity|destruct Hm].
  - rewrite suppl_loops. right. eexists. reflexivity.
  - destruct m as [k|c|its k]; [|destruct Hm as [Hp Hc]|destruct Hm].
    + destruct Hm as [Hp [Hmain [Hc Hk]]]. rewrite Hp. set (st1 := mkBS _ _ _ _ _ _ _).
      assert (F : follows st1 (MPre (k + 1))).
      { repeat split; try assumption. unfold st1. cbn [bs_preamble]. rewrite app_length. cbn [length]. lia. }
      specialize (IH st1 (MPre (k + 1)) lines F). cbn [outline_from].
      destruct (body_loop f st1 lines) as [[[st' r']|e|]|]; cbn [body_result] in *.
      * destruct IH as [A1 [A2 [A3 [es [E1 E2]]]]]. do 3 (split; [assumption|]). rewrite E1. eexists. split; [reflexivity|].
        rewrite E2. unfold list_state, st1. cbn [bs_preamble bs_main]. rewrite Hmain. cbn [flat_map]. rewrite !app_nil_r.
        rewrite !preamble_of_list, preamble_snoc, flat_map_app, <- app_assoc. f_equal.
        rewrite N.add_0_l, <- Hk. reflexivity.
      * exact IH.
      * destruct IH as [es ->]. eexists. reflexivity.
      * destruct IH as [IH|[es ->]]; [left; cbn; lia|right; eexists; reflexivity].
    + rewrite Hp. rewrite text_loops by exact Hp. right. eexists. reflexivity.
Qed.

(** ** More fuel gives the same result *)
Definition keeps {A} (x y : Run A) : Prop := forall v, x = Some v -> y = Some v.
Lemma keeps_refl : forall {A} (x : Run A), keeps x x.
Proof. intros A x v H. exact H. Qed.
Lemma keeps_none : forall {A} (y : Run A), keeps None y.
Proof. intros A y v H. discriminate H. Qed.
Lemma keeps_then : forall {A B} (x y : Run A) (f g : A -> Run B), keeps x y -> (forall a, keeps (f a) (g a)) ->
  keeps (then_ x f) (then_ y g).
Proof.
  intros A B [[a|e|]|] y f g H Hf v E; cbn [then_] in E; try discriminate E;
    rewrite (H _ eq_refl); cbn [then_]; [apply Hf|exact E|exact E]; exact E.
Qed.
Ltac keep := repeat first [apply keeps_refl | apply keeps_none | apply keeps_then; [|intros]].

Lemma subitems_more : forall f f', f <= f' -> forall l p q lines, keeps (subitems f l p q lines) (subitems f' l p q lines).
Proof.
  induction f as [|f IH]; intros f' Hf l p q lines; [apply keeps_none|]. destruct f' as [|f']; [lia|].
  assert (IH' := fun l p q lines => IH f' (le_S_n _ _ Hf) l p q lines). clear IH. cbn [subitems].
  destruct lines as [|[] rest]; try apply keeps_refl.
  destruct (pat_eqb _ p); [apply keeps_refl|]. destruct (pat_eqb _ q); [|apply keeps_refl].
  destruct (take_texts rest) as [ts r]. apply keeps_then.
  - destruct r as [|[] r]; try apply keeps_refl. destruct (_ && _); [|apply keeps_refl]. destruct l; first [apply IH'|apply keeps_refl].
  - intros a. apply keeps_then; [apply IH'|intros; apply keeps_refl].
Qed.
Lemma items_more : forall f f', f <= f' -> forall lines, keeps (items f lines) (items f' lines).
Proof.
  induction f as [|f IH]; intros f' Hf lines; [apply keeps_none|]. destruct f' as [|f']; [lia|].
  assert (IH' := fun lines => IH f' (le_S_n _ _ Hf) lines). clear IH. cbn [items].
  destruct lines as [|[] rest]; try apply keeps_refl. destruct (take_texts rest) as [ts r]. apply keeps_then.
  - destruct r as [|[] r]; try apply keeps_refl. destruct (negb _); [|apply keeps_refl]. apply subitems_more. lia.
  - intros a. apply keeps_then; [apply IH'|intros; apply keeps_refl].
Qed.
Lemma parse_paragraph_more : forall f f', f <= f' -> forall n t lines, keeps (parse_paragraph f n t lines) (parse_paragraph f' n t lines).
Proof.
  intros f f' H n t lines. unfold parse_paragraph. destruct (take_texts lines) as [ts r].
  apply keeps_then; [apply items_more, H|intros; apply keeps_refl].
Qed.
Lemma paragraphs_more : forall f f', f <= f' -> forall lines, keeps (paragraphs f lines) (paragraphs f' lines).
Proof.
  induction f as [|f IH]; intros f' Hf lines; [apply keeps_none|]. destruct f' as [|f']; [lia|].
  assert (IH' := fun lines => IH f' (le_S_n _ _ Hf) lines). clear IH. cbn [paragraphs].
  destruct lines as [|[] rest]; try apply keeps_refl. apply keeps_then; [apply parse_paragraph_more; lia|].
  intros a. apply keeps_then; [apply IH'|intros; apply keeps_refl].
Qed.
Lemma parse_article_more : forall f f', f <= f' -> forall c n t lines, keeps (parse_article f c n t lines) (parse_article f' c n t lines).
Proof.
  intros f f' H c n t lines. apply keeps_then; [apply parse_paragraph_more, H|]. intros a.
  apply keeps_then; [apply paragraphs_more, H|intros; apply keeps_refl].
Qed.
Lemma head_loop_more : forall {C} (art : Knot KArticle -> C) sub,
  (forall f f' l lines, f <= f' -> match sub f l lines, sub f' l lines with
                                   | Some x, Some y => keeps x y
                                   | None, None => True
                                   | _, _ => False
                                   end) ->
  forall f f', f <= f' -> forall c lines, keeps (head_loop art sub f c lines) (head_loop art sub f' c lines).
Proof.
  intros C art sub Hs. induction f as [|f IH]; intros f' Hf c lines; [apply keeps_none|]. destruct f' as [|f']; [lia|].
  assert (IH' := fun c lines => IH f' (le_S_n _ _ Hf) c lines). clear IH. cbn [head_loop].
  assert (Sub : forall l rest, keeps
    (match sub f l rest with
     | Some r => x <~ r; y <~ head_loop art sub f None (snd x); done (fst x :: fst y, snd y)
     | None => done ([], l :: rest) end)
    (match sub f' l rest with
     | Some r => x <~ r; y <~ head_loop art sub f' None (snd x); done (fst x :: fst y, snd y)
     | None => done ([], l :: rest) end)).
  { intros l rest. specialize (Hs f f' l rest (le_S_n _ _ Hf)). destruct (sub f l rest), (sub f' l rest); try destruct Hs.
    - apply keeps_then; [exact Hs|]. intros a. apply keeps_then; [apply IH'|intros; apply keeps_refl].
    - apply keeps_refl. }
  destruct lines as [|[] rest]; try apply keeps_refl; try apply Sub.
  - apply IH'.
  - apply keeps_then; [apply parse_article_more; lia|]. intros a. apply keeps_then; [apply IH'|intros; apply keeps_refl].
Qed.
Ltac head_more lem := intros f f' H n t lines; apply keeps_then; [|intros; apply keeps_refl];
  apply head_loop_more; [|exact H]; intros g g' l ls Hg; destruct l; try exact I;
  apply keeps_then; [apply lem, Hg|intros; apply keeps_refl].
Lemma parse_division_more : forall f f', f <= f' -> forall n t lines, keeps (parse_division f n t lines) (parse_division f' n t lines).
Proof.
  intros f f' H n t lines. apply keeps_then; [|intros; apply keeps_refl]. apply head_loop_more; [|exact H]. intros; exact I.
Qed.
Lemma parse_subsection_more : forall f f', f <= f' -> forall n t lines, keeps (parse_subsection f n t lines) (parse_subsection f' n t lines).
Proof. head_more parse_division_more. Qed.
Lemma parse_section_more : forall f f', f <= f' -> forall n t lines, keeps (parse_section f n t lines) (parse_section f' n t lines).
Proof. head_more parse_subsection_more. Qed.
Lemma parse_chapter_more : forall f f', f <= f' -> forall n t lines, keeps (parse_chapter f n t lines) (parse_chapter f' n t lines).
Proof. head_more parse_section_more. Qed.
Lemma parse_part_more : forall f f', f <= f' -> forall n t lines, keeps (parse_part f n t lines) (parse_part f' n t lines).
Proof. head_more parse_chapter_more. Qed.
Lemma body_loop_more : forall f f', f <= f' -> forall st lines, keeps (body_loop f st lines) (body_loop f' st lines).
Proof.
  induction f as [|f IH]; intros f' Hf st lines; [apply keeps_none|]. destruct f' as [|f']; [lia|].
  apply le_S_n in Hf. assert (IH' := fun st lines => IH f' Hf st lines). clear IH. cbn [body_loop].
  destruct lines as [|[] rest]; try apply keeps_refl; try apply IH';
    try (apply keeps_then; [|intros a; apply IH']).
  - apply parse_part_more, Hf.
  - apply parse_chapter_more, Hf.
  - apply parse_section_more, Hf.
  - apply parse_article_more, Hf.
  - destruct (bs_is_preamble st); apply IH'.
Qed.

Theorem parse_lines_outline : forall title lines,
  match outline lines with
  | (es, Ends rest) =>
      exists body, plain_body title body /\ list_body body = es /\
      forall fuel, length lines < fuel -> parse_lines fuel title lines = Some (Ok body)
  | (_, Crashes) => forall fuel, length lines < fuel -> parse_lines fuel title lines = Some Panic
  | (_, Loops) => forall fuel, parse_lines fuel title lines = None
  end.
Proof.
  intros title lines. unfold outline, parse_lines.
  assert (F : follows initial (MPre 0)) by (repeat split).
  assert (H : forall fuel, body_result fuel initial (outline_from [] (MPre 0) lines) lines (body_loop fuel initial lines))
    by (intros fuel; apply body_loop_spec, F).
  destruct (outline_from [] (MPre 0) lines) as [es [rest| |]].
  - pose proof (H (S (length lines))) as H0.
    destruct (body_loop (S (length lines)) initial lines) as [[[st' r']|e|]|] eqn:E; cbn [body_result] in H0.
    + destruct H0 as [A1 [A2 [A3 [es' [E1 E2]]]]]. injection E1 as <- <-.
      exists (body_of_state title st'). unfold body_of_state, close_suppl. rewrite A3, A1.
      split; [eexists _, _; reflexivity|]. split; [exact E2|].
      intros fuel Hl. rewrite (body_loop_more _ _ Hl _ _ _ E). cbn [then_ fst done]. unfold body_of_state, close_suppl.
      rewrite A3, A1. reflexivity.
    + destruct H0.
    + destruct H0 as [es' E']. discriminate E'.
    + destruct H0 as [H0|[es' E']]; [lia|discriminate E'].
  - intros fuel Hl. specialize (H fuel). destruct (body_loop fuel initial lines) as [[[st' r']|e|]|]; cbn [body_result] in H.
    + destruct H as [_ [_ [_ [es' [E1 _]]]]]. discriminate E1.
    + destruct H.
    + reflexivity.
    + destruct H as [H|[es' E]]; [lia|discriminate E].
  - intros fuel. specialize (H fuel). destruct (body_loop fuel initial lines) as [[[st' r']|e|]|]; cbn [body_result] in H.
    + destruct H as [_ [_ [_ [es' [E1 _]]]]]. discriminate E1.
    + destruct H.
    + destruct H as [es' E]. discriminate E.
    + reflexivity.
Qed.
