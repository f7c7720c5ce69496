(** The recursive types: folding and induction. *)
From Coq Require Import String List NArith Bool Lia Arith.
From Verif Require Import Base NumStr Xml Ast XmlWrite RoundTripSpec.
Import ListNotations.
Open Scope list_scope.

Lemma un_mk : forall k (f : F Knot k), un k (mk k f) = f.
Proof. destruct k; try reflexivity. intros []. Qed.

Lemma mk_un : forall k (x : Knot k), mk k (un k x) = x.
Proof. destruct x; reflexivity. Qed.

Lemma write_unfold : forall k (f : F Knot k), write k (mk k f) = wstep write k f.
Proof. destruct k; try reflexivity. intros []. Qed.

Lemma mk_inj : forall k (f g : F Knot k), mk k f = mk k g -> f = g.
Proof. intros k f g H. rewrite <- (un_mk k f), <- (un_mk k g), H. reflexivity. Qed.

(** Number of structures in a value. *)
Fixpoint size (k : kind) (x : Knot k) {struct x} : nat :=
  match x with
  | mkRuby f => S (list_sum (collect size KRuby f))
  | mkLine f => S (list_sum (collect size KLine f))
  | @mkCont c f => S (list_sum (collect size (KCont c) f))
  | mkSentence f => S (list_sum (collect size KSentence f))
  | mkColumn f => S (list_sum (collect size KColumn f))
  | mkTable f => S (list_sum (collect size KTable f))
  | mkTableRow f => S (list_sum (collect size KTableRow f))
  | mkTableColumn f => S (list_sum (collect size KTableColumn f))
  | mkRemarks f => S (list_sum (collect size KRemarks f))
  | @mkCStruct s f => S (list_sum (collect size (KCStruct s) f))
  | mkFigStruct f => S (list_sum (collect size KFigStruct f))
  | mkTableStruct f => S (list_sum (collect size KTableStruct f))
  | @mkList l f => S (list_sum (collect size (KList l) f))
  | mkClass f => S (list_sum (collect size KClass f))
  | @mkItem l f => S (list_sum (collect size (KItem l) f))
  | mkParagraph f => S (list_sum (collect size KParagraph f))
  | mkArticle f => S (list_sum (collect size KArticle f))
  | mkPart f => S (list_sum (collect size KPart f))
  | mkChapter f => S (list_sum (collect size KChapter f))
  | mkSection f => S (list_sum (collect size KSection f))
  | mkSubsection f => S (list_sum (collect size KSubsection f))
  | mkDivision f => S (list_sum (collect size KDivision f))
  | mkAmend f => S (list_sum (collect size KAmend f))
  | mkLawTitle f => S (list_sum (collect size KLawTitle f))
  | mkPreamble f => S (list_sum (collect size KPreamble f))
  | mkMain f => S (list_sum (collect size KMain f))
  | mkSuppl f => S (list_sum (collect size KSuppl f))
  | mkSupplTable f => S (list_sum (collect size KSupplTable f))
  | mkSupplStyle f => S (list_sum (collect size KSupplStyle f))
  | mkSupplAppdx f => S (list_sum (collect size KSupplAppdx f))
  | mkAppdxTable f => S (list_sum (collect size KAppdxTable f))
  | mkAppdxNote f => S (list_sum (collect size KAppdxNote f))
  | mkAppdxStyle f => S (list_sum (collect size KAppdxStyle f))
  | mkAppdxFormat f => S (list_sum (collect size KAppdxFormat f))
  | mkAppdx f => S (list_sum (collect size KAppdx f))
  | mkAppdxFig f => S (list_sum (collect size KAppdxFig f))
  | mkTOC f => S (list_sum (collect size KTOC f))
  | mkTOCPart f => S (list_sum (collect size KTOCPart f))
  | mkTOCChapter f => S (list_sum (collect size KTOCChapter f))
  | mkTOCSection f => S (list_sum (collect size KTOCSection f))
  | mkTOCSubsection f => S (list_sum (collect size KTOCSubsection f))
  | mkTOCDivision f => S (list_sum (collect size KTOCDivision f))
  | mkTOCArticle f => S (list_sum (collect size KTOCArticle f))
  | mkTOCSuppl f => S (list_sum (collect size KTOCSuppl f))
  | mkLawBody f => S (list_sum (collect size KLawBody f))
  end.

(** ** [collect] is natural *)
Section Nat.
Context {K : kind -> Type} {L M : Type} (g : forall k, K k -> L) (h : L -> M).
Let gh : forall k, K k -> M := fun k x => h (g k x).

Lemma flat_map_nat : forall X (c : X -> list L) (c' : X -> list M) l,
  (forall x, c' x = map h (c x)) -> flat_map c' l = map h (flat_map c l).
Proof.
  intros X c c' l H. induction l as [|x l IH]; [reflexivity|].
  cbn. rewrite map_app, IH, H. reflexivity.
Qed.

Lemma c_opt_nat : forall X (c : X -> list L) (c' : X -> list M) o,
  (forall x, c' x = map h (c x)) -> c_opt c' o = map h (c_opt c o).
Proof. intros X c c' [x|] H; [apply H|reflexivity]. Qed.

Lemma map_nat : forall k l, map (gh k) l = map h (map (g k) l).
Proof. intros. rewrite map_map. reflexivity. Qed.

Lemma c_te_nat : forall t, c_te gh t = map h (c_te g t).
Proof. destruct t; reflexivity. Qed.

Lemma c_text_nat : forall t, c_text gh t = map h (c_text g t).
Proof. intros. apply flat_map_nat, c_te_nat. Qed.

Ltac nat1 := first
  [ apply c_text_nat
  | apply map_nat
  | apply c_opt_nat; intros
  | apply flat_map_nat; intros
  | reflexivity ].
Ltac nat := repeat rewrite map_app; repeat (apply (f_equal2 (@app M))); repeat nat1.

Lemma c_twm_nat : forall t, c_twm gh t = map h (c_twm g t).
Proof. intros. apply flat_map_nat, c_te_nat. Qed.
Lemma c_caption_nat : forall t, c_caption gh t = map h (c_caption g t).
Proof. intros. apply c_text_nat. Qed.
Lemma c_sct_nat : forall t, c_sct gh t = map h (c_sct g t).
Proof. destruct t; try apply map_nat; reflexivity. Qed.
Lemma c_np_nat : forall t, c_np gh t = map h (c_np g t).
Proof. destruct t; try apply c_text_nat; reflexivity. Qed.

Lemma collect_nat : forall k f, collect gh k f = map h (collect g k f).
Proof.
  destruct k; intros f; cbn [collect];
    unfold c_struct, c_head, c_sts, c_appdx_t, c_toc_head; nat;
    try (apply c_twm_nat || apply c_caption_nat || apply c_sct_nat || apply c_np_nat);
    try (match goal with x : _ |- _ => destruct x; reflexivity end);
    try (apply c_te_nat).
Qed.
End Nat.

Lemma collect_kids : forall L (g : forall k, Knot k -> L) k f,
  collect g k f = map (fun s : Node => g (projT1 s) (projT2 s)) (kids k f).
Proof. intros. apply (collect_nat node (fun s => g (projT1 s) (projT2 s))). Qed.

Lemma size_unfold : forall k (f : F Knot k),
  size k (mk k f) = S (list_sum (map (fun s : Node => size (projT1 s) (projT2 s)) (kids k f))).
Proof.
  intros. rewrite <- collect_kids. destruct k; try reflexivity. destruct f.
Qed.

Lemma list_sum_in : forall n l, In n l -> n <= list_sum l.
Proof.
  induction l as [|m l IH]; intros []; cbn; [subst; lia|].
  apply IH in H. cbn in H |- *. unfold list_sum in H. lia.
Qed.

Lemma size_kid : forall k f j y, In (node j y) (kids k f) -> size j y < size k (mk k f).
Proof.
  intros. rewrite size_unfold. apply Nat.lt_succ_r, list_sum_in.
  apply (in_map (fun s : Node => size (projT1 s) (projT2 s))) in H. exact H.
Qed.

(** Induction: a property holding of a structure whenever it holds of its direct parts
    holds of every structure. *)
Theorem knot_ind : forall P : forall k, Knot k -> Prop,
  (forall k f, (forall j y, In (node j y) (kids k f) -> P j y) -> P k (mk k f)) ->
  forall k x, P k x.
Proof.
  intros P H.
  assert (G : forall n k x, size k x < n -> P k x).
  { induction n as [|n IH]; intros k x Hn; [lia|].
    rewrite <- (mk_un k x) in Hn |- *. apply H. intros j y Hy.
    apply IH. apply size_kid in Hy. lia. }
  intros k x. apply (G (S (size k x))). lia.
Qed.

(** ** Parts *)
Lemma part_of_kids : forall k f j y, part_of (node j y) (node k (mk k f)) <->
  node j y = node k (mk k f) \/ exists i z, In (node i z) (kids k f) /\ part_of (node j y) (node i z).
Proof.
  intros. split.
  - intros H. remember (node k (mk k f)) as w eqn:Ew.
    destruct H as [|k' x' z Hz Hp]; [left; reflexivity|right].
    assert (In z (kids k f)).
    { rewrite <- (un_mk k f).
      change (In z ((fun s : Node => kids (projT1 s) (un (projT1 s) (projT2 s))) (node k (mk k f)))).
      rewrite <- Ew. exact Hz. }
    destruct z as [i z]. exists i, z. auto.
  - intros [-> | (i & z & Hi & Hp)]; [constructor|].
    apply part_kid with (z := node i z); [rewrite un_mk; exact Hi|exact Hp].
Qed.

Lemma survives_unfold : forall k f,
  survives k (mk k f) <->
  storable k f = true /\ forall j y, In (node j y) (kids k f) -> survives j y.
Proof.
  intros. split.
  - intros H. split.
    + rewrite <- (un_mk k f). apply H. constructor.
    + intros j y Hy i z Hz. apply H. apply part_of_kids. right. eauto.
  - intros [H1 H2] j y Hy. apply part_of_kids in Hy. destruct Hy as [E|(i & z & Hi & Hp)].
    + change (storable j (un j y)) with
        ((fun s : Node => storable (projT1 s) (un (projT1 s) (projT2 s))) (node j y)).
      rewrite E. cbn. rewrite un_mk. exact H1.
    + apply (H2 i z Hi). exact Hp.
Qed.


(** A checker for [survives]. *)
Definition all_true (b : bool) (l : list bool) : bool := b && forallb (fun x => x) l.

Fixpoint survives_b (k : kind) (x : Knot k) {struct x} : bool :=
  match x with
  | mkRuby f => all_true (storable KRuby f) (collect survives_b KRuby f)
  | mkLine f => all_true (storable KLine f) (collect survives_b KLine f)
  | @mkCont c f => all_true (storable (KCont c) f) (collect survives_b (KCont c) f)
  | mkSentence f => all_true (storable KSentence f) (collect survives_b KSentence f)
  | mkColumn f => all_true (storable KColumn f) (collect survives_b KColumn f)
  | mkTable f => all_true (storable KTable f) (collect survives_b KTable f)
  | mkTableRow f => all_true (storable KTableRow f) (collect survives_b KTableRow f)
  | mkTableColumn f => all_true (storable KTableColumn f) (collect survives_b KTableColumn f)
  | mkRemarks f => all_true (storable KRemarks f) (collect survives_b KRemarks f)
  | @mkCStruct s f => all_true (storable (KCStruct s) f) (collect survives_b (KCStruct s) f)
  | mkFigStruct f => all_true (storable KFigStruct f) (collect survives_b KFigStruct f)
  | mkTableStruct f => all_true (storable KTableStruct f) (collect survives_b KTableStruct f)
  | @mkList l f => all_true (storable (KList l) f) (collect survives_b (KList l) f)
  | mkClass f => all_true (storable KClass f) (collect survives_b KClass f)
  | @mkItem l f => all_true (storable (KItem l) f) (collect survives_b (KItem l) f)
  | mkParagraph f => all_true (storable KParagraph f) (collect survives_b KParagraph f)
  | mkArticle f => all_true (storable KArticle f) (collect survives_b KArticle f)
  | mkPart f => all_true (storable KPart f) (collect survives_b KPart f)
  | mkChapter f => all_true (storable KChapter f) (collect survives_b KChapter f)
  | mkSection f => all_true (storable KSection f) (collect survives_b KSection f)
  | mkSubsection f => all_true (storable KSubsection f) (collect survives_b KSubsection f)
  | mkDivision f => all_true (storable KDivision f) (collect survives_b KDivision f)
  | mkAmend f => all_true (storable KAmend f) (collect survives_b KAmend f)
  | mkLawTitle f => all_true (storable KLawTitle f) (collect survives_b KLawTitle f)
  | mkPreamble f => all_true (storable KPreamble f) (collect survives_b KPreamble f)
  | mkMain f => all_true (storable KMain f) (collect survives_b KMain f)
  | mkSuppl f => all_true (storable KSuppl f) (collect survives_b KSuppl f)
  | mkSupplTable f => all_true (storable KSupplTable f) (collect survives_b KSupplTable f)
  | mkSupplStyle f => all_true (storable KSupplStyle f) (collect survives_b KSupplStyle f)
  | mkSupplAppdx f => all_true (storable KSupplAppdx f) (collect survives_b KSupplAppdx f)
  | mkAppdxTable f => all_true (storable KAppdxTable f) (collect survives_b KAppdxTable f)
  | mkAppdxNote f => all_true (storable KAppdxNote f) (collect survives_b KAppdxNote f)
  | mkAppdxStyle f => all_true (storable KAppdxStyle f) (collect survives_b KAppdxStyle f)
  | mkAppdxFormat f => all_true (storable KAppdxFormat f) (collect survives_b KAppdxFormat f)
  | mkAppdx f => all_true (storable KAppdx f) (collect survives_b KAppdx f)
  | mkAppdxFig f => all_true (storable KAppdxFig f) (collect survives_b KAppdxFig f)
  | mkTOC f => all_true (storable KTOC f) (collect survives_b KTOC f)
  | mkTOCPart f => all_true (storable KTOCPart f) (collect survives_b KTOCPart f)
  | mkTOCChapter f => all_true (storable KTOCChapter f) (collect survives_b KTOCChapter f)
  | mkTOCSection f => all_true (storable KTOCSection f) (collect survives_b KTOCSection f)
  | mkTOCSubsection f => all_true (storable KTOCSubsection f) (collect survives_b KTOCSubsection f)
  | mkTOCDivision f => all_true (storable KTOCDivision f) (collect survives_b KTOCDivision f)
  | mkTOCArticle f => all_true (storable KTOCArticle f) (collect survives_b KTOCArticle f)
  | mkTOCSuppl f => all_true (storable KTOCSuppl f) (collect survives_b KTOCSuppl f)
  | mkLawBody f => all_true (storable KLawBody f) (collect survives_b KLawBody f)
  end.

Lemma survives_b_unfold : forall k (f : F Knot k),
  survives_b k (mk k f) =
  all_true (storable k f) (map (fun s : Node => survives_b (projT1 s) (projT2 s)) (kids k f)).
Proof. intros. rewrite <- collect_kids. destruct k; try reflexivity. destruct f. Qed.

Theorem survives_b_iff : forall k x, survives_b k x = true <-> survives k x.
Proof.
  intros k x. pattern k, x. revert k x. apply knot_ind. intros k f IH.
  rewrite survives_b_unfold, survives_unfold. unfold all_true. rewrite andb_true_iff, forallb_forall.
  split; intros [H1 H2]; split; auto.
  - intros j y Hy. apply IH, H2; [exact Hy|].
    apply (in_map (fun s : Node => survives_b (projT1 s) (projT2 s))) in Hy. exact Hy.
  - intros b Hb. apply in_map_iff in Hb as ([j y] & <- & Hy). cbn. apply IH, H2; exact Hy.
Qed.
