(** The trees written have proper names. *)
From Coq Require Import String Ascii List Arith NArith Bool.
From Verif Require Import Base BaseFacts NumStr Xml Ast XmlWrite RoundTripSpec KnotFacts RoundTripLib KeptFacts TidyFacts SampleXml.
Import ListNotations.
Open Scope string_scope.
Open Scope list_scope.

Definition node_named (x : XMLNode) : bool := match x with NElement d => well_named d | NText _ => true | NOther _ => false end.
Definition nodes_named (l : list XMLNode) : bool := forallb node_named l.
Definition attrs_named (l : list (string * string)) : bool := forallb (fun x => name_ok (fst x)) l.

Lemma insert_named : forall n v l, name_ok n = true -> attrs_named l = true -> attrs_named (insert n v l) = true.
Proof.
  intros n v l Hn. induction l as [|[m u] l IH]; intros H; unfold attrs_named in *; cbn [insert forallb fst] in *; [rewrite Hn; reflexivity|].
  apply andb_true_iff in H as [Hm H]. destruct (n =? m)%string; cbn [forallb fst]; [rewrite Hn; exact H|rewrite Hm; exact (IH H)].
Qed.
Lemma insert_opt_named : forall n o l, name_ok n = true -> attrs_named l = true -> attrs_named (insert_opt n o l) = true.
Proof. intros n [v|] l Hn H; [apply insert_named; assumption|exact H]. Qed.
Lemma insert_flag_named : forall n b l, name_ok n = true -> attrs_named l = true -> attrs_named (insert_flag n b l) = true.
Proof. intros n [] l Hn H; [apply insert_named; assumption|exact H]. Qed.
Ltac attrs := repeat first [apply insert_named; [reflexivity|] | apply insert_opt_named; [reflexivity|] | apply insert_flag_named; [reflexivity|] | reflexivity].

Lemma el_named : forall n a c, name_ok n = true -> attrs_named a = true -> nodes_named c = true -> well_named (mkElement n a c) = true.
Proof. intros n a c Hn Ha Hc. cbn [well_named]. apply andb_true_iff. split; [apply andb_true_iff; split; assumption|exact Hc]. Qed.
Lemma nodes_app : forall a b, nodes_named a = true -> nodes_named b = true -> nodes_named (a ++ b) = true.
Proof. intros. unfold nodes_named. rewrite forallb_app. apply andb_true_iff. split; assumption. Qed.
Lemma nodes_cons : forall e l, well_named e = true -> nodes_named l = true -> nodes_named (NElement e :: l) = true.
Proof. intros. unfold nodes_named. cbn [forallb node_named]. apply andb_true_iff. split; assumption. Qed.
Lemma nodes_els : forall X (wr : X -> Element) l, (forall x, In x l -> well_named (wr x) = true) -> nodes_named (els wr l) = true.
Proof.
  intros X wr l H. unfold nodes_named. apply forallb_forall. intros y Hy. unfold els in Hy. apply in_map_iff in Hy as (x & <- & Hx). exact (H x Hx).
Qed.
Lemma nodes_opt : forall X (wr : X -> Element) o, (forall x, o = Some x -> well_named (wr x) = true) -> nodes_named (el_opt wr o) = true.
Proof. intros X wr [x|] H; [|reflexivity]. unfold nodes_named. cbn [el_opt forallb node_named]. rewrite H by reflexivity. reflexivity. Qed.
Lemma nodes_map : forall X (f : X -> XMLNode) l, (forall x, In x l -> node_named (f x) = true) -> nodes_named (map f l) = true.
Proof. intros X f l H. apply forallb_forall. intros y Hy. apply in_map_iff in Hy as (x & <- & Hx). exact (H x Hx). Qed.

Section Step.
Context {K : kind -> Type} (w : forall k, K k -> Element).
Definition good (k : kind) (x : K k) : Prop := well_named (w k x) = true.

Ltac piece := let x := fresh "x" in let Hx := fresh "Hx" in
  apply nodes_map; intros x Hx;
  match goal with H : allp _ |- _ =>
    let H' := fresh in pose proof (proj1 (allp_flat _ _ _) H x Hx) as H'; clear H Hx;
    destruct x; cbn in H'; first [reflexivity | exact (proj1 H')]
  end.
Lemma te_named : forall x, allp (c_text good x) -> nodes_named (write_text_nodes w x) = true.
Proof. intros x H. unfold c_text in H. unfold write_text_nodes. piece. Qed.
Lemma text_named : forall n x, name_ok n = true -> allp (c_text good x) -> well_named (write_text w n x) = true.
Proof. intros. apply el_named; [assumption|reflexivity|apply te_named; assumption]. Qed.
Lemma twm_named : forall n x, name_ok n = true -> allp (c_twm good x) -> well_named (write_twm w n x) = true.
Proof. intros. apply el_named; [assumption|attrs|apply te_named; assumption]. Qed.
Lemma caption_named : forall n x, name_ok n = true -> allp (c_caption good x) -> well_named (write_caption w n x) = true.
Proof. intros. apply el_named; [assumption|attrs|apply te_named; assumption]. Qed.
Lemma sct_named : forall n s, name_ok n = true -> allp (c_sct good s) -> well_named (write_sct w n s) = true.
Proof.
  intros n s Hn H. apply el_named; [exact Hn|reflexivity|]. destruct s as [l|l|v]; cbn [c_sct] in H.
  - apply nodes_els. intros x Hx. exact (proj1 (allp_map _ _ _) H x Hx).
  - apply nodes_els. intros x Hx. exact (proj1 (allp_map _ _ _) H x Hx).
  - apply nodes_cons; [exact (proj1 H)|reflexivity].
Qed.
Lemma header_row_named : forall r, allp (flat_map (c_text good) r) -> well_named (write_header_row w r) = true.
Proof.
  intros r H. apply el_named; [reflexivity|reflexivity|]. apply nodes_els. intros x Hx. apply text_named; [reflexivity|]. exact (proj1 (allp_flat _ _ _) H x Hx).
Qed.
Lemma fig_named : forall s, well_named (write_fig s) = true.
Proof. reflexivity. Qed.

Ltac nm := first [reflexivity | match goal with |- name_ok (?f ?y) = true => destruct y; reflexivity end | match goal with |- name_ok (append (?f ?y) _) = true => destruct y; reflexivity end].
Ltac split_all := repeat match goal with H : allp (_ ++ _) |- _ => apply allp_app in H as [? ?] end.
Ltac child := first
  [ match goal with H : allp [good _ ?v] |- _ => exact (proj1 H) end
  | match goal with H : allp (map (good _) _), Hx : In ?x _ |- _ => exact (proj1 (allp_map _ _ _) H x Hx) end
  | match goal with H : allp (flat_map _ _), Hx : In ?x _ |- _ =>
      let H' := fresh in pose proof (proj1 (allp_flat _ _ _) H x Hx) as H';
      first [exact (proj1 H') | destruct x; exact (proj1 H') | destruct x; cbn in H'; first [exact (proj1 H') | apply text_named; [nm|exact H']]
      | apply text_named; [nm|exact H'] | apply header_row_named; exact H'] end
  | match goal with H : allp (c_opt _ ?o), E : ?o = Some ?x |- _ => rewrite E in H; cbn in H; first [exact (proj1 H) | apply text_named; [nm|exact H] | apply twm_named; [nm|exact H] | apply caption_named; [nm|exact H]] end
  | apply text_named; [nm|assumption] | apply twm_named; [nm|assumption] | apply caption_named; [nm|assumption]
  | apply sct_named; [nm|assumption] | apply fig_named ].
Ltac nodes := repeat first
  [ apply nodes_app | reflexivity
  | apply nodes_els; let x := fresh "x" in let Hx := fresh "Hx" in intros x Hx; try child
  | apply nodes_opt; let x := fresh "x" in let Hx := fresh "Hx" in intros x Hx; try child
  | apply nodes_cons; [try child|] ].
Ltac trees := unfold c_struct, c_head, c_sts, c_appdx_t, c_toc_head in *; apply el_named; [nm|attrs|split_all; nodes].

Theorem named_step : forall k f, allp (collect good k f) -> well_named (wstep w k f) = true.
Proof.
  intros k f H. destruct k; cbn [collect wstep] in *; try destruct f; try (apply allp_app in H as [H1 H2]; trees; fail); try (trees; fail);
    try (apply el_named; [nm|attrs|piece]).
  - apply el_named; [reflexivity|reflexivity|]. apply nodes_app; [apply te_named; exact H|reflexivity].
  - apply allp_app in H as [H1 H2]. apply el_named; [nm|reflexivity|]. apply nodes_cons; [|nodes].
    apply el_named; [nm|reflexivity|]. nodes.
  - apply allp_app in H as [H1 H2]. apply el_named; [reflexivity|attrs|]. apply nodes_app; [|nodes].
    cbn. destruct sp_label; [reflexivity|]. apply nodes_cons; [|reflexivity]. apply text_named; [reflexivity|exact H1].
Qed.
End Step.

Theorem write_named : forall k x, well_named (write k x) = true.
Proof.
  intros k x. pattern k, x. revert k x. apply knot_ind. intros k f IH. rewrite write_unfold. apply named_step.
  rewrite collect_kids, allp_map. intros [j y] Hy. apply IH, Hy.
Qed.
Theorem law_named : forall l, well_named (write_law l) = true.
Proof.
  intros l. unfold write_law. apply el_named; [reflexivity|attrs|]. apply nodes_cons; [reflexivity|].
  apply nodes_cons; [apply write_named|reflexivity].
Qed.
