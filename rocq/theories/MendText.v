(** What the XML text of a mended law keeps of it. *)
From Coq Require Import String Ascii List NArith Bool.
From Verif Require Import Base NumStr BaseFacts Xml Ast XmlWrite XmlParse RoundTripSpec KnotFacts XmlSpec XmlSim
  RoundTripLib PlainSpec TidySpec TidyFacts MendSpec MendFacts.
Import ListNotations.
Open Scope string_scope.
Open Scope list_scope.

(** Other attributes instead. *)
Lemma sim_attrs : forall e e' a, sim e e' -> sim (mkElement (name e) a (children e)) (mkElement (name e') a (children e')).
Proof.
  intros e e' a H. destruct H; cbn [name children].
  - apply sim_element; [reflexivity|assumption..].
  - apply sim_empty; [assumption|reflexivity].
  - apply sim_label; [reflexivity|assumption].
Qed.
Lemma sim_name : forall e e', sim e e' -> name e = name e'.
Proof. intros e e' H. destruct H; reflexivity. Qed.
Lemma coalesce_attrs : forall n a e, coalesce (mkElement n a (children e)) = mkElement n a (children (coalesce e)).
Proof. intros n a [m b c]. reflexivity. Qed.
Lemma coalesce_name : forall e, name (coalesce e) = name e.
Proof. intros [m b c]. reflexivity. Qed.
Lemma resim : forall n a e e', name e = n -> sim (coalesce e) e' ->
  sim (coalesce (mkElement n a (children e))) (mkElement n a (children e')).
Proof.
  intros n a e e' N H. rewrite coalesce_attrs. pose proof (sim_attrs _ _ a H) as S. rewrite coalesce_name, N in S.
  rewrite <- (sim_name _ _ H), coalesce_name, N in S. exact S.
Qed.

Section Step.
Context {K : kind -> Type} (w : forall k, K k -> Element) (t : forall k, K k -> K k).
Notation good := (TidyFacts.good w t).

Lemma arith_ok : forall a, good (KCont CArith) (af_contents a) -> sim (coalesce (mend_arith w a)) (mend_arith w (t_arith t a)).
Proof.
  intros a H. unfold mend_arith. cbn [af_num af_contents t_arith].
  rewrite <- (sim_name _ _ H), coalesce_name. apply resim; [reflexivity|exact H].
Qed.

Ltac piece := let x := fresh "x" in let Hx := fresh "Hx" in
  intros x Hx;
  match goal with H : allp _ |- _ => 
    let H' := fresh in pose proof (proj1 (allp_flat _ _ _) H x Hx) as H'; clear H Hx;
    destruct x; cbn in H'; unfold piece_ok; cbn;
    (split; [reflexivity|]); try reflexivity;
    (eexists; eexists; split; [reflexivity|split; [reflexivity|]]);
    first [apply sup_ok | apply sub_ok | apply fig_ok | exact (proj1 H') | apply arith_ok; exact (proj1 H')]
  end.
Ltac isel_tac := repeat (cbn [forallb isel app]; rewrite ?forallb_app, ?isel_els, ?isel_opt); reflexivity.
Ltac split_all := repeat match goal with H : allp (_ ++ _) |- _ => apply allp_app in H as [? ?] end.
Ltac child := first
  [ assumption
  | match goal with H : allp [good _ ?v] |- _ => exact (proj1 H) end
  | match goal with H : allp (map (good _) _), Hx : In ?x _ |- _ => exact (proj1 (allp_map _ _ _) H x Hx) end
  | match goal with H : allp (flat_map _ _), Hx : In ?x _ |- _ =>
      let H' := fresh in pose proof (proj1 (allp_flat _ _ _) H x Hx) as H';
      first [exact (proj1 H') | apply arith_ok; exact (proj1 H') | destruct x; exact (proj1 H') | destruct x; cbn in H'; first [exact (proj1 H') | apply text_ok; exact H']
      | apply text_ok; exact H' | apply header_row_ok; exact H'] end
  | match goal with H : allp (c_opt _ ?o), E : ?o = Some ?x |- _ => rewrite E in H; cbn in H; first [exact (proj1 H) | apply text_ok; exact H | apply twm_ok; exact H | apply caption_ok; exact H] end
  | apply text_ok; assumption | apply twm_ok; assumption | apply caption_ok; assumption
  | apply sct_ok; assumption | apply fig_ok ].
Ltac nodes := repeat first
  [ apply N_app | apply N_nil
  | apply N_els; let x := fresh "x" in let Hx := fresh "Hx" in intros x Hx; try child
  | apply N_opt; let x := fresh "x" in let Hx := fresh "Hx" in intros x Hx; try child
  | apply N_cons; [try child|] ].
Ltac trees := unfold c_struct, c_head, c_sts, c_appdx_t, c_toc_head in *; apply tree; [isel_tac|split_all; nodes].

Theorem mend_tidy_step : forall k f, allp (collect good k f) ->
  sim (coalesce (mstep w k f)) (mstep w k (tstep t k f)).
Proof.
  intros k f H. pose proof (tidy_step w t k f H) as S.
  destruct k; try exact S; cbn [mstep wstep] in *.
  - cbn [collect tstep] in *. apply mixed; [reflexivity|]. piece.
  - cbn [collect tstep] in *. apply mixed; [reflexivity|]. piece.
  - cbn [collect tstep] in *. apply mixed; [reflexivity|]. piece.
  - (* cell *) exact (resim _ _ _ _ eq_refl S).
  - (* remarks *) cbn [collect tstep] in *. split_all. apply tree; [isel_tac|]. nodes. apply texts_ok. assumption.
  - (* item *) exact (resim _ _ _ _ eq_refl S).
  - exact (resim _ _ _ _ eq_refl S).
  - exact (resim _ _ _ _ eq_refl S).
  - exact (resim _ _ _ _ eq_refl S).
  - exact (resim _ _ _ _ eq_refl S).
  - exact (resim _ _ _ _ eq_refl S).
  - exact (resim _ _ _ _ eq_refl S).
  - exact (resim _ _ _ _ eq_refl S).
  - (* amend *) cbn [collect tstep] in *. unfold mend_amend. cbn [am_sentence am_new]. split_all.
    destruct (am_new f) as [|x l] eqn:E.
    + cbn [map]. apply tree; [isel_tac|]. nodes. apply tree; [reflexivity|]. nodes.
    + change (map (t_np t) (x :: l)) with (t_np t x :: map (t_np t) l). cbv iota.
      change (t_np t x :: map (t_np t) l) with (map (t_np t) (x :: l)).
      apply tree; [isel_tac|]. nodes; [apply tree; [reflexivity|]; nodes|]. apply tree; [apply isel_els|]. nodes.
  - cbn [collect tstep] in *. trees.
  - cbn [collect tstep] in *. trees.
  - cbn [collect tstep] in *. trees.
  - cbn [collect tstep] in *. trees.
  - exact (resim _ _ _ _ eq_refl S).
  - exact (resim _ _ _ _ eq_refl S).
  - exact (resim _ _ _ _ eq_refl S).
  - exact (resim _ _ _ _ eq_refl S).
  - exact (resim _ _ _ _ eq_refl S).
  - exact (resim _ _ _ _ eq_refl S).
Qed.
End Step.

Theorem mend_tidy_sim : forall k x, sim (coalesce (mend k x)) (mend k (tidy k x)).
Proof.
  intros k x. pattern k, x. revert k x. apply knot_ind. intros k f IH.
  rewrite tidy_unfold, !mend_unfold. apply mend_tidy_step.
  rewrite collect_kids, allp_map. intros [j y] Hy. apply IH, Hy.
Qed.
Theorem mend_law_sim : forall l, sim (coalesce (mend_law l)) (mend_law (tidy_law l)).
Proof.
  intros l. unfold mend_law. apply tree; [reflexivity|].
  apply N_cons; [apply mark_ok; reflexivity|]. apply N_cons; [apply mend_tidy_sim|]. constructor.
Qed.
Theorem read_mend_tidy : forall l e, same e (coalesce (mend_law l)) -> parse_law e = parse_law (mend_law (tidy_law l)).
Proof.
  intros l e H. transitivity (parse_law (coalesce (mend_law l))); apply parse_law_sim; [apply same_sim, H|apply mend_law_sim].
Qed.

(** ** Legible parts *)
Theorem tidy_legible : forall K (t : forall k, K k -> K k) k f, legible k (tstep t k f) = legible k f.
Proof.
  intros K t k f.
  assert (S : forall s : SentenceOrColumnOrTable K, sct_full (t_sct t s) = sct_full s).
  { intros []; cbn; rewrite ?is_nil_map; reflexivity. }
  assert (A : forall l : list (ArithFormula K), forallb small_formula (map (t_arith t) l) = forallb small_formula l).
  { induction l as [|a l IH]; [reflexivity|]. cbn [map forallb]. rewrite IH. reflexivity. }
  destruct k; try reflexivity; cbn [legible tstep];
    cbn [ruby_text line_style line_contents sen_num sen_contents col_num class_sentence it_num it_sentence art_num art_paragraph
      art_suppl_note sa_arith_formula ap_arith_formula tc_border_top tc_border_bottom tc_border_left
      tc_border_right]; rewrite ?S, ?A, ?is_nil_map, ?is_none_map; try reflexivity; unfold t_text, join.
  - apply forallb_join; [reflexivity|intros [] ?; cbn; intros E; try discriminate E; reflexivity|intros []; cbn; intros E; try discriminate E; reflexivity].
  - f_equal. apply forallb_join; [reflexivity|intros [] ?; cbn; intros E; try discriminate E; reflexivity|intros []; cbn; intros E; try discriminate E; reflexivity].
  - apply forallb_join; [reflexivity|intros [] ?; cbn; intros E; try discriminate E; reflexivity|intros []; cbn; intros E; try discriminate E; reflexivity].
  - f_equal. apply forallb_join; [reflexivity|intros [] ?; cbn; intros E; try discriminate E; reflexivity|intros []; cbn; intros E; try discriminate E; reflexivity].
Qed.
Theorem tidy_can_be_read : forall k x, can_be_read k x -> can_be_read k (tidy k x).
Proof.
  intros k x H j y P. apply part_tidy in P as ([i z] & E & P).
  assert (G : forall n : Node, n = tnode (node i z) -> legible (projT1 n) (un (projT1 n) (projT2 n)) = true).
  { intros n ->. unfold tnode, node. cbn [projT1 projT2]. rewrite <- (mk_un i z), tidy_unfold, un_mk, tidy_legible. apply H. exact P. }
  exact (G (node j y) E).
Qed.
Theorem tidy_law_can_be_read : forall l, law_can_be_read l -> law_can_be_read (tidy_law l).
Proof.
  intros l (A & B & C & D & E). unfold law_can_be_read, tidy_law.
  cbn [law_year law_no law_promulgate_month law_promulgate_day law_body].
  split; [exact A|]. split; [exact B|]. split; [exact C|]. split; [exact D|]. apply tidy_can_be_read, E.
Qed.
Theorem mended_text : forall l e, same e (coalesce (mend_law l)) -> law_can_be_read l -> parse_law e = Ok (tidy_law l).
Proof. intros l e He H. rewrite (read_mend_tidy l e He). apply read_mend_law, tidy_law_can_be_read, H. Qed.
