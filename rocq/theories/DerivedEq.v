(** The derived comparison decides equality. *)
From Coq Require Import String Ascii List Arith NArith Bool Lia.
From Verif Require Import Base NumStr Ast RoundTripSpec KnotFacts RoundTripLib Regex NumText Utils Serde TextParse RegexFacts Derived DerivedLib.
Import ListNotations.
Open Scope list_scope.

Section Eq.
Variable good : forall k, Knot k -> Prop.
Hypothesis Hgood : forall k x, good k x -> eqr (peq k) x.

Ltac look := idtac; match goal with
  | G : good ?k ?x |- eqr (peq ?k) ?x => exact (Hgood k x G)
  | G : allp (map (good ?k) ?l) |- eqr (peq_vec (peq ?k)) ?l => exact (eqr_map _ _ l (Hgood k) G)
  | G : allp (c_opt _ ?o) |- eqr (peq_opt _) ?o => refine (eqr_opt_c _ _ o _ G); intros ? ?; splitk; look
  | G : allp (flat_map _ ?l) |- eqr (peq_vec _) ?l => refine (eqr_flat _ _ l _ G); intros ? ?; splitk; look
  | _ => solve [leaf | eauto 2 with eqr]
  end.
Ltac enum x H :=
  let y := fresh "y" in let E := fresh "E" in let K := fresh "K" in
  intros y; split; intros E;
  [ destruct x, y; try discriminate E;
    repeat match goal with l : lvl |- _ => destruct l | s : sname |- _ => destruct s end;
    cbn in E, H; try discriminate E; splitk;
    match type of E with ?e ?a ?b = true => assert (K : eqr e a) by look; apply K in E; subst; reflexivity end
  | subst y; destruct x; repeat match goal with l : lvl |- _ => destruct l | s : sname |- _ => destruct s end;
    cbn in H |- *; splitk;
    match goal with |- ?e ?a ?a = true => assert (K : eqr e a) by look; apply K; reflexivity end ].
Lemma te_eqr : forall x, allp (c_te good x) -> eqr (peq_te peq) x.
Proof. intros x H. enum x H. Qed.
Hint Resolve te_eqr : eqr.
Lemma text_eqr : forall x, allp (c_text good x) -> eqr (peq_text peq) x.
Proof. intros x. apply eqr_flat. exact te_eqr. Qed.
Hint Resolve text_eqr : eqr.
Lemma twm_eqr : forall x, allp (c_twm good x) -> eqr (peq_twm peq) x.
Proof. intros x H. unfold peq_twm, c_twm in *. splitk. rec_eq look. Qed.
Hint Resolve twm_eqr : eqr.
Lemma caption_eqr : forall x, allp (c_caption good x) -> eqr (peq_caption peq) x.
Proof. intros x H. unfold peq_caption, c_caption in *. splitk. rec_eq look. Qed.
Hint Resolve caption_eqr : eqr.
Lemma arith_eqr : forall x, good (KCont CArith) (af_contents x) -> eqr (peq_arith peq) x.
Proof. intros x H. unfold peq_arith. rec_eq look. Qed.
Hint Resolve arith_eqr : eqr.
Lemma arith_c_eqr : forall x, allp (c_arith good x) -> eqr (peq_arith peq) x.
Proof. intros x H. apply arith_eqr, H. Qed.
Hint Resolve arith_c_eqr : eqr.
Lemma header_eqr : forall x, allp (flat_map (c_text good) x) -> eqr (peq_header peq) x.
Proof. intros x. apply eqr_flat. exact text_eqr. Qed.
Hint Resolve header_eqr : eqr.
Lemma rlabel_eqr : forall x, allp (c_text good (rl_text x)) -> eqr (peq_rlabel peq) x.
Proof. intros x H. unfold peq_rlabel. rec_eq look. Qed.
Hint Resolve rlabel_eqr : eqr.
Lemma sct_eqr : forall x, allp (c_sct good x) -> eqr (peq_sct peq) x.
Proof. intros x H. enum x H. Qed.
Hint Resolve sct_eqr : eqr.
Lemma lc_eqr : forall x, allp (c_line good x) -> eqr (peq_lc peq) x.
Proof. intros x H. enum x H. Qed.
Hint Resolve lc_eqr : eqr.
Lemma ce_eqr : forall x, allp (c_ce good x) -> eqr (peq_ce peq) x.
Proof. intros x H. enum x H. Qed.
Hint Resolve ce_eqr : eqr.
Lemma se_eqr : forall x, allp (c_se good x) -> eqr (peq_se peq) x.
Proof. intros x H. enum x H. Qed.
Hint Resolve se_eqr : eqr.
Lemma tc_eqr : forall x, allp (c_tc good x) -> eqr (peq_tc peq) x.
Proof. intros x H. enum x H. Qed.
Hint Resolve tc_eqr : eqr.
Lemma rc_eqr : forall x, allp (c_rc good x) -> eqr (peq_rc peq) x.
Proof. intros x H. enum x H. Qed.
Hint Resolve rc_eqr : eqr.
Lemma struct_eqr : forall x, allp (c_any_struct good x) -> eqr (peq_struct peq) x.
Proof. intros x H. enum x H. Qed.
Hint Resolve struct_eqr : eqr.
Lemma ls_eqr : forall x, allp (c_ls good x) -> eqr (peq_ls peq) x.
Proof. intros x H. enum x H. Qed.
Hint Resolve ls_eqr : eqr.
Lemma pc_eqr : forall x, allp (c_pc good x) -> eqr (peq_pc peq) x.
Proof. intros x H. enum x H. Qed.
Hint Resolve pc_eqr : eqr.
Lemma chc_eqr : forall x, allp (c_chc good x) -> eqr (peq_chc peq) x.
Proof. intros x H. enum x H. Qed.
Hint Resolve chc_eqr : eqr.
Lemma sec_eqr : forall x, allp (c_sec good x) -> eqr (peq_sec peq) x.
Proof. intros x H. enum x H. Qed.
Hint Resolve sec_eqr : eqr.
Lemma suc_eqr : forall x, allp (c_suc good x) -> eqr (peq_suc peq) x.
Proof. intros x H. enum x H. Qed.
Hint Resolve suc_eqr : eqr.
Lemma np_eqr : forall x, allp (c_np good x) -> eqr (peq_np peq) x.
Proof. intros x H. enum x H. Qed.
Hint Resolve np_eqr : eqr.
Lemma mc_eqr : forall x, allp (c_mc good x) -> eqr (peq_mc peq) x.
Proof. intros x H. enum x H. Qed.
Hint Resolve mc_eqr : eqr.
Lemma sp_eqr : forall x, allp (c_sp good x) -> eqr (peq_sp peq) x.
Proof. intros x H. enum x H. Qed.
Hint Resolve sp_eqr : eqr.
Lemma at_eqr : forall x, allp (c_at good x) -> eqr (peq_at peq) x.
Proof. intros x H. enum x H. Qed.
Hint Resolve at_eqr : eqr.
Lemma an_eqr : forall x, allp (c_an good x) -> eqr (peq_an peq) x.
Proof. intros x H. enum x H. Qed.
Hint Resolve an_eqr : eqr.
Lemma af_eqr : forall x, allp (c_af good x) -> eqr (peq_af peq) x.
Proof. intros x H. enum x H. Qed.
Hint Resolve af_eqr : eqr.
Lemma tsc_eqr : forall x, allp (c_tsc good x) -> eqr (peq_tsc peq) x.
Proof. intros x H. enum x H. Qed.
Hint Resolve tsc_eqr : eqr.
Lemma tsp_eqr : forall x, allp (c_tsp good x) -> eqr (peq_tsp peq) x.
Proof. intros x H. enum x H. Qed.
Hint Resolve tsp_eqr : eqr.
Lemma tm_eqr : forall x, allp (c_tm good x) -> eqr (peq_tm peq) x.
Proof. intros x H. enum x H. Qed.
Hint Resolve tm_eqr : eqr.
(** One layer. *)
Lemma eqr_mk : forall k f, eqr (fun f g => peq k (mk k f) (mk k g)) f -> eqr (peq k) (mk k f).
Proof.
  intros k f H y. rewrite <- (mk_un k y). destruct (H (un k y)) as [H1 H2]. split; intros E.
  - f_equal. apply H1, E.
  - apply H2. apply (f_equal (un k)) in E. rewrite !un_mk in E. exact E.
Qed.
Lemma step_eqr : forall k f, allp (collect good k f) -> eqr (peq k) (mk k f).
Proof.
  destruct k; intros f H; [destruct f|..]; apply eqr_mk; cbn [collect] in H;
    unfold c_struct, c_head, c_sts, c_appdx_t, c_toc_head in H; splitk; cbn [peq mk un];
    unfold peq_ruby, peq_line, peq_cont, peq_contents, peq_sentence, peq_column, peq_table, peq_table_row, peq_table_column, peq_remarks, peq_cstruct, peq_fig_struct, peq_table_struct, peq_list, peq_class, peq_item, peq_paragraph, peq_article, peq_head, peq_amend, peq_law_title, peq_preamble, peq_main, peq_suppl, peq_suppl_ts, peq_suppl_appdx, peq_appdx_t, peq_appdx, peq_appdx_fig, peq_toc, peq_toc_head, peq_toc_division, peq_toc_article, peq_toc_suppl, peq_law_body;

    try solve [rec_eq look].
  - (* KCont *) exact (eqr_flat _ _ f ce_eqr H).
  - (* KTableRow *) exact (eqr_map _ _ f (Hgood KTableColumn) H).
  - (* KList *) destruct l; cbn [list_nests item_nests sub_list sub_item] in *; try solve [rec_eq look]. rec_eq_with same_list look.
  - (* KItem *) destruct l; cbn [list_nests item_nests sub_list sub_item] in *; try solve [rec_eq look]. rec_eq_with same_item look.
  - (* KPreamble *) exact (eqr_map _ _ f (Hgood KParagraph) H).
  - (* KTOCDivision *) rec_eq_with same_toc look.
Qed.
End Eq.

Theorem eqr_knot : forall k x, eqr (peq k) x.
Proof.
  intros k x. pattern k, x. revert k x. apply knot_ind. intros k f IH.
  apply (step_eqr (fun j y => eqr (peq j) y)); [auto|].
  rewrite (collect_kids _ (fun j y => eqr (peq j) y)). apply allp_map. intros [j y] Hy. exact (IH j y Hy).
Qed.

Ltac outer := idtac; match goal with
  | |- eqr (peq _) _ => apply eqr_knot
  | |- _ => leaf
  end.
Theorem eqr_law : forall x, eqr peq_law x.
Proof. intros x. unfold peq_law. rec_eq outer. Qed.
Theorem eqr_wna : forall x, eqr peq_wna x.
Proof. intros x. unfold peq_wna. rec_eq outer. Qed.

Theorem eqr_item_number_u : forall x, eqr peq_item_number_u x.
Proof.
  intros x. unfold peq_item_number_u.
  rec_eq ltac:(idtac; first [leaf | match goal with |- eqr ueqb _ => intros ? ; apply ueqb_eq end]).
Qed.
Theorem eqr_plain_line : forall x, eqr peq_plain_line x.
Proof.
  assert (U : forall x, eqr ueqb x) by (intros x y; apply ueqb_eq).
  intros x y. split; intros E.
  - destruct x, y; try discriminate E; cbn [peq_plain_line] in E; rewrite ?andb_true_iff in E;
      repeat match goal with H : _ /\ _ |- _ => destruct H end;
      repeat match goal with
        | H : ueqb _ _ = true |- _ => apply U in H
        | H : peq_AN _ _ = true |- _ => apply eqr_AN in H
        | H : peq_item_number_u _ _ = true |- _ => apply eqr_item_number_u in H
        | H : peq_opt ueqb _ _ = true |- _ => apply (eqr_opt _ ueqb _ (fun z _ => U z)) in H
        end; subst; reflexivity.
  - subst y. destruct x; cbn [peq_plain_line]; rewrite ?andb_true_iff;
      repeat match goal with |- _ /\ _ => split end;
      first [apply U | apply eqr_AN | apply eqr_item_number_u | apply (eqr_opt _ ueqb _ (fun z _ => U z))]; reflexivity.
Qed.
