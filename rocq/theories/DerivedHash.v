(** The derived hash determines the value. *)
From Coq Require Import String Ascii List Arith NArith Bool Lia.
From Verif Require Import Base NumStr Ast RoundTripSpec KnotFacts RoundTripLib Regex NumText Utils Serde TextParse Derived DerivedLib.
Import ListNotations.
Open Scope list_scope.

Section Inj.
Variable good : forall k, Knot k -> Prop.
Hypothesis Hgood : forall k x, good k x -> inj (hash k) x.

Ltac look := idtac; match goal with
  | G : good ?k ?x |- inj (hash ?k) ?x => exact (Hgood k x G)
  | G : allp (map (good ?k) ?l) |- inj (hash_vec (hash ?k)) ?l => exact (inj_map _ _ l (Hgood k) G)
  | G : allp (c_opt _ ?o) |- inj (hash_opt _) ?o => refine (inj_opt_c _ _ o _ G); intros ? ?; splitk; look
  | G : allp (flat_map _ ?l) |- inj (hash_vec _) ?l => refine (inj_flat _ _ l _ G); intros ? ?; splitk; look
  | _ => solve [leaf | eauto 2 with inj]
  end.
Ltac enum x H :=
  let y := fresh "y" in let E := fresh "E" in let K := fresh "K" in
  intros y ? ? E; destruct x, y; try discriminate E;
  repeat match goal with l : lvl |- _ => destruct l | s : sname |- _ => destruct s end; try discriminate E;
  cbn -[hash hash_str hash_sup hash_fig hash_text hash_arith hash_vec] in E; cbn in H; apply (f_equal (@tl call)) in E; cbn [tl] in E; splitk;
  match type of E with ?h ?a ++ _ = _ => assert (K : inj h a) by look; apply K in E; destruct E as [E ?]; subst; split; reflexivity end.
Lemma te_inj : forall x, allp (c_te good x) -> inj (hash_te hash) x.
Proof. intros x H. enum x H. Qed.
Hint Resolve te_inj : inj.
Lemma text_inj : forall x, allp (c_text good x) -> inj (hash_text hash) x.
Proof. intros x. apply inj_flat. exact te_inj. Qed.
Hint Resolve text_inj : inj.
Lemma twm_inj : forall x, allp (c_twm good x) -> inj (hash_twm hash) x.
Proof. intros x H. unfold hash_twm, c_twm in *. splitk. rec_inj look. Qed.
Hint Resolve twm_inj : inj.
Lemma caption_inj : forall x, allp (c_caption good x) -> inj (hash_caption hash) x.
Proof. intros x H. unfold hash_caption, c_caption in *. splitk. rec_inj look. Qed.
Hint Resolve caption_inj : inj.
Lemma arith_inj : forall x, good (KCont CArith) (af_contents x) -> inj (hash_arith hash) x.
Proof. intros x H. unfold hash_arith. rec_inj look. Qed.
Hint Resolve arith_inj : inj.
Lemma arith_c_inj : forall x, allp (c_arith good x) -> inj (hash_arith hash) x.
Proof. intros x H. apply arith_inj, H. Qed.
Hint Resolve arith_c_inj : inj.
Lemma header_inj : forall x, allp (flat_map (c_text good) x) -> inj (hash_header hash) x.
Proof. intros x. apply inj_flat. exact text_inj. Qed.
Hint Resolve header_inj : inj.
Lemma rlabel_inj : forall x, allp (c_text good (rl_text x)) -> inj (hash_rlabel hash) x.
Proof. intros x H. unfold hash_rlabel. rec_inj look. Qed.
Hint Resolve rlabel_inj : inj.
Lemma sct_inj : forall x, allp (c_sct good x) -> inj (hash_sct hash) x.
Proof. intros x H. enum x H. Qed.
Hint Resolve sct_inj : inj.
Lemma lc_inj : forall x, allp (c_line good x) -> inj (hash_lc hash) x.
Proof. intros x H. enum x H. Qed.
Hint Resolve lc_inj : inj.
Lemma ce_inj : forall x, allp (c_ce good x) -> inj (hash_ce hash) x.
Proof. intros x H. enum x H. Qed.
Hint Resolve ce_inj : inj.
Lemma se_inj : forall x, allp (c_se good x) -> inj (hash_se hash) x.
Proof. intros x H. enum x H. Qed.
Hint Resolve se_inj : inj.
Lemma tc_inj : forall x, allp (c_tc good x) -> inj (hash_tc hash) x.
Proof. intros x H. enum x H. Qed.
Hint Resolve tc_inj : inj.
Lemma rc_inj : forall x, allp (c_rc good x) -> inj (hash_rc hash) x.
Proof. intros x H. enum x H. Qed.
Hint Resolve rc_inj : inj.
Lemma struct_inj : forall x, allp (c_any_struct good x) -> inj (hash_struct hash) x.
Proof. intros x H. enum x H. Qed.
Hint Resolve struct_inj : inj.
Lemma ls_inj : forall x, allp (c_ls good x) -> inj (hash_ls hash) x.
Proof. intros x H. enum x H. Qed.
Hint Resolve ls_inj : inj.
Lemma pc_inj : forall x, allp (c_pc good x) -> inj (hash_pc hash) x.
Proof. intros x H. enum x H. Qed.
Hint Resolve pc_inj : inj.
Lemma chc_inj : forall x, allp (c_chc good x) -> inj (hash_chc hash) x.
Proof. intros x H. enum x H. Qed.
Hint Resolve chc_inj : inj.
Lemma sec_inj : forall x, allp (c_sec good x) -> inj (hash_sec hash) x.
Proof. intros x H. enum x H. Qed.
Hint Resolve sec_inj : inj.
Lemma suc_inj : forall x, allp (c_suc good x) -> inj (hash_suc hash) x.
Proof. intros x H. enum x H. Qed.
Hint Resolve suc_inj : inj.
Lemma np_inj : forall x, allp (c_np good x) -> inj (hash_np hash) x.
Proof. intros x H. enum x H. Qed.
Hint Resolve np_inj : inj.
Lemma mc_inj : forall x, allp (c_mc good x) -> inj (hash_mc hash) x.
Proof. intros x H. enum x H. Qed.
Hint Resolve mc_inj : inj.
Lemma sp_inj : forall x, allp (c_sp good x) -> inj (hash_sp hash) x.
Proof. intros x H. enum x H. Qed.
Hint Resolve sp_inj : inj.
Lemma at_inj : forall x, allp (c_at good x) -> inj (hash_at hash) x.
Proof. intros x H. enum x H. Qed.
Hint Resolve at_inj : inj.
Lemma an_inj : forall x, allp (c_an good x) -> inj (hash_an hash) x.
Proof. intros x H. enum x H. Qed.
Hint Resolve an_inj : inj.
Lemma af_inj : forall x, allp (c_af good x) -> inj (hash_af hash) x.
Proof. intros x H. enum x H. Qed.
Hint Resolve af_inj : inj.
Lemma tsc_inj : forall x, allp (c_tsc good x) -> inj (hash_tsc hash) x.
Proof. intros x H. enum x H. Qed.
Hint Resolve tsc_inj : inj.
Lemma tsp_inj : forall x, allp (c_tsp good x) -> inj (hash_tsp hash) x.
Proof. intros x H. enum x H. Qed.
Hint Resolve tsp_inj : inj.
Lemma tm_inj : forall x, allp (c_tm good x) -> inj (hash_tm hash) x.
Proof. intros x H. enum x H. Qed.
Hint Resolve tm_inj : inj.
(** One layer. *)
Lemma inj_mk : forall k f, inj (fun f => hash k (mk k f)) f -> inj (hash k) (mk k f).
Proof.
  intros k f H y r r'. rewrite <- (mk_un k y). intros E. destruct (H (un k y) r r' E) as [H1 H2]. subst. split; [f_equal; exact H1|reflexivity].
Qed.
Lemma step_inj : forall k f, allp (collect good k f) -> inj (hash k) (mk k f).
Proof.
  destruct k; intros f H; [destruct f|..]; apply inj_mk; cbn [collect] in H;
    unfold c_struct, c_head, c_sts, c_appdx_t, c_toc_head in H; splitk; cbn [hash mk un];
    unfold hash_ruby, hash_line, hash_cont, hash_contents, hash_sentence, hash_column, hash_table, hash_table_row, hash_table_column, hash_remarks, hash_cstruct, hash_fig_struct, hash_table_struct, hash_list, hash_class, hash_item, hash_paragraph, hash_article, hash_head, hash_amend, hash_law_title, hash_preamble, hash_main, hash_suppl, hash_suppl_ts, hash_suppl_appdx, hash_appdx_t, hash_appdx, hash_appdx_fig, hash_toc, hash_toc_head, hash_toc_division, hash_toc_article, hash_toc_suppl, hash_law_body;

    try solve [rec_inj look].
  - (* KCont *) exact (inj_flat _ _ f ce_inj H).
  - (* KTableRow *) exact (inj_map _ _ f (Hgood KTableColumn) H).
  - (* KList *) destruct l; cbn [list_nests item_nests sub_list sub_item] in *; try solve [rec_inj look]. rec_inj_with same_list look.
  - (* KItem *) destruct l; cbn [list_nests item_nests sub_list sub_item] in *; try solve [rec_inj look]. rec_inj_with same_item look.
  - (* KPreamble *) exact (inj_map _ _ f (Hgood KParagraph) H).
  - (* KTOCDivision *) rec_inj_with same_toc look.
Qed.
End Inj.

Theorem inj_knot : forall k x, inj (hash k) x.
Proof.
  intros k x. pattern k, x. revert k x. apply knot_ind. intros k f IH.
  apply (step_inj (fun j y => inj (hash j) y)); [auto|].
  rewrite (collect_kids _ (fun j y => inj (hash j) y)). apply allp_map. intros [j y] Hy. exact (IH j y Hy).
Qed.

Ltac outer := idtac; match goal with
  | |- inj (hash _) _ => apply inj_knot
  | |- _ => leaf
  end.
Theorem inj_law : forall x, inj hash_law x.
Proof. intros x. unfold hash_law. rec_inj outer. Qed.
Theorem inj_wna : forall x, inj hash_wna x.
Proof. intros x. unfold hash_wna. rec_inj outer. Qed.
