(** Reading what was written gives the value back exactly when it is storable and its direct
    parts are read back; by induction, exactly when it survives. *)
From Coq Require Import String List NArith Bool Lia.
From Verif Require Import Base NumStr NumStrSpec BaseFacts NumStrFacts Xml Ast XmlWrite XmlParse
  RoundTripSpec KnotFacts XmlSpec XmlSim RoundTripLib.
Import ListNotations.
Open Scope list_scope.

(** Tag written for each kind. *)
Definition tag_of (k : kind) : string :=
  match k with
  | KVoid => ""
  | KRuby => "Ruby" | KLine => "Line" | KCont c => cont_tag c | KSentence => "Sentence"
  | KColumn => "Column" | KTable => "Table" | KTableRow => "TableRow"
  | KTableColumn => "TableColumn" | KRemarks => "Remarks" | KCStruct s => struct_tag s
  | KFigStruct => "FigStruct" | KTableStruct => "TableStruct" | KList l => list_tag l
  | KClass => "Class" | KItem l => item_tag l | KParagraph => "Paragraph"
  | KArticle => "Article" | KPart => "Part" | KChapter => "Chapter" | KSection => "Section"
  | KSubsection => "Subsection" | KDivision => "Division" | KAmend => "AmendProvision"
  | KLawTitle => "LawTitle" | KPreamble => "Preamble" | KMain => "MainProvision"
  | KSuppl => "SupplProvision" | KSupplTable => "SupplProvisionAppdxTable"
  | KSupplStyle => "SupplProvisionAppdxStyle" | KSupplAppdx => "Appdx"
  | KAppdxTable => "AppdxTable" | KAppdxNote => "AppdxNote" | KAppdxStyle => "AppdxStyle"
  | KAppdxFormat => "AppdxFormat" | KAppdx => "Appdx" | KAppdxFig => "AppdxFig"
  | KTOC => "TOC" | KTOCPart => "TOCPart" | KTOCChapter => "TOCChapter"
  | KTOCSection => "TOCSection" | KTOCSubsection => "TOCSubsection"
  | KTOCDivision => "TOCDivision" | KTOCArticle => "TOCArticle"
  | KTOCSuppl => "TOCSupplProvision" | KLawBody => "LawBody"
  end%string.

(** Values of written attributes. *)
Lemma opt_id : forall X (o : option X), match o with Some v => Some v | None => None end = o.
Proof. destruct o; reflexivity. Qed.

Ltac at_tac :=
  repeat match goal with e := _ : Element |- _ => subst e end;
  unfold get; cbn [attrs];
  repeat first
    [ rewrite assoc_insert_same | rewrite assoc_insert_opt_same | rewrite assoc_insert_flag_same
    | rewrite assoc_insert_other by reflexivity | rewrite assoc_insert_opt_other by reflexivity
    | rewrite assoc_insert_flag_other by reflexivity ];
  cbn [assoc]; rewrite ?opt_id; reflexivity.

Section Step.
Context {K : kind -> Type} (w : forall k, K k -> Element) (p : forall k, Element -> R (K k)).
Hypothesis Hvoid : K KVoid -> False.
Hypothesis Hname : forall k x, name (w k x) = tag_of k.
Hypothesis Hget : forall c x n, get (w (KCont c) x) n = None.
Hypothesis Happdx : forall x, p KSupplAppdx (w KSupplAppdx x) <> Ok x.

Definition good (k : kind) (x : K k) : Prop := p k (w k x) = Ok x.

Definition ex1 {X} : X -> bool := fun _ => true.

(** Selecting the arm for a written element. *)
Ltac look :=
  intros; unfold lookup;
  try unfold write_arith; try (rewrite Hname); reflexivity.

Ltac fin := cbn [allp app]; unfold good, ex1;
  first [ tauto | split; [tauto | intros _; reflexivity] ].

Ltac push := first
  [ eapply elem_iff; [|eapply elem_text; reflexivity]; fin
  | eapply elem_push; [ look | intros; congruence | fin ]
  | eapply elem_push_ok; [ look | intros; congruence | fin ] ].

Lemma reads_te : reads (fun s l => app l [TE_Text s]) skip (text_table p) whole
  (write_text_node w) ex1 (c_te good).
Proof. intros []; cbn [write_text_node c_te]; push. Qed.

Lemma text_nodes : forall t, from_children p (write_text_nodes w t) = Ok t <-> allp (c_text good t).
Proof.
  intros t. unfold from_children, write_text_nodes, c_text. rewrite <- (app_nil_r (map _ t)). split.
  - intros H. eapply reads_fwd in H as (vs & H & Hc); [|lens_tac|apply reads_te].
    cbn in H. injection H as H. apply Hc in H. apply H.
  - intros H. erewrite reads_bwd; [|lens_tac|apply reads_te|apply forallb_true|exact H]. reflexivity.
Qed.

Lemma text_iff : forall n t, p_text p (write_text w n t) = Ok t <-> allp (c_text good t).
Proof. intros. apply text_nodes. Qed.

Lemma mode_get : forall m, mode_of (assoc "WritingMode" (insert_opt "WritingMode" (mode_str m) [])) = m.
Proof. destruct m; reflexivity. Qed.

Lemma twm_iff : forall n t, parse_twm p (write_twm w n t) = Ok t <-> allp (c_twm good t).
Proof.
  intros n [t m]. unfold parse_twm, write_twm, c_twm. cbn [children twm_contents twm_mode get attrs].
  fold (c_text good t). rewrite <- text_nodes. unfold get. cbn [attrs]. rewrite mode_get. split; intros H.
  - apply bind_ok in H as (v & Hv & H). injection H as <-. exact Hv.
  - rewrite H. reflexivity.
Qed.

Lemma caption_iff : forall n t, parse_caption p (write_caption w n t) = Ok t <-> allp (c_caption good t).
Proof.
  intros n [t o]. unfold parse_caption, write_caption, c_caption. cbn [children cap_text cap_common].
  rewrite <- text_nodes, (read_bool_opt _ _ o).
  - split; intros H; [apply bind_ok in H as (v & Hv & H); injection H as <-; exact Hv|].
    rewrite H. reflexivity.
  - unfold get. cbn [attrs]. rewrite assoc_insert_opt_same. destruct o; reflexivity.
Qed.

Lemma arith_iff : forall a, parse_arith p (write_arith w a) = Ok a <->
  no_formula_num a = true /\ allp (c_arith good a).
Proof.
  intros [n c]. unfold parse_arith, write_arith, no_formula_num, c_arith, get_attribute_opt_with_parse.
  cbn [af_contents af_num]. rewrite Hget. cbn [bind allp]. unfold good. split; intros H.
  - apply bind_ok in H as (v & Hv & H). injection H as <- <-. auto.
  - destruct n; [destruct H; discriminate|]. destruct H as (_ & H & _). rewrite H. reflexivity.
Qed.

Ltac push2 := first
  [ push
  | eapply elem_push; [ look | intros; congruence | apply arith_iff ]
  | eapply elem_push; [ look | intros; congruence | cbn [allp]; split; [tauto|intros _; reflexivity]] ].

Lemma reads_line : forall e, reads (fun s l => app l [LC_String s]) (reject e) (line_table p) whole
  (write_line_node w) (fun c => match c with LC_Arith a => no_formula_num a | _ => true end)
  (c_line good).
Proof. intros e []; cbn [write_line_node c_line]; push2. Qed.

Lemma reads_se : forall e, reads (fun s l => app l [SE_String s]) (reject e) (sentence_table p) whole
  (write_sentence_node w) (fun c => match c with SE_Arith a => no_formula_num a | _ => true end)
  (c_se good).
Proof. intros e []; cbn [write_sentence_node c_se]; push2. Qed.

Lemma inj_pair_lvl : forall (P : lvl -> Type) l (a b : P l), existT P l a = existT P l b -> a = b.
Proof.
  intros P l a b H. apply (Eqdep_dec.inj_pair2_eq_dec lvl) in H; [exact H|]. decide equality.
Qed.

Lemma CE_Item_inj : forall l (a b : K (KItem l)), CE_Item l a = CE_Item l b -> a = b.
Proof. intros l a b H. injection H as H. apply (inj_pair_lvl (fun l => K (KItem l))), H. Qed.
Lemma TC_Item_inj : forall l (a b : K (KItem l)), TC_Item l a = TC_Item l b -> a = b.
Proof. intros l a b H. injection H as H. apply (inj_pair_lvl (fun l => K (KItem l))), H. Qed.

Ltac push_item lem :=
  eapply elem_push; [ look | apply lem | fin ].

Lemma reads_ce : forall e, reads (fun s l => app l [CE_String s]) (reject e) (contents_table p) whole
  (write_contents_node w) (fun c => match c with CE_Arith a => no_formula_num a | _ => true end)
  (c_ce good).
Proof.
  intros e []; cbn [write_contents_node c_ce]; try push2.
  destruct l; push_item CE_Item_inj.
Qed.

Lemma reads_tc : forall e, reads (fun s l => app l [TC_String s]) (reject e) (cell_table p) whole
  (write_cell_node w) ex1 (c_tc good).
Proof.
  intros e []; cbn [write_cell_node c_tc]; try push2.
  destruct l; push_item TC_Item_inj.
Qed.

Definition step (k : kind) (f : F K k) : Prop :=
  pstep p k (wstep w k f) = Ok f <-> storable k f = true /\ allp (collect good k f).

Lemma kind_iff : forall k x, p k (w k x) = Ok x <-> allp [good k x].
Proof. intros. cbn. unfold good. tauto. Qed.

Lemma reads_by : forall S (txt : string -> S -> S) d t X (wr : X -> Element) pr ix c,
  (forall x, lookup d t (wr x) = h_push ix (fun v => v) pr (wr x)) ->
  (forall x, pr (wr x) = Ok x <-> allp (c x)) ->
  reads txt d t ix (fun x => NElement (wr x)) ex1 c.
Proof.
  intros S txt d t X wr pr ix c H HC x. apply (elem_push txt d t X X ix (fun v => v) pr); auto.
  rewrite HC. unfold ex1. tauto.
Qed.

Ltac conj := repeat match goal with H : _ /\ _ |- _ => destruct H end.
(** Use the recorded conditions once the values are known to be equal. *)
Ltac done :=
  repeat match goal with
    | H : ?a = ?a -> _ |- _ => specialize (H eq_refl)
    end; conj;
  repeat rewrite ?allp_app, ?andb_true_iff;
  repeat match goal with |- _ /\ _ => split end;
  try assumption; try exact I; try reflexivity.

Lemma step_ruby : forall f, step KRuby f.
Proof.
  intros [t r]. unfold step. cbn [pstep wstep storable collect ruby_text ruby_ruby].
  unfold parse_ruby, write_ruby. rewrite with_name_same by reflexivity. cbn [children ruby_text ruby_ruby].
  match goal with |- context [run ?a ?b ?c _ _] => set (txt := a); set (d := b); set (tb := c) end.
  assert (R : forall t u, run txt d tb
      (write_text_nodes w t ++ [NElement (mkElement "Rt" [] [NText r])]) (u, (""%string, tt)) =
    Ok (u ++ filter plain_text t, (r, tt))).
  { induction t0 as [|x t0 IH]; intros u.
    - unfold run, write_text_nodes, lookup. cbn. rewrite append_nil_r_s, app_nil_r. reflexivity.
    - change (write_text_nodes w (x :: t0)) with (write_text_node w x :: write_text_nodes w t0).
      cbn [app]. destruct x; cbn [write_text_node filter plain_text];
        try (rewrite run_elem; unfold lookup; rewrite ?Hname; apply IH).
      cbn [run]. change (txt s (u, (""%string, tt))) with (u ++ [TE_Text s], (""%string, tt)).
      rewrite IH, <- app_assoc. reflexivity. }
  rewrite R. cbn [bind app]. split.
  - intros H. injection H as H. rewrite <- H. split.
    + apply forallb_forall. intros x Hx. apply filter_In in Hx. apply Hx.
    + clear. induction t as [|[] t IH]; cbn; auto.
  - intros [H _]. repeat f_equal. clear -H. induction t as [|x t IH]; [reflexivity|].
    cbn in *. apply andb_true_iff in H as [H1 H2]. rewrite H1, IH by exact H2. reflexivity.
Qed.

Lemma step_line : forall f, step KLine f.
Proof.
  intros [c s]. unfold step. cbn [pstep wstep storable collect line_contents line_style].
  unfold parse_line, write_line. rewrite with_name_same by reflexivity.
  replace (get _ "Style") with (Some (linestyle_str s)) by reflexivity. cbn [children line_contents]. split.
  - intros H. destruct (linestyle_of (Some (linestyle_str s))) as [s'|] eqn:Hs; [|discriminate].
    apply bind_ok in H as (v & Hr & H). injection H as -> ->. apply read_linestyle in Hs.
    eapply reads_fwd_end in Hr as (vs & Hv & Hc); [|lens_tac|apply reads_line]. cbn in Hv. done.
    apply Hc, Hv. apply Hc, Hv.
  - intros [H1 H2]. apply andb_true_iff in H1 as [H0 H1]. apply read_linestyle in H0. rewrite H0.
    erewrite reads_bwd_end; [|lens_tac|apply reads_line|eassumption..]. reflexivity.
Qed.

Lemma step_cont : forall c f, step (KCont c) f.
Proof.
  intros c f. unfold step. cbn [pstep wstep storable collect].
  unfold parse_cont, write_cont. cbn [children]. split.
  - intros Hr. eapply reads_fwd_end in Hr as (vs & Hv & Hc); [|lens_tac|apply reads_ce].
    apply Hc, Hv.
  - intros [H1 H2].
    erewrite reads_bwd_end; [|lens_tac|apply reads_ce|eassumption..]. reflexivity.
Qed.

Lemma step_sentence : forall f, step KSentence f.
Proof.
  intros [c n fn i m]. unfold step.
  cbn [pstep wstep storable collect sen_contents sen_num].
  unfold parse_sentence, write_sentence.
  cbn [children sen_contents sen_num sen_function sen_indent sen_mode].
  rewrite with_name_same by reflexivity. set (e := mkElement _ _ _).
  assert (A1 : get e "Num" = option_map usize_to_string n) by at_tac.
  assert (A2 : get e "Function" = option_map function_str fn) by at_tac.
  assert (A3 : get e "Indent" = option_map indent_str i) by at_tac.
  assert (A4 : get e "WritingMode" = mode_str m) by at_tac.
  apply read_usize_opt in A1. rewrite A2, A3, A4, read_function, read_indent, read_mode. cbn [children e].
  rewrite andb_true_iff, <- A1. split.
  - intros H. apply bind_ok in H as (n' & Hn & H). cbn [bind] in H.
    apply bind_ok in H as (v & Hr & H). injection H as -> ->.
    eapply reads_fwd_end in Hr as (vs & Hv & Hc); [|lens_tac|apply reads_se].
    apply Hc in Hv. tauto.
  - intros [[H1 H2] H3]. rewrite H1. cbn [bind].
    erewrite reads_bwd_end; [|lens_tac|apply reads_se|eassumption..]. reflexivity.
Qed.

Lemma step_column : forall f, step KColumn f.
Proof.
  intros [c n lb a]. unfold step. cbn [pstep wstep storable collect col_sentence col_num].
  unfold parse_column, write_column. cbn [col_sentence col_num col_line_break col_align].
  rewrite with_name_same by reflexivity. set (e := mkElement _ _ _).
  assert (A1 : get e "Num" = option_map usize_to_string n) by at_tac.
  assert (A2 : get e "LineBreak" = Some (bool_to_string lb)) by at_tac.
  assert (A3 : get e "Align" = option_map align_str a) by at_tac.
  apply read_usize_opt in A1. rewrite A3, read_align. cbn [children e].
  assert (A4 : get_flag e "LineBreak" = Ok lb).
  { unfold get_flag, get_attribute_opt_with_parse. rewrite A2. destruct lb; reflexivity. }
  rewrite A4. fold (good KSentence). change (map (good KSentence) c)
    with (map (fun x => p KSentence (w KSentence x) = Ok x) c).
  rewrite <- A1, <- parse_all_els. split.
  - intros H. apply bind_ok in H as (n' & Hn & H). cbn [bind] in H.
    apply bind_ok in H as (v & Hr & H). injection H as -> ->. auto.
  - intros [H1 H2]. rewrite H1. cbn [bind]. rewrite H2. reflexivity.
Qed.

Lemma header_row_iff : forall r, parse_header_row p (write_header_row w r) = Ok r <->
  allp (flat_map (c_text good) r).
Proof.
  intros r. unfold parse_header_row, write_header_row. rewrite with_name_same by reflexivity.
  cbn [children]. unfold els. split.
  - intros H. eapply reads_fwd_end in H as (v & H & Hc);
      [|lens_tac|eapply reads_by; [look|apply text_iff]]. apply Hc, H.
  - intros H. erewrite reads_bwd_end;
      [|lens_tac|eapply reads_by; [look|apply text_iff]|apply forallb_true|exact H]. reflexivity.
Qed.

Ltac ifs := first
  [ apply text_iff | apply twm_iff | apply caption_iff | apply kind_iff | apply header_row_iff ].
Ltac rd := eapply reads_by; [look|ifs].

(** One written piece, in a successful run. *)
Ltac fwd H v Hc := first
  [ eapply reads_fwd in H as (v & H & Hc); [| |rd]; [|lens_tac]
  | eapply reads_fwd_end in H as (v & H & Hc); [| |rd]; [|lens_tac]
  | eapply opt_fwd in H as (v & H & _ & Hc); [| |look|ifs]; [|lens_tac]
  | eapply opt_fwd_end in H as (v & H & _ & Hc); [| |look|ifs]; [|lens_tac]
  | eapply some_fwd in H as (v & H & Hc); [|look|ifs]
  | eapply put_fwd in H as (v & H & Hc); [|look|ifs] ].

(** The final state. *)
Ltac state H :=
  cbv beta iota delta [at0 at1 at2 at3 at4 at5 at6 at7 at8 at9 at10 at11 whole fst snd app] in H;
  rewrite ?orelse_none in H.

(** The same for children of several kinds. *)
Ltac rdm := intros [];
  cbn [write_struct_any write_part_node write_chapter_node write_section_node
    write_subsection_node write_main_node write_suppl_node write_appdx_table_node
    write_appdx_note_node write_appdx_fig_node write_toc_section_node write_toc_suppl_node
    write_toc_main_node c_any_struct c_pc c_chc c_sec c_suc c_mc c_sp c_at c_an c_af c_tsc c_tsp c_tm];
  push2.
Ltac fwdm H v Hc c := first
  [ eapply (reads_fwd _ _ _ _ _ _ ex1 c) in H as (v & H & Hc); [| |rdm]; [|lens_tac]
  | eapply (reads_fwd_end _ _ _ _ _ _ ex1 c) in H as (v & H & Hc); [| |rdm]; [|lens_tac] ].

(** One written piece, all conditions holding. *)
Ltac cnd := first [ apply forallb_true | eassumption | rewrite flat_map_single; eassumption ].
Ltac bwd := first
  [ erewrite reads_bwd; [| |rd|cnd|cnd]; [|lens_tac]
  | erewrite reads_bwd_end; [| |rd|cnd|cnd]; [|lens_tac]
  | erewrite opt_bwd; [| |look|ifs|eassumption]; [|lens_tac]
  | erewrite opt_bwd_end; [| |look|ifs|eassumption]; [|lens_tac]
  | erewrite some_bwd; [|look|ifs|eassumption]
  | erewrite put_bwd; [|look|ifs|eassumption] ].
Ltac bwdm c := first
  [ erewrite (reads_bwd _ _ _ _ _ _ ex1 c); [| |rdm|cnd|cnd]; [|lens_tac]
  | erewrite (reads_bwd_end _ _ _ _ _ _ ex1 c); [| |rdm|cnd|cnd]; [|lens_tac] ].

Lemma sct_iff : forall n s, parse_sct p (write_sct w n s) = Ok s <->
  sct_full s = true /\ allp (c_sct good s).
Proof.
  intros n s. unfold parse_sct, write_sct. cbn [children]. unfold els. split.
  - intros H. apply bind_ok in H as (st & Hr & H). destruct s; cbn [sct_full c_sct].
    + fwd Hr v Hc. subst st. cbn in H. destruct v; [discriminate|]. injection H as H. rewrite H in Hc.
      rewrite flat_map_single in Hc. destruct (Hc eq_refl). rewrite <- H. rewrite <- H in H1. auto.
    + fwd Hr v Hc. subst st. cbn in H. destruct v; [discriminate|]. injection H as H. rewrite H in Hc.
      rewrite flat_map_single in Hc. destruct (Hc eq_refl). rewrite <- H. rewrite <- H in H1. auto.
    + change [NElement (w KTable t)] with ([NElement (w KTable t)] ++ []) in Hr.
      fwd Hr v Hc. cbn in Hr. injection Hr as <-. injection H as ->. auto.
  - intros [H1 H2]. destruct s; cbn [sct_full c_sct] in *.
    + bwd. destruct l; [discriminate|reflexivity].
    + bwd. destruct l; [discriminate|reflexivity].
    + change [NElement (w KTable t)] with ([NElement (w KTable t)] ++ []). bwd. reflexivity.
Qed.

Lemma step_class : forall f, step KClass f.
Proof.
  intros [t s c n]. unfold step.
  cbn [pstep wstep storable collect class_title class_sentence class_children class_num].
  unfold parse_class, write_class. rewrite with_name_same by reflexivity.
  cbn [class_title class_sentence class_children class_num].
  rewrite (read_attribute _ _ n) by at_tac. cbn [bind children]. unfold els.
  rewrite !allp_app. split.
  - intros H. apply bind_ok in H as (st & Hr & H). fwd Hr v1 Hc1.
    eapply some_fwd in Hr as (v2 & Hr & Hc2); [|look|apply sct_iff]. fwd Hr v3 Hc3.
    subst st. cbn in H. rewrite orelse_none in H. injection H as -> -> ->.
    rewrite flat_map_single in Hc3. done.
  - intros (H1 & H2 & H3 & H4). bwd.
    erewrite some_bwd; [|look|apply sct_iff|split; eassumption]. bwd. cbn. rewrite orelse_none. reflexivity.
Qed.

Lemma step_table : forall f, step KTable f.
Proof.
  intros [h r m]. unfold step. cbn [pstep wstep storable collect tb_header tb_row tb_mode].
  unfold parse_table, write_table. rewrite with_name_same by reflexivity.
  cbn [tb_header tb_row tb_mode children]. unfold els, get. cbn [attrs]. rewrite mode_get, allp_app.
  split.
  - intros H. apply bind_ok in H as (st & Hr & H).
    fwd Hr v1 Hc1. fwd Hr v2 Hc2. subst st. cbn in H. injection H as -> ->. rewrite flat_map_single in Hc2. done.
  - intros (_ & H1 & H2). bwd. bwd. reflexivity.
Qed.

Lemma step_table_row : forall f, step KTableRow f.
Proof.
  intros f. unfold step. cbn [pstep wstep storable collect].
  unfold parse_table_row, write_table_row. rewrite with_name_same by reflexivity.
  cbn [children]. unfold els. split.
  - intros H. fwd H v Hc. rewrite flat_map_single in Hc. split; [reflexivity|]. apply Hc, H.
  - intros [_ H]. bwd. reflexivity.
Qed.

Lemma step_table_column : forall f, step KTableColumn f.
Proof.
  intros [c bt bb bl br rs cs a va]. unfold step. cbn [pstep wstep storable collect].
  unfold parse_table_column, write_table_column. rewrite with_name_same by reflexivity.
  cbn [tc_contents tc_border_top tc_border_bottom tc_border_left tc_border_right tc_rowspan
    tc_colspan tc_align tc_valign].
  set (e := mkElement _ _ _).
  assert (B1 : get e "BorderTop" = Some (linestyle_str bt)) by at_tac.
  assert (B2 : get e "BorderBottom" = Some (linestyle_str bb)) by at_tac.
  assert (B3 : get e "BorderLeft" = Some (linestyle_str bl)) by at_tac.
  assert (B4 : get e "BorderRight" = Some (linestyle_str br)) by at_tac.
  assert (C1 : get e "colspan" = cs) by at_tac.
  assert (C2 : get e "Align" = None) by at_tac.
  assert (C3 : get e "Valign" = None) by at_tac.
  assert (C4 : is_none a = true -> is_none va = true -> get e "rowspan" = rs).
  { intros E1 E2. destruct a, va; try discriminate. at_tac. }
  apply read_border in B1. apply read_border in B2. apply read_border in B3. apply read_border in B4.
  apply read_string_opt in C1. rewrite C1, C2, C3. cbn [bind align_of position_of].
  cbn [children e]. split.
  - intros H. apply bind_ok in H as (rs' & Hs & H). apply bind_ok in H as (v & Hr & H).
    injection H as -> E1 E2 E3 E4 -> <- <-.
    apply B1 in E1. apply B2 in E2. apply B3 in E3. apply B4 in E4. rewrite E1, E2, E3, E4.
    split; [reflexivity|].
    eapply reads_fwd_end in Hr as (vs & Hv & Hc); [|lens_tac|apply reads_tc]. apply Hc, Hv.
  - intros [H H2]. rewrite !andb_true_iff in H. conj.
    rewrite (read_string_opt _ _ _ (C4 ltac:(assumption) ltac:(assumption))). cbn [bind].
    erewrite reads_bwd_end; [|lens_tac|apply reads_tc|cnd|cnd]. cbn.
    rewrite (proj2 B1), (proj2 B2), (proj2 B3), (proj2 B4) by assumption.
    destruct a, va; try discriminate. reflexivity.
Qed.

Lemma step_remarks : forall f, step KRemarks f.
Proof.
  intros [lb c]. unfold step. cbn [pstep wstep storable].
  split; [|intros [? _]; discriminate].
  unfold parse_remarks, write_remarks. rewrite with_name_same by reflexivity.
  cbn [rem_children children]. unfold els. intros H. exfalso.
  apply bind_ok in H as (st & Hr & H).
  eapply (reads_fwd_end _ _ _ _ at1 _ ex1 (c_rc good)) in Hr as (v & Hr & _);
    [|lens_tac|intros []; cbn [write_remarks_node c_rc]; push].
  subst st. discriminate.
Qed.

Section StructRemarks.
Context {T B : Type} (d : handler (@struct_state K T B))
  (t : list (string * handler (@struct_state K T B)))
  (ix : (list (K KRemarks) -> list (K KRemarks)) -> @struct_state K T B -> @struct_state K T B)
  (Inv : @struct_state K T B -> Prop).
Hypothesis Hl : forall x, lookup d t (w KRemarks x) = h_struct_remarks p (w KRemarks x).
Hypothesis L : lens ix.
Hypothesis H1 : forall f s, Inv s -> Inv (ix f s).
Hypothesis H2 : forall r s, Inv s ->
  match fst (snd (snd s)) with
  | None => at1 (fun l => app l [r]) s
  | Some _ => at3 (fun l => app l [r]) s
  end = ix (fun l => l ++ [r]) s.

Lemma remarks_fwd : forall l rest s s', Inv s ->
  run no_text d t (els (w KRemarks) l ++ rest) s = Ok s' ->
  exists vs, run no_text d t rest (ix (fun l => l ++ vs) s) = Ok s' /\
    (vs = l -> allp (map (good KRemarks) l)).
Proof.
  destruct L as (L1 & L2 & L3). intros l rest s s' HI H.
  assert (G : exists vs, run no_text d t rest (ix (fun l => l ++ vs) s) = Ok s' /\
    length vs <= length l /\ (vs = l -> allp (map (good KRemarks) l))).
  { revert s HI H. induction l as [|x l IH]; intros s HI H.
    - exists []. split; [|split; [reflexivity|cbn; auto]].
      rewrite (L2 _ (fun x => x)), L3 by apply app_nil_r. exact H.
    - change (els (w KRemarks) (x :: l) ++ rest) with (NElement (w KRemarks x) :: els (w KRemarks) l ++ rest) in H.
      rewrite run_elem, Hl in H. unfold h_struct_remarks in H. rewrite bind_assoc in H.
      destruct (p KRemarks (w KRemarks x)) as [r| |] eqn:Er; cbn [ok bind] in H; [|..|discriminate].
      + rewrite H2 in H by exact HI. apply IH in H as (vs & H & Hn & Hc); [|apply H1, HI].
        exists (r :: vs). rewrite L1 in H. split; [|split].
        * rewrite <- H. f_equal. apply L2. intros. rewrite <- app_assoc. reflexivity.
        * cbn. lia.
        * intros E. injection E as -> ->. cbn. split; [exact Er|]. apply Hc. reflexivity.
      + apply IH in H as (vs & H & Hn & Hc); [|exact HI]. exists vs. split; [exact H|].
        split; [cbn; lia|]. intros ->. cbn in Hn. lia. }
  destruct G as (vs & G1 & _ & G2). exists vs. auto.
Qed.

Lemma remarks_bwd : forall l rest s, Inv s -> allp (map (good KRemarks) l) ->
  run no_text d t (els (w KRemarks) l ++ rest) s = run no_text d t rest (ix (fun m => m ++ l) s).
Proof.
  destruct L as (L1 & L2 & L3). induction l as [|x l IH]; intros rest s HI H.
  - rewrite (L2 _ (fun x => x)), L3 by apply app_nil_r. reflexivity.
  - change (els (w KRemarks) (x :: l) ++ rest) with (NElement (w KRemarks x) :: els (w KRemarks) l ++ rest).
    cbn in H. destruct H as [Hx H]. unfold good in Hx.
    rewrite run_elem, Hl. unfold h_struct_remarks. rewrite Hx. cbn [ok bind].
    rewrite H2 by exact HI. rewrite IH by (try apply H1; assumption).
    rewrite L1. f_equal. apply L2. intros. rewrite <- app_assoc. reflexivity.
Qed.
End StructRemarks.

(** The common form of the five structures. *)
Lemma struct_iff : forall T B n tn bn (wt : T -> Element) (wb : B -> Element) pt pb ct cb f,
  (forall x, name (wt x) = tn) -> (forall x, name (wb x) = bn) ->
  (forall x, pt (wt x) = Ok x <-> allp (ct x)) -> (forall x, pb (wb x) = Ok x <-> allp (cb x)) ->
  tn <> "Remarks"%string -> bn <> "Remarks"%string -> tn <> bn ->
  (parse_struct p n tn bn pt pb (write_struct w n wt wb f) = Ok f <->
   allp (c_struct good ct cb f)).
Proof.
  intros T B n tn bn wt wb pt pb ct cb [t tr b r] Nt Nb Ht Hb D1 D2 D3.
  unfold parse_struct, write_struct, c_struct. rewrite with_name_same by reflexivity.
  cbn [st_title st_title_remarks st_body st_remarks children]. set (E := mkElement _ _ _).
  set (d := reject E). set (tb := [_; _; _]).
  apply String.eqb_neq in D1, D2, D3.
  assert (Lt : forall x, lookup d tb (wt x) = h_some at0 pt (wt x)).
  { intros. unfold lookup. rewrite Nt. cbn. rewrite String.eqb_refl. reflexivity. }
  assert (Lr : forall x, lookup d tb (w KRemarks x) = h_struct_remarks p (w KRemarks x)).
  { intros. unfold lookup. rewrite Hname. cbn [tag_of tb assoc].
    rewrite String.eqb_sym, D1. reflexivity. }
  assert (Lb : forall x, lookup d tb (wb x) = h_some at2 pb (wb x)).
  { intros. unfold lookup. rewrite Nb. cbn [tb assoc].
    rewrite String.eqb_sym, D3. rewrite D2, String.eqb_refl. reflexivity. }
  rewrite !allp_app.
  assert (I1 : forall (f : list (K KRemarks) -> _) (s : @struct_state K T B),
    fst (snd (snd s)) = None -> fst (snd (snd (at1 f s))) = None) by (intros; assumption).
  assert (I2 : forall (f : list (K KRemarks) -> _) (s : @struct_state K T B),
    fst (snd (snd s)) <> None -> fst (snd (snd (at3 f s))) <> None) by (intros; assumption).
  assert (J1 : forall r (s : @struct_state K T B), fst (snd (snd s)) = None ->
    match fst (snd (snd s)) with
    | None => at1 (fun l => app l [r]) s
    | Some _ => at3 (fun l => app l [r]) s
    end = at1 (fun l => l ++ [r]) s) by (intros ? ? ->; reflexivity).
  assert (J2 : forall r (s : @struct_state K T B), fst (snd (snd s)) <> None ->
    match fst (snd (snd s)) with
    | None => at1 (fun l => app l [r]) s
    | Some _ => at3 (fun l => app l [r]) s
    end = at3 (fun l => l ++ [r]) s).
  { intros ? ? Q. destruct (fst (snd (snd s))); [reflexivity|congruence]. }
  rewrite <- (app_nil_r (els (w KRemarks) r)).
  split.
  - intros H. apply bind_ok in H as (st & Hr & H).
    eapply opt_fwd in Hr as (v1 & Hr & _ & Hc1); [|lens_tac|exact Lt|exact Ht].
    eapply (remarks_fwd d tb at1 _ Lr ltac:(lens_tac) I1 J1) in Hr as (v2 & Hr & Hc2); [|reflexivity].
    eapply some_fwd in Hr as (v3 & Hr & Hc3); [|apply Lb|apply Hb].
    eapply (remarks_fwd d tb at3 _ Lr ltac:(lens_tac) I2 J2) in Hr as (v4 & Hr & Hc4); [|discriminate].
    apply ok_inj in Hr. subst st. cbn in H. rewrite orelse_none in H. injection H as -> -> -> ->. done.
  - intros (C1 & C2 & C3 & C4).
    erewrite opt_bwd; [|lens_tac|exact Lt|exact Ht|exact C1].
    rewrite (remarks_bwd d tb at1 _ Lr ltac:(lens_tac) I1 J1) by (reflexivity || assumption).
    erewrite some_bwd; [|apply Lb|apply Hb|exact C3].
    rewrite (remarks_bwd d tb at3 _ Lr ltac:(lens_tac) I2 J2) by (discriminate || assumption).
    cbn. rewrite orelse_none. reflexivity.
Qed.

Lemma step_cstruct : forall s f, step (KCStruct s) f.
Proof.
  intros s f. unfold step. cbn [pstep wstep storable collect].
  split; [intros H; split; [reflexivity|]; revert H|intros [_ H]; revert H];
    (eapply struct_iff; [reflexivity|intros; apply Hname|intros; apply text_iff|intros; apply kind_iff|destruct s; discriminate..]).
Qed.

Lemma fig_iff : forall s, parse_fig (write_fig s) = Ok s <-> allp [].
Proof. intros. cbn. tauto. Qed.

Lemma step_fig_struct : forall f, step KFigStruct f.
Proof.
  intros f. unfold step. cbn [pstep wstep storable collect].
  split; [intros H; split; [reflexivity|]; revert H|intros [_ H]; revert H];
    (eapply struct_iff; [reflexivity|reflexivity|intros; apply text_iff|intros; apply fig_iff|discriminate..]).
Qed.

Lemma step_table_struct : forall f, step KTableStruct f.
Proof.
  intros f. unfold step. cbn [pstep wstep storable collect].
  split; [intros H; split; [reflexivity|]; revert H|intros [_ H]; revert H];
    (eapply struct_iff; [reflexivity|intros; apply Hname|intros; apply twm_iff|intros; apply kind_iff|discriminate..]).
Qed.

Lemma no_void : forall l : list (K KVoid), l = [].
Proof. destruct l as [|x l]; [reflexivity|destruct (Hvoid x)]. Qed.

Lemma step_list : forall l f, step (KList l) f.
Proof.
  intros l [s c]. unfold step. cbn [pstep wstep storable collect list_sentence list_children].
  unfold parse_list, write_list. rewrite with_name_same by reflexivity.
  cbn [list_sentence list_children children name]. rewrite String.eqb_refl.
  unfold parse_list_sentences. cbn [children]. set (E := mkElement _ _ _).
  rewrite allp_app.
  assert (RS : reads no_text (reject E)
    [("Sentence"%string, h_push whole LS_Sentence (p KSentence));
     ("Column"%string, h_push whole LS_Column (p KColumn))] whole
    (fun x => NElement (write_list_sentence w x)) ex1 (c_ls good)).
  { intros []; cbn [write_list_sentence c_ls]; push. }
  change (map (good (sub_list l)) c)
    with (map (fun x => p (sub_list l) (w (sub_list l) x) = Ok x) c).
  rewrite <- parse_all_els.
  assert (P : match l with Sublist3 => Ok [] | _ => parse_all (p (sub_list l)) (els (w (sub_list l)) c) end
    = parse_all (p (sub_list l)) (els (w (sub_list l)) c)).
  { clear RS. destruct l; try reflexivity. cbn [sub_list] in c. rewrite (no_void c). reflexivity. }
  rewrite P. split.
  - intros H. apply bind_ok in H as (v & Hr & H). apply bind_ok in H as (v2 & Hr2 & H).
    injection H as -> ->. eapply reads_fwd_end in Hr as (vs & Hv & Hc); [|lens_tac|apply RS].
    apply Hc in Hv. tauto.
  - intros (_ & H1 & H2). unfold els at 1.
    erewrite reads_bwd_end; [|lens_tac|apply RS|cnd|cnd]. cbn [bind]. rewrite H2. reflexivity.
Qed.

Lemma step_item : forall l f, step (KItem l) f.
Proof.
  intros l [t s c st n dl h]. unfold step.
  cbn [pstep wstep storable collect it_title it_sentence it_children it_struct_list it_num].
  unfold parse_item, write_item. rewrite with_name_same by reflexivity.
  cbn [it_title it_sentence it_children it_struct_list it_num it_delete it_hide].
  set (e := mkElement _ _ _).
  assert (A1 : get e "Num" = option_map num_str n) by at_tac.
  assert (A2 : get e "Delete" = if dl then Some "true"%string else None) by at_tac.
  assert (A3 : get e "Hide" = if h then Some "true"%string else None) by at_tac.
  apply read_flag in A2, A3. rewrite A2, A3. unfold get_attribute. rewrite A1.
  destruct n as [n|]; cbn [option_map bind]; [|split; [discriminate|intros [? _]; discriminate]].
  rewrite andb_true_iff, !allp_app, <- num_str_roundtrip_iff. cbn [children e]. unfold els.
  clear A1 A2 A3. clearbody e.
  split.
  - intros H. apply bind_ok in H as (n' & Hn & H). apply bind_ok in H as (st' & Hr & H).
    assert (G : exists v1 v2 v3 v4, st' = (v1, (Some v2, (v3, (v4, tt)))) /\
      (v1 = t -> allp (c_opt (c_text good) t)) /\ (v2 = s -> sct_full s = true /\ allp (c_sct good s)) /\
      (v3 = st -> allp (flat_map (c_any_struct good) st)) /\
      (v4 = c -> allp (map (good (sub_item l)) c))).
    { clear H Hn. destruct l; unfold item_table, sub_item, item_tag in *.
      11: rewrite (no_void c) in *; cbn [map app] in Hr.
      all: fwd Hr v1 Hc1; eapply some_fwd in Hr as (v2 & Hr & Hc2); [|look|apply sct_iff].
      1-10: fwd Hr v4 Hc4; rewrite flat_map_single in Hc4.
      all: fwdm Hr v3 Hc3 (c_any_struct good); state Hr; subst st'; do 4 eexists; split; [reflexivity|];
        split; [exact Hc1|]; split; [exact Hc2|]; split; [intros Q; apply Hc3, Q|].
      11: intros _; exact I.
      all: intros Q; apply Hc4, Q. }
    destruct G as (v1 & v2 & v3 & v4 & -> & G1 & G2 & G3 & G4). injection H as -> -> -> -> ->.
    apply (proj1 (ok_iff _ _ _)) in Hn. done.
  - intros ((H1 & H2) & H3 & H4 & H5 & H6). rewrite H1. cbn [ok bind].
    match goal with |- bind ?x _ = _ =>
      assert (G : x = Ok (t, (Some s, (st, (c, tt))))) end.
    { destruct l; unfold item_table, sub_item, item_tag in *.
      11: rewrite (no_void c) in *; cbn [map]; rewrite app_nil_l.
      all: bwd; erewrite some_bwd; [|look|apply sct_iff|split; eassumption].
      1-10: bwd.
      all: bwdm (c_any_struct good); cbv beta iota delta [at0 at1 at2 at3 fst snd app];
        rewrite orelse_none; reflexivity. }
    rewrite G. reflexivity.
Qed.

Lemma step_paragraph : forall f, step KParagraph f.
Proof.
  intros [cap pn am cl sen st items n os on h]. unfold step.
  cbn [pstep wstep storable collect par_caption par_paragraph_num par_amend_provision par_class
    par_sentence par_struct_list par_children par_num].
  unfold parse_paragraph, write_paragraph. rewrite with_name_same by reflexivity.
  cbn [par_caption par_paragraph_num par_amend_provision par_class
    par_sentence par_struct_list par_children par_num par_old_style par_old_num par_hide].
  set (e := mkElement _ _ _).
  assert (A1 : get e "Num" = Some (num_str n)) by at_tac.
  assert (A2 : get e "OldStyle" = if os then Some "true"%string else None) by at_tac.
  assert (A3 : get e "OldNum" = if on then Some "true"%string else None) by at_tac.
  assert (A4 : get e "Hide" = if h then Some "true"%string else None) by at_tac.
  apply read_flag in A2, A3, A4. apply read_attribute in A1. rewrite A1, A2, A3, A4.
  cbn [bind]. rewrite !allp_app, <- num_str_roundtrip_iff. cbn [children e]. unfold els.
  clear A1 A2 A3 A4. clearbody e. set (c := mkElement "ParagraphSentence" [] _).
  assert (LS : lookup (reject e) (paragraph_table p) c = h_sentences p at2 c) by reflexivity.
  assert (HS : parse_all (p KSentence) (children c) = Ok sen <-> allp (map (good KSentence) sen)).
  { apply parse_all_els. }
  split.
  - intros H. apply bind_ok in H as (n' & Hn & H). apply bind_ok in H as (st' & Hr & H).
    fwd Hr v1 Hc1. fwd Hr v2 Hc2.
    cbn [app] in Hr. rewrite run_elem, LS in Hr. unfold h_sentences in Hr. rewrite bind_assoc in Hr.
    apply bind_ok in Hr as (v3 & Hc3 & Hr). cbn [bind] in Hr.
    fwd Hr v4 Hc4. fwd Hr v5 Hc5. fwdm Hr v6 Hc6 (c_any_struct good). fwd Hr v7 Hc7.
    state Hr. subst st'. injection H as -> -> -> -> -> -> -> ->.
    rewrite flat_map_single in Hc4, Hc5, Hc7. apply HS in Hc3. done.
  - intros (H1 & H2 & H3 & H4 & H5 & H6 & H7 & H8). rewrite H1. cbn [bind].
    bwd. bwd. cbn [app]. rewrite run_elem, LS. unfold h_sentences. apply HS in H4. rewrite H4. cbn [bind].
    bwd. bwd. bwdm (c_any_struct good). bwd.
    cbv beta iota delta [at0 at1 at2 at3 at4 at5 at6 fst snd app bind]. rewrite orelse_none. reflexivity.
Qed.

Lemma step_article : forall f, step KArticle f.
Proof.
  intros [cap t ps note n dl h]. unfold step.
  cbn [pstep wstep storable collect art_caption art_title art_paragraph art_suppl_note art_num].
  unfold parse_article, write_article. rewrite with_name_same by reflexivity.
  cbn [art_caption art_title art_paragraph art_suppl_note art_num art_delete art_hide].
  set (e := mkElement _ _ _).
  assert (A1 : get e "Num" = Some (num_str n)) by at_tac.
  assert (A2 : get e "Delete" = if dl then Some "true"%string else None) by at_tac.
  assert (A3 : get e "Hide" = if h then Some "true"%string else None) by at_tac.
  apply read_flag in A2, A3. apply read_attribute in A1. rewrite A1, A2, A3.
  cbn [bind]. rewrite andb_true_iff, !allp_app, <- num_str_roundtrip_iff. cbn [children e].
  clear A1 A2 A3. clearbody e.
  set (rest := els (w KParagraph) ps ++ el_opt (write_text w "SupplNote") note).
  assert (HH : forall c0, article_head p ([NElement (write_text w "ArticleTitle" t)] ++ rest) c0 [] =
    bind (p_text p (write_text w "ArticleTitle" t)) (fun t' =>
      if is_nil ps && is_none note then Panic else Ok (c0, (t', rest)))).
  { intros c0. cbn [app article_head write_text name]. cbn [String.eqb Ascii.eqb Bool.eqb].
    apply bind_ext; [reflexivity|]. intros t'. unfold rest. destruct ps as [|x ps].
    - destruct note; reflexivity.
    - cbn [els map app article_head]. rewrite Hname. reflexivity. }
  assert (HA : article_head p (el_opt (write_caption w "ArticleCaption") cap ++
      [NElement (write_text w "ArticleTitle" t)] ++ rest) None [] =
    bind (match cap with Some c => rmap Some (parse_caption p (write_caption w "ArticleCaption" c))
          | None => Ok None end) (fun c' =>
      bind (p_text p (write_text w "ArticleTitle" t)) (fun t' =>
      if is_nil ps && is_none note then Panic else Ok (c', (t', rest))))).
  { destruct cap as [c|]; [|apply HH].
    change (el_opt (write_caption w "ArticleCaption") (Some c)) with [NElement (write_caption w "ArticleCaption" c)].
    rewrite <- app_comm_cons. rewrite app_nil_l.
    change (article_head p (NElement (write_caption w "ArticleCaption" c) ::
       [NElement (write_text w "ArticleTitle" t)] ++ rest) None [])
      with (bind (parse_caption p (write_caption w "ArticleCaption" c)) (fun c' =>
        article_head p ([NElement (write_text w "ArticleTitle" t)] ++ rest) (Some c') [])).
    unfold rmap. rewrite bind_assoc. apply bind_ext; [reflexivity|]. intros c'. rewrite HH. reflexivity. }
  rewrite HA. unfold rest, els. split.
  - intros H. apply bind_ok in H as (n' & Hn & H). rewrite bind_assoc in H.
    apply bind_ok in H as (c' & Hcap & H). rewrite bind_assoc in H.
    apply bind_ok in H as (t' & Ht & H). destruct (is_nil ps && is_none note); [discriminate|].
    cbn [bind] in H. apply bind_ok in H as (st' & Hr & H). fwd Hr v1 Hc1. fwd Hr v2 Hc2.
    state Hr. subst st'. injection H as -> -> -> -> ->. rewrite flat_map_single in Hc1.
    apply text_iff in Ht.
    assert (C0 : allp (c_opt (c_caption good) cap)).
    { destruct cap as [c|]; [|exact I]. cbn [c_opt]. apply (caption_iff "ArticleCaption").
      unfold rmap in Hcap. apply bind_ok in Hcap as (c' & Hc' & E). injection E as ->. exact Hc'. }
    done.
  - intros ((H1 & H2) & H3 & H4 & H5 & H6). rewrite H1. cbn [bind].
    apply (text_iff "ArticleTitle") in H4. rewrite H4.
    assert (C0 : match cap with
      | Some c => rmap Some (parse_caption p (write_caption w "ArticleCaption" c))
      | None => Ok None end = Ok cap).
    { destruct cap as [c|]; [|reflexivity]. apply (caption_iff "ArticleCaption") in H3. rewrite H3. reflexivity. }
    rewrite C0. cbn [bind]. destruct (is_nil ps && is_none note); [discriminate|]. cbn [bind].
    bwd. bwd. cbv beta iota delta [at0 at1 fst snd app bind]. rewrite orelse_none. reflexivity.
Qed.

(** The five headings. *)
Lemma head_iff : forall C n (wc : C -> Element) tbl cc f,
  (forall e, reads no_text (reject e) tbl whole (fun x => NElement (wc x)) ex1 cc) ->
  (parse_head p n tbl (write_head w n wc f) = Ok f <->
   an_ok (hd_num f) = true /\ allp (c_head good cc f)).
Proof.
  intros C n wc tbl cc [t c nu dl h] HR. unfold parse_head, write_head, c_head.
  rewrite with_name_same by reflexivity. cbn [hd_title hd_children hd_num hd_delete hd_hide].
  set (e := mkElement _ _ _).
  assert (A1 : get e "Num" = Some (num_str nu)) by at_tac.
  assert (A2 : get e "Delete" = if dl then Some "true"%string else None) by at_tac.
  assert (A3 : get e "Hide" = if h then Some "true"%string else None) by at_tac.
  apply read_flag in A2, A3. apply read_attribute in A1. rewrite A1, A2, A3.
  cbn [bind]. rewrite allp_app, <- num_str_roundtrip_iff. cbn [children e name write_text].
  rewrite String.eqb_refl. rewrite <- (text_iff (n ++ "Title")). unfold els. split.
  - intros H. apply bind_ok in H as (n' & Hn & H). apply bind_ok in H as (t' & Ht & H).
    apply bind_ok in H as (v & Hr & H). injection H as -> -> ->.
    eapply reads_fwd_end in Hr as (v1 & Hv & Hc); [|lens_tac|apply HR]. apply Hc in Hv. tauto.
  - intros (H1 & H2 & H3). rewrite H1. cbn [bind]. rewrite H2. cbn [bind].
    erewrite reads_bwd_end; [|lens_tac|apply HR|cnd|exact H3]. reflexivity.
Qed.

Lemma step_part : forall f, step KPart f.
Proof. intros f. apply head_iff. intros e. rdm. Qed.
Lemma step_chapter : forall f, step KChapter f.
Proof. intros f. apply head_iff. intros e. rdm. Qed.
Lemma step_section : forall f, step KSection f.
Proof. intros f. apply head_iff. intros e. rdm. Qed.
Lemma step_subsection : forall f, step KSubsection f.
Proof. intros f. apply head_iff. intros e. rdm. Qed.
Lemma step_division : forall f, step KDivision f.
Proof. intros f. apply head_iff. intros e. rd. Qed.

Lemma step_amend : forall f, step KAmend f.
Proof.
  intros [s l]. unfold step. cbn [pstep wstep storable collect am_sentence am_new].
  unfold parse_amend, write_amend. rewrite with_name_same by reflexivity.
  cbn [am_sentence am_new children]. rewrite allp_app. set (e := mkElement _ _ _).
  set (ws := fun s => mkElement "AmendProvisionSentence" [] [NElement (w KSentence s)]).
  set (wn := fun c => mkElement "AmendProvisionSentence" [] [NElement (write_new_provision w c)]).
  clearbody e.
  match goal with |- context [run no_text ?d ?t _ _] => set (tb := t) end.
  assert (Lk : forall x, lookup (reject e) tb (ws x) = h_some at0 (parse_amend_sentence p) (ws x)) by look.
  assert (Ln : forall x, lookup (reject e) tb (wn x) = h_some at0 (parse_amend_sentence p) (wn x)) by look.
  assert (N : forall l (x : option (K KSentence) * (list (NewProvision K) * unit)) y,
    run no_text (reject e) tb (els wn l) x = Ok y -> snd y = snd x).
  { induction l0 as [|c l0 IH]; intros x y Hr; [injection Hr as <-; reflexivity|].
    change (els wn (c :: l0)) with (NElement (wn c) :: els wn l0) in Hr.
    rewrite run_elem, Ln in Hr. unfold h_some in Hr. rewrite bind_assoc in Hr.
    apply bind_ok in Hr as (v & _ & Hr). cbn [bind] in Hr. apply IH in Hr. exact Hr. }
  split.
  - intros H. apply bind_ok in H as (st & Hr & H).
    eapply opt_fwd in Hr as (v & Hr & _ & Hc); [|lens_tac|exact Lk|intros; apply kind_iff].
    pose proof (N _ _ _ Hr) as Hs. state Hs. destruct st as (s' & n' & []). cbn in Hs. injection Hs as ->.
    injection H as -> <-. cbn in Hr. state Hr. injection Hr as ->. done.
  - intros (H & H1 & H2). destruct l; [|discriminate].
    erewrite opt_bwd; [|lens_tac|exact Lk|intros; apply kind_iff|exact H1].
    cbn. rewrite orelse_none. reflexivity.
Qed.

Lemma step_law_title : forall f, step KLawTitle f.
Proof.
  intros [a b c t]. unfold step. cbn [pstep wstep storable collect lt_text].
  unfold parse_law_title, write_law_title. rewrite with_name_same by reflexivity.
  cbn [lt_kana lt_abbrev lt_abbrev_kana lt_text].
  rewrite (read_string_opt _ "Kana" a) by at_tac. rewrite (read_string_opt _ "Abbrev" b) by at_tac.
  rewrite (read_string_opt _ "AbbrevKana" c) by at_tac. cbn [bind children].
  rewrite <- text_nodes. split.
  - intros H. apply bind_ok in H as (v & Hv & H). injection H as ->. auto.
  - intros [_ H]. rewrite H. reflexivity.
Qed.

Lemma step_preamble : forall f, step KPreamble f.
Proof.
  intros f. unfold step. cbn [pstep wstep storable collect].
  unfold parse_preamble, write_preamble. rewrite with_name_same by reflexivity.
  cbn [children]. unfold els. split.
  - intros H. fwd H v Hc. rewrite flat_map_single in Hc. split; [reflexivity|]. apply Hc, H.
  - intros [_ H]. bwd. reflexivity.
Qed.

Lemma step_main : forall f, step KMain f.
Proof.
  intros [c x]. unfold step. cbn [pstep wstep storable collect main_children].
  unfold parse_main, write_main. rewrite with_name_same by reflexivity.
  cbn [main_children main_extract]. rewrite (read_bool_opt _ _ x) by at_tac.
  cbn [bind children]. unfold els. split.
  - intros H. apply bind_ok in H as (v & Hr & H). injection H as ->.
    fwdm Hr v Hc (c_mc good). split; [reflexivity|]. apply Hc, Hr.
  - intros [_ H]. bwdm (c_mc good). reflexivity.
Qed.

Lemma reads_sp : forall e, reads no_text (reject e) (suppl_table p) at1
  (fun x => NElement (write_suppl_node w x)) ex1 (c_sp good).
Proof.
  intros e []; cbn [write_suppl_node c_sp]; try push2. split.
  - intros r s s' H. rewrite run_elem in H. unfold lookup in H. rewrite Hname in H.
    cbn in H. destruct (name e); discriminate.
  - cbn [allp]. intros [_ [H _]]. destruct (Happdx _ H).
Qed.

Lemma step_suppl : forall f, step KSuppl f.
Proof.
  intros [lb c ty al x]. unfold step. cbn [pstep wstep storable collect sp_label sp_children].
  unfold parse_suppl, write_suppl. rewrite with_name_same by reflexivity.
  cbn [sp_label sp_children sp_type sp_amend_law_num sp_extract]. set (e := mkElement _ _ _).
  assert (A1 : get e "Type" = option_map suppl_type_str ty) by at_tac.
  assert (A2 : get e "Extract" = option_map bool_to_string x) by at_tac.
  assert (A3 : get e "AmendLawNum" = al) by at_tac.
  assert (A4 : enum_opt (option_map suppl_type_str ty) [("New"%string, TNew); ("Amend"%string, TAmend)]
    (AttributeParseError "SupplProbision" "Type") = Ok ty) by (destruct ty as [[]|]; reflexivity).
  apply read_bool_opt in A2. rewrite A1, A2, A3, A4. cbn [bind children e]. clear A1 A2 A3 A4.
  clearbody e. unfold els. rewrite allp_app. split.
  - intros H. apply bind_ok in H as (st & Hr & H).
    assert (G : exists v1, (v1 = lb -> allp (c_text good lb)) /\
      run no_text (reject e) (suppl_table p) (map (fun x => NElement (write_suppl_node w x)) c)
        (v1, ([], tt)) = Ok st).
    { destruct lb as [|t lb]; [exists []; split; [intros _; exact I|exact Hr]|].
      fwd Hr v1 Hc1. exists v1. split; [exact Hc1|exact Hr]. }
    destruct G as (v1 & Hc1 & G). eapply reads_fwd_end in G as (v2 & G & Hc2); [| |apply reads_sp]; [|lens_tac]. state G. subst st.
    injection H as -> ->. done.
  - intros (_ & H1 & H2).
    assert (G : run no_text (reject e) (suppl_table p)
        (match lb with [] => [] | _ => [NElement (write_text w "SupplProvisionLabel" lb)] end ++
         map (fun x => NElement (write_suppl_node w x)) c) ([], ([], tt)) =
      run no_text (reject e) (suppl_table p) (map (fun x => NElement (write_suppl_node w x)) c)
        (lb, ([], tt))).
    { destruct lb as [|t lb]; [reflexivity|]. bwd. reflexivity. }
    rewrite G. erewrite reads_bwd_end; [| |apply reads_sp|cnd|cnd]; [|lens_tac]. reflexivity.
Qed.

Lemma step_suppl_table : forall f, step KSupplTable f.
Proof.
  intros [t r c n]. unfold step. cbn [pstep wstep storable]. split; [|intros [? _]; discriminate].
  unfold parse_suppl_table, write_suppl_table, parse_suppl_ts, write_suppl_ts.
  rewrite with_name_same by reflexivity. cbn [sts_title sts_related sts_children sts_num].
  rewrite (read_string_opt _ _ n) by at_tac. cbn [bind children app]. rewrite run_elem.
  unfold lookup, write_twm. discriminate.
Qed.

Lemma step_suppl_style : forall f, step KSupplStyle f.
Proof.
  intros [t r c n]. unfold step. cbn [pstep wstep storable collect]. unfold c_sts.
  unfold parse_suppl_style, write_suppl_style, parse_suppl_ts, write_suppl_ts.
  rewrite with_name_same by reflexivity. cbn [sts_title sts_related sts_children sts_num].
  rewrite (read_string_opt _ _ n) by at_tac. cbn [bind children]. rewrite !allp_app. unfold els. split.
  - intros H. apply bind_ok in H as (st & Hr & H). fwd Hr v1 Hc1. fwd Hr v2 Hc2. fwd Hr v3 Hc3.
    state Hr. subst st. injection H as -> -> ->. done.
  - intros (_ & H1 & H2 & H3). bwd. bwd. bwd.
    cbv beta iota delta [at0 at1 at2 fst snd app bind]. rewrite orelse_none. reflexivity.
Qed.

Lemma step_suppl_appdx : forall f, step KSupplAppdx f.
Proof.
  intros f. unfold step. cbn [pstep wstep storable]. split; [|intros [? _]; discriminate].
  unfold parse_suppl_appdx, write_suppl_appdx, with_name. cbn. discriminate.
Qed.

(** The four appendices with title, children and remarks. *)
Lemma appdx_t_iff : forall C n (wc : C -> Element) rows cc f,
  (n ++ "Title" <> "Remarks")%string -> (n ++ "Title" <> "RelatedArticleNum")%string ->
  assoc "RelatedArticleNum" rows = None -> assoc "Remarks" rows = None ->
  (forall e, reads no_text (reject e)
     ([((n ++ "Title")%string, h_some at0 (parse_twm p));
       ("RelatedArticleNum"%string, h_some at1 (p_text p))]
      ++ rows ++ [("Remarks"%string, h_some at3 (p KRemarks))])
     at2 (fun x => NElement (wc x)) ex1 cc) ->
  (parse_appdx_t p n rows (write_appdx_t w n wc f) = Ok f <-> allp (c_appdx_t good cc f)).
Proof.
  intros C n wc rows cc [t r c rm nu] D1 D2 R1 R2 HR. unfold parse_appdx_t, write_appdx_t, c_appdx_t.
  rewrite with_name_same by reflexivity. cbn [ax_title ax_related ax_children ax_remarks ax_num].
  rewrite (read_string_opt _ _ nu) by at_tac. cbn [bind children]. rewrite !allp_app.
  set (e := mkElement _ _ _). set (tb := app _ _). specialize (HR e). fold tb in HR. clearbody e.
  apply String.eqb_neq in D1, D2.
  assert (L1 : forall x, lookup (reject e) tb (write_twm w (n ++ "Title") x) =
    h_some at0 (parse_twm p) (write_twm w (n ++ "Title") x)).
  { intros. unfold lookup, tb, write_twm. cbn [name app assoc]. rewrite String.eqb_refl. reflexivity. }
  assert (L2 : forall x, lookup (reject e) tb (write_text w "RelatedArticleNum" x) =
    h_some at1 (p_text p) (write_text w "RelatedArticleNum" x)).
  { intros. unfold lookup, tb, write_text. cbn [name app assoc]. rewrite String.eqb_sym, D2. reflexivity. }
  assert (L3 : forall x, lookup (reject e) tb (w KRemarks x) = h_some at3 (p KRemarks) (w KRemarks x)).
  { intros. unfold lookup, tb. rewrite Hname. cbn [tag_of app assoc]. rewrite String.eqb_sym, D1.
    cbn [String.eqb Ascii.eqb Bool.eqb]. revert R2. clear. induction rows as [|[m h] rows IH]; [reflexivity|].
    cbn [app assoc]. destruct (String.eqb "Remarks" m); [discriminate|exact IH]. }
  unfold els. split.
  - intros H. apply bind_ok in H as (st & Hr & H).
    eapply opt_fwd in Hr as (v1 & Hr & _ & Hc1); [|lens_tac|exact L1|intros; apply twm_iff].
    eapply opt_fwd in Hr as (v2 & Hr & _ & Hc2); [|lens_tac|exact L2|intros; apply text_iff].
    eapply reads_fwd in Hr as (v3 & Hr & Hc3); [|lens_tac|exact HR].
    eapply opt_fwd_end in Hr as (v4 & Hr & _ & Hc4); [|lens_tac|exact L3|intros; apply kind_iff].
    state Hr. subst st. injection H as -> -> -> ->. done.
  - intros (H1 & H2 & H3 & H4).
    erewrite opt_bwd; [|lens_tac|exact L1|intros; apply twm_iff|exact H1].
    erewrite opt_bwd; [|lens_tac|exact L2|intros; apply text_iff|exact H2].
    erewrite reads_bwd; [|lens_tac|exact HR|cnd|exact H3].
    erewrite opt_bwd_end; [|lens_tac|exact L3|intros; apply kind_iff|exact H4].
    cbv beta iota delta [at0 at1 at2 at3 fst snd app bind]. rewrite !orelse_none. reflexivity.
Qed.

Ltac appdx r :=
  intros f; unfold step; cbn [pstep wstep storable collect];
  split; [intros H; split; [reflexivity|]; revert H|intros [_ H]; revert H];
  (eapply appdx_t_iff; [discriminate|discriminate|reflexivity|reflexivity|intros e; r]).

Lemma step_appdx_table : forall f, step KAppdxTable f.
Proof. appdx rdm. Qed.
Lemma step_appdx_note : forall f, step KAppdxNote f.
Proof. appdx rdm. Qed.
Lemma step_appdx_style : forall f, step KAppdxStyle f.
Proof. appdx rd. Qed.
Lemma step_appdx_format : forall f, step KAppdxFormat f.
Proof. appdx rd. Qed.

Lemma reads_arith : forall S (txt : string -> S -> S) d t ix,
  (forall x, lookup d t (write_arith w x) = h_push ix (fun v => v) (parse_arith p) (write_arith w x)) ->
  reads txt d t ix (fun x => NElement (write_arith w x)) no_formula_num (c_arith good).
Proof.
  intros S txt d t ix H x. apply (elem_push txt d t _ _ ix (fun v => v) (parse_arith p)); auto.
  apply arith_iff.
Qed.

Lemma step_appdx : forall f, step KAppdx f.
Proof.
  intros [fn r c rm]. unfold step.
  cbn [pstep wstep storable collect ap_arith_formula_num ap_related ap_arith_formula ap_remarks].
  unfold parse_appdx, write_appdx. rewrite with_name_same by reflexivity.
  cbn [ap_arith_formula_num ap_related ap_arith_formula ap_remarks children].
  rewrite andb_true_iff, !allp_app. unfold els. split.
  - intros H. apply bind_ok in H as (st & Hr & H).
    eapply opt_fwd in Hr as (v1 & Hr & _ & Hc1); [| |look|intros; apply text_iff]; [|lens_tac].
    eapply opt_fwd in Hr as (v2 & Hr & Hn & _); [| |look|intros; apply text_iff]; [|lens_tac].
    eapply reads_fwd in Hr as (v3 & Hr & Hc3); [| |apply reads_arith; look]; [|lens_tac].
    fwd Hr v4 Hc4. state Hr. subst st. injection H as E1 <- -> ->.
    rewrite (proj2 Hn eq_refl) in E1. cbn in E1. apply Hc1 in E1. done.
  - intros ((H0 & H1) & H2 & H3 & H4 & H5). destruct r; [discriminate|]. cbn [el_opt].
    rewrite app_nil_l. bwd. erewrite reads_bwd; [| |apply reads_arith; look|exact H1|exact H4]; [|lens_tac].
    bwd. cbv beta iota delta [at0 at1 at2 at3 fst snd app bind]. rewrite !orelse_none. reflexivity.
Qed.

Lemma step_appdx_fig : forall f, step KAppdxFig f.
Proof.
  intros [t r c n]. unfold step. cbn [pstep wstep storable collect af_title af_related af_children].
  unfold parse_appdx_fig, write_appdx_fig. rewrite with_name_same by reflexivity.
  cbn [af_title af_related af_children af_fnum].
  rewrite (read_string_opt _ _ n) by at_tac. cbn [bind children]. rewrite !allp_app. unfold els. split.
  - intros H. apply bind_ok in H as (st & Hr & H). fwd Hr v1 Hc1. fwd Hr v2 Hc2.
    fwdm Hr v3 Hc3 (c_af good). state Hr. subst st. injection H as -> -> ->. done.
  - intros (_ & H1 & H2 & H3). bwd. bwd. bwdm (c_af good).
    cbv beta iota delta [at0 at1 at2 fst snd app bind]. rewrite !orelse_none. reflexivity.
Qed.

(** The five headings of a table of contents. *)
Lemma toc_head_iff : forall C n tn (wc : C -> Element) rows cc f,
  tn <> "ArticleRange"%string ->
  (forall e, reads no_text (reject e)
     ([(tn, h_put at0 (p_text p)); ("ArticleRange"%string, h_some at1 (p_text p))] ++ rows)
     at2 (fun x => NElement (wc x)) ex1 cc) ->
  (parse_toc_head p n tn rows (write_toc_head w n tn wc f) = Ok f <->
   an_ok (th_num f) = true /\ allp (c_toc_head good cc f)).
Proof.
  intros C n tn wc rows cc [t r nu dl c] D HR. unfold parse_toc_head, write_toc_head, c_toc_head.
  rewrite with_name_same by reflexivity. cbn [th_title th_range th_num th_delete th_children].
  set (e := mkElement _ _ _).
  assert (A1 : get e "Num" = Some (num_str nu)) by at_tac.
  assert (A2 : get e "Delete" = if dl then Some "true"%string else None) by at_tac.
  apply read_flag in A2. apply read_an in A1. rewrite A2, <- A1. cbn [bind children e]. rewrite !allp_app.
  clear A1 A2. specialize (HR e). clearbody e. set (tb := app [_; _] _). fold tb in HR.
  apply String.eqb_neq in D.
  assert (L1 : lookup (reject e) tb (write_text w tn t) = h_put at0 (p_text p) (write_text w tn t)).
  { unfold lookup, tb, write_text. cbn [name app assoc]. rewrite String.eqb_refl. reflexivity. }
  assert (L2 : forall x, lookup (reject e) tb (write_text w "ArticleRange" x) =
    h_some at1 (p_text p) (write_text w "ArticleRange" x)).
  { intros. unfold lookup, tb, write_text. cbn [name app assoc]. rewrite String.eqb_sym, D. reflexivity. }
  unfold els. split.
  - intros H. apply bind_ok in H as (n' & Hn & H). apply bind_ok in H as (st & Hr & H).
    eapply put_fwd in Hr as (v1 & Hr & Hc1); [|exact L1|apply text_iff].
    eapply opt_fwd in Hr as (v2 & Hr & _ & Hc2); [|lens_tac|exact L2|intros; apply text_iff].
    eapply reads_fwd_end in Hr as (v3 & Hr & Hc3); [|lens_tac|exact HR].
    state Hr. subst st. injection H as -> -> -> ->. done.
  - intros (H0 & H1 & H2 & H3). rewrite H0. cbn [bind].
    erewrite put_bwd; [|exact L1|apply text_iff|exact H1].
    erewrite opt_bwd; [|lens_tac|exact L2|intros; apply text_iff|exact H2].
    erewrite reads_bwd_end; [|lens_tac|exact HR|cnd|exact H3].
    cbv beta iota delta [at0 at1 at2 fst snd app bind]. rewrite !orelse_none. reflexivity.
Qed.

Lemma step_toc_part : forall f, step KTOCPart f.
Proof. intros f. apply toc_head_iff; [discriminate|intros e; rd]. Qed.
Lemma step_toc_chapter : forall f, step KTOCChapter f.
Proof. intros f. apply toc_head_iff; [discriminate|intros e; rd]. Qed.
Lemma step_toc_section : forall f, step KTOCSection f.
Proof. intros f. apply toc_head_iff; [discriminate|intros e; rdm]. Qed.
Lemma step_toc_subsection : forall f, step KTOCSubsection f.
Proof. intros f. apply toc_head_iff; [discriminate|intros e; rd]. Qed.
Lemma step_toc_division : forall f, step KTOCDivision f.
Proof. intros f. apply toc_head_iff; [discriminate|intros e []]. Qed.

Lemma step_toc_article : forall f, step KTOCArticle f.
Proof.
  intros [t c nu dl]. unfold step. cbn [pstep wstep storable collect ta_title ta_caption ta_num].
  unfold parse_toc_article, write_toc_article. rewrite with_name_same by reflexivity.
  cbn [ta_title ta_caption ta_num ta_delete]. set (e := mkElement _ _ _).
  assert (A1 : get e "Num" = Some (num_str nu)) by at_tac.
  assert (A2 : get e "Delete" = if dl then Some "true"%string else None) by at_tac.
  apply read_flag in A2. apply read_an in A1. rewrite A2, <- A1. cbn [bind children e]. rewrite !allp_app.
  clear A1 A2. clearbody e.
  change [NElement (write_text w "ArticleTitle" t); NElement (write_caption w "ArticleCaption" c)]
    with ([NElement (write_text w "ArticleTitle" t)] ++ [NElement (write_caption w "ArticleCaption" c)] ++ []).
  split.
  - intros H. apply bind_ok in H as (n' & Hn & H). apply bind_ok in H as (st & Hr & H).
    fwd Hr v1 Hc1. fwd Hr v2 Hc2. apply ok_inj in Hr. state Hr. subst st. injection H as -> -> ->. done.
  - intros (H0 & H1 & H2). rewrite H0. cbn [bind]. bwd. bwd. reflexivity.
Qed.

Lemma step_toc_suppl : forall f, step KTOCSuppl f.
Proof.
  intros [t r c]. unfold step. cbn [pstep wstep storable collect ts_label ts_range ts_children].
  unfold parse_toc_suppl, write_toc_suppl. rewrite with_name_same by reflexivity.
  cbn [ts_label ts_range ts_children children]. rewrite !allp_app. unfold els. split.
  - intros H. apply bind_ok in H as (st & Hr & H). fwd Hr v1 Hc1. fwd Hr v2 Hc2.
    fwdm Hr v3 Hc3 (c_tsp good). state Hr. subst st. injection H as -> -> ->. done.
  - intros (_ & H1 & H2 & H3). bwd. bwd. bwdm (c_tsp good).
    cbv beta iota delta [at0 at1 at2 fst snd app bind]. rewrite !orelse_none. reflexivity.
Qed.

Lemma step_toc : forall f, step KTOC f.
Proof.
  intros [l pl m s a]. unfold step.
  cbn [pstep wstep storable collect toc_label toc_preamble_label toc_main toc_suppl toc_appdx_table_label].
  unfold parse_toc, write_toc. rewrite with_name_same by reflexivity.
  cbn [toc_label toc_preamble_label toc_main toc_suppl toc_appdx_table_label children].
  rewrite !allp_app. unfold els. split.
  - intros H. apply bind_ok in H as (st & Hr & H).
    eapply opt_fwd in Hr as (v1 & Hr & _ & Hc1); [| |look|intros; apply text_iff]; [|lens_tac].
    eapply opt_fwd in Hr as (v2 & Hr & Hn & _); [| |look|intros; apply text_iff]; [|lens_tac].
    fwdm Hr v3 Hc3 (c_tm good). fwd Hr v4 Hc4. fwd Hr v5 Hc5.
    state Hr. subst st. injection H as E1 <- -> -> ->.
    rewrite (proj2 Hn eq_refl) in E1. cbn in E1. apply Hc1 in E1. done.
  - intros (H0 & H1 & H2 & H3 & H4 & H5). destruct pl; [discriminate|]. cbn [el_opt].
    rewrite app_nil_l. bwd. bwdm (c_tm good). bwd. bwd.
    cbv beta iota delta [at0 at1 at2 at3 at4 fst snd app bind]. rewrite !orelse_none. reflexivity.
Qed.

Lemma step_law_body : forall f, step KLawBody f.
Proof.
  intros [t en sub toc pre m sp a1 a2 a3 a4 a5 a6]. unfold step.
  cbn [pstep wstep storable collect lb_law_title lb_enact_statement lb_subject lb_toc lb_preamble
    lb_main_provision lb_suppl_provision lb_appdx_table lb_appdx_note lb_appdx_style lb_appdx
    lb_appdx_fig lb_appdx_format].
  unfold parse_law_body, write_law_body. rewrite with_name_same by reflexivity.
  cbn [lb_law_title lb_enact_statement lb_subject lb_toc lb_preamble
    lb_main_provision lb_suppl_provision lb_appdx_table lb_appdx_note lb_appdx_style lb_appdx
    lb_appdx_fig lb_appdx_format].
  rewrite (read_string_opt _ _ sub) by at_tac. cbn [bind children].
  set (e := mkElement _ _ _). clearbody e. rewrite !allp_app. unfold els. split.
  - intros H. apply bind_ok in H as (st & Hr & H). fwd Hr v1 Hc1. fwd Hr v2 Hc2. fwd Hr v3 Hc3.
    fwd Hr v4 Hc4. fwd Hr v5 Hc5. fwd Hr v6 Hc6. fwd Hr v7 Hc7. fwd Hr v8 Hc8. fwd Hr v9 Hc9.
    fwd Hr v10 Hc10. fwd Hr v11 Hc11. fwd Hr v12 Hc12. rewrite flat_map_single in Hc6, Hc7, Hc8, Hc9, Hc10, Hc11, Hc12.
    state Hr. subst st. injection H as -> -> -> -> -> -> -> -> -> -> -> ->. done.
  - intros (_ & H1 & H2 & H3 & H4 & H5 & H6 & H7 & H8 & H9 & H10 & H11 & H12).
    bwd. bwd. bwd. bwd. bwd. bwd. bwd. bwd. bwd. bwd. bwd. bwd.
    cbv beta iota delta [at0 at1 at2 at3 at4 at5 at6 at7 at8 at9 at10 at11 fst snd app bind].
    rewrite !orelse_none. reflexivity.
Qed.

Theorem step_all : forall k f, step k f.
Proof.
  destruct k; intros f;
    [ destruct (f : Empty_set)
    | apply step_ruby | apply step_line | apply step_cont | apply step_sentence | apply step_column
    | apply step_table | apply step_table_row | apply step_table_column | apply step_remarks
    | apply step_cstruct | apply step_fig_struct | apply step_table_struct
    | apply step_list | apply step_class | apply step_item | apply step_paragraph
    | apply step_article | apply step_part | apply step_chapter | apply step_section
    | apply step_subsection | apply step_division
    | apply step_amend | apply step_law_title | apply step_preamble | apply step_main
    | apply step_suppl | apply step_suppl_table | apply step_suppl_style | apply step_suppl_appdx
    | apply step_appdx_table | apply step_appdx_note | apply step_appdx_style
    | apply step_appdx_format | apply step_appdx | apply step_appdx_fig
    | apply step_toc | apply step_toc_part | apply step_toc_chapter | apply step_toc_section
    | apply step_toc_subsection | apply step_toc_division | apply step_toc_article
    | apply step_toc_suppl | apply step_law_body ].
Qed.
End Step.

(** ** The reader and the writer *)
Lemma knot_void : Knot KVoid -> False.
Proof. intros x. destruct (un KVoid x : Empty_set). Qed.

Lemma write_name : forall k x, name (write k x) = tag_of k.
Proof. intros k x. rewrite <- (mk_un k x), write_unfold. destruct k; reflexivity || destruct (knot_void x). Qed.

Lemma write_cont_get : forall c x n, get (write (KCont c) x) n = None.
Proof. intros c x n. rewrite <- (mk_un _ x), write_unfold. reflexivity. Qed.

Lemma write_well_tagged : forall k x, well_tagged k (write k x).
Proof.
  intros k x. destruct k; try exact I. unfold well_tagged. rewrite write_name. destruct c; reflexivity.
Qed.

Lemma read_suppl_appdx : forall x, parse KSupplAppdx (write KSupplAppdx x) <> Ok x.
Proof.
  intros x. rewrite parse_unfold by exact I. cbn [pstep]. unfold parse_suppl_appdx, with_name.
  rewrite write_name. discriminate.
Qed.

Lemma read_write_unfold : forall k f,
  parse k (write k (mk k f)) = Ok (mk k f) <->
  storable k f = true /\ forall j y, In (node j y) (kids k f) -> parse j (write j y) = Ok y.
Proof.
  intros k f. rewrite parse_unfold by apply write_well_tagged. rewrite write_unfold.
  transitivity (pstep parse k (wstep write k f) = Ok f).
  { split.
    - intros H. apply bind_ok in H as (v & Hv & H). apply ok_inj, mk_inj in H. subst v. exact Hv.
    - intros ->. reflexivity. }
  etransitivity; [exact (step_all write parse knot_void write_name write_cont_get read_suppl_appdx k f)|].
  rewrite collect_kids, allp_map. unfold good. split; intros [H1 H2]; split; auto.
  - intros j y Hy. apply (H2 _ Hy).
  - intros [j y] Hy. apply H2, Hy.
Qed.

Theorem read_write_iff : forall k x, parse k (write k x) = Ok x <-> survives k x.
Proof.
  intros k x. pattern k, x. revert k x. apply knot_ind. intros k f IH.
  rewrite read_write_unfold, survives_unfold. split; intros [H1 H2]; split; auto; intros j y Hy;
    apply IH; auto.
Qed.

(** ** Laws *)
Lemma read_date : forall o, parse_date_attr (option_map usize_to_string o) = Ok o <-> usize_opt o = true.
Proof.
  intros [n|]; cbn [option_map parse_date_attr usize_opt]; [|tauto].
  rewrite <- usize_read. destruct (String.eqb_spec (usize_to_string n) "") as [E|E].
  - rewrite E. split; discriminate.
  - destruct (parse_usize _); split; intros H; inversion H; reflexivity.
Qed.

Lemma read_law_no : forall n,
  (if String.eqb (num_str n) "" then Ok None else bind (from_num_str (num_str n)) (fun m => Ok (Some m)))
  = Ok (Some n) <-> an_ok n = true.
Proof.
  intros n. rewrite <- num_str_roundtrip_iff.
  destruct (String.eqb_spec (num_str n) "") as [E|E].
  - rewrite E. split; [discriminate|]. vm_compute. discriminate.
  - destruct (from_num_str _); cbn; split; intros H; inversion H; reflexivity.
Qed.

Theorem law_read_write_iff : forall l, parse_law (write_law l) = Ok l <-> law_survives l.
Proof.
  intros [era y no mo d ty la ln b]. unfold parse_law, write_law, law_survives.
  rewrite with_name_same by reflexivity.
  cbn [law_era law_year law_no law_promulgate_month law_promulgate_day law_type law_lang law_num law_body].
  match goal with |- context [get ?x "Era"] => set (e := x) end.
  assert (A1 : get e "Era" = Some (era_str era)) by at_tac.
  assert (A2 : get e "Year" = Some (usize_to_string y)) by at_tac.
  assert (A3 : get e "Num" = option_map num_str no) by at_tac.
  assert (A4 : get e "PromulgateMonth" = option_map usize_to_string mo) by at_tac.
  assert (A5 : get e "PromulgateDay" = option_map usize_to_string d) by at_tac.
  assert (A6 : get e "LawType" = Some (law_type_str ty)) by at_tac.
  assert (A7 : get e "Lang" = Some (lang_str la)) by at_tac.
  unfold get_attribute_with_parse. rewrite A1, A2, A3, A4, A5, A6, A7. clear A1 A2 A3 A4 A5 A6 A7.
  assert (B1 : forall x, enum_req (Some (era_str era)) eras x = Ok era) by (destruct era; reflexivity).
  assert (B2 : forall x, enum_req (Some (law_type_str ty)) law_types x = Ok ty) by (destruct ty; reflexivity).
  assert (B3 : forall x, enum_req (Some (lang_str la)) langs x = Ok la) by (destruct la; reflexivity).
  rewrite B1, B2, B3. cbn [bind children e name nodes_text]. clear B1 B2 B3 e.
  replace (nodes_text [NText ln]) with ln by (symmetry; apply append_nil_r_s).
  rewrite <- usize_read, <- !read_date, <- read_write_iff. split.
  - intros H. apply bind_ok in H as (y0 & Hy & H). apply bind_ok in H as (s & Hs & H).
    destruct no as [n|]; [|discriminate]. cbn [option_map unwrap] in Hs. apply ok_inj in Hs. subst s.
    apply bind_ok in H as (no' & Hno & H). apply bind_ok in H as (m' & Hm & H).
    apply bind_ok in H as (d' & Hd & H). cbn [String.eqb Ascii.eqb Bool.eqb] in H.
    apply bind_ok in H as (b' & Hb & H). injection H as -> -> -> -> ->.
    destruct (parse_usize _); [|discriminate]. injection Hy as ->.
    split; [reflexivity|]. split; [|auto]. exists n. split; [reflexivity|]. apply read_law_no, Hno.
  - intros (H1 & (n & -> & H2) & H3 & H4 & H5). rewrite H1. cbn [bind option_map unwrap].
    apply read_law_no in H2. rewrite H2, H3, H4, H5. reflexivity.
Qed.
