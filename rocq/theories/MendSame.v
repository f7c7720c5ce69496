(** The mended writer does as the crate's own on what survives. *)
From Coq Require Import String List Arith NArith Bool Lia.
From Verif Require Import Base NumStr NumStrSpec BaseFacts Xml Ast XmlWrite XmlParse
  RoundTripSpec KnotFacts XmlSpec XmlSim RoundTripLib MendSpec MendFacts.
Import ListNotations.
Open Scope string_scope.
Open Scope list_scope.

Lemma same_num : forall a, an_ok a = true -> full_num_str a = num_str a.
Proof.
  intros [b ed r] H. unfold an_ok in H. cbn [base_number eda_numbers range_end_numbers] in H. apply andb_true_iff in H as [_ H].
  unfold full_num_str, num_str, nums_str. cbn [base_number eda_numbers range_end_numbers]. destruct r as [|m r].
  - rewrite append_nil_r_s. do 2 f_equal. apply map_ext. intros n. cbn [range_str]. rewrite append_nil_r_s. reflexivity.
  - destruct ed as [|n [|]]; try discriminate. cbn [map concat_strings fold_right range_str].
    unfold range_str. rewrite !append_nil_r_s. rewrite !append_assoc_s. reflexivity.
Qed.

Section Step.
Context {K : kind -> Type} (w v : forall k, K k -> Element).
Definition eqk (k : kind) (x : K k) : Prop := w k x = v k x.
(** The writer of the contents of formulas sets no attribute. *)
Hypothesis Hplain : forall c x, attrs (v (KCont c) x) = [].

Lemma els_same : forall X (c : X -> list Prop) (f g : X -> Element), (forall x, allp (c x) -> f x = g x) ->
  forall l, allp (flat_map c l) -> els f l = els g l.
Proof.
  intros X c f g H. induction l as [|x l IH]; intros Hl; [reflexivity|]. cbn [flat_map] in Hl. apply allp_app in Hl as [H1 H2].
  unfold els in *. cbn [map]. rewrite (H x H1), (IH H2). reflexivity.
Qed.
Lemma els_kind : forall k l, allp (map (eqk k) l) -> els (w k) l = els (v k) l.
Proof. intros k. induction l as [|x l IH]; intros Hl; [reflexivity|]. destruct Hl as [H1 H2]. unfold els in *. cbn [map]. rewrite H1, (IH H2). reflexivity. Qed.
Lemma map_same : forall X (c : X -> list Prop) (q : X -> bool) (f g : X -> XMLNode), (forall x, q x = true -> allp (c x) -> f x = g x) ->
  forall l, forallb q l = true -> allp (flat_map c l) -> map f l = map g l.
Proof.
  intros X c q f g H. induction l as [|x l IH]; intros Hq Hl; [reflexivity|]. cbn [flat_map forallb map] in *. apply allp_app in Hl as [H1 H2].
  apply andb_true_iff in Hq as [Q1 Q2]. rewrite (H x Q1 H1), (IH Q2 H2). reflexivity.
Qed.
Lemma opt_same : forall X (c : X -> list Prop) (f g : X -> Element), (forall x, allp (c x) -> f x = g x) ->
  forall o, allp (c_opt c o) -> el_opt f o = el_opt g o.
Proof. intros X c f g H [x|] Hx; [|reflexivity]. cbn [el_opt]. rewrite (H x Hx). reflexivity. Qed.
Lemma all_true : forall X (l : list X), forallb (fun _ => true) l = true.
Proof. induction l; auto. Qed.

Lemma nodes_same : forall t, allp (c_text eqk t) -> write_text_nodes w t = write_text_nodes v t.
Proof.
  intros t H. eapply (map_same _ (c_te eqk) (fun _ => true)); [|apply all_true|exact H].
  intros [] _ Hx; cbn in *; try reflexivity; destruct Hx as [Hx _]; unfold eqk in Hx; rewrite Hx; reflexivity.
Qed.
Lemma text_same : forall n t, allp (c_text eqk t) -> write_text w n t = write_text v n t.
Proof. intros n t H. unfold write_text. rewrite (nodes_same t H). reflexivity. Qed.
Lemma twm_same : forall n t, allp (c_twm eqk t) -> write_twm w n t = write_twm v n t.
Proof. intros n t H. unfold write_twm. rewrite (nodes_same _ H). reflexivity. Qed.
Lemma caption_same : forall n t, allp (c_caption eqk t) -> write_caption w n t = write_caption v n t.
Proof. intros n t H. unfold write_caption. rewrite (nodes_same _ H). reflexivity. Qed.
Lemma sct_same : forall n s, allp (c_sct eqk s) -> write_sct w n s = write_sct v n s.
Proof.
  intros n [l|l|t] H; unfold write_sct; cbn [c_sct] in H; try (rewrite (els_kind _ _ H); reflexivity).
  destruct H as [H _]. unfold eqk in H. rewrite H. reflexivity.
Qed.
Lemma arith_same : forall a, allp (c_arith eqk a) -> write_arith w a = write_arith v a.
Proof. intros a [H _]. exact H. Qed.
Lemma arith_mend : forall a, no_formula_num a = true -> allp (c_arith eqk a) -> mend_arith w a = write_arith v a.
Proof.
  intros [[n|] c] Hn [H _]; [discriminate|]. unfold mend_arith, write_arith. cbn [af_num af_contents option_map insert_opt] in *.
  unfold eqk in H. rewrite H. specialize (Hplain _ c). destruct (v (KCont CArith) c) as [n a l]. cbn in Hplain. subst a. reflexivity.
Qed.
Lemma header_same : forall r, allp (flat_map (c_text eqk) r) -> write_header_row w r = write_header_row v r.
Proof. intros r H. unfold write_header_row. rewrite (els_same _ _ _ _ (text_same "TableHeaderColumn") r H). reflexivity. Qed.

Ltac one := match goal with H : allp [_] |- _ => destruct H as [H _]; unfold eqk in H; rewrite H; reflexivity end.
Ltac node := let x := fresh "x" in let H := fresh "H" in intros x H; destruct x;
  cbn [c_rc c_any_struct c_ls c_pc c_chc c_sec c_suc c_np c_mc c_sp c_at c_an c_af c_tsc c_tsp c_tm
    write_remarks_node write_struct_any write_list_sentence write_part_node write_chapter_node write_section_node write_subsection_node
    write_new_provision write_main_node write_suppl_node write_appdx_table_node write_appdx_note_node write_appdx_fig_node
    write_toc_section_node write_toc_suppl_node write_toc_main_node] in *;
  first [one | apply text_same; assumption].
Ltac flat := repeat match goal with
  | H : allp (_ ++ _) |- _ => apply allp_app in H as [? ?]
  | H : _ /\ _ |- _ => destruct H
  | H : allp [eqk _ _] |- _ => destruct H as [H _]; unfold eqk in H
  end.
Ltac piece := first
  [ reflexivity
  | eapply els_kind; eassumption
  | apply text_same; assumption | apply twm_same; assumption | apply caption_same; assumption | apply sct_same; assumption
  | eapply (els_same _ (c_text eqk)); [apply text_same|assumption]
  | eapply (opt_same _ (c_text eqk)); [apply text_same|assumption]
  | eapply (opt_same _ (c_twm eqk)); [apply twm_same|assumption]
  | eapply (opt_same _ (c_caption eqk)); [apply caption_same|assumption]
  | eapply opt_same; [|eassumption]; let Hx := fresh "Hx" in intros ? [Hx _]; unfold eqk in Hx; rewrite ?Hx; reflexivity
  | eapply els_same; [|eassumption]; let Hx := fresh "Hx" in intros ? [Hx _]; exact Hx
  | eapply els_same; [|eassumption]; node
  | apply nodes_same; assumption
  | match goal with H : w ?k ?x = v ?k ?x |- _ => rewrite H; reflexivity end
  | eapply (els_same _ (c_arith eqk)); [apply arith_same|assumption] ].
Ltac go := flat; repeat (first [ piece
  | match goal with
    | |- mkElement _ _ _ = mkElement _ _ _ => apply f_equal
    | |- _ ++ _ = _ ++ _ => apply f_equal2
    | |- _ :: _ = _ :: _ => apply f_equal2
    | |- NElement _ = NElement _ => apply f_equal
    end ]).

Definition same (k : kind) : Prop := forall f, storable k f = true -> allp (collect eqk k f) -> mstep w k f = wstep v k f.

Ltac start := intros f Hs Hc; cbn [mstep wstep storable collect] in *.

Lemma same_ruby : same KRuby.
Proof. start. unfold write_ruby. go. Qed.
Lemma same_line : same KLine.
Proof.
  start. apply andb_true_iff in Hs as [_ Hs]. unfold mend_line, write_line. apply f_equal.
  eapply map_same; [|exact Hs|exact Hc]. intros [] Hq Hx; cbn [mend_line_node write_line_node c_line] in *; try reflexivity; try one.
  rewrite (arith_mend _ Hq Hx). reflexivity.
Qed.
Lemma same_cont : forall c, same (KCont c).
Proof.
  intros c. start. unfold mend_cont, write_cont. apply f_equal.
  eapply map_same; [|exact Hs|exact Hc]. intros [] Hq Hx; cbn [mend_contents_node write_contents_node c_ce] in *; try reflexivity; try one.
  rewrite (arith_mend _ Hq Hx). reflexivity.
Qed.
Lemma same_sentence : same KSentence.
Proof.
  start. apply andb_true_iff in Hs as [_ Hs]. unfold mend_sentence, write_sentence. apply f_equal.
  eapply map_same; [|exact Hs|exact Hc]. intros [] Hq Hx; cbn [mend_sentence_node write_sentence_node c_se] in *; try reflexivity; try one.
  rewrite (arith_mend _ Hq Hx). reflexivity.
Qed.
Lemma same_table_column : same KTableColumn.
Proof.
  start. rewrite !andb_true_iff in Hs. destruct Hs as [[_ H1] H2]. unfold mend_table_column, write_table_column.
  destruct (tc_align f); [discriminate|]. destruct (tc_valign f); [discriminate|]. cbn [option_map insert_opt].
  apply f_equal. eapply (map_same _ (c_tc eqk) (fun _ => true)); [|apply all_true|exact Hc].
  intros [] _ Hx; cbn [write_cell_node c_tc] in *; try reflexivity; one.
Qed.
Lemma same_table : same KTable.
Proof. start. unfold write_table. go. eapply els_same; [|eassumption]. apply header_same. Qed.
Lemma same_item : forall l, same (KItem l).
Proof.
  intros l. start. apply andb_true_iff in Hs as [Hn _]. unfold mend_item, write_item. destruct (it_num f) as [n|]; [|discriminate].
  rewrite (same_num n Hn). cbn [option_map insert_opt]. go.
Qed.
Lemma same_paragraph : same KParagraph.
Proof. start. unfold mend_paragraph, write_paragraph. cbn [children]. rewrite (same_num _ Hs). go. Qed.
Lemma same_article : same KArticle.
Proof. start. apply andb_true_iff in Hs as [Hs _]. unfold mend_article, write_article. cbn [children]. rewrite (same_num _ Hs). go. Qed.
Lemma same_head : forall C n (wc vc : C -> Element) cc f, (forall x, allp (cc x) -> wc x = vc x) -> an_ok (hd_num f) = true -> allp (c_head eqk cc f) ->
  mend_head w n wc f = write_head v n vc f.
Proof.
  intros C n wc vc cc f H Hn Hc. unfold mend_head, write_head, c_head in *. cbn [children]. rewrite (same_num _ Hn). flat.
  rewrite (text_same _ _ H0), (els_same _ _ _ _ H _ H1). reflexivity.
Qed.
Lemma same_toc_head : forall C n tn (wc vc : C -> Element) cc f, (forall x, allp (cc x) -> wc x = vc x) -> an_ok (th_num f) = true -> allp (c_toc_head eqk cc f) ->
  mend_toc_head w n tn wc f = write_toc_head v n tn vc f.
Proof.
  intros C n tn wc vc cc f H Hn Hc. unfold mend_toc_head, write_toc_head, c_toc_head in *. cbn [children]. rewrite (same_num _ Hn). flat.
  rewrite (text_same _ _ H0), (els_same _ _ _ _ H _ H2), (opt_same _ _ _ _ (text_same _) _ H1). reflexivity.
Qed.
Ltac head := start; eapply same_head; [|eassumption|eassumption]; first [node | let Hx := fresh "Hx" in intros ? [Hx _]; exact Hx].
Ltac toc_head := start; eapply same_toc_head; [|eassumption|eassumption]; first [solve [intros []] | node | let Hx := fresh "Hx" in intros ? [Hx _]; exact Hx].
Lemma same_amend : same KAmend.
Proof. start. unfold mend_amend, write_amend. destruct (am_new f); [|discriminate]. go. Qed.
Lemma same_suppl : same KSuppl.
Proof. start. unfold write_suppl. flat. destruct (sp_label f); go. Qed.
Lemma same_sts : forall C n tn (wc vc : C -> Element) cc f, (forall x, allp (cc x) -> wc x = vc x) -> allp (c_sts eqk cc f) ->
  write_suppl_ts w n tn wc f = write_suppl_ts v n tn vc f.
Proof. intros C n tn wc vc cc f H Hc. unfold write_suppl_ts, c_sts in *. go. eapply els_same; eassumption. Qed.
Lemma same_appdx_t : forall C n (wc vc : C -> Element) cc f, (forall x, allp (cc x) -> wc x = vc x) -> allp (c_appdx_t eqk cc f) ->
  write_appdx_t w n wc f = write_appdx_t v n vc f.
Proof. intros C n wc vc cc f H Hc. unfold write_appdx_t, c_appdx_t in *. go. eapply els_same; eassumption. Qed.
Ltac appdx_t := start; eapply same_appdx_t; [|eassumption]; first [node | let Hx := fresh "Hx" in intros ? [Hx _]; exact Hx].
Lemma same_appdx : same KAppdx.
Proof.
  start. apply andb_true_iff in Hs as [Hr Ha]. unfold mend_appdx, write_appdx. destruct (ap_related f); [discriminate|]. cbn [el_opt]. flat.
  replace (els (mend_arith w) (ap_arith_formula f)) with (els (write_arith v) (ap_arith_formula f)).
  - go.
  - symmetry. refine (map_same _ (c_arith eqk) no_formula_num _ _ _ _ Ha _); [|assumption].
    intros x Hq Hx. rewrite (arith_mend x Hq Hx). reflexivity.
Qed.
Lemma same_toc : same KTOC.
Proof. start. unfold mend_toc, write_toc. destruct (toc_preamble_label f); [discriminate|]. cbn [el_opt]. go. Qed.
Lemma same_toc_article : same KTOCArticle.
Proof. start. unfold mend_toc_article, write_toc_article. cbn [children]. rewrite (same_num _ Hs). go. Qed.
Lemma same_struct : forall T B n (wt vt : T -> Element) (wb vb : B -> Element) ct cb f,
  (forall x, allp (ct x) -> wt x = vt x) -> (forall x, allp (cb x) -> wb x = vb x) -> allp (c_struct eqk ct cb f) ->
  write_struct w n wt wb f = write_struct v n vt vb f.
Proof.
  intros T B n wt vt wb vb ct cb f Ht Hb H. unfold write_struct, c_struct in *. flat.
  rewrite (opt_same _ _ _ _ Ht _ H), (Hb _ H1), (els_kind _ _ H0), (els_kind _ _ H2). reflexivity.
Qed.
Ltac struct := start; eapply same_struct; [| |eassumption];
  [first [apply text_same | apply twm_same] | first [let Hx := fresh "Hx" in intros ? [Hx _]; exact Hx | intros; reflexivity]].

Theorem same_all : forall k, same k.
Proof.
  destruct k;
    [ intros []
    | apply same_ruby | apply same_line | apply same_cont | apply same_sentence
    | start; unfold write_column; go
    | apply same_table
    | start; unfold write_table_row; go
    | apply same_table_column
    | intros f Hs; discriminate Hs
    | struct | struct | struct
    | start; unfold write_list; go
    | start; unfold write_class; go
    | apply same_item | apply same_paragraph | apply same_article
    | head | head | head | head | head
    | apply same_amend
    | start; unfold write_law_title; go
    | start; unfold write_preamble; go
    | start; unfold write_main; go
    | apply same_suppl
    | intros f Hs; discriminate Hs
    | start; eapply same_sts; [|exact Hc]; intros ? [Hx _]; exact Hx
    | intros f Hs; discriminate Hs
    | appdx_t | appdx_t | appdx_t | appdx_t
    | apply same_appdx
    | start; unfold write_appdx_fig; go
    | apply same_toc
    | toc_head | toc_head | toc_head | toc_head | toc_head
    | apply same_toc_article
    | start; unfold write_toc_suppl; go
    | start; unfold write_law_body; go ].
Qed.
End Step.

Theorem mend_same : forall k x, survives k x -> mend k x = write k x.
Proof.
  intros k x. pattern k, x. revert k x. apply knot_ind. intros k f IH H.
  apply survives_unfold in H as [H1 H2]. rewrite mend_unfold, write_unfold. apply same_all.
  - intros c y. rewrite <- (mk_un _ y), write_unfold. reflexivity.
  - exact H1.
  - rewrite collect_kids. apply allp_map. intros [j y] Hy. apply (IH j y Hy), H2, Hy.
Qed.
Theorem mend_law_same : forall l, law_survives l -> mend_law l = write_law l.
Proof.
  intros l (_ & (n & Hn & Ho) & _ & _ & Hb). unfold mend_law, write_law. rewrite Hn, (same_num n Ho), (mend_same _ _ Hb). reflexivity.
Qed.
