(** What is read from a document without unsupported markup survives. *)
From Coq Require Import String List Arith NArith Bool Lia.
From Verif Require Import Base NumStr NumStrSpec BaseFacts NumStrFacts Xml Ast XmlWrite XmlParse
  RoundTripSpec KnotFacts XmlSpec XmlSim RoundTripLib RoundTripFacts LossFacts GrammarSpec GrammarFacts ReadSpec ReadFacts PlainSpec.
Import ListNotations.
Open Scope string_scope.
Open Scope list_scope.

Lemma bind_inv : forall A B (x : R A) (f : A -> R B) b, bind x f = Ok b -> exists a, x = Ok a /\ f a = Ok b.
Proof. exact RoundTripLib.bind_ok. Qed.

Lemma run_rows : forall S (P : S -> Prop) txt d t l (s s' : S), run txt d t l s = Ok s' -> P s ->
  (forall c u, In (NElement c) l -> d c = Ok u -> forall x, P x -> P (u x)) ->
  Forall (fun th => forall c u, In (NElement c) l -> name c = fst th -> snd th c = Ok u -> forall x, P x -> P (u x)) t ->
  (forall a x, P x -> P (txt a x)) -> P s'.
Proof.
  intros S P txt d t l s s' H Hs Hd Ht Hx. refine (run_inv S P txt d t l s s' _ _ Hs H); [|auto].
  intros c u Hc Hu. unfold lookup in Hu. clear H. induction Ht as [|[n h] r Hh _ IH]; cbn [assoc] in Hu.
  - apply (Hd c u Hc Hu).
  - destruct (String.eqb_spec (name c) n) as [E|_]; [apply (Hh c u Hc E Hu)|apply IH, Hu].
Qed.

Section Step.
Context {K : kind -> Type} (p : forall k, Element -> R (K k)) (good : forall k, K k -> Prop).
(** Children that are plain and read before. *)
Context (fine : Element -> Prop).
Hypothesis fine_child : forall e c, fine e -> In (NElement c) (children e) -> fine c.
Hypothesis Hp : forall k c v, fine c -> well_tagged k c -> p k c = Ok v -> good k v.
Hypothesis Harith : forall c, fine c -> name c = "ArithFormula" -> get c "Num" = None.
Hypothesis Hremarks : forall c v, fine c -> p KRemarks c <> Ok v.

Definition all_good (l : list Prop) : Prop := allp l.

Ltac st := repeat match goal with s : (_ * _)%type |- _ => destruct s end;
  cbn [at0 at1 at2 at3 at4 at5 at6 at7 at8 at9 at10 at11 whole fst snd] in *.
Ltac child := first [assumption | eapply fine_child; [eassumption|eassumption] | eauto using fine_child].
Ltac tagd := first [exact I | unfold well_tagged; match goal with H : name ?c = _ |- context [name ?c] => rewrite H; reflexivity end].
Ltac gd := eapply Hp; [| |eassumption]; [child|tagd].
Ltac leaf := fail.
Ltac fin := repeat match goal with H : _ /\ _ |- _ => destruct H end; repeat (cbn [allp c_opt flat_map map app c_te c_ce c_arith af_contents c_se c_line c_sct c_tc c_rc c_any_struct c_ls c_pc c_chc c_sec
    c_suc c_mc c_sp c_at c_an c_af c_tsc c_tsp c_tm c_np forallb];
  match goal with
  | |- allp (flat_map _ (_ ++ _)) => rewrite flat_map_app
  | |- allp (map _ (_ ++ _)) => rewrite map_app
  | |- allp (_ ++ _) => apply allp_app; split
  | |- forallb _ (_ ++ _) = true => rewrite forallb_app
  | |- (_ && _)%bool = true => apply andb_true_intro; split
  | |- True => exact I
  | |- _ /\ _ => split
  | |- _ = _ => reflexivity
  | H : ?P |- ?P => exact H
  | |- good _ _ => gd
  | _ => leaf
  end).
Ltac row := let Hn := fresh "Hn" in let c := fresh "c" in let u := fresh "u" in let Hc := fresh "Hc" in let Hu := fresh "Hu" in intros c u Hc Hn Hu; cbn [fst snd] in Hn, Hu;
  unfold h_push, h_some, h_put, h_push_ok in Hu;
  let v := fresh "v" in let Hv := fresh "Hv" in
  apply bind_inv in Hu as (v & Hv & Hu); injection Hu as <-; let s := fresh "s" in let Hs := fresh "Hs" in intros s Hs.
Ltac rows := repeat match goal with
  | |- Forall _ (_ ++ _) => apply Forall_app; split
  | |- Forall _ (_ :: _) => apply Forall_cons
  | |- Forall _ [] => apply Forall_nil
  end.

Lemma ok_opt : forall A (x : R A) o, ok x = Ok o -> match o with Some v => x = Ok v | None => True end.
Proof. intros A [a|e|] o H; injection H as <- || discriminate; reflexivity || exact I. Qed.

Lemma text_good : forall l t, (forall c, In (NElement c) l -> fine c) -> from_children p l = Ok t -> allp (c_text good t).
Proof.
  intros l t Hl H. refine (run_rows _ (fun t => allp (c_text good t)) _ _ _ _ _ _ H I _ _ _).
  - intros c u _ Hu. injection Hu as <-. auto.
  - unfold text_table. rows; row; apply ok_opt in Hv; destruct v as [v|]; try exact Hs; unfold whole, c_text in *; fin.
  - intros a x Hx. unfold c_text in *. fin.
Qed.
Lemma p_text_good : forall e t, fine e -> p_text p e = Ok t -> allp (c_text good t).
Proof. intros e t He H. eapply text_good; [|exact H]. intros c Hc. child. Qed.
Lemma twm_good : forall e t, fine e -> parse_twm p e = Ok t -> allp (c_twm good t).
Proof. intros e t He H. apply bind_inv in H as (x & Hx & H). injection H as <-. exact (p_text_good e x He Hx). Qed.
Lemma caption_good : forall e t, fine e -> parse_caption p e = Ok t -> allp (c_caption good t).
Proof.
  intros e t He H. apply bind_inv in H as (x & Hx & H). apply bind_inv in H as (y & Hy & H). injection H as <-.
  exact (p_text_good e x He Hx).
Qed.
Ltac leaf ::= match goal with
  | H : p_text _ _ = Ok ?t |- allp (c_text good ?t) => eapply p_text_good; [|exact H]; child
  | H : parse_twm _ _ = Ok ?t |- allp (c_twm good ?t) => eapply twm_good; [|exact H]; child
  | H : parse_caption _ _ = Ok ?t |- allp (c_caption good ?t) => eapply caption_good; [|exact H]; child
  end.
Lemma arith_good : forall e a, fine e -> name e = "ArithFormula" -> parse_arith p e = Ok a ->
  good (KCont CArith) (af_contents a) /\ no_formula_num a = true.
Proof.
  intros e a He Hn H. apply bind_inv in H as (n & Hnum & H). apply bind_inv in H as (x & Hx & H). injection H as <-.
  split; [cbn; gd|]. unfold get_attribute_opt_with_parse in Hnum. rewrite (Harith e He Hn) in Hnum. injection Hnum as <-. reflexivity.
Qed.
Lemma parse_all_good : forall k l xs, (forall c, well_tagged k c) -> (forall c, In (NElement c) l -> fine c) -> parse_all (p k) l = Ok xs ->
  allp (map (good k) xs).
Proof.
  intros k l xs Hw. revert xs. induction l as [|[c|t|t] l IH]; intros xs Hl H; cbn [parse_all] in H.
  - injection H as <-. exact I.
  - apply bind_inv in H as (x & Hx & H). apply bind_inv in H as (ys & Hy & H). injection H as <-. split.
    + eapply Hp; [apply Hl; left; reflexivity|apply Hw|exact Hx].
    + apply IH; [|exact Hy]. intros d Hd. apply Hl. right. exact Hd.
  - apply IH; [|exact H]. intros d Hd. apply Hl. right. exact Hd.
  - apply IH; [|exact H]. intros d Hd. apply Hl. right. exact Hd.
Qed.
Lemma sct_good : forall e s, fine e -> parse_sct p e = Ok s -> allp (c_sct good s) /\ sct_full s = true.
Proof.
  intros e s He H. apply bind_inv in H as (st & Hr & H).
  eapply (run_rows _ (fun s => allp (map (good KSentence) (fst s)) /\ allp (map (good KColumn) (fst (snd s))) /\
      allp (c_opt (fun t => [good KTable t]) (fst (snd (snd s)))))) in Hr; [|cbn; auto| | |auto].
  - destruct st as (ss & cs & t & ?). cbn [fst snd] in Hr. destruct Hr as (H1 & H2 & H3).
    destruct cs; [destruct ss; [destruct t; [|discriminate]|]|]; injection H as <-; split; assumption || reflexivity.
  - discriminate.
  - rows; row; st; fin.
Qed.
Lemma header_row_good : forall e r, fine e -> parse_header_row p e = Ok r -> allp (flat_map (c_text good) r).
Proof.
  intros e r He H. apply with_name_ok in H as [_ H].
  refine (run_rows _ (fun r => allp (flat_map (c_text good) r)) _ _ _ _ _ _ H I _ _ _); [intros c u _ Hu; injection Hu as <-; auto| |auto].
  rows. row. unfold whole. rewrite flat_map_app. apply allp_app. split; [exact Hs|]. cbn [flat_map]. rewrite app_nil_r.
  eapply p_text_good; [|exact Hv]. child.
Qed.
Lemma item_rows_good : forall T (inj : forall l, K (KItem l) -> T) (P : list T -> Prop) l,
  (forall c, In (NElement c) l -> fine c) -> (forall lv v x, good (KItem lv) v -> P x -> P (x ++ [inj lv v])) ->
  Forall (fun th => forall c u, In (NElement c) l -> name c = fst th -> snd th c = Ok u -> forall x, P x -> P (u x)) (item_rows p inj).
Proof.
  intros T inj P l Hl HP. unfold item_rows. apply Forall_forall. intros th Hth. apply in_map_iff in Hth as (lv & <- & _).
  row. apply HP; [|exact Hs]. eapply Hp; [apply Hl, Hc|exact I|exact Hv].
Qed.
Lemma struct_rows_good : forall S ix (P : S -> Prop) l,
  (forall c, In (NElement c) l -> fine c) -> (forall v x, allp (c_any_struct good v) -> P x -> P (ix (fun l => l ++ [v]) x)) ->
  Forall (fun th => forall c u, In (NElement c) l -> name c = fst th -> snd th c = Ok u -> forall x, P x -> P (u x)) (struct_rows p ix).
Proof. intros S ix P l Hl HP. unfold struct_rows. rows; row; apply HP; try exact Hs; fin. Qed.

Section One.
Context (e : Element).
Hypothesis He : forall c, In (NElement c) (children e) -> fine c.
Hypothesis Lamend : name e = "AmendProvision" -> ~ has_child e "NewProvision".
Hypothesis Lappdx : name e = "Appdx" -> ~ has_child e "RelatedArticleNum".
Hypothesis Ltoc : name e = "TOC" -> ~ has_child e "TOCPreambleLabel".
Hypothesis Lcell : name e = "TableColumn" -> get e "Align" = None /\ get e "Valign" = None.
Hypothesis Lnum : In (name e) (provision_tags ++ item_tags) -> forall s n, get e "Num" = Some s -> from_num_str s = Ok n -> an_ok n = true.
Hypothesis Litem : In (name e) item_tags -> forall s, get e "Num" = Some s -> exists n, from_num_str s = Ok n.

Definition step_ok (k : kind) : Prop := forall f, pstep p k e = Ok f -> storable k f = true /\ allp (collect good k f).

Lemma usize_opt_read : forall n o, get_attribute_opt_with_parse parse_usize e n = Ok o -> usize_opt o = true.
Proof.
  intros n o. unfold get_attribute_opt_with_parse. destruct (get e n) as [s|]; [|intros H; injection H as <-; reflexivity].
  destruct (parse_usize s) as [m|] eqn:E; [|discriminate]. intros H. injection H as <-. exact (usize_text_bound s m (proj1 (parse_usize_spec s m) E)).
Qed.

Lemma ok_ruby : step_ok KRuby.
Proof.
  intros f H. cbn [pstep] in H. apply with_name_ok in H as [_ H]. apply bind_inv in H as (s & Hr & H).
  eapply (run_rows _ (fun s => forallb plain_text (fst s) = true)) in Hr; [|reflexivity| | |].
  - destruct s as (t & r & ?). injection H as <-. cbn [fst] in Hr. cbn. split; [exact Hr|].
    clear -Hr. induction t as [|[] t IH]; cbn in *; try discriminate; auto.
  - intros c u _ Hu. injection Hu as <-. auto.
  - rows. row. st. exact Hs.
  - intros a x Hx. st. rewrite forallb_app, Hx. reflexivity.
Qed.
Lemma ok_line : step_ok KLine.
Proof.
  intros f H. cbn [pstep] in H. apply with_name_ok in H as [_ H]. destruct (linestyle_of _) as [ls|] eqn:El; [|discriminate].
  apply bind_inv in H as (s & Hr & H). injection H as <-. cbn [storable collect line_style line_contents].
  assert (Hd : not_double ls = true).
  { unfold linestyle_of in El. destruct (get e "Style"); [|discriminate]. cbn in El.
    repeat (destruct (String.eqb _ _); [injection El as <-; reflexivity|]). discriminate. }
  rewrite Hd. cbn [andb].
  eapply (run_rows _ (fun s => forallb (fun c => match c with LC_Arith a => no_formula_num a | _ => true end) s = true /\
    allp (flat_map (c_line good) s))) in Hr; [exact Hr|cbn; auto|discriminate| |].
  - unfold line_table. rows; row; unfold whole; try (apply arith_good in Hv as [? ?]; [|child|exact Hn]); fin.
  - intros a x [H1 H2]. fin.
Qed.
Lemma ok_cont : forall c, step_ok (KCont c).
Proof.
  intros n f H. cbn [pstep] in H. cbn [storable collect].
  refine (run_rows _ (fun s => forallb (fun c => match c with CE_Arith a => no_formula_num a | _ => true end) s = true /\
    allp (flat_map (c_ce good) s)) _ _ _ _ _ _ H _ _ _ _); [cbn; auto|discriminate| |].
  - unfold contents_table. apply Forall_app. split; [|apply Forall_app; split].
    + rows; row; unfold whole; fin.
    + apply item_rows_good; [exact He|]. intros lv v x Hv [H1 H2]. fin.
    + rows; row; unfold whole; try (apply arith_good in Hv as [? ?]; [|child|exact Hn]); fin.
  - intros a x [H1 H2]. fin.
Qed.
Lemma ok_sentence : step_ok KSentence.
Proof.
  intros f H. cbn [pstep] in H. unfold parse_sentence in H. peel H. injection H as <-. cbn [storable collect sen_num sen_contents].
  rewrite (usize_opt_read _ _ Ha). cbn [andb].
  eapply (run_rows _ (fun s => forallb (fun c => match c with SE_Arith a => no_formula_num a | _ => true end) s = true /\
    allp (flat_map (c_se good) s))) in Ha2; [exact Ha2|cbn; auto|discriminate| |].
  - unfold sentence_table. rows; row; unfold whole; try (apply arith_good in Hv as [? ?]; [|child|exact Hn0]); fin.
  - intros x y [H1 H2]. fin.
Qed.
Lemma ok_column : step_ok KColumn.
Proof.
  intros f H. cbn [pstep] in H. unfold parse_column in H. peel H. injection H as <-. cbn [storable collect col_num col_sentence].
  split; [exact (usize_opt_read _ _ Ha)|]. eapply parse_all_good; [intros; exact I|exact He|exact Ha1].
Qed.
Lemma ok_table : step_ok KTable.
Proof.
  intros f H. cbn [pstep] in H. unfold parse_table in H. peel H. destruct a as (h & r & ?). injection H as <-.
  cbn [storable collect tb_header tb_row]. split; [reflexivity|].
  eapply (run_rows _ (fun s => allp (flat_map (fun r => flat_map (c_text good) r) (fst s)) /\ allp (map (good KTableRow) (fst (snd s))))) in Ha;
    [cbn in Ha; apply allp_app; exact Ha|cbn; auto|discriminate| |auto].
  rows; row; st; fin. eapply header_row_good; [|exact Hv]. child.
Qed.
Lemma ok_table_row : step_ok KTableRow.
Proof.
  intros f H. cbn [pstep] in H. unfold parse_table_row in H. peel H. cbn [storable collect]. split; [reflexivity|].
  eapply (run_rows _ (fun s => allp (map (good KTableColumn) s))) in H; [exact H|exact I| | |auto].
  - intros c u _ Hu. injection Hu as <-. auto.
  - rows; row. unfold whole. fin.
Qed.
Lemma border_single : forall n, not_double (border e n) = true.
Proof.
  intros n. unfold border, linestyle_of. destruct (get e n) as [s|]; [|reflexivity]. cbn.
  repeat (destruct (String.eqb _ _); [reflexivity|]). reflexivity.
Qed.
Lemma ok_table_column : step_ok KTableColumn.
Proof.
  intros f H. cbn [pstep] in H. unfold parse_table_column in H. peel H. injection H as <-.
  cbn [storable collect tc_border_top tc_border_bottom tc_border_left tc_border_right tc_align tc_valign tc_contents].
  destruct (Lcell Hn) as [L1 L2]. rewrite !border_single, L1, L2. split; [reflexivity|].
  eapply (run_rows _ (fun s => allp (flat_map (c_tc good) s))) in Ha1; [exact Ha1|exact I|discriminate| |].
  - unfold cell_table. apply Forall_app. split; [|apply Forall_app; split].
    + rows; row; unfold whole; fin.
    + apply item_rows_good; [exact He|]. intros lv v x Hv H2. fin.
    + rows; row; unfold whole; fin.
  - intros x y H2. fin.
Qed.

Lemma struct_good : forall T B n tn bn (pt : Element -> R T) (pb : Element -> R B) ct cb f,
  (forall c v, fine c -> pt c = Ok v -> allp (ct v)) -> (forall c v, fine c -> name c = bn -> pb c = Ok v -> allp (cb v)) ->
  parse_struct p n tn bn pt pb e = Ok f -> allp (c_struct good ct cb f).
Proof.
  intros T B n tn bn pt pb ct cb f Ht Hb H. unfold parse_struct in H. peel H.
  eapply (run_rows _ (fun s => allp (c_opt ct (fst s)) /\ fst (snd s) = [] /\ allp (c_opt cb (fst (snd (snd s)))) /\ fst (snd (snd (snd s))) = [])) in Ha;
    [|cbn; auto|discriminate| |auto].
  - destruct a as (t & tr & [b|] & br & ?); [|discriminate]. injection H as <-. cbn [fst snd] in Ha. destruct Ha as (H1 & -> & H2 & ->).
    unfold c_struct. cbn [st_title st_title_remarks st_body st_remarks]. fin.
  - rows.
    + row; st; fin. eapply Ht; [|exact Hv]; child.
    + intros c u Hc Hcn Hu. unfold h_struct_remarks in Hu. apply bind_inv in Hu as (o & Ho & Hu). injection Hu as <-. apply ok_opt in Ho.
      destruct o as [o|]; [exfalso; eapply Hremarks; [|exact Ho]; child|]. auto.
    + row; st; fin. eapply Hb; [| |exact Hv]; [child|assumption].
Qed.
Lemma ok_cstruct : forall s, step_ok (KCStruct s).
Proof.
  intros s f H. split; [reflexivity|]. cbn [pstep] in H. unfold parse_cstruct in H. cbn [collect].
  eapply struct_good; [|  |exact H].
  - intros c v Hf Hv. eapply p_text_good; eassumption.
  - intros c v Hf Hn Hv. cbn [allp]. split; [|exact I]. eapply Hp; [exact Hf| |exact Hv]. unfold well_tagged. rewrite Hn. destruct s; reflexivity.
Qed.
Lemma ok_fig_struct : step_ok KFigStruct.
Proof.
  intros f H. split; [reflexivity|]. cbn [pstep] in H. unfold parse_fig_struct in H. cbn [collect].
  eapply struct_good; [|  |exact H].
  - intros c v Hf Hv. eapply p_text_good; eassumption.
  - intros c v Hf Hn Hv. exact I.
Qed.
Lemma ok_table_struct : step_ok KTableStruct.
Proof.
  intros f H. split; [reflexivity|]. cbn [pstep] in H. unfold parse_table_struct in H. cbn [collect].
  eapply struct_good; [|  |exact H].
  - intros c v Hf Hv. eapply twm_good; eassumption.
  - intros c v Hf Hn Hv. cbn [allp]. split; [|exact I]. eapply Hp; [exact Hf|exact I|exact Hv].
Qed.
Lemma ok_list : forall l, step_ok (KList l).
Proof.
  intros l f H. split; [reflexivity|]. cbn [pstep] in H. unfold parse_list in H. peel H.
  destruct (children e) as [|[s| |] rest] eqn:Ec; try discriminate. destruct (String.eqb (name s) (list_tag l ++ "Sentence")); [|discriminate].
  peel H. injection H as <-. cbn [collect list_sentence list_children]. apply allp_app. split.
  - unfold parse_list_sentences in Ha.
    assert (Hs : fine s) by (apply He; left; reflexivity).
    eapply (run_rows _ (fun s => allp (flat_map (c_ls good) s))) in Ha; [exact Ha|exact I|discriminate| |auto].
    rows; row; unfold whole; fin.
  - destruct l; try (eapply parse_all_good; [intros; exact I| |exact Ha0]; intros c Hc; apply He; right; exact Hc).
    injection Ha0 as <-. exact I.
Qed.
Lemma ok_class : step_ok KClass.
Proof.
  intros f H. cbn [pstep] in H. unfold parse_class in H. peel H.
  eapply (run_rows _ (fun s => allp (c_opt (c_text good) (fst s)) /\ (allp (c_opt (c_sct good) (fst (snd s))) /\
      match fst (snd s) with Some s => sct_full s = true | None => True end) /\ allp (map (good (KItem Item0)) (fst (snd (snd s)))))) in Ha0;
    [|cbn; auto|discriminate| |auto].
  - destruct a0 as (t & [s|] & i & ?); [|discriminate]. injection H as <-. cbn [fst snd] in Ha0. destruct Ha0 as (H1 & (H2 & H3) & H4).
    cbn [storable collect class_title class_sentence class_children]. split; [exact H3|]. fin.
  - rows; row; st; try (apply sct_good in Hv as [? ?]; [|child]); fin.
Qed.

Lemma num_attr : forall s n, In (name e) (provision_tags ++ item_tags) -> get_attribute e "Num" = Ok s -> from_num_str s = Ok n -> an_ok n = true.
Proof. intros s n Hin Hs Hn. exact (Lnum Hin s n (get_attribute_ok _ _ _ Hs) Hn). Qed.
Lemma num_parse_attr : forall n, In (name e) (provision_tags ++ item_tags) -> get_attribute_with_parse parse_an e "Num" = Ok n -> an_ok n = true.
Proof.
  intros n Hin H. apply attr_parse_ok in H as (s & Hs & Hn). unfold parse_an in Hn.
  destruct (from_num_str s) as [m| |] eqn:E; [|discriminate|discriminate]. injection Hn as <-. exact (Lnum Hin s m Hs E).
Qed.
Lemma item_num_attr : forall s n, In (name e) item_tags -> get_attribute e "Num" = Ok s -> ok (from_num_str s) = Ok n ->
  match n with Some n => an_ok n | None => false end = true.
Proof.
  intros s n Hin Hs Hn. pose proof (get_attribute_ok _ _ _ Hs) as Hg. destruct (Litem Hin s Hg) as [m Hm]. rewrite Hm in Hn.
  injection Hn as <-. apply (Lnum (in_or_app _ _ _ (or_intror Hin)) s m Hg Hm).
Qed.
Lemma ok_item : forall l, step_ok (KItem l).
Proof.
  intros l f H. cbn [pstep] in H. unfold parse_item in H. peel H.
  assert (Hin : In (name e) item_tags) by (rewrite Hn; destruct l; cbn; tauto).
  pose proof (item_num_attr _ _ Hin Ha Ha0) as Hnum.
  eapply (run_rows _ (fun s => allp (c_opt (c_text good) (fst s)) /\ (allp (c_opt (c_sct good) (fst (snd s))) /\
      match fst (snd s) with Some s => sct_full s = true | None => True end) /\ allp (flat_map (c_any_struct good) (fst (snd (snd s)))) /\
      allp (map (good (sub_item l)) (fst (snd (snd (snd s))))))) in Ha3; [|cbn; auto|discriminate| |auto].
  - destruct a3 as (t & [s|] & st & i & ?); [|discriminate]. injection H as <-. cbn [fst snd] in Ha3. destruct Ha3 as (H1 & (H2 & H3) & H4 & H5).
    cbn [storable collect it_title it_sentence it_children it_struct_list it_num]. rewrite Hnum, H3. split; [reflexivity|]. fin.
  - unfold item_table. apply Forall_app; split; [|apply Forall_app; split].
    + rows; row; st; try (apply sct_good in Hv as [? ?]; [|child]); fin.
    + apply struct_rows_good; [exact He|]. intros v x Hv Hx. st. fin.
    + destruct (sub_tag (sub_item l)) as [t|] eqn:Et; [|constructor]. rows. row. st. fin.
      eapply Hp; [apply He, Hc| |exact Hv]. destruct l; exact I.
Qed.
Lemma ok_paragraph : step_ok KParagraph.
Proof.
  intros f H. cbn [pstep] in H. unfold parse_paragraph in H. peel H.
  assert (Hin : In (name e) (provision_tags ++ item_tags)) by (rewrite Hn; cbn; tauto).
  pose proof (num_attr _ _ Hin Ha Ha0) as Hnum.
  eapply (run_rows _ (fun s => allp (c_opt (c_caption good) (fst s)) /\ allp (c_text good (fst (snd s))) /\
      allp (map (good KSentence) (fst (snd (snd s)))) /\ allp (map (good KAmend) (fst (snd (snd (snd s))))) /\
      allp (map (good KClass) (fst (snd (snd (snd (snd s)))))) /\ allp (flat_map (c_any_struct good) (fst (snd (snd (snd (snd (snd s))))))) /\
      allp (map (good (KItem Item0)) (fst (snd (snd (snd (snd (snd (snd s)))))))))) in Ha4; [|cbn; auto 20|discriminate| |auto].
  - destruct a4 as (c & t & ss & am & cl & st & it & ?). injection H as <-. cbn [fst snd] in Ha4.
    cbn [storable collect par_caption par_paragraph_num par_sentence par_amend_provision par_class par_struct_list par_children par_num].
    rewrite Hnum. split; [reflexivity|]. fin.
  - unfold paragraph_table. apply Forall_app; split; [|apply Forall_app; split].
    + rows; row; st; fin. eapply parse_all_good; [intros; exact I| |exact Hv]. intros d Hd. eapply fine_child; [|exact Hd]. child.
    + apply struct_rows_good; [exact He|]. intros v x Hv Hx. st. fin.
    + rows; row; st; fin.
Qed.

Lemma article_head_good : forall l cap t r, (forall c, In (NElement c) l -> fine c) -> allp (c_opt (c_caption good) cap) -> allp (c_text good t) ->
  article_head p l cap t = Ok r -> allp (c_opt (c_caption good) (fst r)) /\ allp (c_text good (fst (snd r))) /\
    (forall c, In (NElement c) (snd (snd r)) -> fine c) /\ exists c rest, snd (snd r) = NElement c :: rest.
Proof.
  induction l as [|[c|t|t] l IH]; intros cap ti r Hl Hc Ht H; cbn [article_head] in H; [discriminate| | |].
  - assert (Hf : fine c) by (apply Hl; left; reflexivity).
    assert (Hl' : forall d, In (NElement d) l -> fine d) by (intros d Hd; apply Hl; right; exact Hd).
    destruct (String.eqb (name c) "ArticleCaption"); [|destruct (String.eqb (name c) "ArticleTitle")].
    + apply bind_inv in H as (v & Hv & H). apply IH in H; [exact H|exact Hl'| |exact Ht]. cbn. fin.
    + apply bind_inv in H as (v & Hv & H). apply IH in H; [exact H|exact Hl'|exact Hc|]. fin.
    + injection H as <-. cbn [fst snd]. split; [exact Hc|]. split; [exact Ht|]. split; [exact Hl|]. eauto.
  - apply IH in H; auto. intros d Hd. apply Hl. right. exact Hd.
  - apply IH in H; auto. intros d Hd. apply Hl. right. exact Hd.
Qed.
Lemma ok_article : step_ok KArticle.
Proof.
  intros f H. cbn [pstep] in H. unfold parse_article in H. peel H.
  assert (Hin : In (name e) (provision_tags ++ item_tags)) by (rewrite Hn; cbn; tauto).
  pose proof (num_attr _ _ Hin Ha Ha0) as Hnum.
  apply article_head_good in Ha3 as (H1 & H2 & H3 & c0 & rest & Hr); [|exact He|exact I|exact I].
  destruct a3 as (cap & title & l). cbn [fst snd] in *. subst l. peel H. destruct a3 as (ps & note & ?). injection H as <-.
  assert (Hg : allp (map (good KParagraph) ps) /\ allp (c_opt (c_text good) note)).
  { eapply (run_rows _ (fun s => allp (map (good KParagraph) (fst s)) /\ allp (c_opt (c_text good) (fst (snd s))))) in Ha3;
      [exact Ha3|cbn; auto|discriminate| |auto].
    rows; row; st; fin. }
  assert (Hne : negb (is_nil ps && is_none note) = true).
  { cbn [run] in Ha3. unfold lookup in Ha3. cbn [assoc] in Ha3.
    assert (Hm : forall s, run no_text (reject e) [("Paragraph", h_push at0 (fun v => v) (p KParagraph)); ("SupplNote", h_some at1 (p_text p))] rest s = Ok (ps, (note, u)) ->
      negb (is_nil (fst s) && is_none (fst (snd s))) = true -> negb (is_nil ps && is_none note) = true).
    { intros s Hs H0. refine (run_rows _ (fun s => negb (is_nil (fst s) && is_none (fst (snd s))) = true) _ _ _ _ _ _ Hs H0 _ _ _);
        [discriminate| |auto].
      rows; row; st; [destruct l; reflexivity|]. cbn. apply negb_true_iff, andb_false_r. }
    destruct (String.eqb (name c0) "Paragraph").
    - apply bind_inv in Ha3 as (v & Hv & Ha3). unfold h_push in Hv. apply bind_inv in Hv as (w & Hw & Hv). injection Hv as <-.
      apply (Hm _ Ha3). reflexivity.
    - destruct (String.eqb (name c0) "SupplNote"); [|discriminate].
      apply bind_inv in Ha3 as (v & Hv & Ha3). unfold h_some in Hv. apply bind_inv in Hv as (w & Hw & Hv). injection Hv as <-.
      apply (Hm _ Ha3). reflexivity. }
  cbn [storable collect art_caption art_title art_paragraph art_suppl_note art_num]. rewrite Hnum, Hne. split; [reflexivity|]. fin.
Qed.

Lemma head_good : forall C n tbl (cc : C -> list Prop) f, In n provision_tags ->
  Forall (fun th => forall c u, In (NElement c) (children e) -> name c = fst th -> snd th c = Ok u -> forall x,
    allp (flat_map cc x) -> allp (flat_map cc (u x))) tbl ->
  parse_head p n tbl e = Ok f -> an_ok (hd_num f) = true /\ allp (c_head good cc f).
Proof.
  intros C n tbl cc f Hin Ht H. unfold parse_head in H. peel H.
  assert (Hin' : In (name e) (provision_tags ++ item_tags)) by (rewrite Hn; apply in_or_app; left; exact Hin).
  pose proof (num_attr _ _ Hin' Ha Ha0) as Hnum.
  destruct (children e) as [|[s| |] rest] eqn:Ec; try discriminate. destruct (String.eqb (name s) (n ++ "Title")); [|discriminate].
  assert (Hs : fine s) by (apply He; left; reflexivity).
  peel H. injection H as <-. split; [exact Hnum|]. unfold c_head. cbn [hd_title hd_children]. apply allp_app. split; [fin|].
  eapply (run_rows _ (fun s => allp (flat_map cc s))) in Ha4; [exact Ha4|exact I|discriminate| |auto].
  eapply Forall_impl; [|exact Ht]. intros th Hth c u Hc. apply Hth. right. exact Hc.
Qed.
Ltac head_rows t := cbn [pstep storable collect]; apply head_good; [cbn; tauto|]; unfold t; rows; row; unfold whole; fin.
Lemma ok_part : step_ok KPart.
Proof. intros f. head_rows @part_table. Qed.
Lemma ok_chapter : step_ok KChapter.
Proof. intros f. head_rows @chapter_table. Qed.
Lemma ok_section : step_ok KSection.
Proof. intros f. head_rows @section_table. Qed.
Lemma ok_subsection : step_ok KSubsection.
Proof. intros f. head_rows @subsection_table. Qed.
Lemma ok_division : step_ok KDivision.
Proof. intros f. head_rows @division_table. Qed.

Lemma ok_amend : step_ok KAmend.
Proof.
  intros f H. cbn [pstep] in H. unfold parse_amend in H. peel H.
  eapply (run_rows _ (fun s => allp (c_opt (fun v => [good KSentence v]) (fst s)) /\ fst (snd s) = [])) in Ha; [|cbn; auto|discriminate| |auto].
  - destruct a as (s & n & ?). injection H as <-. cbn [fst snd] in Ha. destruct Ha as [H1 ->].
    cbn [storable collect am_sentence am_new]. split; [reflexivity|]. fin.
  - rows.
    + row; st; fin. unfold parse_amend_sentence in Hv. destruct (children c) as [|[d| |] r] eqn:Ec; try discriminate.
      eapply Hp; [|exact I|exact Hv]. eapply fine_child; [apply He, Hc|]. rewrite Ec. left. reflexivity.
    + intros c u Hc Hcn. exfalso. apply (Lamend Hn). exists c. auto.
Qed.
Lemma ok_law_title : step_ok KLawTitle.
Proof.
  intros f H. cbn [pstep] in H. unfold parse_law_title in H. peel H. injection H as <-. split; [reflexivity|].
  cbn [collect lt_text]. eapply text_good; [exact He|eassumption].
Qed.
Lemma ok_preamble : step_ok KPreamble.
Proof.
  intros f H. cbn [pstep] in H. unfold parse_preamble in H. peel H. split; [reflexivity|]. cbn [collect].
  eapply (run_rows _ (fun s => allp (map (good KParagraph) s))) in H; [exact H|exact I| | |auto].
  - intros c u _ Hu. injection Hu as <-. auto.
  - rows; row; unfold whole; fin.
Qed.
Lemma ok_main : step_ok KMain.
Proof.
  intros f H. cbn [pstep] in H. unfold parse_main in H. peel H. injection H as <-. split; [reflexivity|]. cbn [collect main_children].
  eapply (run_rows _ (fun s => allp (flat_map (c_mc good) s))) in Ha0; [exact Ha0|exact I|discriminate| |auto].
  unfold main_table. rows; row; unfold whole; fin.
Qed.
Lemma ok_suppl : step_ok KSuppl.
Proof.
  intros f H. cbn [pstep] in H. unfold parse_suppl in H. peel H. split; [reflexivity|].
  eapply (run_rows _ (fun s => allp (c_text good (fst s)) /\ allp (flat_map (c_sp good) (fst (snd s))))) in Ha1; [|cbn; auto|discriminate| |auto].
  - destruct a1 as (l & c & ?). injection H as <-. cbn [fst snd] in Ha1. cbn [collect sp_label sp_children]. fin.
  - unfold suppl_table. rows; row; st; fin.
Qed.
Lemma ok_suppl_style : step_ok KSupplStyle.
Proof.
  intros f H. cbn [pstep] in H. unfold parse_suppl_style, parse_suppl_ts in H. peel H. split; [reflexivity|].
  eapply (run_rows _ (fun s => allp (c_opt (c_twm good) (fst s)) /\ allp (c_opt (c_text good) (fst (snd s))) /\
    allp (flat_map (fun v => [good (KCStruct SStyle) v]) (fst (snd (snd s)))))) in Ha0; [|cbn; auto|discriminate| |auto].
  - destruct a0 as ([t|] & r & c & ?); [|discriminate]. injection H as <-. cbn [fst snd] in Ha0. cbn [collect]. unfold c_sts.
    cbn [sts_title sts_related sts_children]. fin.
  - rows; row; st; fin.
Qed.
Lemma appdx_t_good : forall C n rows (cc : C -> list Prop) f,
  Forall (fun th => forall c u, In (NElement c) (children e) -> name c = fst th -> snd th c = Ok u -> forall x,
    allp (flat_map cc (fst (snd (snd x)))) -> fst (u x) = fst x /\ fst (snd (u x)) = fst (snd x) /\
      fst (snd (snd (snd (u x)))) = fst (snd (snd (snd x))) /\ allp (flat_map cc (fst (snd (snd (u x)))))) rows ->
  parse_appdx_t p n rows e = Ok f -> allp (c_appdx_t good cc f).
Proof.
  intros C n rows cc f Ht H. unfold parse_appdx_t in H. peel H.
  eapply (run_rows _ (fun s => allp (c_opt (c_twm good) (fst s)) /\ allp (c_opt (c_text good) (fst (snd s))) /\
    allp (flat_map cc (fst (snd (snd s)))) /\ allp (c_opt (fun v => [good KRemarks v]) (fst (snd (snd (snd s))))))) in Ha0;
    [|cbn; auto|discriminate| |auto].
  - destruct a0 as (t & r & c & m & ?). injection H as <-. cbn [fst snd] in Ha0. unfold c_appdx_t.
    cbn [ax_title ax_related ax_children ax_remarks]. fin.
  - apply Forall_app; split; [|apply Forall_app; split].
    + rows; row; st; fin.
    + eapply Forall_impl; [|exact Ht]. intros th Hth c u Hc Hcn Hu x (H1 & H2 & H3 & H4).
      destruct (Hth c u Hc Hcn Hu x H3) as (E1 & E2 & E3 & H5). rewrite E1, E2, E3. auto.
    + rows; row; st; fin.
Qed.
Ltac appdx_rows t := intros H; split; [reflexivity|]; revert H; cbn [pstep collect]; apply appdx_t_good; unfold t; rows; row; st; fin.
Lemma ok_appdx_table : step_ok KAppdxTable.
Proof. intros f. appdx_rows @appdx_table_rows. Qed.
Lemma ok_appdx_note : step_ok KAppdxNote.
Proof. intros f. appdx_rows @appdx_note_rows. Qed.
Lemma ok_appdx_style : step_ok KAppdxStyle.
Proof. intros f. appdx_rows @appdx_style_rows. Qed.
Lemma ok_appdx_format : step_ok KAppdxFormat.
Proof. intros f. appdx_rows @appdx_format_rows. Qed.
Lemma ok_appdx : step_ok KAppdx.
Proof.
  intros f H. cbn [pstep] in H. unfold parse_appdx in H. peel H.
  eapply (run_rows _ (fun s => allp (c_opt (c_text good) (fst s)) /\ fst (snd s) = None /\
    (forallb no_formula_num (fst (snd (snd s))) = true /\ allp (flat_map (c_arith good) (fst (snd (snd s))))) /\
    allp (c_opt (fun v => [good KRemarks v]) (fst (snd (snd (snd s))))))) in Ha; [|cbn; auto 10|discriminate| |auto].
  - destruct a as (t & r & c & m & ?). injection H as <-. cbn [fst snd] in Ha. destruct Ha as (H1 & -> & (H2 & H3) & H4).
    cbn [storable collect ap_arith_formula_num ap_related ap_arith_formula ap_remarks]. rewrite H2. split; [reflexivity|]. fin.
  - rows.
    + row; st; fin.
    + intros c u Hc Hcn. exfalso. apply (Lappdx Hn). exists c. auto.
    + row; st. apply arith_good in Hv as [? ?]; [|child|assumption]. fin.
    + row; st; fin.
Qed.
Lemma ok_appdx_fig : step_ok KAppdxFig.
Proof.
  intros f H. cbn [pstep] in H. unfold parse_appdx_fig in H. peel H. split; [reflexivity|].
  eapply (run_rows _ (fun s => allp (c_opt (c_twm good) (fst s)) /\ allp (c_opt (c_text good) (fst (snd s))) /\
    allp (flat_map (c_af good) (fst (snd (snd s)))))) in Ha0; [|cbn; auto|discriminate| |auto].
  - destruct a0 as (t & r & c & ?). injection H as <-. cbn [fst snd] in Ha0. cbn [collect af_title af_related af_children]. fin.
  - rows; row; st; fin.
Qed.
Lemma toc_head_good : forall C n tn rows (cc : C -> list Prop) f, In n provision_tags ->
  Forall (fun th => forall c u, In (NElement c) (children e) -> name c = fst th -> snd th c = Ok u -> forall x,
    allp (flat_map cc (fst (snd (snd x)))) -> fst (u x) = fst x /\ fst (snd (u x)) = fst (snd x) /\
      allp (flat_map cc (fst (snd (snd (u x)))))) rows ->
  parse_toc_head p n tn rows e = Ok f -> an_ok (th_num f) = true /\ allp (c_toc_head good cc f).
Proof.
  intros C n tn rows cc f Hin Ht H. unfold parse_toc_head in H. peel H.
  assert (Hin' : In (name e) (provision_tags ++ item_tags)) by (rewrite Hn; apply in_or_app; left; exact Hin).
  pose proof (num_parse_attr _ Hin' Ha) as Hnum.
  eapply (run_rows _ (fun s => allp (c_text good (fst s)) /\ allp (c_opt (c_text good) (fst (snd s))) /\
    allp (flat_map cc (fst (snd (snd s)))))) in Ha1; [|cbn; auto|discriminate| |auto].
  - destruct a1 as (t & r & c & ?). injection H as <-. cbn [fst snd] in Ha1. unfold c_toc_head.
    cbn [th_title th_range th_children th_num]. split; [exact Hnum|]. fin.
  - apply Forall_app; split.
    + rows; row; st; fin.
    + eapply Forall_impl; [|exact Ht]. intros th Hth c u Hc Hcn Hu x (H1 & H2 & H3).
      destruct (Hth c u Hc Hcn Hu x H3) as (E1 & E2 & H5). rewrite E1, E2. auto.
Qed.
Ltac toc_rows t := cbn [pstep storable collect]; apply toc_head_good; [cbn; tauto|]; unfold t; rows; row; st; fin.
Lemma ok_toc_part : step_ok KTOCPart.
Proof. intros f. toc_rows @toc_part_rows. Qed.
Lemma ok_toc_chapter : step_ok KTOCChapter.
Proof. intros f. toc_rows @toc_chapter_rows. Qed.
Lemma ok_toc_section : step_ok KTOCSection.
Proof. intros f. toc_rows @toc_section_rows. Qed.
Lemma ok_toc_subsection : step_ok KTOCSubsection.
Proof. intros f. toc_rows @toc_subsection_rows. Qed.
Lemma ok_toc_division : step_ok KTOCDivision.
Proof. intros f. cbn [pstep storable collect]; apply toc_head_good; [cbn; tauto|constructor]. Qed.
Lemma ok_toc_article : step_ok KTOCArticle.
Proof.
  intros f H. cbn [pstep] in H. unfold parse_toc_article in H. peel H.
  assert (Hin : In (name e) (provision_tags ++ item_tags)) by (rewrite Hn; cbn; tauto).
  pose proof (num_parse_attr _ Hin Ha) as Hnum.
  eapply (run_rows _ (fun s => allp (c_text good (fst s)) /\ allp (c_opt (c_caption good) (fst (snd s))))) in Ha1; [|cbn; auto|discriminate| |auto].
  - destruct a1 as (t & [c|] & ?); [|discriminate]. injection H as <-. cbn [fst snd] in Ha1.
    cbn [storable collect ta_title ta_caption ta_num]. split; [exact Hnum|]. fin.
  - rows; row; st; fin.
Qed.
Lemma ok_toc_suppl : step_ok KTOCSuppl.
Proof.
  intros f H. cbn [pstep] in H. unfold parse_toc_suppl in H. peel H. split; [reflexivity|].
  eapply (run_rows _ (fun s => allp (c_text good (fst s)) /\ allp (c_opt (c_text good) (fst (snd s))) /\
    allp (flat_map (c_tsp good) (fst (snd (snd s)))))) in Ha; [|cbn; auto|discriminate| |auto].
  - destruct a as (l & r & c & ?). injection H as <-. cbn [fst snd] in Ha. cbn [collect ts_label ts_range ts_children]. fin.
  - rows; row; st; fin.
Qed.
Lemma ok_toc : step_ok KTOC.
Proof.
  intros f H. cbn [pstep] in H. unfold parse_toc in H. peel H.
  eapply (run_rows _ (fun s => allp (c_opt (c_text good) (fst s)) /\ fst (snd s) = None /\
    allp (flat_map (c_tm good) (fst (snd (snd s)))) /\ allp (c_opt (fun v => [good KTOCSuppl v]) (fst (snd (snd (snd s))))) /\
    allp (flat_map (c_text good) (fst (snd (snd (snd (snd s)))))))) in Ha; [|cbn; auto 10|discriminate| |auto].
  - destruct a as (l & pl & m & s & a & ?). injection H as <-. cbn [fst snd] in Ha. destruct Ha as (H1 & -> & H2 & H3 & H4).
    cbn [storable collect toc_label toc_preamble_label toc_main toc_suppl toc_appdx_table_label]. split; [reflexivity|]. fin.
  - apply Forall_cons; [|apply Forall_cons].
    + row; st; fin.
    + intros c u Hc Hcn. exfalso. apply (Ltoc Hn). exists c. auto.
    + rows; row; st; fin.
Qed.
Lemma ok_law_body : step_ok KLawBody.
Proof.
  intros f H. cbn [pstep] in H. unfold parse_law_body in H. peel H. split; [reflexivity|].
  eapply (run_rows _ (fun s : law_body_state => let '(title, (enact, (toc, (pre, (main, (sup, (at_, (an, (as_, (a, (af, (afm, _)))))))))))) := s in
    (allp (c_opt (fun v => [good KLawTitle v]) title) /\ allp (flat_map (c_text good) enact) /\ allp (c_opt (fun v => [good KTOC v]) toc) /\
    allp (c_opt (fun v => [good KPreamble v]) pre) /\ allp (c_opt (fun v => [good KMain v]) main)) /\ (allp (map (good KSuppl) sup) /\
    allp (map (good KAppdxTable) at_) /\ allp (map (good KAppdxNote) an) /\ allp (map (good KAppdxStyle) as_) /\ allp (map (good KAppdx) a) /\
    allp (map (good KAppdxFig) af) /\ allp (map (good KAppdxFormat) afm)))) in Ha0; [|cbn; auto 20|discriminate| |auto].
  - destruct a0 as (title & enact & toc & pre & [main|] & sup & at_ & an & as_ & ap & af & afm & ?); [|discriminate].
    injection H as <-.
    cbn [collect lb_law_title lb_enact_statement lb_toc lb_preamble lb_main_provision lb_suppl_provision lb_appdx_table lb_appdx_note
      lb_appdx_style lb_appdx lb_appdx_fig lb_appdx_format].
    cbn [c_opt allp] in Ha0. fin.
  - unfold law_body_table. rows; row; unfold law_body_state in *; st; fin.
Qed.

Hypothesis Lremarks : forall f, pstep p KRemarks e <> Ok f.
Hypothesis Lsuppl_table : forall f, pstep p KSupplTable e <> Ok f.
Hypothesis Lsuppl_appdx : forall f, pstep p KSupplAppdx e <> Ok f.
Lemma step_all : forall k, step_ok k.
Proof.
  destruct k; try (intros f H; exfalso; (apply (Lremarks f H) || apply (Lsuppl_table f H) || apply (Lsuppl_appdx f H))).
  all: first [exact ok_ruby|exact ok_line|apply ok_cont|exact ok_sentence|exact ok_column|exact ok_table|exact ok_table_row|exact ok_table_column
    |apply ok_cstruct|exact ok_fig_struct|exact ok_table_struct|apply ok_list|exact ok_class|apply ok_item|exact ok_paragraph|exact ok_article
    |exact ok_part|exact ok_chapter|exact ok_section|exact ok_subsection|exact ok_division|exact ok_amend|exact ok_law_title|exact ok_preamble
    |exact ok_main|exact ok_suppl|exact ok_suppl_style|exact ok_appdx_table|exact ok_appdx_note|exact ok_appdx_style|exact ok_appdx_format
    |exact ok_appdx|exact ok_appdx_fig|exact ok_toc|exact ok_toc_part|exact ok_toc_chapter|exact ok_toc_section|exact ok_toc_subsection
    |exact ok_toc_division|exact ok_toc_article|exact ok_toc_suppl|exact ok_law_body|intros f; discriminate].
Qed.
End One.
End Step.
