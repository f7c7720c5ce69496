(** Every part of what is read is the reading of an element of the document. *)
From Coq Require Import String List Arith NArith Bool Lia.
From Verif Require Import Base NumStr NumStrSpec BaseFacts NumStrFacts Xml Ast XmlWrite XmlParse
  RoundTripSpec KnotFacts XmlSpec XmlSim RoundTripLib RoundTripFacts LossFacts GrammarSpec GrammarFacts ReadSpec ReadFacts PlainSpec StableFacts.
Import ListNotations.
Open Scope string_scope.
Open Scope list_scope.

Section Step.
Context {K : kind -> Type} (p : forall k, Element -> R (K k)) (good : forall k, K k -> Prop).
Context (fine : Element -> Prop).
Hypothesis fine_child : forall e c, fine e -> In (NElement c) (children e) -> fine c.
Hypothesis Hp : forall k c v, fine c -> tagged k c -> p k c = Ok v -> good k v.

Ltac st := repeat match goal with s : (_ * _)%type |- _ => destruct s end;
  cbn [at0 at1 at2 at3 at4 at5 at6 at7 at8 at9 at10 at11 whole fst snd] in *.
Ltac child := first [assumption | eapply fine_child; [eassumption|eassumption] | eauto using fine_child].
Ltac tagd := first [exact I | assumption].
Ltac gd := eapply Hp; [| |eassumption]; [child|tagd].
Ltac leaf := fail.
Ltac fin := repeat match goal with H : _ /\ _ |- _ => destruct H end; repeat (cbn [allp c_opt flat_map map app c_te c_ce c_arith af_contents c_se c_line c_sct c_tc c_rc c_any_struct c_ls c_pc c_chc c_sec
    c_suc c_mc c_sp c_at c_an c_af c_tsc c_tsp c_tm c_np];
  match goal with
  | |- allp (flat_map _ (_ ++ _)) => rewrite flat_map_app
  | |- allp (map _ (_ ++ _)) => rewrite map_app
  | |- allp (_ ++ _) => apply allp_app; split
  | |- True => exact I
  | |- _ /\ _ => split
  | |- _ = _ => reflexivity
  | H : ?P |- ?P => exact H
  | |- good _ _ => gd
  | _ => leaf
  end).
Ltac row := let Hn := fresh "Hn" in let c := fresh "c" in let u := fresh "u" in let Hc := fresh "Hc" in let Hu := fresh "Hu" in intros c u Hc Hn Hu; cbn [fst snd] in Hn, Hu;
  unfold h_push, h_some, h_put, h_push_ok in Hu;
  let v := fresh "v" in let Hv := fresh "Hv" in
  apply bind_inv in Hu as (v & Hv & Hu); injection Hu as <-; let s := fresh "s" in let Hs := fresh "Hs" in intros s Hs.
Ltac rows := repeat match goal with
  | |- Forall _ (_ ++ _) => apply Forall_app; split
  | |- Forall _ (_ :: _) => apply Forall_cons
  | |- Forall _ [] => apply Forall_nil
  end.

Lemma text_parts : forall l t, (forall c, In (NElement c) l -> fine c) -> from_children p l = Ok t -> allp (c_text good t).
Proof.
  intros l t Hl H. refine (run_rows _ (fun t => allp (c_text good t)) _ _ _ _ _ _ H I _ _ _).
  - intros c u _ Hu. injection Hu as <-. auto.
  - unfold text_table. rows; row; apply ok_opt in Hv; destruct v as [v|]; try exact Hs; unfold whole, c_text in *; fin.
  - intros a x Hx. unfold c_text in *. fin.
Qed.
Lemma p_text_parts : forall e t, fine e -> p_text p e = Ok t -> allp (c_text good t).
Proof. intros e t He H. eapply text_parts; [|exact H]. intros c Hc. child. Qed.
Lemma twm_parts : forall e t, fine e -> parse_twm p e = Ok t -> allp (c_twm good t).
Proof. intros e t He H. apply bind_inv in H as (x & Hx & H). injection H as <-. exact (p_text_parts e x He Hx). Qed.
Lemma caption_parts : forall e t, fine e -> parse_caption p e = Ok t -> allp (c_caption good t).
Proof.
  intros e t He H. apply bind_inv in H as (x & Hx & H). apply bind_inv in H as (y & Hy & H). injection H as <-.
  exact (p_text_parts e x He Hx).
Qed.
Lemma arith_parts : forall e a, fine e -> name e = "ArithFormula" -> parse_arith p e = Ok a -> good (KCont CArith) (af_contents a).
Proof. intros e a He Hn H. apply bind_inv in H as (n & Hnum & H). apply bind_inv in H as (x & Hx & H). injection H as <-. cbn. gd. Qed.
Ltac leaf ::= match goal with
  | H : p_text _ _ = Ok ?t |- allp (c_text good ?t) => eapply p_text_parts; [|exact H]; child
  | H : parse_twm _ _ = Ok ?t |- allp (c_twm good ?t) => eapply twm_parts; [|exact H]; child
  | H : parse_caption _ _ = Ok ?t |- allp (c_caption good ?t) => eapply caption_parts; [|exact H]; child
  | H : parse_arith _ _ = Ok ?t |- good (KCont CArith) (af_contents ?t) => eapply arith_parts; [| |exact H]; [child|assumption]
  end.
Lemma parse_all_parts : forall k l xs, (forall c, tagged k c) -> (forall c, In (NElement c) l -> fine c) -> parse_all (p k) l = Ok xs ->
  allp (map (good k) xs).
Proof.
  intros k l xs Hw. revert xs. induction l as [|[c|t|t] l IH]; intros xs Hl H; cbn [parse_all] in H.
  - injection H as <-. exact I.
  - apply bind_inv in H as (x & Hx & H). apply bind_inv in H as (ys & Hy & H). injection H as <-. split.
    + eapply Hp; [apply Hl; left; reflexivity|apply Hw|exact Hx].
    + apply IH; [|exact Hy]. intros d Hd. apply Hl. right. exact Hd.
  - apply IH; [|exact H]. intros d Hd. apply Hl. right. exact Hd.
  - apply IH; [|exact H]. intros d Hd. apply Hl. right. exact Hd.
Qed.
Lemma sct_parts : forall e s, fine e -> parse_sct p e = Ok s -> allp (c_sct good s).
Proof.
  intros e s He H. apply bind_inv in H as (st & Hr & H).
  eapply (run_rows _ (fun s => allp (map (good KSentence) (fst s)) /\ allp (map (good KColumn) (fst (snd s))) /\
      allp (c_opt (fun t => [good KTable t]) (fst (snd (snd s)))))) in Hr; [|cbn; auto| | |auto].
  - destruct st as (ss & cs & t & ?). cbn [fst snd] in Hr. destruct Hr as (H1 & H2 & H3).
    destruct cs; [destruct ss; [destruct t; [|discriminate]|]|]; injection H as <-; assumption.
  - discriminate.
  - rows; row; st; fin.
Qed.
Lemma header_row_parts : forall e r, fine e -> parse_header_row p e = Ok r -> allp (flat_map (c_text good) r).
Proof.
  intros e r He H. apply with_name_ok in H as [_ H].
  refine (run_rows _ (fun r => allp (flat_map (c_text good) r)) _ _ _ _ _ _ H I _ _ _); [intros c u _ Hu; injection Hu as <-; auto| |auto].
  rows. row. unfold whole. rewrite flat_map_app. apply allp_app. split; [exact Hs|]. cbn [flat_map]. rewrite app_nil_r.
  eapply p_text_parts; [|exact Hv]. child.
Qed.
Lemma item_rows_parts : forall T (inj : forall l, K (KItem l) -> T) (P : list T -> Prop) l,
  (forall c, In (NElement c) l -> fine c) -> (forall lv v x, good (KItem lv) v -> P x -> P (x ++ [inj lv v])) ->
  Forall (fun th => forall c u, In (NElement c) l -> name c = fst th -> snd th c = Ok u -> forall x, P x -> P (u x)) (item_rows p inj).
Proof.
  intros T inj P l Hl HP. unfold item_rows. apply Forall_forall. intros th Hth. apply in_map_iff in Hth as (lv & <- & _).
  row. apply HP; [|exact Hs]. eapply Hp; [apply Hl, Hc|exact I|exact Hv].
Qed.
Lemma struct_rows_parts : forall S ix (P : S -> Prop) l,
  (forall c, In (NElement c) l -> fine c) -> (forall v x, allp (c_any_struct good v) -> P x -> P (ix (fun l => l ++ [v]) x)) ->
  Forall (fun th => forall c u, In (NElement c) l -> name c = fst th -> snd th c = Ok u -> forall x, P x -> P (u x)) (struct_rows p ix).
Proof. intros S ix P l Hl HP. unfold struct_rows. rows; row; apply HP; try exact Hs; fin. Qed.

Section One.
Context (e : Element).
Hypothesis He : forall c, In (NElement c) (children e) -> fine c.

Definition step_parts (k : kind) : Prop := forall f, pstep p k e = Ok f -> allp (collect good k f).

Lemma pt_ruby : step_parts KRuby.
Proof.
  intros f H. cbn [pstep] in H. apply with_name_ok in H as [_ H]. apply bind_inv in H as (s & Hr & H).
  eapply (run_rows _ (fun s => allp (c_text good (fst s)))) in Hr; [|exact I| | |].
  - destruct s as (t & r & ?). injection H as <-. exact Hr.
  - intros c u _ Hu. injection Hu as <-. auto.
  - rows. row. st. exact Hs.
  - intros a x Hx. st. unfold c_text in *. fin.
Qed.
Lemma pt_line : step_parts KLine.
Proof.
  intros f H. cbn [pstep] in H. apply with_name_ok in H as [_ H]. destruct (linestyle_of _) as [ls|] eqn:El; [|discriminate].
  apply bind_inv in H as (s & Hr & H). injection H as <-. cbn [collect line_contents].
  eapply (run_rows _ (fun s => allp (flat_map (c_line good) s))) in Hr; [exact Hr|exact I|discriminate| |].
  - unfold line_table. rows; row; unfold whole; fin.
  - intros a x H2. fin.
Qed.
Lemma pt_cont : forall c, step_parts (KCont c).
Proof.
  intros n f H. cbn [pstep] in H. cbn [collect].
  refine (run_rows _ (fun s => allp (flat_map (c_ce good) s)) _ _ _ _ _ _ H _ _ _ _); [exact I|discriminate| |].
  - unfold contents_table. apply Forall_app. split; [|apply Forall_app; split].
    + rows; row; unfold whole; fin.
    + apply item_rows_parts; [exact He|]. intros lv v x Hv H2. fin.
    + rows; row; unfold whole; fin.
  - intros a x H2. fin.
Qed.
Lemma pt_sentence : step_parts KSentence.
Proof.
  intros f H. cbn [pstep] in H. unfold parse_sentence in H. peel H. injection H as <-. cbn [collect sen_contents].
  eapply (run_rows _ (fun s => allp (flat_map (c_se good) s))) in Ha2; [exact Ha2|exact I|discriminate| |].
  - unfold sentence_table. rows; row; unfold whole; fin.
  - intros x y H2. fin.
Qed.
Lemma pt_column : step_parts KColumn.
Proof.
  intros f H. cbn [pstep] in H. unfold parse_column in H. peel H. injection H as <-. cbn [collect col_sentence].
  eapply parse_all_parts; [intros; exact I|exact He|exact Ha1].
Qed.
Lemma pt_table : step_parts KTable.
Proof.
  intros f H. cbn [pstep] in H. unfold parse_table in H. peel H. destruct a as (h & r & ?). injection H as <-.
  cbn [collect tb_header tb_row].
  eapply (run_rows _ (fun s => allp (flat_map (fun r => flat_map (c_text good) r) (fst s)) /\ allp (map (good KTableRow) (fst (snd s))))) in Ha;
    [cbn in Ha; apply allp_app; exact Ha|cbn; auto|discriminate| |auto].
  rows; row; st; fin. eapply header_row_parts; [|exact Hv]. child.
Qed.
Lemma pt_table_row : step_parts KTableRow.
Proof.
  intros f H. cbn [pstep] in H. unfold parse_table_row in H. peel H. cbn [collect].
  eapply (run_rows _ (fun s => allp (map (good KTableColumn) s))) in H; [exact H|exact I| | |auto].
  - intros c u _ Hu. injection Hu as <-. auto.
  - rows; row. unfold whole. fin.
Qed.
Lemma pt_table_column : step_parts KTableColumn.
Proof.
  intros f H. cbn [pstep] in H. unfold parse_table_column in H. peel H. injection H as <-. cbn [collect tc_contents].
  eapply (run_rows _ (fun s => allp (flat_map (c_tc good) s))) in Ha1; [exact Ha1|exact I|discriminate| |].
  - unfold cell_table. apply Forall_app. split; [|apply Forall_app; split].
    + rows; row; unfold whole; fin.
    + apply item_rows_parts; [exact He|]. intros lv v x Hv H2. fin.
    + rows; row; unfold whole; fin.
  - intros x y H2. fin.
Qed.
Lemma pt_remarks : step_parts KRemarks.
Proof.
  intros f H. cbn [pstep] in H. unfold parse_remarks in H. peel H.
  eapply (run_rows _ (fun s => allp (c_opt (fun l => c_text good (rl_text l)) (fst s)) /\ allp (flat_map (c_rc good) (fst (snd s))))) in Ha;
    [|cbn; auto|discriminate| |auto].
  - destruct a as ([l|] & c & ?); [|discriminate]. injection H as <-. cbn [fst snd c_opt] in Ha. cbn [collect rem_label rem_children]. fin.
  - rows; row; st; fin. unfold parse_remarks_label in Hv. peel Hv. injection Hv as <-. cbn [rl_text].
    eapply text_parts; [|eassumption]. intros d Hd. eapply fine_child; [|exact Hd]. child.
Qed.
Lemma struct_parts : forall T B n tn bn (pt : Element -> R T) (pb : Element -> R B) ct cb f,
  (forall c v, fine c -> pt c = Ok v -> allp (ct v)) -> (forall c v, fine c -> name c = bn -> pb c = Ok v -> allp (cb v)) ->
  parse_struct p n tn bn pt pb e = Ok f -> allp (c_struct good ct cb f).
Proof.
  intros T B n tn bn pt pb ct cb f Ht Hb H. unfold parse_struct in H. peel H.
  eapply (run_rows _ (fun s => allp (c_opt ct (fst s)) /\ allp (map (good KRemarks) (fst (snd s))) /\ allp (c_opt cb (fst (snd (snd s)))) /\
    allp (map (good KRemarks) (fst (snd (snd (snd s))))))) in Ha;
    [|cbn; auto|discriminate| |auto].
  - destruct a as (t & tr & [b|] & br & ?); [|discriminate]. injection H as <-. cbn [fst snd] in Ha. destruct Ha as (H1 & H2 & H3 & H4).
    unfold c_struct. cbn [st_title st_title_remarks st_body st_remarks]. fin.
  - rows.
    + row; st; fin. eapply Ht; [|exact Hv]; child.
    + intros c u Hc Hcn Hu. unfold h_struct_remarks in Hu. apply bind_inv in Hu as (o & Ho & Hu). injection Hu as <-. apply ok_opt in Ho.
      destruct o as [o|]; [|auto]. intros s Hs. destruct s as (t & tr & [b|] & br & ?); st; fin.
    + row; st; fin. eapply Hb; [| |exact Hv]; [child|assumption].
Qed.
Lemma pt_cstruct : forall s, step_parts (KCStruct s).
Proof.
  intros s f H. cbn [pstep] in H. unfold parse_cstruct in H. cbn [collect].
  eapply struct_parts; [|  |exact H].
  - intros c v Hf Hv. eapply p_text_parts; eassumption.
  - intros c v Hf Hn Hv. cbn [allp]. split; [|exact I]. eapply Hp; [exact Hf| |exact Hv]. destruct s; exact Hn.
Qed.
Lemma pt_fig_struct : step_parts KFigStruct.
Proof.
  intros f H. cbn [pstep] in H. unfold parse_fig_struct in H. cbn [collect].
  eapply struct_parts; [|  |exact H].
  - intros c v Hf Hv. eapply p_text_parts; eassumption.
  - intros c v Hf Hn Hv. exact I.
Qed.
Lemma pt_table_struct : step_parts KTableStruct.
Proof.
  intros f H. cbn [pstep] in H. unfold parse_table_struct in H. cbn [collect].
  eapply struct_parts; [|  |exact H].
  - intros c v Hf Hv. eapply twm_parts; eassumption.
  - intros c v Hf Hn Hv. cbn [allp]. split; [|exact I]. eapply Hp; [exact Hf|exact I|exact Hv].
Qed.
Lemma pt_list : forall l, step_parts (KList l).
Proof.
  intros l f H. cbn [pstep] in H. unfold parse_list in H. peel H.
  destruct (children e) as [|[s| |] rest] eqn:Ec; try discriminate. destruct (String.eqb (name s) (list_tag l ++ "Sentence")); [|discriminate].
  peel H. injection H as <-. cbn [collect list_sentence list_children]. apply allp_app. split.
  - unfold parse_list_sentences in Ha.
    assert (Hs : fine s) by (apply He; left; reflexivity).
    eapply (run_rows _ (fun s => allp (flat_map (c_ls good) s))) in Ha; [exact Ha|exact I|discriminate| |auto].
    rows; row; unfold whole; fin.
  - destruct l; try (eapply parse_all_parts; [intros; exact I| |exact Ha0]; intros c Hc; apply He; right; exact Hc).
    injection Ha0 as <-. exact I.
Qed.
Lemma pt_class : step_parts KClass.
Proof.
  intros f H. cbn [pstep] in H. unfold parse_class in H. peel H.
  eapply (run_rows _ (fun s => allp (c_opt (c_text good) (fst s)) /\ allp (c_opt (c_sct good) (fst (snd s))) /\
      allp (map (good (KItem Item0)) (fst (snd (snd s)))))) in Ha0; [|cbn; auto|discriminate| |auto].
  - destruct a0 as (t & [s|] & i & ?); [|discriminate]. injection H as <-. cbn [fst snd] in Ha0. destruct Ha0 as (H1 & H2 & H4).
    cbn [collect class_title class_sentence class_children]. fin.
  - rows; row; st; try (apply sct_parts in Hv; [|child]); fin.
Qed.
Lemma pt_item : forall l, step_parts (KItem l).
Proof.
  intros l f H. cbn [pstep] in H. unfold parse_item in H. peel H.
  eapply (run_rows _ (fun s => allp (c_opt (c_text good) (fst s)) /\ allp (c_opt (c_sct good) (fst (snd s))) /\
      allp (flat_map (c_any_struct good) (fst (snd (snd s)))) /\ allp (map (good (sub_item l)) (fst (snd (snd (snd s))))))) in Ha3;
    [|cbn; auto|discriminate| |auto].
  - destruct a3 as (t & [s|] & st & i & ?); [|discriminate]. injection H as <-. cbn [fst snd] in Ha3. destruct Ha3 as (H1 & H2 & H4 & H5).
    cbn [collect it_title it_sentence it_children it_struct_list]. fin.
  - unfold item_table. apply Forall_app; split; [|apply Forall_app; split].
    + rows; row; st; try (apply sct_parts in Hv; [|child]); fin.
    + apply struct_rows_parts; [exact He|]. intros v x Hv Hx. st. fin.
    + destruct (sub_tag (sub_item l)) as [t|] eqn:Et; [|constructor]. rows. row. st. fin.
      eapply Hp; [apply He, Hc| |exact Hv]. destruct l; exact I.
Qed.
Lemma pt_paragraph : step_parts KParagraph.
Proof.
  intros f H. cbn [pstep] in H. unfold parse_paragraph in H. peel H.
  eapply (run_rows _ (fun s => allp (c_opt (c_caption good) (fst s)) /\ allp (c_text good (fst (snd s))) /\
      allp (map (good KSentence) (fst (snd (snd s)))) /\ allp (map (good KAmend) (fst (snd (snd (snd s))))) /\
      allp (map (good KClass) (fst (snd (snd (snd (snd s)))))) /\ allp (flat_map (c_any_struct good) (fst (snd (snd (snd (snd (snd s))))))) /\
      allp (map (good (KItem Item0)) (fst (snd (snd (snd (snd (snd (snd s)))))))))) in Ha4; [|cbn; auto 20|discriminate| |auto].
  - destruct a4 as (c & t & ss & am & cl & st & it & ?). injection H as <-. cbn [fst snd] in Ha4.
    cbn [collect par_caption par_paragraph_num par_sentence par_amend_provision par_class par_struct_list par_children]. fin.
  - unfold paragraph_table. apply Forall_app; split; [|apply Forall_app; split].
    + rows; row; st; fin. eapply parse_all_parts; [intros; exact I| |exact Hv]. intros d Hd. eapply fine_child; [|exact Hd]. child.
    + apply struct_rows_parts; [exact He|]. intros v x Hv Hx. st. fin.
    + rows; row; st; fin.
Qed.
Lemma article_head_parts : forall l cap t r, (forall c, In (NElement c) l -> fine c) -> allp (c_opt (c_caption good) cap) -> allp (c_text good t) ->
  article_head p l cap t = Ok r -> allp (c_opt (c_caption good) (fst r)) /\ allp (c_text good (fst (snd r))) /\
    (forall c, In (NElement c) (snd (snd r)) -> fine c).
Proof.
  induction l as [|[c|t|t] l IH]; intros cap ti r Hl Hc Ht H; cbn [article_head] in H; [discriminate| | |].
  - assert (Hf : fine c) by (apply Hl; left; reflexivity).
    assert (Hl' : forall d, In (NElement d) l -> fine d) by (intros d Hd; apply Hl; right; exact Hd).
    destruct (String.eqb (name c) "ArticleCaption"); [|destruct (String.eqb (name c) "ArticleTitle")].
    + apply bind_inv in H as (v & Hv & H). apply IH in H; [exact H|exact Hl'| |exact Ht]. cbn. fin.
    + apply bind_inv in H as (v & Hv & H). apply IH in H; [exact H|exact Hl'|exact Hc|]. fin.
    + injection H as <-. cbn [fst snd]. split; [exact Hc|]. split; [exact Ht|]. exact Hl.
  - apply IH in H; auto. intros d Hd. apply Hl. right. exact Hd.
  - apply IH in H; auto. intros d Hd. apply Hl. right. exact Hd.
Qed.
Lemma pt_article : step_parts KArticle.
Proof.
  intros f H. cbn [pstep] in H. unfold parse_article in H. peel H.
  apply article_head_parts in Ha3 as (H1 & H2 & H3); [|exact He|exact I|exact I].
  destruct a3 as (cap & title & l). cbn [fst snd] in *. peel H. destruct a3 as (ps & note & ?). injection H as <-.
  assert (Hg : allp (map (good KParagraph) ps) /\ allp (c_opt (c_text good) note)).
  { eapply (run_rows _ (fun s => allp (map (good KParagraph) (fst s)) /\ allp (c_opt (c_text good) (fst (snd s))))) in Ha3;
      [exact Ha3|cbn; auto|discriminate| |auto].
    rows; row; st; fin. }
  cbn [collect art_caption art_title art_paragraph art_suppl_note]. fin.
Qed.
Lemma head_parts : forall C n tbl (cc : C -> list Prop) f,
  Forall (fun th => forall c u, In (NElement c) (children e) -> name c = fst th -> snd th c = Ok u -> forall x,
    allp (flat_map cc x) -> allp (flat_map cc (u x))) tbl ->
  parse_head p n tbl e = Ok f -> allp (c_head good cc f).
Proof.
  intros C n tbl cc f Ht H. unfold parse_head in H. peel H.
  destruct (children e) as [|[s| |] rest] eqn:Ec; try discriminate. destruct (String.eqb (name s) (n ++ "Title")); [|discriminate].
  assert (Hs : fine s) by (apply He; left; reflexivity).
  peel H. injection H as <-. unfold c_head. cbn [hd_title hd_children]. apply allp_app. split; [fin|].
  eapply (run_rows _ (fun s => allp (flat_map cc s))) in Ha4; [exact Ha4|exact I|discriminate| |auto].
  eapply Forall_impl; [|exact Ht]. intros th Hth c u Hc. apply Hth. right. exact Hc.
Qed.
Ltac head_rows t := cbn [pstep collect]; apply head_parts; unfold t; rows; row; unfold whole; fin.
Lemma pt_part : step_parts KPart.
Proof. intros f. head_rows @part_table. Qed.
Lemma pt_chapter : step_parts KChapter.
Proof. intros f. head_rows @chapter_table. Qed.
Lemma pt_section : step_parts KSection.
Proof. intros f. head_rows @section_table. Qed.
Lemma pt_subsection : step_parts KSubsection.
Proof. intros f. head_rows @subsection_table. Qed.
Lemma pt_division : step_parts KDivision.
Proof. intros f. head_rows @division_table. Qed.
Lemma pt_amend : step_parts KAmend.
Proof.
  intros f H. cbn [pstep] in H. unfold parse_amend in H. peel H.
  eapply (run_rows _ (fun s => allp (c_opt (fun v => [good KSentence v]) (fst s)) /\ allp (flat_map (c_np good) (fst (snd s))))) in Ha;
    [|cbn; auto|discriminate| |auto].
  - destruct a as (s & n & ?). injection H as <-. cbn [fst snd] in Ha. cbn [collect am_sentence am_new]. fin.
  - rows.
    + row; st; fin. unfold parse_amend_sentence in Hv. destruct (children c) as [|[d| |] r] eqn:Ec; try discriminate.
      eapply Hp; [|exact I|exact Hv]. eapply fine_child; [apply He, Hc|]. rewrite Ec. left. reflexivity.
    + row. st. fin. pose proof (He c Hc) as Hf.
      eapply (run_rows _ (fun s => allp (flat_map (c_np good) s))) in Hv; [exact Hv|exact I|discriminate| |auto].
      unfold new_provision_table. apply Forall_app. split; [|apply Forall_app; split].
      * rows; row; unfold whole; fin.
      * apply item_rows_parts; [intros d Hd; child|]. intros lv v0 x Hv0 Hx. fin.
      * rows; row; unfold whole; fin.
Qed.
Lemma pt_law_title : step_parts KLawTitle.
Proof.
  intros f H. cbn [pstep] in H. unfold parse_law_title in H. peel H. injection H as <-.
  cbn [collect lt_text]. eapply text_parts; [exact He|eassumption].
Qed.
Lemma pt_preamble : step_parts KPreamble.
Proof.
  intros f H. cbn [pstep] in H. unfold parse_preamble in H. peel H. cbn [collect].
  eapply (run_rows _ (fun s => allp (map (good KParagraph) s))) in H; [exact H|exact I| | |auto].
  - intros c u _ Hu. injection Hu as <-. auto.
  - rows; row; unfold whole; fin.
Qed.
Lemma pt_main : step_parts KMain.
Proof.
  intros f H. cbn [pstep] in H. unfold parse_main in H. peel H. injection H as <-. cbn [collect main_children].
  eapply (run_rows _ (fun s => allp (flat_map (c_mc good) s))) in Ha0; [exact Ha0|exact I|discriminate| |auto].
  unfold main_table. rows; row; unfold whole; fin.
Qed.
Lemma pt_suppl : step_parts KSuppl.
Proof.
  intros f H. cbn [pstep] in H. unfold parse_suppl in H. peel H.
  eapply (run_rows _ (fun s => allp (c_text good (fst s)) /\ allp (flat_map (c_sp good) (fst (snd s))))) in Ha1; [|cbn; auto|discriminate| |auto].
  - destruct a1 as (l & c & ?). injection H as <-. cbn [fst snd] in Ha1. cbn [collect sp_label sp_children]. fin.
  - unfold suppl_table. rows; row; st; fin.
Qed.
Lemma suppl_ts_parts : forall k n ex tn ms cn d f, (forall c, tagged k c) -> (forall c u, d c <> Ok u) ->
  parse_suppl_ts p n ex tn ms cn d (p k) e = Ok f -> allp (c_sts good (fun v => [good k v]) f).
Proof.
  intros k n ex tn ms cn d f Hk Hd H. unfold parse_suppl_ts in H. peel H.
  eapply (run_rows _ (fun s => allp (c_opt (c_twm good) (fst s)) /\ allp (c_opt (c_text good) (fst (snd s))) /\
    allp (flat_map (fun v => [good k v]) (fst (snd (snd s)))))) in Ha0; [|cbn; auto|intros c u _ Hu; destruct (Hd c u Hu)| |auto].
  - destruct a0 as ([t|] & r & c & ?); [|discriminate]. injection H as <-. cbn [fst snd] in Ha0. unfold c_sts.
    cbn [sts_title sts_related sts_children]. fin.
  - rows; row; st; fin. eapply Hp; [apply He, Hc|apply Hk|exact Hv].
Qed.
Lemma pt_suppl_table : step_parts KSupplTable.
Proof. intros f H. cbn [pstep] in H. unfold parse_suppl_table in H. cbn [collect]. eapply suppl_ts_parts; [| |exact H]; [intros; exact I|discriminate]. Qed.
Lemma pt_suppl_style : step_parts KSupplStyle.
Proof. intros f H. cbn [pstep] in H. unfold parse_suppl_style in H. cbn [collect]. eapply suppl_ts_parts; [| |exact H]; [intros; exact I|discriminate]. Qed.
Lemma pt_suppl_appdx : step_parts KSupplAppdx.
Proof.
  intros f H. cbn [pstep] in H. unfold parse_suppl_appdx in H. peel H.
  eapply (run_rows _ (fun s => allp (c_opt (c_text good) (fst s)) /\ allp (c_opt (c_text good) (fst (snd s))) /\
    allp (flat_map (c_arith good) (fst (snd (snd s)))))) in Ha0; [|cbn; auto|discriminate| |auto].
  - destruct a0 as (t & r & c & ?). injection H as <-. cbn [fst snd] in Ha0. cbn [collect sa_arith_formula_num sa_related sa_arith_formula]. fin.
  - rows; row; st; fin.
Qed.
Lemma appdx_t_parts : forall C n rows (cc : C -> list Prop) f,
  Forall (fun th => forall c u, In (NElement c) (children e) -> name c = fst th -> snd th c = Ok u -> forall x,
    allp (flat_map cc (fst (snd (snd x)))) -> fst (u x) = fst x /\ fst (snd (u x)) = fst (snd x) /\
      fst (snd (snd (snd (u x)))) = fst (snd (snd (snd x))) /\ allp (flat_map cc (fst (snd (snd (u x)))))) rows ->
  parse_appdx_t p n rows e = Ok f -> allp (c_appdx_t good cc f).
Proof.
  intros C n rows cc f Ht H. unfold parse_appdx_t in H. peel H.
  eapply (run_rows _ (fun s => allp (c_opt (c_twm good) (fst s)) /\ allp (c_opt (c_text good) (fst (snd s))) /\
    allp (flat_map cc (fst (snd (snd s)))) /\ allp (c_opt (fun v => [good KRemarks v]) (fst (snd (snd (snd s))))))) in Ha0;
    [|cbn; auto|discriminate| |auto].
  - destruct a0 as (t & r & c & m & ?). injection H as <-. cbn [fst snd] in Ha0. unfold c_appdx_t.
    cbn [ax_title ax_related ax_children ax_remarks]. fin.
  - apply Forall_app; split; [|apply Forall_app; split].
    + rows; row; st; fin.
    + eapply Forall_impl; [|exact Ht]. intros th Hth c u Hc Hcn Hu x (H1 & H2 & H3 & H4).
      destruct (Hth c u Hc Hcn Hu x H3) as (E1 & E2 & E3 & H5). rewrite E1, E2, E3. auto.
    + rows; row; st; fin.
Qed.
Ltac appdx_rows t := cbn [pstep collect]; apply appdx_t_parts; unfold t; rows; row; st; fin.
Lemma pt_appdx_table : step_parts KAppdxTable.
Proof. intros f. appdx_rows @appdx_table_rows. Qed.
Lemma pt_appdx_note : step_parts KAppdxNote.
Proof. intros f. appdx_rows @appdx_note_rows. Qed.
Lemma pt_appdx_style : step_parts KAppdxStyle.
Proof. intros f. appdx_rows @appdx_style_rows. Qed.
Lemma pt_appdx_format : step_parts KAppdxFormat.
Proof. intros f. appdx_rows @appdx_format_rows. Qed.
Lemma pt_appdx : step_parts KAppdx.
Proof.
  intros f H. cbn [pstep] in H. unfold parse_appdx in H. peel H.
  eapply (run_rows _ (fun s => allp (c_opt (c_text good) (fst s)) /\ allp (c_opt (c_text good) (fst (snd s))) /\
    allp (flat_map (c_arith good) (fst (snd (snd s)))) /\
    allp (c_opt (fun v => [good KRemarks v]) (fst (snd (snd (snd s))))))) in Ha; [|cbn; auto 10|discriminate| |auto].
  - destruct a as (t & r & c & m & ?). injection H as <-. cbn [fst snd] in Ha.
    cbn [collect ap_arith_formula_num ap_related ap_arith_formula ap_remarks]. fin.
  - rows; row; st; fin.
Qed.
Lemma pt_appdx_fig : step_parts KAppdxFig.
Proof.
  intros f H. cbn [pstep] in H. unfold parse_appdx_fig in H. peel H.
  eapply (run_rows _ (fun s => allp (c_opt (c_twm good) (fst s)) /\ allp (c_opt (c_text good) (fst (snd s))) /\
    allp (flat_map (c_af good) (fst (snd (snd s)))))) in Ha0; [|cbn; auto|discriminate| |auto].
  - destruct a0 as (t & r & c & ?). injection H as <-. cbn [fst snd] in Ha0. cbn [collect af_title af_related af_children]. fin.
  - rows; row; st; fin.
Qed.
Lemma toc_head_parts : forall C n tn rows (cc : C -> list Prop) f,
  Forall (fun th => forall c u, In (NElement c) (children e) -> name c = fst th -> snd th c = Ok u -> forall x,
    allp (flat_map cc (fst (snd (snd x)))) -> fst (u x) = fst x /\ fst (snd (u x)) = fst (snd x) /\
      allp (flat_map cc (fst (snd (snd (u x)))))) rows ->
  parse_toc_head p n tn rows e = Ok f -> allp (c_toc_head good cc f).
Proof.
  intros C n tn rows cc f Ht H. unfold parse_toc_head in H. peel H.
  eapply (run_rows _ (fun s => allp (c_text good (fst s)) /\ allp (c_opt (c_text good) (fst (snd s))) /\
    allp (flat_map cc (fst (snd (snd s)))))) in Ha1; [|cbn; auto|discriminate| |auto].
  - destruct a1 as (t & r & c & ?). injection H as <-. cbn [fst snd] in Ha1. unfold c_toc_head.
    cbn [th_title th_range th_children]. fin.
  - apply Forall_app; split.
    + rows; row; st; fin.
    + eapply Forall_impl; [|exact Ht]. intros th Hth c u Hc Hcn Hu x (H1 & H2 & H3).
      destruct (Hth c u Hc Hcn Hu x H3) as (E1 & E2 & H5). rewrite E1, E2. auto.
Qed.
Ltac toc_rows t := cbn [pstep collect]; apply toc_head_parts; unfold t; rows; row; st; fin.
Lemma pt_toc_part : step_parts KTOCPart.
Proof. intros f. toc_rows @toc_part_rows. Qed.
Lemma pt_toc_chapter : step_parts KTOCChapter.
Proof. intros f. toc_rows @toc_chapter_rows. Qed.
Lemma pt_toc_section : step_parts KTOCSection.
Proof. intros f. toc_rows @toc_section_rows. Qed.
Lemma pt_toc_subsection : step_parts KTOCSubsection.
Proof. intros f. toc_rows @toc_subsection_rows. Qed.
Lemma pt_toc_division : step_parts KTOCDivision.
Proof. intros f. cbn [pstep collect]; apply toc_head_parts; constructor. Qed.
Lemma pt_toc_article : step_parts KTOCArticle.
Proof.
  intros f H. cbn [pstep] in H. unfold parse_toc_article in H. peel H.
  eapply (run_rows _ (fun s => allp (c_text good (fst s)) /\ allp (c_opt (c_caption good) (fst (snd s))))) in Ha1; [|cbn; auto|discriminate| |auto].
  - destruct a1 as (t & [c|] & ?); [|discriminate]. injection H as <-. cbn [fst snd] in Ha1. cbn [collect ta_title ta_caption]. fin.
  - rows; row; st; fin.
Qed.
Lemma pt_toc_suppl : step_parts KTOCSuppl.
Proof.
  intros f H. cbn [pstep] in H. unfold parse_toc_suppl in H. peel H.
  eapply (run_rows _ (fun s => allp (c_text good (fst s)) /\ allp (c_opt (c_text good) (fst (snd s))) /\
    allp (flat_map (c_tsp good) (fst (snd (snd s)))))) in Ha; [|cbn; auto|discriminate| |auto].
  - destruct a as (l & r & c & ?). injection H as <-. cbn [fst snd] in Ha. cbn [collect ts_label ts_range ts_children]. fin.
  - rows; row; st; fin.
Qed.
Lemma pt_toc : step_parts KTOC.
Proof.
  intros f H. cbn [pstep] in H. unfold parse_toc in H. peel H.
  eapply (run_rows _ (fun s => allp (c_opt (c_text good) (fst s)) /\ allp (c_opt (c_text good) (fst (snd s))) /\
    allp (flat_map (c_tm good) (fst (snd (snd s)))) /\ allp (c_opt (fun v => [good KTOCSuppl v]) (fst (snd (snd (snd s))))) /\
    allp (flat_map (c_text good) (fst (snd (snd (snd (snd s)))))))) in Ha; [|cbn; auto 10|discriminate| |auto].
  - destruct a as (l & pl & m & s & a & ?). injection H as <-. cbn [fst snd] in Ha.
    cbn [collect toc_label toc_preamble_label toc_main toc_suppl toc_appdx_table_label]. fin.
  - rows; row; st; fin.
Qed.
Lemma pt_law_body : step_parts KLawBody.
Proof.
  intros f H. cbn [pstep] in H. unfold parse_law_body in H. peel H.
  eapply (run_rows _ (fun s : law_body_state => let '(title, (enact, (toc, (pre, (main, (sup, (at_, (an, (as_, (a, (af, (afm, _)))))))))))) := s in
    (allp (c_opt (fun v => [good KLawTitle v]) title) /\ allp (flat_map (c_text good) enact) /\ allp (c_opt (fun v => [good KTOC v]) toc) /\
    allp (c_opt (fun v => [good KPreamble v]) pre) /\ allp (c_opt (fun v => [good KMain v]) main)) /\ (allp (map (good KSuppl) sup) /\
    allp (map (good KAppdxTable) at_) /\ allp (map (good KAppdxNote) an) /\ allp (map (good KAppdxStyle) as_) /\ allp (map (good KAppdx) a) /\
    allp (map (good KAppdxFig) af) /\ allp (map (good KAppdxFormat) afm)))) in Ha0; [|cbn; auto 20|discriminate| |auto].
  - destruct a0 as (title & enact & toc & pre & [main|] & sup & at_ & an & as_ & ap & af & afm & ?); [|discriminate].
    injection H as <-.
    cbn [collect lb_law_title lb_enact_statement lb_toc lb_preamble lb_main_provision lb_suppl_provision lb_appdx_table lb_appdx_note
      lb_appdx_style lb_appdx lb_appdx_fig lb_appdx_format].
    cbn [c_opt allp] in Ha0. fin.
  - unfold law_body_table. rows; row; unfold law_body_state in *; st; fin.
Qed.

Lemma parts_all : forall k, step_parts k.
Proof.
  destruct k.
  all: first [exact pt_ruby|exact pt_line|apply pt_cont|exact pt_sentence|exact pt_column|exact pt_table|exact pt_table_row|exact pt_table_column
    |exact pt_remarks
    |apply pt_cstruct|exact pt_fig_struct|exact pt_table_struct|apply pt_list|exact pt_class|apply pt_item|exact pt_paragraph|exact pt_article
    |exact pt_part|exact pt_chapter|exact pt_section|exact pt_subsection|exact pt_division|exact pt_amend|exact pt_law_title|exact pt_preamble
    |exact pt_main|exact pt_suppl|exact pt_suppl_table|exact pt_suppl_style|exact pt_suppl_appdx
    |exact pt_appdx_table|exact pt_appdx_note|exact pt_appdx_style|exact pt_appdx_format
    |exact pt_appdx|exact pt_appdx_fig|exact pt_toc|exact pt_toc_part|exact pt_toc_chapter|exact pt_toc_section|exact pt_toc_subsection
    |exact pt_toc_division|exact pt_toc_article|exact pt_toc_suppl|exact pt_law_body|intros f; discriminate].
Qed.
End One.
End Step.

Lemma tagged_well : forall k e, tagged k e -> well_tagged k e.
Proof. intros k e H. destruct k; try exact I. unfold well_tagged. destruct c; cbn in H; rewrite H; reflexivity. Qed.

Theorem parts_read : forall e k v, tagged k e -> parse k e = Ok v ->
  forall j y, part_of (node j y) (node k v) -> exists c, inside c e /\ tagged j c /\ parse j c = Ok y.
Proof.
  intros e. induction e as [e IH] using element_ind_height. intros k v Ht H j y Hy.
  assert (Hk : forall j y, In (node j y) (kids k (un k v)) -> exists c, (inside c e /\ height c < height e) /\ tagged j c /\ parse j c = Ok y).
  { destruct (parse_inv k e v (tagged_well k e Ht) H) as (f & Hf & ->). intros i z Hz. rewrite un_mk in Hz.
    pose proof (parts_all parse (fun i z => exists c, (inside c e /\ height c < height e) /\ tagged i c /\ parse i c = Ok z)
      (fun c => inside c e /\ height c < height e)) as P.
    assert (A : allp (collect (fun i z => exists c, (inside c e /\ height c < height e) /\ tagged i c /\ parse i c = Ok z) k f)).
    { apply P with (e := e).
      - intros d c [H1 H2] Hc. split; [|apply height_child in Hc; lia]. clear -H1 Hc.
        induction H1; [eapply inside_below; [exact Hc|constructor]|]. eapply inside_below; [exact H|]. auto.
      - intros i' c w Hc Ti Hw. exists c. auto.
      - intros c Hc. split; [eapply inside_below; [exact Hc|constructor]|apply height_child, Hc].
      - exact Hf. }
    rewrite (collect_kids _ (fun i z => exists c, (inside c e /\ height c < height e) /\ tagged i c /\ parse i c = Ok z)) in A.
    apply (proj1 (allp_map _ _ _) A (node i z) Hz). }
  rewrite <- (mk_un k v) in Hy. apply part_of_kids in Hy. destruct Hy as [E|(i & z & Hi & Hz)].
  - rewrite mk_un in E.
    change ((fun s : Node => exists c, inside c e /\ tagged (projT1 s) c /\ parse (projT1 s) c = Ok (projT2 s)) (node j y)).
    rewrite E. exists e. split; [constructor|]. split; [exact Ht|exact H].
  - destruct (Hk i z Hi) as (c & [Hc Hh] & Tc & Pc). destruct (IH c Hh i z Tc Pc j y Hz) as (d & Hd & Td & Pd).
    exists d. split; [|auto]. clear -Hd Hc. induction Hc; [exact Hd|]. eapply inside_below; [exact H|]. auto.
Qed.
