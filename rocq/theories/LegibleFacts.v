(** What is read meets the conditions of [MendSpec.v], which are therefore exact. *)
From Coq Require Import String List Arith NArith Bool Lia.
From Verif Require Import Base NumStr NumStrSpec BaseFacts NumStrFacts Xml Ast XmlWrite XmlParse
  RoundTripSpec KnotFacts XmlSpec XmlSim RoundTripLib LossFacts GrammarSpec GrammarFacts ReadSpec ReadFacts PlainSpec StableFacts PartsFacts
  MendSpec MendFacts.
Import ListNotations.
Open Scope string_scope.
Open Scope list_scope.

Lemma usize_opt_attr : forall e n o, get_attribute_opt_with_parse parse_usize e n = Ok o -> usize_opt o = true.
Proof.
  intros e n o. unfold get_attribute_opt_with_parse. destruct (get e n) as [s|]; [|intros H; injection H as <-; reflexivity].
  destruct (parse_usize s) as [m|] eqn:E; [|discriminate]. intros H. injection H as <-. exact (usize_text_bound s m (proj1 (parse_usize_spec s m) E)).
Qed.
Lemma full_num_text : forall s n, from_num_str s = Ok n -> full_num n = true.
Proof. intros s n H. apply full_num_usize, (from_num_str_usize _ _ H). Qed.
Lemma full_num_attr : forall e n, get_attribute_with_parse parse_an e "Num" = Ok n -> full_num n = true.
Proof.
  intros e n H. apply attr_parse_ok in H as (s & Hs & Hn). unfold parse_an in Hn.
  destruct (from_num_str s) as [m| |] eqn:E; [|discriminate|discriminate]. injection Hn as <-. exact (full_num_text s m E).
Qed.
Lemma border_not_double : forall e n, not_double (border e n) = true.
Proof.
  intros e n. unfold border, linestyle_of. destruct (get e n) as [s|]; [|reflexivity]. cbn.
  repeat (destruct (String.eqb _ _); [reflexivity|]). reflexivity.
Qed.

Section Step.
Context {K : kind -> Type} (p : forall k, Element -> R (K k)).
Context (e : Element).

Ltac st := repeat match goal with s : (_ * _)%type |- _ => destruct s end;
  cbn [at0 at1 at2 at3 at4 at5 at6 at7 at8 at9 at10 at11 whole fst snd] in *.
Ltac row := let Hn := fresh "Hn" in let c := fresh "c" in let u := fresh "u" in let Hc := fresh "Hc" in let Hu := fresh "Hu" in intros c u Hc Hn Hu; cbn [fst snd] in Hn, Hu;
  unfold h_push, h_some, h_put, h_push_ok in Hu;
  let v := fresh "v" in let Hv := fresh "Hv" in
  apply bind_inv in Hu as (v & Hv & Hu); injection Hu as <-; let s := fresh "s" in let Hs := fresh "Hs" in intros s Hs.
Ltac rows := repeat match goal with
  | |- Forall _ (_ ++ _) => apply Forall_app; split
  | |- Forall _ (_ :: _) => apply Forall_cons
  | |- Forall _ [] => apply Forall_nil
  end.

Lemma arith_small : forall c a, parse_arith p c = Ok a -> small_formula a = true.
Proof.
  intros c a H. apply bind_inv in H as (n & Hnum & H). apply bind_inv in H as (x & Hx & H). injection H as <-.
  exact (usize_opt_attr _ _ _ Hnum).
Qed.
(** Adding to a list all of whose elements meet a condition. *)
Lemma add_one : forall X (q : X -> bool) l x, forallb q l = true -> q x = true -> forallb q (l ++ [x]) = true.
Proof. intros X q l x Hl Hx. rewrite forallb_app, Hl. cbn. rewrite Hx. reflexivity. Qed.
Ltac add := apply add_one; [assumption|first [reflexivity|eapply arith_small; eassumption]].

Lemma item_rows_add : forall T (inj : forall l, K (KItem l) -> T) (q : T -> bool) l, (forall lv v, q (inj lv v) = true) ->
  Forall (fun th => forall c u, In (NElement c) l -> name c = fst th -> snd th c = Ok u -> forall x, forallb q x = true -> forallb q (u x) = true) (item_rows p inj).
Proof.
  intros T inj q l Hq. unfold item_rows. apply Forall_forall. intros th Hth. apply in_map_iff in Hth as (lv & <- & _).
  row. unfold whole. apply add_one; [exact Hs|apply Hq].
Qed.

Definition legal (k : kind) : Prop := forall f, pstep p k e = Ok f -> legible k f = true.

Lemma legal_ruby : legal KRuby.
Proof.
  intros f H. cbn [pstep] in H. apply with_name_ok in H as [_ H]. apply bind_inv in H as (s & Hr & H).
  eapply (run_rows _ (fun s => forallb plain_text (fst s) = true)) in Hr; [|reflexivity| | |].
  - destruct s as (t & r & ?). injection H as <-. exact Hr.
  - intros c u _ Hu. injection Hu as <-. auto.
  - rows. row. st. exact Hs.
  - intros a x Hx. st. rewrite forallb_app, Hx. reflexivity.
Qed.
Lemma legal_line : legal KLine.
Proof.
  intros f H. cbn [pstep] in H. apply with_name_ok in H as [_ H]. destruct (linestyle_of _) as [ls|] eqn:El; [|discriminate].
  apply bind_inv in H as (s & Hr & H). injection H as <-. cbn [legible line_style line_contents].
  assert (Hd : not_double ls = true).
  { unfold linestyle_of in El. destruct (get e "Style"); [|discriminate]. cbn in El.
    repeat (destruct (String.eqb _ _); [injection El as <-; reflexivity|]). discriminate. }
  rewrite Hd. cbn [andb].
  eapply (run_rows _ (fun s => forallb (fun c => match c with LC_Arith a => small_formula a | _ => true end) s = true))
    in Hr; [exact Hr|reflexivity|discriminate| |].
  - unfold line_table. rows; row; unfold whole; add.
  - intros a x Hx. unfold whole. add.
Qed.
Lemma legal_cont : forall c, legal (KCont c).
Proof.
  intros n f H. cbn [pstep] in H. cbn [legible].
  refine (run_rows _ (fun s => forallb (fun c => match c with CE_Arith a => small_formula a | _ => true end) s = true) _ _ _ _ _ _ H _ _ _ _);
    [reflexivity|discriminate| |].
  - unfold contents_table. apply Forall_app. split; [|apply Forall_app; split].
    + rows; row; unfold whole; add.
    + apply item_rows_add. reflexivity.
    + rows; row; unfold whole; add.
  - intros a x Hx. unfold whole. add.
Qed.
Lemma legal_sentence : legal KSentence.
Proof.
  intros f H. cbn [pstep] in H. unfold parse_sentence in H. peel H. injection H as <-. cbn [legible sen_num sen_contents].
  rewrite (usize_opt_attr _ _ _ Ha). cbn [andb].
  eapply (run_rows _ (fun s => forallb (fun c => match c with SE_Arith a => small_formula a | _ => true end) s = true))
    in Ha2; [exact Ha2|reflexivity|discriminate| |].
  - unfold sentence_table. rows; row; unfold whole; add.
  - intros x y Hx. unfold whole. add.
Qed.
Lemma legal_column : legal KColumn.
Proof.
  intros f H. cbn [pstep] in H. unfold parse_column in H. peel H. injection H as <-. cbn [legible col_num]. exact (usize_opt_attr _ _ _ Ha).
Qed.
Lemma legal_table_column : legal KTableColumn.
Proof.
  intros f H. cbn [pstep] in H. unfold parse_table_column in H. peel H. injection H as <-.
  cbn [legible tc_border_top tc_border_bottom tc_border_left tc_border_right]. rewrite !border_not_double. reflexivity.
Qed.
Lemma sct_is_full : forall c s, parse_sct p c = Ok s -> sct_full s = true.
Proof.
  intros c s H. apply bind_inv in H as (st & _ & H). destruct st as (ss & cs & t & ?).
  destruct cs; [destruct ss; [destruct t; [|discriminate]|]|]; injection H as <-; reflexivity.
Qed.
Lemma legal_class : legal KClass.
Proof.
  intros f H. cbn [pstep] in H. unfold parse_class in H. peel H.
  eapply (run_rows _ (fun s => match fst (snd s) with Some s => sct_full s = true | None => True end)) in Ha0;
    [|exact I|discriminate| |auto].
  - destruct a0 as (t & [s|] & i & ?); [|discriminate]. injection H as <-. exact Ha0.
  - rows; row; st; try exact Hs. eapply sct_is_full, Hv.
Qed.
Lemma legal_item : forall l, legal (KItem l).
Proof.
  intros l f H. cbn [pstep] in H. unfold parse_item in H. peel H.
  assert (Hnum : match a0 with Some n => full_num n | None => true end = true).
  { apply ok_opt in Ha0. destruct a0; [|reflexivity]. eapply full_num_text, Ha0. }
  eapply (run_rows _ (fun s => match fst (snd s) with Some s => sct_full s = true | None => True end)) in Ha3;
    [|exact I|discriminate| |auto].
  - destruct a3 as (t & [s|] & st & i & ?); [|discriminate]. injection H as <-. cbn [fst snd] in Ha3.
    cbn [legible it_num it_sentence]. rewrite Hnum, Ha3. reflexivity.
  - unfold item_table, struct_rows. apply Forall_app; split; [|apply Forall_app; split].
    + rows; row; st; try exact Hs. eapply sct_is_full, Hv.
    + rows; row; st; exact Hs.
    + destruct (sub_tag (sub_item l)) as [t|] eqn:Et; [|constructor]. rows. row. st. exact Hs.
Qed.
Lemma legal_paragraph : legal KParagraph.
Proof.
  intros f H. cbn [pstep] in H. unfold parse_paragraph in H. peel H.
  destruct a4 as (c & t & ss & am & cl & st & it & ?). injection H as <-. cbn [legible par_num]. eapply full_num_text, Ha0.
Qed.
Lemma article_head_rest : forall l cap t r, article_head p l cap t = Ok r -> exists c rest, snd (snd r) = NElement c :: rest.
Proof.
  induction l as [|[c|t|t] l IH]; intros cap ti r H; cbn [article_head] in H; [discriminate| | |].
  - destruct (String.eqb (name c) "ArticleCaption"); [|destruct (String.eqb (name c) "ArticleTitle")].
    + apply bind_inv in H as (v & Hv & H). eapply IH, H.
    + apply bind_inv in H as (v & Hv & H). eapply IH, H.
    + injection H as <-. cbn [fst snd]. eauto.
  - eapply IH, H.
  - eapply IH, H.
Qed.
Lemma legal_article : legal KArticle.
Proof.
  intros f H. cbn [pstep] in H. unfold parse_article in H. peel H.
  apply article_head_rest in Ha3 as (c0 & rest & Hr).
  destruct a3 as (cap & title & l). cbn [fst snd] in *. subst l. peel H. destruct a3 as (ps & note & ?). injection H as <-.
  assert (Hne : negb (is_nil ps && is_none note) = true).
  { cbn [run] in Ha3. unfold lookup in Ha3. cbn [assoc] in Ha3.
    assert (Hm : forall s, run no_text (reject e) [("Paragraph", h_push at0 (fun v => v) (p KParagraph)); ("SupplNote", h_some at1 (p_text p))] rest s = Ok (ps, (note, u)) ->
      negb (is_nil (fst s) && is_none (fst (snd s))) = true -> negb (is_nil ps && is_none note) = true).
    { intros s Hs H0. refine (run_rows _ (fun s => negb (is_nil (fst s) && is_none (fst (snd s))) = true) _ _ _ _ _ _ Hs H0 _ _ _);
        [discriminate| |auto].
      rows; row; st; [destruct l; reflexivity|]. cbn. apply negb_true_iff, andb_false_r. }
    destruct (String.eqb (name c0) "Paragraph").
    - apply bind_inv in Ha3 as (v & Hv & Ha3). unfold h_push in Hv. apply bind_inv in Hv as (w & Hw & Hv). injection Hv as <-.
      apply (Hm _ Ha3). reflexivity.
    - destruct (String.eqb (name c0) "SupplNote"); [|discriminate].
      apply bind_inv in Ha3 as (v & Hv & Ha3). unfold h_some in Hv. apply bind_inv in Hv as (w & Hw & Hv). injection Hv as <-.
      apply (Hm _ Ha3). reflexivity. }
  cbn [legible art_num art_paragraph art_suppl_note]. rewrite (full_num_text _ _ Ha0), Hne. reflexivity.
Qed.
Lemma head_full : forall C n (tbl : list (string * handler (list C))) f, parse_head p n tbl e = Ok f -> full_num (hd_num f) = true.
Proof.
  intros C n tbl f H. unfold parse_head in H. peel H. destruct (children e) as [|[s| |] rest]; try discriminate.
  destruct (String.eqb (name s) (n ++ "Title")); [|discriminate]. peel H. injection H as <-. eapply full_num_text, Ha0.
Qed.
Lemma toc_head_full : forall C n tn rows (f : TOCHeadF K C), parse_toc_head p n tn rows e = Ok f -> full_num (th_num f) = true.
Proof.
  intros C n tn rows f H. unfold parse_toc_head in H. peel H. destruct a1 as (t & r & c & ?). injection H as <-. eapply full_num_attr, Ha.
Qed.
Lemma legal_toc_article : legal KTOCArticle.
Proof.
  intros f H. cbn [pstep] in H. unfold parse_toc_article in H. peel H. destruct a1 as (t & [c|] & ?); [|discriminate]. injection H as <-.
  cbn [legible ta_num]. eapply full_num_attr, Ha.
Qed.
Lemma legal_suppl_appdx : legal KSupplAppdx.
Proof.
  intros f H. cbn [pstep] in H. unfold parse_suppl_appdx in H. peel H.
  eapply (run_rows _ (fun s => forallb small_formula (fst (snd (snd s))) = true)) in Ha0; [|reflexivity|discriminate| |auto].
  - destruct a0 as (fn & r & c & ?). injection H as <-. exact Ha0.
  - rows; row; st; try exact Hs. add.
Qed.
Lemma legal_appdx : legal KAppdx.
Proof.
  intros f H. cbn [pstep] in H. unfold parse_appdx in H. peel H.
  eapply (run_rows _ (fun s => forallb small_formula (fst (snd (snd s))) = true)) in Ha; [|reflexivity|discriminate| |auto].
  - destruct a as (fn & r & c & rm & ?). injection H as <-. exact Ha.
  - rows; row; st; try exact Hs. add.
Qed.

Theorem legal_all : forall k, legal k.
Proof.
  destruct k; try (intros f _; reflexivity);
    first [ apply legal_ruby | apply legal_line | apply legal_cont | apply legal_sentence | apply legal_column
          | apply legal_table_column | apply legal_class | apply legal_item | apply legal_paragraph | apply legal_article
          | apply legal_suppl_appdx | apply legal_appdx | apply legal_toc_article
          | intros f H; eapply head_full, H | intros f H; eapply toc_head_full, H ].
Qed.
End Step.

Theorem read_legible : forall k e x, tagged k e -> parse k e = Ok x -> can_be_read k x.
Proof.
  intros k e x Ht H j y Hy. destruct (parts_read e k x Ht H j y Hy) as (c & _ & Tc & Hc).
  destruct (parse_inv j c y (tagged_well j c Tc) Hc) as (f & Hf & ->). rewrite un_mk. exact (legal_all parse c j f Hf).
Qed.

Theorem read_law_legible : forall e l, parse_law e = Ok l -> law_can_be_read l.
Proof.
  intros e l H. unfold parse_law in H. peel H.
  destruct (children e) as [|[ln| |] rest]; try discriminate. destruct (String.eqb (name ln) "LawNum"); [|discriminate].
  destruct rest as [|[b| |] rest]; try discriminate. peel H. injection H as <-.
  unfold law_can_be_read. cbn [law_year law_no law_promulgate_month law_promulgate_day law_body].
  assert (D : forall o d, parse_date_attr o = Ok d -> usize_opt d = true).
  { intros [s|] d Hd; cbn [parse_date_attr] in Hd; [|injection Hd as <-; reflexivity].
    destruct (String.eqb s ""); [injection Hd as <-; reflexivity|].
    destruct (parse_usize s) as [m|] eqn:E; [|discriminate]. injection Hd as <-. exact (usize_text_bound s m (proj1 (parse_usize_spec s m) E)). }
  split; [|split; [|split; [eapply D; eassumption|split; [eapply D; eassumption|eapply read_legible; [exact I|eassumption]]]]].
  - apply attr_parse_ok in Ha0 as (s & _ & Hs). exact (usize_text_bound s _ (proj1 (parse_usize_spec s _) Hs)).
  - intros n ->. destruct (String.eqb a1 ""); [discriminate|]. apply bind_inv in Ha2 as (m & Hm & Ha2). injection Ha2 as <-. eapply full_num_text, Hm.
Qed.

(** ** What the mended writer produces has the right tag *)
Theorem mend_tagged : forall k x, tagged k (mend k x).
Proof. intros k x. destruct k; try exact I. cbn [tagged]. destruct c; apply mend_name. Qed.
