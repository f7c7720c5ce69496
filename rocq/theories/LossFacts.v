(** What is lost when a structure that does not survive is written and read back. *)
From Coq Require Import String List NArith Bool Lia.
From Verif Require Import Base NumStr NumStrSpec BaseFacts NumStrFacts Xml Ast XmlWrite XmlParse
  RoundTripSpec KnotFacts XmlSpec XmlSim RoundTripLib RoundTripFacts.
Import ListNotations.
Open Scope list_scope.

(** A property of the state kept by every arm taken is kept by the loop. *)
Lemma run_inv : forall S (P : S -> Prop) txt d t l (s s' : S),
  (forall c u, In (NElement c) l -> lookup d t c = Ok u -> forall x, P x -> P (u x)) ->
  (forall a, In (NText a) l -> forall x, P x -> P (txt a x)) ->
  P s -> run txt d t l s = Ok s' -> P s'.
Proof.
  intros S P txt d t. induction l as [|n l IH]; intros s s' H1 H2 Hs H.
  - injection H as <-. exact Hs.
  - assert (G1 : forall c u, In (NElement c) l -> lookup d t c = Ok u -> forall x, P x -> P (u x))
      by (intros c u Hc; apply H1; right; exact Hc).
    assert (G2 : forall a, In (NText a) l -> forall x, P x -> P (txt a x))
      by (intros a Ha; apply H2; right; exact Ha).
    destruct n as [c|a|o]; cbn [run] in H.
    + apply bind_ok in H as (u & Hu & H). eapply IH; [exact G1|exact G2| |exact H].
      eapply H1; [left; reflexivity|exact Hu|exact Hs].
    + eapply IH; [exact G1|exact G2| |exact H]. apply H2; [left; reflexivity|exact Hs].
    + eapply IH; [exact G1|exact G2|exact Hs|exact H].
Qed.

Lemma run_app : forall S txt d t a b (s : S),
  run txt d t (a ++ b) s = bind (run txt d t a s) (run txt d t b).
Proof.
  intros S txt d t a b. induction a as [|[c|x|o] a IH]; intros s; cbn [app run].
  - reflexivity.
  - rewrite bind_assoc. apply bind_ext; [reflexivity|]. intros u. apply IH.
  - apply IH.
  - apply IH.
Qed.

(** Reading what was written, one level. *)
Lemma read_written : forall k x v, parse k (write k x) = Ok v ->
  pstep parse k (wstep write k (un k x)) = Ok (un k v).
Proof.
  intros k x v H. rewrite <- (mk_un k x) in H.
  rewrite parse_unfold in H by apply write_well_tagged. rewrite write_unfold in H.
  apply bind_ok in H as (f & Hf & H). apply ok_inj in H. subst v. rewrite un_mk. exact Hf.
Qed.

Lemma read_written_err : forall k x e,
  pstep parse k (wstep write k (un k x)) = Err e -> parse k (write k x) = Err e.
Proof.
  intros k x v H. rewrite <- (mk_un k x) at 1.
  rewrite parse_unfold by apply write_well_tagged. rewrite write_unfold, H. reflexivity.
Qed.

Lemma read_written_panic : forall k x,
  pstep parse k (wstep write k (un k x)) = Panic -> parse k (write k x) = Panic.
Proof.
  intros k x H. rewrite <- (mk_un k x).
  rewrite parse_unfold by apply write_well_tagged. rewrite write_unfold, H. reflexivity.
Qed.

Lemma in_els : forall X (w : X -> Element) l c, In (NElement c) (els w l) -> exists x, In x l /\ c = w x.
Proof.
  intros X w l c H. apply in_map_iff in H as (x & E & Hx). injection E as <-. eauto.
Qed.

Lemma not_in_els : forall X (w : X -> Element) l a, In (NText a) (els w l) -> False.
Proof. intros X w l a H. apply in_map_iff in H as (x & E & Hx). discriminate. Qed.

(** ** Remarks *)
Theorem remarks_unreadable : forall r v, parse KRemarks (write KRemarks r) <> Ok v.
Proof.
  intros r v H. apply read_written in H. cbn [pstep wstep] in H. unfold parse_remarks, write_remarks in H.
  rewrite with_name_same in H by reflexivity. cbn [children] in H.
  apply bind_ok in H as ([l [c []]] & Hr & H).
  eapply (run_inv _ (fun s => fst s = None)) in Hr; [| | |reflexivity].
  - cbn [fst] in Hr. subst l. discriminate.
  - intros x u Hx Hu s Hs. apply in_els in Hx as (y & _ & ->). unfold lookup in Hu.
    destruct y; unfold write_remarks_node in Hu; rewrite write_name in Hu; cbn in Hu;
      unfold h_push in Hu; apply bind_ok in Hu as (z & _ & Hu); apply ok_inj in Hu; subst u; exact Hs.
  - intros a Ha. destruct (not_in_els _ _ _ _ Ha).
Qed.

Lemma struct_remarks_lost : forall T B n tn bn (pt : Element -> R T) (pb : Element -> R B)
    (wt : T -> Element) (wb : B -> Element) f v,
  (forall x, name (wt x) = tn) -> (forall x, name (wb x) = bn) ->
  tn <> "Remarks"%string -> bn <> "Remarks"%string ->
  parse_struct parse n tn bn pt pb (write_struct write n wt wb f) = Ok v ->
  st_title_remarks v = [] /\ st_remarks v = [].
Proof.
  intros T B n tn bn pt pb wt wb f v Nt Nb Dt Db H. unfold parse_struct, write_struct in H.
  rewrite with_name_same in H by reflexivity. cbn [children] in H.
  apply bind_ok in H as ([t [tr [b [br []]]]] & Hr & H).
  eapply (run_inv _ (fun s => fst (snd s) = [] /\ fst (snd (snd (snd s))) = [])) in Hr;
    [| | |split; reflexivity].
  - cbn [fst snd] in Hr. destruct Hr as [-> ->]. destruct b; [|discriminate].
    injection H as <-. split; reflexivity.
  - intros c u Hc Hu s Hs. unfold lookup in Hu. cbn [assoc] in Hu.
    assert (HR : forall r, c = write KRemarks r -> exists u', u' = u /\ forall s, u' s = s).
    { intros r ->. rewrite write_name in Hu. cbn [tag_of] in Hu.
      rewrite (proj2 (String.eqb_neq _ _) (fun E => Dt (eq_sym E))), String.eqb_refl in Hu.
      unfold h_struct_remarks in Hu. apply bind_ok in Hu as (o & Ho & Hu).
      destruct o as [v'|]; [apply (proj1 (ok_iff _ _ _)) in Ho; destruct (remarks_unreadable _ _ Ho)|].
      apply ok_inj in Hu. subst u. eexists; split; reflexivity. }
    rewrite !in_app_iff in Hc. destruct Hc as [Hc|[Hc|[Hc|Hc]]].
    + destruct (st_title f); [|destruct Hc]. destruct Hc as [Hc|[]]. injection Hc as <-.
      rewrite Nt, String.eqb_refl in Hu. unfold h_some in Hu. apply bind_ok in Hu as (z & _ & Hu).
      apply ok_inj in Hu. subst u. exact Hs.
    + apply in_els in Hc as (r & _ & E). destruct (HR r E) as (u' & <- & Eu). rewrite Eu. exact Hs.
    + destruct Hc as [Hc|[]]. injection Hc as <-. rewrite Nb in Hu.
      destruct (String.eqb_spec bn tn) as [E|E].
      * unfold h_some in Hu. apply bind_ok in Hu as (z & _ & Hu). apply ok_inj in Hu. subst u. exact Hs.
      * rewrite (proj2 (String.eqb_neq _ _) Db), String.eqb_refl in Hu.
        unfold h_some in Hu. apply bind_ok in Hu as (z & _ & Hu). apply ok_inj in Hu. subst u. exact Hs.
    + apply in_els in Hc as (r & _ & E). destruct (HR r E) as (u' & <- & Eu). rewrite Eu. exact Hs.
  - intros; assumption.
Qed.

Theorem cstruct_remarks_lost : forall s (x : Knot (KCStruct s)) v,
  parse (KCStruct s) (write (KCStruct s) x) = Ok v ->
  st_title_remarks (un (KCStruct s) v) = [] /\ st_remarks (un (KCStruct s) v) = [].
Proof.
  intros s x v H. apply read_written in H. revert H. apply struct_remarks_lost.
  - reflexivity.
  - intros y. apply (write_name (KCont (body_of s))).
  - destruct s; discriminate.
  - destruct s; discriminate.
Qed.

Theorem fig_struct_remarks_lost : forall (x : Knot KFigStruct) v,
  parse KFigStruct (write KFigStruct x) = Ok v ->
  st_title_remarks (un KFigStruct v) = [] /\ st_remarks (un KFigStruct v) = [].
Proof.
  intros x v H. apply read_written in H. revert H.
  apply struct_remarks_lost; try reflexivity; discriminate.
Qed.

Theorem table_struct_remarks_lost : forall (x : Knot KTableStruct) v,
  parse KTableStruct (write KTableStruct x) = Ok v ->
  st_title_remarks (un KTableStruct v) = [] /\ st_remarks (un KTableStruct v) = [].
Proof.
  intros x v H. apply read_written in H. revert H.
  apply struct_remarks_lost; try reflexivity; try discriminate. intros y. apply (write_name KTable).
Qed.

(** ** Amendments *)
Theorem amend_new_lost : forall (x : Knot KAmend) v,
  parse KAmend (write KAmend x) = Ok v -> am_new (un KAmend v) = [].
Proof.
  intros x v H. apply read_written in H. cbn [pstep wstep] in H. unfold parse_amend, write_amend in H.
  rewrite with_name_same in H by reflexivity. cbn [children] in H.
  apply bind_ok in H as ([s [n []]] & Hr & H). injection H as <-.
  eapply (run_inv _ (fun s => fst (snd s) = [])) in Hr; [exact Hr| | |reflexivity].
  - intros c u Hc Hu y Hy. assert (E : name c = "AmendProvisionSentence"%string).
    { apply in_app_iff in Hc. destruct Hc as [Hc|Hc].
      - destruct (am_sentence (un KAmend x)); [|destruct Hc]. destruct Hc as [Hc|[]].
        injection Hc as <-. reflexivity.
      - apply in_els in Hc as (z & _ & ->). reflexivity. }
    unfold lookup in Hu. rewrite E in Hu. cbn in Hu. unfold h_some in Hu.
    apply bind_ok in Hu as (z & _ & Hu). apply ok_inj in Hu. subst u. exact Hy.
  - intros; assumption.
Qed.

(** ** Table cells and lines *)
Definition undouble (s : LineStyle) : LineStyle := match s with LDouble => LDotted | s => s end.

Lemma border_written : forall e n s, get e n = Some (linestyle_str s) -> border e n = undouble s.
Proof. intros e n s H. unfold border. rewrite H. destruct s; reflexivity. Qed.

Theorem cell_read : forall (x : Knot KTableColumn) v,
  parse KTableColumn (write KTableColumn x) = Ok v ->
  let c := un KTableColumn x in let d := un KTableColumn v in
  tc_align d = None /\ tc_valign d = None /\
  tc_rowspan d = match tc_valign c, tc_align c with
                 | Some p, _ => Some (position_str p)
                 | None, Some a => Some (align_str a)
                 | None, None => tc_rowspan c
                 end /\
  tc_colspan d = tc_colspan c /\
  tc_border_top d = undouble (tc_border_top c) /\
  tc_border_bottom d = undouble (tc_border_bottom c) /\
  tc_border_left d = undouble (tc_border_left c) /\
  tc_border_right d = undouble (tc_border_right c).
Proof.
  intros x v H. apply read_written in H. cbn [pstep wstep] in H.
  unfold parse_table_column, write_table_column in H. rewrite with_name_same in H by reflexivity.
  destruct (un KTableColumn x) as [ct bt bb bl br rs cs al va].
  cbn [tc_contents tc_border_top tc_border_bottom tc_border_left tc_border_right tc_rowspan tc_colspan
    tc_align tc_valign] in H |- *.
  match type of H with context [border ?x _] => set (e := x) in H end.
  assert (A1 : get_string_opt e "rowspan" = Ok match va, al with
    | Some p, _ => Some (position_str p) | None, Some a => Some (align_str a) | None, None => rs end).
  { apply read_string_opt. subst e. unfold get. cbn [attrs].
    rewrite assoc_insert_opt_same. destruct va; [reflexivity|]. cbn [option_map].
    rewrite assoc_insert_opt_same. destruct al; [reflexivity|]. cbn [option_map].
    rewrite assoc_insert_opt_other by reflexivity. rewrite assoc_insert_opt_same.
    destruct rs; [reflexivity|]. rewrite !assoc_insert_other by reflexivity. reflexivity. }
  assert (A2 : get_string_opt e "colspan" = Ok cs).
  { apply read_string_opt. at_tac. }
  assert (A3 : get e "Align" = None) by at_tac.
  assert (A4 : get e "Valign" = None) by at_tac.
  assert (B1 : border e "BorderTop" = undouble bt) by (apply border_written; at_tac).
  assert (B2 : border e "BorderBottom" = undouble bb) by (apply border_written; at_tac).
  assert (B3 : border e "BorderLeft" = undouble bl) by (apply border_written; at_tac).
  assert (B4 : border e "BorderRight" = undouble br) by (apply border_written; at_tac).
  rewrite A1, A2 in H. cbn [bind] in H. apply bind_ok in H as (c & _ & H). apply ok_inj in H.
  rewrite <- H, A3, A4, B1, B2, B3, B4. cbn. repeat split.
Qed.

Theorem line_read_style : forall (x : Knot KLine) v,
  parse KLine (write KLine x) = Ok v -> line_style (un KLine v) = undouble (line_style (un KLine x)).
Proof.
  intros x v H. apply read_written in H. cbn [pstep wstep] in H. unfold parse_line, write_line in H.
  rewrite with_name_same in H by reflexivity.
  match type of H with context [get ?x "Style"] => set (e := x) in H end.
  assert (A : get e "Style" = Some (linestyle_str (line_style (un KLine x)))) by at_tac.
  rewrite A in H. destruct (line_style (un KLine x)); cbn [linestyle_str] in H;
    cbn in H; apply bind_ok in H as (c & _ & H); apply ok_inj in H; rewrite <- H; reflexivity.
Qed.

(** ** Numbers of formulas *)
Section Formulas.
Context {K : kind -> Type} (w : forall k, K k -> Element) (p : forall k, Element -> R (K k)).
Hypothesis Hname : forall k x, name (w k x) = tag_of k.
Hypothesis Hget : forall c x n, get (w (KCont c) x) n = None.

Lemma arith_written : forall a v, parse_arith p (write_arith w a) = Ok v -> af_num v = None.
Proof.
  intros a v H. unfold parse_arith, write_arith in H.
  unfold get_attribute_opt_with_parse in H at 1. rewrite Hget in H. cbn [bind] in H.
  apply bind_ok in H as (c & _ & H). injection H as <-. reflexivity.
Qed.

(** Pushes onto one list: what each arm can add. *)
Lemma push_inv : forall X Y (P : X -> Prop) (inj : Y -> X) pr c u,
  h_push whole inj pr c = Ok u -> (forall y, pr c = Ok y -> P (inj y)) ->
  forall l, Forall P l -> Forall P (u l).
Proof.
  intros X Y P inj pr c u H HP l Hl. unfold h_push in H. apply bind_ok in H as (y & Hy & H).
  apply ok_inj in H. subst u. unfold whole. apply Forall_app. auto.
Qed.

Lemma lookup_push : forall X Y (P : X -> Prop) d t (inj : Y -> X) pr c u,
  lookup d t c = h_push whole inj pr c ->
  (forall y, pr c = Ok y -> P (inj y)) ->
  lookup d t c = Ok u -> forall l, Forall P l -> Forall P (u l).
Proof. intros X Y P d t inj pr c u E HP Hu. rewrite E in Hu. eapply push_inv; eassumption. Qed.

Ltac pushed :=
  eapply lookup_push;
  [ unfold lookup; try unfold write_arith; try rewrite Hname; reflexivity
  | first [intros; exact I|intros y Hy; apply (arith_written _ _ Hy)] ].

Definition no_num_se (c : SentenceElement K) : Prop :=
  match c with SE_Arith a => af_num a = None | _ => True end.
Definition no_num_lc (c : LineContents K) : Prop :=
  match c with LC_Arith a => af_num a = None | _ => True end.
Definition no_num_ce (c : ContentsElement K) : Prop :=
  match c with CE_Arith a => af_num a = None | _ => True end.

Lemma sentence_formulas : forall x v,
  parse_sentence p (write_sentence w x) = Ok v -> Forall no_num_se (sen_contents v).
Proof.
  intros x v H. unfold parse_sentence, write_sentence in H.
  rewrite with_name_same in H by reflexivity.
  apply bind_ok in H as (? & _ & H). apply bind_ok in H as (? & _ & H). apply bind_ok in H as (? & _ & H).
  apply bind_ok in H as (c & Hr & H). apply ok_inj in H. rewrite <- H. cbn [sen_contents].
  eapply (run_inv _ (Forall no_num_se)) in Hr; [exact Hr| | |constructor].
  - intros e u He. apply in_map_iff in He as (y & E & _).
    destruct y; cbn [write_sentence_node] in E; try discriminate; injection E as <-; pushed.
  - intros a _ l Hl. apply Forall_app. split; [exact Hl|]. repeat constructor.
Qed.

Lemma line_formulas : forall x v,
  parse_line p (write_line w x) = Ok v -> Forall no_num_lc (line_contents v).
Proof.
  intros x v H. unfold parse_line, write_line in H.
  rewrite with_name_same in H by reflexivity.
  destruct (linestyle_of _); [|discriminate].
  apply bind_ok in H as (c & Hr & H). apply ok_inj in H. rewrite <- H. cbn [line_contents].
  eapply (run_inv _ (Forall no_num_lc)) in Hr; [exact Hr| | |constructor].
  - intros e u He. apply in_map_iff in He as (y & E & _).
    destruct y; cbn [write_line_node] in E; try discriminate; injection E as <-; pushed.
  - intros a _ l0 Hl. apply Forall_app. split; [exact Hl|]. repeat constructor.
Qed.

Lemma contents_formulas : forall n x v,
  parse_cont p (write_cont w n x) = Ok v -> Forall no_num_ce v.
Proof.
  intros n x v Hr. unfold parse_cont, write_cont in Hr.
  eapply (run_inv _ (Forall no_num_ce)) in Hr; [exact Hr| | |constructor].
  - intros e u He. apply in_map_iff in He as (y & E & _).
    destruct y; cbn [write_contents_node] in E; try discriminate; injection E as <-; try pushed.
    destruct l; pushed.
  - intros a _ l0 Hl. apply Forall_app. split; [exact Hl|]. repeat constructor.
Qed.
End Formulas.

Theorem sentence_formula_nums_lost : forall (x : Knot KSentence) v,
  parse KSentence (write KSentence x) = Ok v ->
  forall a, In (SE_Arith a) (sen_contents (un KSentence v)) -> af_num a = None.
Proof.
  intros x v H a Ha. apply read_written in H.
  apply (sentence_formulas write parse write_name write_cont_get) in H.
  rewrite Forall_forall in H. apply (H _ Ha).
Qed.

Theorem line_formula_nums_lost : forall (x : Knot KLine) v,
  parse KLine (write KLine x) = Ok v ->
  forall a, In (LC_Arith a) (line_contents (un KLine v)) -> af_num a = None.
Proof.
  intros x v H a Ha. apply read_written in H.
  apply (line_formulas write parse write_name write_cont_get) in H.
  rewrite Forall_forall in H. apply (H _ Ha).
Qed.

Theorem contents_formula_nums_lost : forall n (x : Knot (KCont n)) v,
  parse (KCont n) (write (KCont n) x) = Ok v ->
  forall a, In (CE_Arith a) (un (KCont n) v) -> af_num a = None.
Proof.
  intros n x v H a Ha. apply read_written in H.
  apply (contents_formulas write parse write_name write_cont_get) in H.
  rewrite Forall_forall in H. apply (H _ Ha).
Qed.

(** ** Labels written under the tag of another field *)
Section Labels.
Context {K : kind -> Type} (w : forall k, K k -> Element) (p : forall k, Element -> R (K k)).
Hypothesis Hname : forall k x, name (w k x) = tag_of k.
Hypothesis Hget : forall c x n, get (w (KCont c) x) n = None.

(** Two optional children under the same tag: the second one wins. *)
Lemma two_opts : forall X Y S (txt : string -> option X * (option X * S) -> _) d t (wr : Y -> Element) pr
    (o1 o2 : option Y) rest s s',
  (forall x, lookup d t (wr x) = h_some at0 pr (wr x)) ->
  (forall c u, In (NElement c) rest -> lookup d t c = Ok u ->
     forall x, fst (u x) = fst x /\ fst (snd (u x)) = fst (snd x)) ->
  (forall a, ~ In (NText a) rest) ->
  run txt d t (el_opt wr o1 ++ el_opt wr o2 ++ rest) s = Ok s' ->
  fst (snd s') = fst (snd s) /\ forall y x, o2 = Some y -> pr (wr y) = Ok x -> fst s' = Some x.
Proof.
  intros X Y S txt d t wr pr o1 o2 rest s s' HL HR HT H.
  rewrite !run_app in H. apply bind_ok in H as (s1 & H1 & H). rewrite run_app in H.
  apply bind_ok in H as (s2 & H2 & H).
  assert (E1 : fst (snd s1) = fst (snd s)).
  { destruct o1 as [y|]; cbn [el_opt run] in H1; [|injection H1 as <-; reflexivity].
    rewrite HL in H1. unfold h_some in H1. rewrite bind_assoc in H1. apply bind_ok in H1 as (z & _ & H1).
    injection H1 as <-. reflexivity. }
  assert (E2 : fst (snd s2) = fst (snd s1) /\
    forall y x, o2 = Some y -> pr (wr y) = Ok x -> fst s2 = Some x).
  { destruct o2 as [y|]; cbn [el_opt run] in H2;
      [|injection H2 as <-; split; [reflexivity|discriminate]].
    rewrite HL in H2. unfold h_some in H2. rewrite bind_assoc in H2. apply bind_ok in H2 as (z & Hz & H2).
    injection H2 as <-. split; [reflexivity|]. intros y' x E Ex. injection E as <-.
    rewrite Hz in Ex. injection Ex as <-. reflexivity. }
  eapply (run_inv _ (fun z => fst z = fst s2 /\ fst (snd z) = fst (snd s2))) in H;
    [| | |split; reflexivity].
  - destruct H as [F1 F2], E2 as [E2 E3]. split; [congruence|].
    intros y x Ey Ex. rewrite F1. eapply E3; eassumption.
  - intros c u Hc Hu z [F1 F2]. destruct (HR c u Hc Hu z) as [G1 G2]. split; congruence.
  - intros a Ha. destruct (HT a Ha).
Qed.

Ltac look := intros; unfold lookup; reflexivity.
Ltac kept Hu :=
  unfold lookup in Hu; try unfold write_arith in Hu; try rewrite Hname in Hu;
  cbv beta iota delta [assoc name tag_of cont_tag write_text String.eqb Ascii.eqb Bool.eqb
    h_some h_push h_put] in Hu;
  apply bind_ok in Hu as (? & _ & Hu); apply ok_inj in Hu; subst; intros; split; reflexivity.

Lemma toc_labels : forall x v, parse_toc p (write_toc w x) = Ok v ->
  toc_preamble_label v = None /\
  forall t u, toc_preamble_label x = Some t -> p_text p (write_text w "TOCLabel" t) = Ok u ->
    toc_label v = Some u.
Proof.
  intros x v H. unfold parse_toc, write_toc in H. rewrite with_name_same in H by reflexivity.
  cbn [children] in H. apply bind_ok in H as ([l [pl [m [s [a []]]]]] & Hr & H). injection H as <-.
  eapply two_opts in Hr; [exact Hr|look| |].
  - clear Hr. intros c u Hc Hu. rewrite !in_app_iff in Hc. destruct Hc as [Hc|[Hc|Hc]].
    + apply in_els in Hc as (y & _ & ->). destruct y; cbn [write_toc_main_node] in Hu; kept Hu.
    + destruct (toc_suppl x); [|destruct Hc]. destruct Hc as [Hc|[]]. injection Hc as <-. kept Hu.
    + apply in_els in Hc as (y & _ & ->). kept Hu.
  - intros b Hb. rewrite !in_app_iff in Hb. destruct Hb as [Hb|[Hb|Hb]].
    + destruct (not_in_els _ _ _ _ Hb).
    + destruct (toc_suppl x); [|destruct Hb]. destruct Hb as [Hb|[]]. discriminate.
    + destruct (not_in_els _ _ _ _ Hb).
Qed.

Lemma appdx_related : forall x v, parse_appdx p (write_appdx w x) = Ok v ->
  ap_related v = None /\
  forall t u, ap_related x = Some t -> p_text p (write_text w "ArithFormulaNum" t) = Ok u ->
    ap_arith_formula_num v = Some u.
Proof.
  intros x v H. unfold parse_appdx, write_appdx in H. rewrite with_name_same in H by reflexivity.
  cbn [children] in H. apply bind_ok in H as ([l [pl [m [s []]]]] & Hr & H). injection H as <-.
  eapply two_opts in Hr; [exact Hr|look| |].
  - clear Hr. intros c u Hc Hu. rewrite !in_app_iff in Hc. destruct Hc as [Hc|Hc].
    + apply in_els in Hc as (y & _ & ->). kept Hu.
    + destruct (ap_remarks x); [|destruct Hc]. destruct Hc as [Hc|[]]. injection Hc as <-. kept Hu.
  - intros b Hb. rewrite !in_app_iff in Hb. destruct Hb as [Hb|Hb].
    + destruct (not_in_els _ _ _ _ Hb).
    + destruct (ap_remarks x); [|destruct Hb]. destruct Hb as [Hb|[]]. discriminate.
Qed.

(** Reading text never reports an error. *)
Lemma run_no_err : forall S txt d t l (s : S) e,
  (forall c e, lookup d t c <> Err e) -> run txt d t l s <> Err e.
Proof.
  intros S txt d t l s e HL. revert s. induction l as [|[c|a|o] l IH]; intros s; cbn [run];
    [discriminate| |apply IH|apply IH].
  destruct (lookup d t c) eqn:E; cbn [bind]; [apply IH|apply HL in E as []|discriminate].
Qed.

Lemma push_ok_no_err : forall S X Y (ix : (list Y -> list Y) -> S -> S) (inj : X -> Y) pr c e,
  h_push_ok ix inj pr c <> Err e.
Proof. intros. unfold h_push_ok. destruct (pr c); discriminate. Qed.

Lemma text_no_err : forall l e, from_children p l <> Err e.
Proof.
  intros l e. apply run_no_err. intros c e'. unfold lookup, text_table. cbn [assoc].
  repeat (destruct (String.eqb (name c) _); [apply push_ok_no_err|]). discriminate.
Qed.

(** An article without body. *)
Lemma article_bodyless : forall x, an_usize (art_num x) ->
  art_paragraph x = [] -> art_suppl_note x = None -> parse_article p (write_article w x) = Panic.
Proof.
  intros [cap t ps note nu dl hd] Hn Hp Hs. cbn [art_num art_paragraph art_suppl_note] in Hn, Hp, Hs. subst.
  unfold parse_article, write_article. rewrite with_name_same by reflexivity.
  cbn [art_caption art_title art_paragraph art_suppl_note art_num art_delete art_hide].
  match goal with |- context [get_attribute ?x "Num"] => set (e := x) end.
  assert (A1 : get e "Num" = Some (num_str nu)) by at_tac.
  assert (A2 : get e "Delete" = if dl then Some "true"%string else None) by at_tac.
  assert (A3 : get e "Hide" = if hd then Some "true"%string else None) by at_tac.
  apply read_flag in A2, A3. apply read_attribute in A1. rewrite A1, A2, A3. cbn [bind children e].
  clear A1 A2 A3. clearbody e.
  assert (N : exists n, from_num_str (num_str nu) = Ok n).
  { destruct (range_end_numbers nu) as [|r1 r] eqn:Er.
    - eexists. apply num_str_roundtrip_norange; assumption.
    - destruct nu as [b ed r']. cbn in Er. subst r'.
      destruct ed as [|e1 [|e2 es]].
      + exists (mkAN b [] []). rewrite num_str_noeda, <- num_str_noeda with (r := []).
        apply num_str_roundtrip_norange; [|reflexivity].
        destruct Hn as (H1 & H2 & H3). cbn in H1, H2, H3. repeat split; auto.
      + eexists. apply num_str_roundtrip_one, Hn.
      + eexists. apply num_str_two, Hn. }
  destruct N as (n & ->). cbn [bind els map el_opt app].
  assert (T : forall c : option (Caption K), article_head p [NElement (write_text w "ArticleTitle" t)] c [] = Panic).
  { intros c. cbn [article_head write_text name]. cbn [String.eqb Ascii.eqb Bool.eqb]. unfold p_text.
    pose proof (text_no_err (children (write_text w "ArticleTitle" t))) as HE. cbn [children write_text] in HE |- *.
    destruct (from_children p _); [reflexivity|destruct (HE _ eq_refl)|reflexivity]. }
  destruct cap as [c|]; cbn [el_opt app]; [|rewrite T; reflexivity].
  assert (C : forall r ti, article_head p (NElement (write_caption w "ArticleCaption" c) :: r) None ti =
    bind (parse_caption p (write_caption w "ArticleCaption" c)) (fun v => article_head p r (Some v) ti))
    by reflexivity.
  rewrite C. unfold parse_caption at 1.
  pose proof (text_no_err (children (write_caption w "ArticleCaption" c))) as HE.
  destruct (from_children p _); [|destruct (HE _ eq_refl)|reflexivity]. cbn [bind].
  rewrite (read_bool_opt _ "CommonCaption" (cap_common c)) by (unfold write_caption; at_tac).
  cbn [bind]. rewrite T. reflexivity.
Qed.
End Labels.

Lemma text_survives_good : forall t, text_survives t <-> allp (c_text (good write parse) t).
Proof.
  intros t. rewrite (c_text_nat node (fun s => good write parse (projT1 s) (projT2 s))), allp_map.
  unfold text_survives, good. split.
  - intros H [j y] Hy. apply read_write_iff, H, Hy.
  - intros H j y Hy. apply read_write_iff, (H _ Hy).
Qed.

Lemma text_read : forall n t, text_survives t -> p_text parse (write_text write n t) = Ok t.
Proof. intros n t H. apply (text_iff write parse write_name), text_survives_good, H. Qed.

Theorem toc_preamble_label_lost : forall (x : Knot KTOC) v,
  parse KTOC (write KTOC x) = Ok v ->
  toc_preamble_label (un KTOC v) = None /\
  forall t, toc_preamble_label (un KTOC x) = Some t -> text_survives t ->
    toc_label (un KTOC v) = Some t.
Proof.
  intros x v H. apply read_written in H. apply (toc_labels write parse write_name) in H as [H1 H2].
  split; [exact H1|]. intros t Ht Hs. eapply H2; [exact Ht|]. apply text_read, Hs.
Qed.

Theorem appdx_related_lost : forall (x : Knot KAppdx) v,
  parse KAppdx (write KAppdx x) = Ok v ->
  ap_related (un KAppdx v) = None /\
  forall t, ap_related (un KAppdx x) = Some t -> text_survives t ->
    ap_arith_formula_num (un KAppdx v) = Some t.
Proof.
  intros x v H. apply read_written in H. apply (appdx_related write parse write_name) in H as [H1 H2].
  split; [exact H1|]. intros t Ht Hs. eapply H2; [exact Ht|]. apply text_read, Hs.
Qed.

Theorem article_bodyless_panics : forall (x : Knot KArticle),
  an_usize (art_num (un KArticle x)) ->
  art_paragraph (un KArticle x) = [] -> art_suppl_note (un KArticle x) = None ->
  parse KArticle (write KArticle x) = Panic.
Proof. intros x H1 H2 H3. apply read_written_panic. apply article_bodyless; assumption. Qed.

(** ** Appendices of supplementary provisions *)
Theorem suppl_table_unreadable : forall (x : Knot KSupplTable),
  parse KSupplTable (write KSupplTable x) =
  Err (WrongTagName "SupplProvisionAppdxTableitle" "SupplProvisionAppdxTableitle").
Proof.
  intros x. apply read_written_err. cbn [pstep wstep].
  unfold parse_suppl_table, write_suppl_table, parse_suppl_ts, write_suppl_ts.
  rewrite with_name_same by reflexivity.
  match goal with |- context [get_string_opt ?x "Num"] => set (e := x) end.
  rewrite (read_string_opt e "Num" (sts_num (un KSupplTable x))) by at_tac. reflexivity.
Qed.

Theorem suppl_appdx_unreadable : forall (x : Knot KSupplAppdx),
  parse KSupplAppdx (write KSupplAppdx x) = Err (WrongTagName "Appdx" "SupplProbisionAppdx").
Proof. intros x. apply read_written_err. reflexivity. Qed.

(** ** Laws without number *)
Theorem law_without_number_panics : forall l, (law_year l < 2 ^ 64)%N -> law_no l = None ->
  parse_law (write_law l) = Panic.
Proof.
  intros [era y no mo d ty la ln b] Hy Hn. cbn [law_year law_no] in Hy, Hn. subst no.
  unfold parse_law, write_law. rewrite with_name_same by reflexivity.
  cbn [law_era law_year law_no law_promulgate_month law_promulgate_day law_type law_lang law_num law_body].
  match goal with |- context [get ?x "Era"] => set (e := x) end.
  assert (A1 : get e "Era" = Some (era_str era)) by at_tac.
  assert (A2 : get e "Year" = Some (usize_to_string y)) by at_tac.
  assert (A3 : get e "Num" = None) by at_tac.
  unfold get_attribute_with_parse. rewrite A1, A2, A3.
  rewrite (proj2 (usize_read y)) by (apply N.ltb_lt, Hy).
  assert (B1 : forall x, enum_req (Some (era_str era)) eras x = Ok era) by (destruct era; reflexivity).
  rewrite B1. reflexivity.
Qed.

(** ** Consequences of the round trip *)
Lemma write_law_inj : forall a b, law_survives a -> law_survives b -> write_law a = write_law b -> a = b.
Proof.
  intros a b Ha Hb E. apply law_read_write_iff in Ha, Hb. rewrite E in Ha. congruence.
Qed.

Lemma write_inj : forall k (a b : Knot k), survives k a -> survives k b -> write k a = write k b -> a = b.
Proof.
  intros k a b Ha Hb E. apply read_write_iff in Ha, Hb. rewrite E in Ha. congruence.
Qed.

Lemma law_roundtrip : forall l, law_survives l -> parse_law (write_law l) = Ok l.
Proof. intros l. apply law_read_write_iff. Qed.
