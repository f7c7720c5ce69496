(** Exact rules: structures, articles and laws. *)
From Coq Require Import String List Arith NArith Bool Lia.
From Verif Require Import Base NumStr NumStrSpec BaseFacts NumStrFacts Xml Ast XmlWrite XmlParse XmlSim
  KnotFacts GrammarSpec GrammarFacts ReadSpec ReadFacts ReadingSpec ReadingLib ReadingFacts ReadingRules5.
Import ListNotations.
Open Scope string_scope.
Open Scope list_scope.

(** ** Lines, sentences, contents, cells *)
Lemma line_rule : forall e f, parse_line parse e = Ok f <-> reading KLine e f.
Proof.
  intros e [c st]. unfold parse_line. cbn [reading line_style line_contents].
  assert (Hl : NoDup (map fst line_styles)) by nodup.
  rewrite with_name_iff, <- (one_of_found line_styles Hl), <- (line_run_iff e).
  change (found line_styles (get e "Style")) with (linestyle_of (get e "Style")).
  split.
  - intros (Hn & H). destruct (linestyle_of (get e "Style")) as [s|]; [|discriminate].
    apply bind_iff in H as (x & Hx & H). repeat split; congruence.
  - intros (Hn & -> & H). split; [exact Hn|]. rewrite H. reflexivity.
Qed.
Lemma cont_rule : forall k e f, parse_cont parse e = Ok f <-> reading (KCont k) e f.
Proof. intros k e f. apply contents_run_iff. Qed.
Lemma sentence_rule : forall e f, parse_sentence parse e = Ok f <-> reading KSentence e f.
Proof.
  intros e [c n fn ind m]. unfold parse_sentence.
  cbn [ReadingSpec.reading sen_num sen_function sen_indent sen_mode sen_contents].
  assert (Hf : NoDup (map fst sentence_functions)) by nodup.
  assert (Hi : NoDup (map fst sentence_indents)) by nodup.
  rewrite with_name_iff, <- integer_iff, <- mode_iff, <- (sentence_run_iff e).
  rewrite <- (enum_opt_iff sentence_functions Hf _ (AttributeParseError (name e) "Function")).
  rewrite <- (enum_opt_iff sentence_indents Hi _ (AttributeParseError (name e) "Indent")).
  change functions with sentence_functions. change indents with sentence_indents. split.
  - intros (Hn & H). apply bind_iff in H as (x & Hx & H). apply bind_iff in H as (y & Hy & H).
    apply bind_iff in H as (z & Hz & H). apply bind_iff in H as (w & Hw & H). repeat split; congruence.
  - intros (Hn & H1 & H2 & H3 & <- & H4). split; [exact Hn|]. rewrite H1. cbn. rewrite H2. cbn. rewrite H3. cbn.
    rewrite H4. reflexivity.
Qed.
Lemma table_column_rule : forall e f, parse_table_column parse e = Ok f <-> reading KTableColumn e f.
Proof.
  intros e [c b1 b2 b3 b4 rs cs a v]. unfold parse_table_column.
  cbn [ReadingSpec.reading tc_border_top tc_border_bottom tc_border_left tc_border_right tc_rowspan tc_colspan tc_align
       tc_valign tc_contents].
  assert (Ha : NoDup (map fst alignments)) by nodup.
  assert (Hv : NoDup (map fst positions)) by nodup.
  rewrite with_name_iff, <- !border_iff, <- !string_iff, <- (cell_run_iff e).
  rewrite <- (one_of_any_found alignments Ha), <- (one_of_any_found positions Hv).
  change (found alignments (get e "Align")) with (align_of (get e "Align")).
  change (found positions (get e "Valign")) with (position_of (get e "Valign")). split.
  - intros (Hn & H). apply bind_iff in H as (x & Hx & H). apply bind_iff in H as (y & Hy & H).
    apply bind_iff in H as (z & Hz & H). repeat split; congruence.
  - intros (Hn & <- & <- & <- & <- & H1 & H2 & <- & <- & H3). split; [exact Hn|].
    apply bind_iff. exists rs. split; [exact H1|]. apply bind_iff. exists cs. split; [exact H2|].
    apply bind_iff. exists c. split; [exact H3|reflexivity].
Qed.

(** ** Structures *)
Lemma readable_fun : functional readable.
Proof.
  intros l xs ys H. revert ys. induction H as [|c r l rs Hr _ IH|c l rs [er Hr] _ IH]; intros ys H'.
  - inversion H'. reflexivity.
  - inversion H' as [|? r' ? rs' Hr' F'|? ? ? [er' Hr'] F']; subst.
    + f_equal; [eapply reads_fun; eassumption|auto].
    + unfold reads in Hr. congruence.
  - inversion H' as [|? r' ? rs' Hr' F'|? ? ? [er' Hr'] F']; subst; [|auto].
    unfold reads in Hr'. congruence.
Qed.
Lemma readable_in : forall l rs c, readable l rs -> In c l -> exists o, ok (parse KRemarks c) = Ok o.
Proof.
  intros l rs c H. induction H as [|d r l rs Hr _ IH|d l rs [er Hr] _ IH]; intros Hc; [destruct Hc| |];
    (destruct Hc as [<-|Hc]; [|exact (IH Hc)]); unfold reads in Hr; rewrite Hr; eexists; reflexivity.
Qed.
Lemma with_tag_cons : forall t c l, with_tag t (NElement c :: l) =
  if String.eqb (name c) t then c :: with_tag t l else with_tag t l.
Proof. reflexivity. Qed.
Lemma with_tag_text : forall t s l, with_tag t (NText s :: l) = with_tag t l.
Proof. reflexivity. Qed.
Lemma with_tag_other : forall t s l, with_tag t (NOther s :: l) = with_tag t l.
Proof. reflexivity. Qed.

Lemma first_split : forall bn (l l' : list XMLNode) b b' r r',
  l ++ NElement b :: r = l' ++ NElement b' :: r' -> name b = bn -> name b' = bn ->
  with_tag bn l = [] -> with_tag bn l' = [] -> l = l' /\ r = r'.
Proof.
  intros bn l. induction l as [|x l IH]; intros [|y l'] b b' r r' E Hb Hb' Hl Hl'; cbn in E.
  - injection E as _ ->. auto.
  - injection E as <- _. rewrite with_tag_cons in Hl'. rewrite Hb, String.eqb_refl in Hl'. discriminate.
  - injection E as -> _. rewrite with_tag_cons in Hl. rewrite Hb', String.eqb_refl in Hl. discriminate.
  - injection E as -> E. destruct (IH l' b b' r r' E Hb Hb') as [-> ->].
    + destruct y as [c|s|s]; [|exact Hl|exact Hl]. rewrite with_tag_cons in Hl.
      destruct (String.eqb (name c) bn); [discriminate|exact Hl].
    + destruct y as [c|s|s]; [|exact Hl'|exact Hl']. rewrite with_tag_cons in Hl'.
      destruct (String.eqb (name c) bn); [discriminate|exact Hl'].
    + auto.
Qed.

Section Struct.
Context {T B : Type} (n tn bn : string) (ft : Element -> R T) (fb : Element -> R B).
Context (pt : Element -> T -> Prop) (pb : Element -> B -> Prop).
Hypothesis Ht : forall c x, ft c = Ok x <-> pt c x.
Hypothesis Hb : forall c x, fb c = Ok x <-> pb c x.
Hypothesis N1 : tn <> bn.
Hypothesis N2 : tn <> "Remarks".
Hypothesis N3 : bn <> "Remarks".
Notation tbl := [(tn, h_some at0 ft); ("Remarks", h_struct_remarks parse); (bn, h_some at2 fb)].
Definition file (r : Knot KRemarks) (s : @struct_state Knot T B) : struct_state T B :=
  match fst (snd (snd s)) with
  | None => at1 (fun l => app l [r]) s
  | Some _ => at3 (fun l => app l [r]) s
  end.

Lemma struct_rows_iff : forall e c u, lookup (reject e) tbl c = Ok u ->
  (name c = tn /\ exists x, pt c x /\ u = at0 (fun _ => Some x)) \/
  (name c = "Remarks" /\ ((exists r, reads KRemarks c r /\ u = file r) \/ (refused KRemarks c /\ u = fun s => s))) \/
  (name c = bn /\ exists x, pb c x /\ u = at2 (fun _ => Some x)).
Proof.
  intros e c u Hu. unfold lookup in Hu. cbn [assoc] in Hu.
  destruct (String.eqb_spec (name c) tn) as [E1|E1].
  { left. split; [exact E1|]. apply bind_iff in Hu as (x & Hx & Hu). injection Hu as <-. exists x. split; [apply Ht, Hx|reflexivity]. }
  destruct (String.eqb_spec (name c) "Remarks") as [E2|E2].
  { right. left. split; [exact E2|]. unfold h_struct_remarks, refused, reads in *. destruct (parse KRemarks c) as [r|er|]; cbn in Hu.
    - injection Hu as <-. left. exists r. auto.
    - injection Hu as <-. right. eauto.
    - discriminate. }
  destruct (String.eqb_spec (name c) bn) as [E3|E3]; [|discriminate].
  right. right. split; [exact E3|]. apply bind_iff in Hu as (x & Hx & Hu). injection Hu as <-. exists x. split; [apply Hb, Hx|reflexivity].
Qed.

Ltac differ := match goal with |- context [String.eqb ?a ?b] =>
  destruct (String.eqb_spec a b) as [?|?]; [try congruence|try congruence] end.

Lemma struct_after : forall e l s s', run no_text (reject e) tbl l s = Ok s' -> fst (snd (snd s)) <> None ->
  exists rs, readable (with_tag "Remarks" l) rs /\
    fst (snd s') = fst (snd s) /\ fst (snd (snd (snd s'))) = fst (snd (snd (snd s))) ++ rs.
Proof.
  intros e l. induction l as [|[c|x|x] r IH]; intros s s' H Hs; cbn in H.
  - injection H as <-. exists []. rewrite app_nil_r. repeat split; constructor.
  - apply bind_iff in H as (u & Hu & H).
    apply struct_rows_iff in Hu as [(E & x & Hx & ->)|[(E & [(rm & Hr & ->)|(Hr & ->)])|(E & x & Hx & ->)]];
      rewrite with_tag_cons, E.
    + apply IH in H; [|exact Hs]. differ; exact H.
    + assert (Eu : file rm s = at3 (fun l => app l [rm]) s).
      { unfold file. destruct (fst (snd (snd s))); [reflexivity|contradiction]. }
      rewrite Eu in H. destruct (IH _ _ H) as (rs & F & E1 & E2); [exact Hs|].
      exists (rm :: rs). split; [constructor; assumption|]. split; [exact E1|]. rewrite E2. cbn. rewrite <- app_assoc. reflexivity.
    + destruct (IH _ _ H) as (rs & F & E1 & E2); [exact Hs|]. exists rs. split; [apply readable_not; assumption|auto].
    + destruct (IH _ _ H) as (rs & F & E1 & E2); [cbn; discriminate|]. differ. exists rs. auto.
  - exact (IH _ _ H Hs).
  - exact (IH _ _ H Hs).
Qed.

Lemma struct_before : forall e l s s', run no_text (reject e) tbl l s = Ok s' ->
  fst (snd (snd s)) = None -> fst (snd (snd s')) <> None ->
  exists before b after xs ys, l = before ++ NElement b :: after /\ name b = bn /\ with_tag bn before = [] /\
    readable (with_tag "Remarks" before) xs /\ readable (with_tag "Remarks" after) ys /\
    fst (snd s') = fst (snd s) ++ xs /\ fst (snd (snd (snd s'))) = fst (snd (snd (snd s))) ++ ys.
Proof.
  intros e l. induction l as [|[c|x|x] r IH]; intros s s' H Hs Hs'; cbn in H.
  - injection H as <-. contradiction.
  - apply bind_iff in H as (u & Hu & H).
    apply struct_rows_iff in Hu as [(E & x & Hx & ->)|[(E & [(rm & Hr & ->)|(Hr & ->)])|(E & x & Hx & ->)]].
    + destruct (IH _ _ H Hs Hs') as (be & b & af & xs & ys & -> & Eb & Eg & F1 & F2 & E1 & E2).
      exists (NElement c :: be), b, af, xs, ys. rewrite !with_tag_cons, E.
      do 2 (split; [auto|]). split; [differ; exact Eg|]. split; [differ; exact F1|]. auto.
    + assert (Eu : file rm s = at1 (fun l => app l [rm]) s) by (unfold file; rewrite Hs; reflexivity).
      rewrite Eu in H.
      destruct (IH _ _ H Hs Hs') as (be & b & af & xs & ys & -> & Eb & Eg & F1 & F2 & E1 & E2).
      exists (NElement c :: be), b, af, (rm :: xs), ys. rewrite !with_tag_cons, E.
      do 2 (split; [auto|]). split; [differ; exact Eg|].
      split; [constructor; assumption|]. split; [exact F2|].
      split; [rewrite E1; cbn; rewrite <- app_assoc; reflexivity|exact E2].
    + destruct (IH _ _ H Hs Hs') as (be & b & af & xs & ys & -> & Eb & Eg & F1 & F2 & E1 & E2).
      exists (NElement c :: be), b, af, xs, ys. rewrite !with_tag_cons, E.
      do 2 (split; [auto|]). split; [differ; exact Eg|].
      split; [apply readable_not; assumption|]. auto.
    + destruct (struct_after _ _ _ _ H) as (ys & F & E1 & E2); [cbn; discriminate|].
      exists [], c, r, [], ys. rewrite app_nil_r. repeat split; try assumption; constructor.
  - destruct (IH _ _ H Hs Hs') as (be & b & af & xs & ys & -> & Eb & Eg & F1 & F2 & E1 & E2).
    exists (NText x :: be), b, af, xs, ys. auto 10.
  - destruct (IH _ _ H Hs Hs') as (be & b & af & xs & ys & -> & Eb & Eg & F1 & F2 & E1 & E2).
    exists (NOther x :: be), b, af, xs, ys. auto 10.
Qed.

Lemma at_title : forall (r : Knot KRemarks) s, fst (file r s) = fst s.
Proof. intros r (t & tr & [b|] & br & []); reflexivity. Qed.
Lemma at_body : forall (r : Knot KRemarks) s, fst (snd (snd (file r s))) = fst (snd (snd s)).
Proof. intros r (t & tr & [b|] & br & []); reflexivity. Qed.

Lemma struct_exact : forall e f, parse_struct parse n tn bn ft fb e = Ok f <-> structure n tn bn pt pb e f.
Proof.
  apply exact_from; unfold parse_struct, ReadingSpec.structure.
  - intros e f H. apply with_name_iff in H as [Hn H]. apply bind_iff in H as ((t & tr & b & br & []) & Hr & H).
    destruct b as [b|]; [|discriminate]. injection H as <-. cbn [st_title st_title_remarks st_body st_remarks].
    split; [exact Hn|]. split; [|split; [|split]].
    + eapply run_known; [exact Hr|]. intros x Hx. exact Hx.
    + refine (optional _ _ _ _ _ Hr _ (fun s => fst s) _ _ eq_refl _). intros c u Hu.
      apply struct_rows_iff in Hu as [(E & x & Hx & ->)|[(E & [(rm & Hrm & ->)|(Hrm & ->)])|(E & x & Hx & ->)]]; rewrite E.
      * rewrite String.eqb_refl. exists x. auto.
      * differ; apply at_title.
      * differ; reflexivity.
      * differ; reflexivity.
    + refine (optional _ _ _ _ _ Hr _ (fun s => fst (snd (snd s))) _ _ eq_refl _). intros c u Hu.
      apply struct_rows_iff in Hu as [(E & x & Hx & ->)|[(E & [(rm & Hrm & ->)|(Hrm & ->)])|(E & x & Hx & ->)]]; rewrite E.
      * differ; reflexivity.
      * differ; apply at_body.
      * differ; reflexivity.
      * rewrite String.eqb_refl. exists x. auto.
    + destruct (struct_before _ _ _ _ Hr eq_refl) as (be & b' & af & xs & ys & Ec & Eb & Eg & F1 & F2 & E1 & E2);
        [discriminate|]. cbn in E1, E2. subst tr br. eauto 10.
  - intros e f (Hn & HK & HT & HB & be & b & af & Ec & Eb & Eg & F1 & F2).
    apply ex_with_name; [exact Hn|].
    match goal with |- exists g, bind (run ?t ?d ?tb ?l ?s) _ = Ok g => destruct (run_accept _ t d tb l s) as [st Hr] end.
    + intros c Hc. unfold lookup. cbn [assoc]. destruct (HK c Hc) as [E|[E|[E|[]]]].
      * rewrite <- E, String.eqb_refl. destruct (latest_in _ _ _ _ _ _ HT Hc (eq_sym E)) as [x Hx]. apply Ht in Hx.
        unfold h_some. rewrite Hx. eexists. reflexivity.
      * rewrite <- E. rewrite (proj2 (String.eqb_neq _ _) (not_eq_sym N2)). rewrite String.eqb_refl.
        assert (Hin : In c (with_tag "Remarks" be) \/ In c (with_tag "Remarks" af)).
        { rewrite Ec in Hc. apply in_app_or in Hc as [Hc|[Hc|Hc]]; [left|exfalso|right].
          - apply in_with_tag. auto.
          - injection Hc as ->. congruence.
          - apply in_with_tag. auto. }
        assert (Ho : exists o, ok (parse KRemarks c) = Ok o) by (destruct Hin as [Hin|Hin]; [exact (readable_in _ _ _ F1 Hin)|exact (readable_in _ _ _ F2 Hin)]).
        destruct Ho as [o Ho]. unfold h_struct_remarks. rewrite Ho. eexists. reflexivity.
      * rewrite <- E. rewrite (proj2 (String.eqb_neq _ _) (not_eq_sym N1)).
        rewrite (proj2 (String.eqb_neq _ _) N3), String.eqb_refl.
        destruct (latest_in _ _ _ _ _ _ HB Hc (eq_sym E)) as [x Hx]. apply Hb in Hx.
        unfold h_some. rewrite Hx. eexists. reflexivity.
    + apply (ex_bind _ _ _ _ _ Hr). destruct st as (t & tr & o & br & []).
      assert (Y : o = Some (st_body f)).
      { apply (latest_fun _ pb bn) with (a := children e); [eapply fun_of, Hb| |exact HB].
        refine (optional _ _ _ _ _ Hr _ (fun s => fst (snd (snd s))) _ _ eq_refl _). intros c u Hu.
        apply struct_rows_iff in Hu as [(E & x & Hx & ->)|[(E & [(rm & Hrm & ->)|(Hrm & ->)])|(E & x & Hx & ->)]]; rewrite E.
        - differ; reflexivity.
        - differ; apply at_body.
        - differ; reflexivity.
        - rewrite String.eqb_refl. exists x. auto. }
      rewrite Y. eexists. reflexivity.
  - intros e [t tr b br] [t' tr' b' br'] (_ & _ & HT & HB & be & x & af & Ec & Ex & Eg & F1 & F2)
      (_ & _ & HT' & HB' & be' & x' & af' & Ec' & Ex' & Eg' & F1' & F2'). cbn in *.
    rewrite Ec in Ec'. destruct (first_split bn _ _ _ _ _ _ Ec' Ex Ex' Eg Eg') as [<- <-].
    pose proof (latest_fun _ pb bn (fun_of _ _ _ _ Hb) _ _ _ HB HB') as Y. injection Y as <-.
    rewrite (latest_fun _ pt tn (fun_of _ _ _ _ Ht) _ _ _ HT HT').
    rewrite (readable_fun _ _ _ F1 F1'), (readable_fun _ _ _ F2 F2'). reflexivity.
Qed.
End Struct.
