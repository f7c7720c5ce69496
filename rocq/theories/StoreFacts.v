(** Facts on storing the laws that are read from plain text. *)
From Coq Require Import String List NArith ZArith Bool Arith Lia.
From Verif Require Import Base NumStr NumStrSpec Ast Regex NumText NumTextSpec TextParse TextSpec
  NumberSpec ItemSpec NumberFacts ItemReadFacts ClassifyFacts RoundTripSpec TidySpec KnotFacts TidyFacts
  RoundTripFacts XmlParse XmlWrite StoreSpec StoreNumFacts BodyFacts.
Import ListNotations.
Open Scope list_scope.

(** ** Survival of what the parser builds *)
Definition SV (s : Node) : Prop := survives (projT1 s) (projT2 s).
Lemma survives_step : forall k f, survives k (mk k f) <-> storable k f = true /\ Forall SV (kids k f).
Proof.
  intros k f. rewrite survives_unfold, Forall_forall. split; intros [A B]; (split; [exact A|]).
  - intros [j y] H. apply (B j y H).
  - intros j y H. apply (B (node j y) H).
Qed.
Lemma Forall_SV : forall k (l : list (Knot k)), Forall SV (map (node k) l) <-> Forall (survives k) l.
Proof. intros k l. rewrite Forall_map. reflexivity. Qed.
Lemma Forall_flat : forall A (f : A -> list Node) (P : A -> Prop) l, (forall x, Forall SV (f x) <-> P x) ->
  (Forall SV (flat_map f l) <-> Forall P l).
Proof.
  intros A f P l H. induction l as [|x l IH]; [split; constructor|].
  cbn [flat_map]. rewrite Forall_app, Forall_cons_iff, H, IH. reflexivity.
Qed.
Lemma SV_one : forall k (x : Knot k), Forall SV [node k x] <-> survives k x.
Proof. intros k x. rewrite Forall_cons_iff. split; [tauto|intros H; split; [exact H|constructor]]. Qed.

Lemma is_usize_iff : forall n, is_usize n = true <-> (n < 2 ^ 64)%N.
Proof. intros n. unfold is_usize. first [apply N.ltb_lt|idtac]. Qed.

Lemma sentence_sv : forall n t, survives KSentence (text_to_sentence n t) <-> (n < 2 ^ 64)%N.
Proof.
  intros n t. change (text_to_sentence n t) with (mk KSentence (mkSentenceF [SE_String (enc t)] (Some n) None None Vertical)).
  rewrite survives_step. cbn. rewrite andb_true_r, is_usize_iff. split; [tauto|]. intros H. split; [exact H|constructor].
Qed.
Lemma sentences_sv : forall l n, (n + N.of_nat (length l) <= 2 ^ 64)%N ->
  Forall (survives KSentence) (sentences_from n l).
Proof.
  induction l as [|t l IH]; intros n H; [constructor|]. cbn [length] in H. cbn [sentences_from]. constructor.
  - apply sentence_sv. lia.
  - apply IH. lia.
Qed.
Lemma sentences_few : forall l, few l -> Forall (survives KSentence) (sentences l).
Proof. intros l H. apply sentences_sv. revert H. unfold few. lia. Qed.
Lemma all_true_t : forall A (l : list A), Forall (fun _ => True) l.
Proof. intros. apply Forall_forall. trivial. Qed.

Definition oknum (n : ArticleNumber) : Prop := an_ok n = true.
Definition okany (t : ustr) : Prop := True.

Lemma sv_item : forall l i t ts c, few (t :: ts) ->
  (survives (KItem l) (item_of l i t ts c) <->
   oknum (from_item_number i) /\ Forall okany (t :: ts) /\ Forall (survives (sub_item l)) c).
Proof.
  intros l i t ts c W. unfold item_of.
  change (@mkItem l ?f) with (mk (KItem l) f). rewrite survives_step. unfold kids. cbn [collect storable it_num it_sentence
    it_title it_children it_struct_list c_opt c_sct sct_full app flat_map sentences sentences_from is_nil negb].
  rewrite andb_true_r, app_nil_r, Forall_app, !Forall_SV.
  pose proof (sentences_few _ W : Forall (survives KSentence) (text_to_sentence 1 t :: sentences_from (1 + 1) ts)) as S.
  pose proof (all_true_t _ (t :: ts)) as T. unfold okany, oknum. tauto.
Qed.
Lemma sv_paragraph_of : forall n s c, Forall (survives KSentence) s ->
  (survives KParagraph (paragraph_of n s c) <-> oknum n /\ Forall (survives (KItem Item0)) c).
Proof.
  intros n s c S. unfold paragraph_of. change (mkParagraph ?f) with (mk KParagraph f). rewrite survives_step.
  unfold kids. cbn [collect storable par_num par_caption par_paragraph_num par_sentence par_amend_provision par_class
    par_struct_list par_children c_opt c_text flat_map app map].
  rewrite Forall_app, !Forall_SV. unfold oknum. tauto.
Qed.
Lemma sv_paragraph : forall n t ts c, few (t :: ts) ->
  (survives KParagraph (paragraph_of n (sentences (t :: ts)) c) <->
   oknum n /\ Forall okany (t :: ts) /\ Forall (survives (KItem Item0)) c).
Proof.
  intros n t ts c W. rewrite (sv_paragraph_of _ _ _ (sentences_few _ W)).
  pose proof (all_true_t _ (t :: ts)) as T. unfold okany. tauto.
Qed.
Lemma sv_article : forall cap p ps n d,
  (survives KArticle (mkArticle (mkArticleF (option_map (fun s => mkCaption (text_of s) None) cap) (text_of []) (p :: ps)
     None n d false)) <-> True /\ oknum n /\ Forall (survives KParagraph) (p :: ps)).
Proof.
  intros cap p ps n d. change (mkArticle ?f) with (mk KArticle f). rewrite survives_step. unfold kids.
  assert (E : c_opt (c_caption node) (option_map (fun s => mkCaption (text_of s) None) cap) = []) by (destruct cap; reflexivity).
  cbn [collect storable art_caption art_num art_title art_paragraph art_suppl_note is_nil is_none negb andb]. rewrite E.
  change (c_text node (text_of [])) with (@nil Node). cbn [app c_opt]. rewrite app_nil_r, andb_true_r, Forall_SV. unfold oknum. tauto.
Qed.
Lemma sv_one : oknum (mkAN 1 [] []).
Proof. reflexivity. Qed.

Ltac head_case K mkK cc GC :=
  intros n t c; change (mkK ?f) with (mk K f); rewrite survives_step; unfold kids; cbn [collect storable];
  unfold head_of, c_head, oknum, okany; cbn [hd_title hd_num hd_children c_text text_of flat_map c_te app];
  rewrite (Forall_flat _ cc GC); [tauto|intros []; apply SV_one].
Lemma sv_division : forall n t c, survives KDivision (mkDivision (head_of n t c)) <-> oknum n /\ okany t /\ Forall (survives KArticle) c.
Proof.
  intros n t c. change (mkDivision ?f) with (mk KDivision f). rewrite survives_step. unfold kids. cbn [collect storable].
  unfold head_of, c_head, oknum, okany. cbn [hd_title hd_num hd_children c_text text_of flat_map c_te app].
  rewrite (Forall_flat _ _ (survives KArticle)); [tauto|intros x; apply SV_one].
Qed.
Lemma sv_subsection : forall n t c, survives KSubsection (mkSubsection (head_of n t c)) <-> oknum n /\ okany t /\ Forall (G_suc survives) c.
Proof. head_case KSubsection mkSubsection (c_suc node) (G_suc survives). Qed.
Lemma sv_section : forall n t c, survives KSection (mkSection (head_of n t c)) <-> oknum n /\ okany t /\ Forall (G_sec survives) c.
Proof. head_case KSection mkSection (c_sec node) (G_sec survives). Qed.
Lemma sv_chapter : forall n t c, survives KChapter (mkChapter (head_of n t c)) <-> oknum n /\ okany t /\ Forall (G_chc survives) c.
Proof. head_case KChapter mkChapter (c_chc node) (G_chc survives). Qed.
Lemma sv_part : forall n t c, survives KPart (mkPart (head_of n t c)) <-> oknum n /\ okany t /\ Forall (G_pc survives) c.
Proof. head_case KPart mkPart (c_pc node) (G_pc survives). Qed.

Lemma sv_preamble : forall k s, (k < 2 ^ 64)%N ->
  (survives KParagraph (paragraph_of (mkAN k [] []) [text_to_sentence 0 s] []) <-> okany s).
Proof.
  intros k s H. rewrite sv_paragraph_of.
  - unfold oknum, okany, an_ok. cbn [base_number eda_numbers range_end_numbers forallb].
    rewrite !andb_true_r, is_usize_iff. split; [trivial|]. intros _. split; [exact H|constructor].
  - constructor; [apply sentence_sv; lia|constructor].
Qed.
Lemma sv_body : forall title st, no_suppl st ->
  (survives KLawBody (body_of_state title st) <->
   okany title /\ Forall (survives KParagraph) (preamble_paragraphs 0 (bs_preamble st)) /\ Forall (G_mc survives) (bs_main st)).
Proof.
  intros title st [N1 N2]. unfold body_of_state, close_suppl. rewrite N1, N2.
  change (mkLawBody ?f) with (mk KLawBody f). rewrite survives_step. unfold kids.
  cbn [collect storable lb_law_title lb_enact_statement lb_toc lb_preamble lb_main_provision lb_suppl_provision lb_appdx_table
    lb_appdx_note lb_appdx_style lb_appdx lb_appdx_fig lb_appdx_format c_opt flat_map app map].
  assert (T : survives KLawTitle (mkLawTitle (mkLawTitleF None None None (text_of title)))).
  { change (mkLawTitle ?f) with (mk KLawTitle f). apply survives_step. split; [reflexivity|constructor]. }
  assert (M : survives KMain (mkMain (mkMainF (bs_main st) None)) <-> Forall (G_mc survives) (bs_main st)).
  { change (mkMain ?f) with (mk KMain f). rewrite survives_step. unfold kids. cbn [collect storable main_children].
    rewrite (Forall_flat _ (c_mc node) (G_mc survives)); [tauto|intros []; apply SV_one]. }
  assert (P : Forall SV (c_opt (fun v => [node KPreamble v]) (preamble_of (bs_preamble st))) <->
    Forall (survives KParagraph) (preamble_paragraphs 0 (bs_preamble st))).
  { unfold preamble_of. destruct (bs_preamble st) as [|s l]; [split; constructor|].
    cbn [c_opt]. rewrite SV_one. change (mkPreamble ?f) with (mk KPreamble f). rewrite survives_step. unfold kids.
    cbn [collect storable]. rewrite Forall_SV. tauto. }
  rewrite Forall_cons_iff, Forall_app, P. change (SV (node KLawTitle ?x)) with (survives KLawTitle x).
  rewrite SV_one, M. unfold okany. tauto.
Qed.

Lemma machine_ok : forall n, machine_number n -> (oknum n <-> range_kept n).
Proof.
  intros [b e r] H. unfold machine_number in H. cbn [base_number eda_numbers range_end_numbers] in H.
  inversion_clear H as [|? ? Hb H2]. apply Forall_app in H2. destruct H2 as [He Hr].
  unfold oknum, an_ok, range_kept. cbn [base_number eda_numbers range_end_numbers].
  assert (U : forall l, machine l -> forallb is_usize l = true).
  { intros l Hl. apply forallb_forall. intros x Hx. apply is_usize_iff. exact (proj1 (Forall_forall _ _) Hl x Hx). }
  rewrite (proj2 (is_usize_iff b) Hb), (U e He), (U r Hr). cbn [andb]. destruct r as [|x r].
  - split; [intros _; left; reflexivity|reflexivity].
  - rewrite Nat.eqb_eq. split; [intros E; right; exact E|intros [E|E]; [discriminate E|exact E]].
Qed.
Lemma kept_iff : forall l, line_machine l -> (ok_line oknum okany True l <-> line_kept l).
Proof.
  intros l H. destruct l; cbn [ok_line line_kept line_machine] in *; unfold okany; try (rewrite (machine_ok n H); tauto); try tauto.
  destruct i as [s b e r p]. destruct H as [H E]. cbn [inum_base inum_eda inum_range] in H, E. subst r.
  unfold from_item_number. cbn [inum_base inum_eda inum_range].
  split; [trivial|]. intros _. split; [|trivial]. apply machine_ok; [|left; reflexivity].
  unfold machine_number. cbn [base_number eda_numbers range_end_numbers]. rewrite app_nil_r. exact H.
Qed.
Lemma kept_all : forall u, Forall line_machine u -> (Forall (ok_line oknum okany True) u <-> Forall line_kept u).
Proof.
  intros u H. induction H as [|l u H _ IH]; [split; constructor|]. rewrite !Forall_cons_iff, (kept_iff l H), IH. reflexivity.
Qed.

(** ** Tidiness of what the parser builds *)
Definition neat (k : kind) (x : Knot k) : Prop := tidy k x = x.
Lemma neat_step : forall k f, neat k (mk k f) <-> tstep tidy k f = f.
Proof.
  intros k f. unfold neat. rewrite tidy_unfold. split; [|congruence]. intros H.
  rewrite <- (un_mk k f) at 2. rewrite <- H, un_mk. reflexivity.
Qed.
Lemma map_neat : forall A (f : A -> A) l, map f l = l <-> Forall (fun x => f x = x) l.
Proof.
  induction l as [|x l IH]; [split; [constructor|reflexivity]|]. cbn [map]. rewrite Forall_cons_iff, <- IH.
  split; [intros E; injection E; auto|intros [-> ->]; reflexivity].
Qed.
Lemma Forall_same : forall A (P Q : A -> Prop) l, (forall x, P x <-> Q x) -> (Forall P l <-> Forall Q l).
Proof. intros A P Q l H. split; intros F; (eapply Forall_impl; [|exact F]); intros x; apply H. Qed.

Lemma text_neat : forall t, t_text tidy (text_of t) = text_of t <-> seen t.
Proof.
  intros t. unfold t_text, text_of, join, seen. cbn [map t_te join_from te_in].
  change ("" ++ enc t)%string with (enc t). unfold flush. destruct (blank (enc t)); [|tauto]. split; discriminate.
Qed.
Lemma sentence_neat : forall n t, neat KSentence (text_to_sentence n t) <-> seen t.
Proof.
  intros n t. change (text_to_sentence n t) with (mk KSentence (mkSentenceF [SE_String (enc t)] (Some n) None None Vertical)).
  rewrite neat_step. cbn [tstep sen_contents map t_se sen_num sen_function sen_indent sen_mode join join_from se_in].
  change ("" ++ enc t)%string with (enc t). unfold flush, seen. destruct (blank (enc t)); [|tauto]. split; discriminate.
Qed.
Lemma sentences_neat : forall l n, Forall (neat KSentence) (sentences_from n l) <-> Forall seen l.
Proof.
  induction l as [|t l IH]; intros n; [split; constructor|]. cbn [sentences_from]. rewrite !Forall_cons_iff, sentence_neat, IH. reflexivity.
Qed.

Definition oknone (n : ArticleNumber) : Prop := True.
Lemma neat_item : forall l i t ts c, few (t :: ts) ->
  (neat (KItem l) (item_of l i t ts c) <->
   oknone (from_item_number i) /\ Forall seen (t :: ts) /\ Forall (neat (sub_item l)) c).
Proof.
  intros l i t ts c _. unfold item_of. change (@mkItem l ?f) with (mk (KItem l) f). rewrite neat_step.
  cbn [tstep it_title it_sentence it_children it_struct_list it_num it_delete it_hide option_map t_sct].
  rewrite <- (sentences_neat _ 1). unfold oknone, neat. rewrite <- !map_neat.
  split.
  { intros E. split; [exact I|]. split; [|exact (f_equal it_children E)].
    exact (f_equal (fun f => match it_sentence f with SCT_Sentence v => v | _ => [] end) E). }
  intros (_ & E1 & E2).
  unfold sentences. rewrite E1. rewrite E2. reflexivity.
Qed.
Lemma neat_paragraph_of : forall n s c,
  neat KParagraph (paragraph_of n s c) <-> Forall (neat KSentence) s /\ Forall (neat (KItem Item0)) c.
Proof.
  intros n s c. unfold paragraph_of. change (mkParagraph ?f) with (mk KParagraph f). rewrite neat_step.
  cbn [tstep par_num par_caption par_paragraph_num par_sentence par_amend_provision par_class
    par_struct_list par_children par_old_style par_old_num par_hide option_map map]. unfold neat. rewrite <- !map_neat.
  split; [intros E; injection E as E1 E2; auto|]. intros (E1 & E2). rewrite E1, E2. reflexivity.
Qed.
Lemma neat_paragraph : forall n t ts c, few (t :: ts) ->
  (neat KParagraph (paragraph_of n (sentences (t :: ts)) c) <->
   oknone n /\ Forall seen (t :: ts) /\ Forall (neat (KItem Item0)) c).
Proof. intros n t ts c _. rewrite neat_paragraph_of. unfold sentences. rewrite sentences_neat. unfold oknone. tauto. Qed.
Lemma neat_article : forall cap p ps n d,
  (neat KArticle (mkArticle (mkArticleF (option_map (fun s => mkCaption (text_of s) None) cap) (text_of []) (p :: ps)
     None n d false)) <-> False /\ oknone n /\ Forall (neat KParagraph) (p :: ps)).
Proof.
  intros cap p ps n d. change (mkArticle ?f) with (mk KArticle f). rewrite neat_step.
  split; [intros H; discriminate (f_equal art_title H)|tauto].
Qed.
Lemma neat_one : oknone (mkAN 1 [] []).
Proof. exact I. Qed.

Lemma head_neat : forall C (tc : C -> C) n t c,
  t_head tidy tc (head_of n t c) = head_of n t c <-> seen t /\ Forall (fun x => tc x = x) c.
Proof.
  intros C tc n t c. unfold t_head, head_of. cbn [hd_title hd_children hd_num hd_delete hd_hide].
  rewrite <- text_neat, <- map_neat. split; [intros E; injection E as E1 E2; auto|intros [-> ->]; reflexivity].
Qed.
Ltac neat_head K mkK tc :=
  intros n t c; change (mkK ?f) with (mk K f); rewrite neat_step; etransitivity; [exact (head_neat _ tc n t c)|];
  unfold oknone;
  match goal with |- _ /\ Forall ?P _ <-> _ /\ _ /\ Forall ?Q _ =>
    rewrite (Forall_same _ P Q); [tauto|let x := fresh in intros x; destruct x; cbn; unfold neat; split; congruence] end.
Lemma neat_division : forall n t c, neat KDivision (mkDivision (head_of n t c)) <-> oknone n /\ seen t /\ Forall (neat KArticle) c.
Proof.
  intros n t c. change (mkDivision ?f) with (mk KDivision f). rewrite neat_step. etransitivity; [exact (head_neat _ (tidy KArticle) n t c)|].
  unfold oknone, neat. tauto.
Qed.
Lemma neat_subsection : forall n t c, neat KSubsection (mkSubsection (head_of n t c)) <-> oknone n /\ seen t /\ Forall (G_suc neat) c.
Proof. neat_head KSubsection mkSubsection (t_suc tidy). Qed.
Lemma neat_section : forall n t c, neat KSection (mkSection (head_of n t c)) <-> oknone n /\ seen t /\ Forall (G_sec neat) c.
Proof. neat_head KSection mkSection (t_sec tidy). Qed.
Lemma neat_chapter : forall n t c, neat KChapter (mkChapter (head_of n t c)) <-> oknone n /\ seen t /\ Forall (G_chc neat) c.
Proof. neat_head KChapter mkChapter (t_chc tidy). Qed.
Lemma neat_part : forall n t c, neat KPart (mkPart (head_of n t c)) <-> oknone n /\ seen t /\ Forall (G_pc neat) c.
Proof. neat_head KPart mkPart (t_pc tidy). Qed.
Lemma neat_preamble : forall k s, (k < 2 ^ 64)%N ->
  (neat KParagraph (paragraph_of (mkAN k [] []) [text_to_sentence 0 s] []) <-> seen s).
Proof.
  intros k s _. rewrite neat_paragraph_of. rewrite Forall_cons_iff, sentence_neat. split; [tauto|]. intros H.
  repeat split; auto.
Qed.
Lemma neat_body : forall title st, no_suppl st ->
  (neat KLawBody (body_of_state title st) <->
   seen title /\ Forall (neat KParagraph) (preamble_paragraphs 0 (bs_preamble st)) /\ Forall (G_mc neat) (bs_main st)).
Proof.
  intros title st [N1 N2]. unfold body_of_state, close_suppl. rewrite N1, N2.
  change (mkLawBody ?f) with (mk KLawBody f). rewrite neat_step.
  cbn [tstep lb_law_title lb_enact_statement lb_toc lb_preamble lb_main_provision lb_suppl_provision lb_appdx_table
    lb_appdx_note lb_appdx_style lb_appdx lb_appdx_fig lb_appdx_format lb_subject option_map map].
  assert (T : neat KLawTitle (mkLawTitle (mkLawTitleF None None None (text_of title))) <-> seen title).
  { change (mkLawTitle ?f) with (mk KLawTitle f). rewrite neat_step, <- text_neat. cbn [tstep lt_text lt_kana lt_abbrev lt_abbrev_kana].
    split; [intros E; injection E; auto|]. intros E. rewrite E. reflexivity. }
  assert (M : neat KMain (mkMain (mkMainF (bs_main st) None)) <-> Forall (G_mc neat) (bs_main st)).
  { change (mkMain ?f) with (mk KMain f). rewrite neat_step. cbn [tstep main_children main_extract].
    rewrite <- (Forall_same _ (fun x => t_mc tidy x = x) (G_mc neat)).
    - rewrite <- map_neat. split; [intros E; injection E; auto|intros ->; reflexivity].
    - intros []; cbn; unfold neat; split; congruence. }
  assert (P : option_map (tidy KPreamble) (preamble_of (bs_preamble st)) = preamble_of (bs_preamble st) <->
    Forall (neat KParagraph) (preamble_paragraphs 0 (bs_preamble st))).
  { unfold preamble_of. destruct (bs_preamble st) as [|s l]; [split; [constructor|reflexivity]|].
    cbn [option_map]. set (ps := preamble_paragraphs 0 (s :: l)).
    assert (Q : neat KPreamble (mkPreamble ps) <-> Forall (neat KParagraph) ps).
    { change (mkPreamble ?f) with (mk KPreamble f). rewrite neat_step. cbn [tstep]. unfold neat. rewrite <- map_neat. reflexivity. }
    rewrite <- Q. unfold neat. split; [|congruence].
    intros E. exact (f_equal (fun o => match o with Some x => x | None => mkPreamble ps end) E). }
  rewrite <- T, <- M, <- P. unfold neat. split.
  - intros E. split; [|split].
    + exact (f_equal (fun f => match lb_law_title f with Some x => x | None => mkLawTitle (mkLawTitleF None None None []) end) E).
    + exact (f_equal lb_preamble E).
    + exact (f_equal lb_main_provision E).
  - intros (E1 & E2 & E3). rewrite E1, E2, E3. reflexivity.
Qed.

Lemma seen_iff : forall l, ok_line oknone seen False l <-> line_seen l.
Proof. intros []; cbn [ok_line line_seen]; unfold oknone; tauto. Qed.

(** ** Both together *)
Lemma same_rest : forall fuel lines st st' r r', body_loop fuel initial lines = Some (Ok (st, r)) ->
  body_loop fuel initial lines = Some (Ok (st', r')) -> r = r'.
Proof. intros. congruence. Qed.

Theorem text_body_stored : forall cd fuel title text lines b, classify cd text = Ok lines -> countable lines ->
  parse_body cd fuel title text = Some (Ok b) ->
  exists u rest, lines = u ++ rest /\ readable u /\ (rest = [] \/ exists l r, rest = l :: r /\ misplaced u l) /\
    (survives KLawBody b <-> Forall line_kept u) /\
    (tidy KLawBody b = b <-> seen title /\ Forall line_seen u).
Proof.
  intros cd fuel title text lines b C W H. unfold parse_body in H. rewrite C in H.
  destruct (body_ok survives oknum okany True sv_item sv_paragraph sv_article sv_one sv_division sv_subsection
    sv_section sv_chapter sv_part sv_preamble sv_body fuel title lines b H W) as (u & rest & A & B & D & (st & E) & F).
  destruct (body_ok neat oknone seen False neat_item neat_paragraph neat_article neat_one neat_division neat_subsection
    neat_section neat_chapter neat_part neat_preamble neat_body fuel title lines b H W) as (u' & rest' & A' & _ & _ & (st' & E') & F').
  pose proof (same_rest _ _ _ _ _ _ E E') as <-.
  assert (u' = u) as -> by (apply (app_inv_tail rest); congruence).
  exists u, rest. split; [exact A|]. split; [exact B|]. split; [exact D|]. split.
  - rewrite F. unfold okany at 1. rewrite kept_all; [tauto|]. apply classified_machine in C. rewrite A in C. apply Forall_app in C. tauto.
  - change (tidy KLawBody b = b) with (neat KLawBody b). rewrite F'. rewrite (Forall_same _ _ _ _ seen_iff). reflexivity.
Qed.

Lemma strip_same : forall s, strip s = s <-> s = ""%string \/ blank s = false.
Proof.
  intros s. unfold strip. destruct (blank s) eqn:E.
  - split; [intros <-; left; reflexivity|]. intros [->|H]; [reflexivity|discriminate].
  - split; [intros _; right; reflexivity|reflexivity].
Qed.

Theorem text_law_stored : forall cd cal fuel text year month day ty lang num law_num title lines l,
  classify cd text = Ok lines -> countable lines ->
  parse_text cd cal fuel text year month day ty lang num law_num title = Some (Ok l) ->
  exists u rest, lines = u ++ rest /\ readable u /\ (rest = [] \/ exists x r, rest = x :: r /\ misplaced u x) /\
    (law_survives l <->
     (is_usize year && usize_opt month && usize_opt day)%bool = true /\
     (exists n, num = Some n /\ an_ok n = true) /\ Forall line_kept u) /\
    (tidy_law l = l <-> (law_num = ""%string \/ blank law_num = false) /\ seen title /\ Forall line_seen u).
Proof.
  intros cd cal fuel text year month day ty lang num law_num title lines l C W H. unfold parse_text in H.
  destruct (date_era cal year month day); try discriminate H. apply then_ok in H. destruct H as (b & Hb & E). injection E as <-.
  destruct (text_body_stored _ _ _ _ _ _ C W Hb) as (u & rest & A & B & D & E & F).
  exists u, rest. split; [exact A|]. split; [exact B|]. split; [exact D|]. split.
  - unfold law_survives. cbn [law_year law_no law_promulgate_month law_promulgate_day law_body].
    rewrite E, !andb_true_iff. tauto.
  - rewrite <- F, <- strip_same. unfold tidy_law. cbn [law_era law_year law_no law_promulgate_month law_promulgate_day law_type law_lang
      Ast.law_num law_body]. split.
    + intros Q. injection Q as E1 E2. auto.
    + intros [E1 E2]. rewrite E1, E2. reflexivity.
Qed.
