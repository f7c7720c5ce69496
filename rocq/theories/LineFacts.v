(** Facts about the classification of lines. *)
From Coq Require Import String Ascii List NArith ZArith Bool Arith Lia.
From Verif Require Import Base BaseFacts NumStr Ast Regex RegexFacts NumText NumTextSpec NumTextFacts HeadingFacts LabelFacts
  ItemFacts ItemLabelFacts SplitFacts TextParse TextSpec.
Import ListNotations.
Open Scope string_scope.
Open Scope list_scope.

(** ** White space *)
Lemma trim_edge : forall x w y, blank x -> blank y -> no_edge w -> trim (x ++ w ++ y) = w.
Proof.
  intros x w y Hx Hy [H1 H2]. unfold trim. rewrite trim_start_pad by exact Hx.
  destruct w as [|c w].
  - cbn [app]. rewrite <- (app_nil_r y) at 1. rewrite trim_start_pad by exact Hy. reflexivity.
  - assert (E : trim_start ((c :: w) ++ y) = (c :: w) ++ y) by (cbn; rewrite (H1 c w eq_refl); reflexivity).
    rewrite E, rev_app_distr. rewrite trim_start_pad by (apply Forall_rev, Hy).
    destruct (@exists_last _ (c :: w)) as [r [d Ed]]; [discriminate|]. rewrite Ed, rev_app_distr. cbn [rev app trim_start].
    rewrite (H2 r d Ed). cbn [rev]. rewrite rev_involutive. reflexivity.
Qed.
Lemma no_edge_first : forall c w, no_edge (c :: w) -> is_space c = false.
Proof. intros c w [H _]. apply (H c w eq_refl). Qed.
Lemma no_edge_app : forall s g t, s <> [] -> t <> [] -> no_space s -> no_edge t -> no_edge (s ++ g ++ t).
Proof.
  intros s g t Hs Ht Hn [_ He]. split.
  - intros c r E. destruct Hn as [|x s Hx _]; [contradiction|]. injection E as -> _. exact Hx.
  - intros r c E. destruct (@exists_last _ t Ht) as [t' [d ->]]. rewrite !app_assoc in E. apply app_inj_tail in E as [_ <-].
    apply (He t' d eq_refl).
Qed.
Lemma no_space_edge : forall w, no_space w -> no_edge w.
Proof.
  intros w H. split; intros; subst w; [inversion H; assumption|]. apply Forall_app in H as [_ H]. inversion H; assumption.
Qed.

(** ** Captions *)
Lemma caption_caps : forall w c s', In (c, s') (exec re_caption w) ->
  exists v, c = [("caption", v)] /\ s' = [] /\ v <> [] /\ ~ In (uc "）") v /\ w = uc "（" :: v ++ [uc "）"].
Proof.
  intros w c s' H. unfold re_caption in H. apply seq_out in H as [c1 [s1 [c2 [H1 [H ->]]]]].
  apply seq_out in H as [c3 [s3 [c4 [H3 [H ->]]]]]. apply seq_out in H as [c5 [s5 [c6 [H5 [H6 ->]]]]].
  apply lit_in in H1 as [-> ->]. apply cap_out in H3 as [c3' [H3 ->]]. apply plus_chars_in in H3 as [-> [v [-> [Hv Wv]]]].
  apply lit_in in H5 as [-> ->]. destruct s5; [|destruct H6]. destruct H6 as [H6|[]]. injection H6 as <- <-.
  rewrite consumed_app. exists v. split; [reflexivity|]. split; [reflexivity|]. split; [exact Hv|]. split; [|reflexivity].
  intros Hi. rewrite Forall_forall in Wv. specialize (Wv _ Hi). rewrite N.eqb_refl in Wv. discriminate Wv.
Qed.
Lemma not_caption : forall w, ~ caption_line w -> captures re_caption w = None.
Proof.
  intros w H. unfold captures. destruct (exec re_caption w) as [|[c s'] l] eqn:E; [reflexivity|].
  assert (X : In (c, s') (exec re_caption w)) by (rewrite E; left; reflexivity).
  apply caption_caps in X as [v [_ [_ [H1 [H2 H3]]]]]. destruct H. exists v. auto.
Qed.
Lemma caption_captures : forall v, v <> [] -> ~ In (uc "）") v ->
  captures re_caption (uc "（" :: v ++ [uc "）"]) = Some [("caption", v)].
Proof.
  intros v Hv Hn. apply (starts_captures _ _ _ []). unfold re_caption.
  apply (starts_seq _ _ _ [] (v ++ [uc "）"]) [("caption", v)]); [apply (starts_lit (u "（"))|].
  apply (starts_seq _ _ _ [("caption", v)] [uc "）"] []).
  - apply starts_cap, starts_plus_chars; [exact Hv| |vm_compute; reflexivity].
    apply Forall_forall. intros c Hc. destruct (N.eqb_spec c (uc "）")) as [->|]; [contradiction|reflexivity].
  - apply (starts_seq _ _ _ [] [] []); [apply (starts_lit (u "）") [])|apply starts_end].
Qed.
Lemma not_caption_first : forall c w, c <> uc "（" -> ~ caption_line (c :: w).
Proof. intros c w H [v [_ [_ E]]]. injection E as -> _. contradiction. Qed.
(** Parentheses that close before the end. *)
Lemma not_caption_closed : forall v t, ~ In (uc "）") v -> t <> [] -> ~ caption_line (uc "（" :: v ++ uc "）" :: t).
Proof.
  intros v t Hv Ht [v' [_ [Hv' E]]]. injection E as E. revert v' Hv' E. induction v as [|x v IH]; intros v' Hv' E.
  - destruct v' as [|y v']; cbn [app] in E; [injection E as E; contradiction|]. injection E as E _. apply Hv'. left. symmetry. exact E.
  - destruct v' as [|y v']; cbn [app] in E; [injection E as E _; apply Hv; left; exact E|].
    injection E as -> E. apply (IH (fun X => Hv (or_intror X)) v' (fun X => Hv' (or_intror X)) E).
Qed.

(** ** From a line to its first word *)
Lemma split_first : forall w s t, first_word w s t -> ~ In 10%N t -> split_number w = Ok (Some (s, t)).
Proof.
  intros w s t [[g [-> [Hs [Hg [Hb [Hn [Ht He]]]]]]]|[c [-> [Hs [Hn ->]]]]] Hl.
  - destruct t as [|c t]; [contradiction|]. apply split_spaced; try assumption. apply (no_edge_first c t He).
  - apply split_unspaced; assumption.
Qed.
Lemma first_edge : forall w s t, first_word w s t -> no_edge w.
Proof.
  intros w s t [[g [-> [Hs [Hg [Hb [Hn [Ht He]]]]]]]|[c [-> [Hs [Hn ->]]]]].
  - apply no_edge_app; assumption.
  - apply no_space_edge, Hn.
Qed.
Lemma line_word : forall cd x w y s t, blank x -> blank y -> first_word w s t -> ~ In 10%N t -> ~ caption_line w ->
  parse_line cd (x ++ w ++ y) =
  (a <- parse_article_number cd s;
   match a with
   | Some n =>
       Ok (if contains (uc "編") s then LPart n t else if contains (uc "章") s then LChapter n t
           else if contains (uc "節") s then LSection n t else if contains (uc "款") s then LSubsection n t
           else if contains (uc "目") s then LDivision n t else if contains (uc "条") s then LArticle n t
           else LParagraph n t)
   | None => i <- parse_item_number cd s; match i with Some i => Ok (LItem i t) | None => Ok (LText w) end
   end).
Proof.
  intros cd x w y s t Hx Hy Hw Hl Hc. unfold parse_line. rewrite (trim_edge x w y Hx Hy (first_edge _ _ _ Hw)).
  rewrite (not_caption w Hc), (split_first w s t Hw Hl). reflexivity.
Qed.

(** ** No number at all *)
Definition digit_start (c : N) : bool := N.eqb c (uc "第") || arabic c || zenkaku c || kanji c.
Lemma no_article_number : forall cd c s, digit_start c = false -> parse_article_number cd (c :: s) = Ok None.
Proof.
  intros cd c s H. unfold digit_start in H. apply orb_false_iff in H as [H Hk]. apply orb_false_iff in H as [H Hz].
  apply orb_false_iff in H as [H1 Ha]. unfold parse_article_number, captures.
  assert (E : exec re_article (c :: s) = []).
  { unfold re_article. apply seq_fails_r. intros c1 s1 Hi. apply opt_in in Hi as [Hi|[-> ->]].
    - exfalso. change (Lit (u "第")) with (Lit (uc "第" :: [])) in Hi. rewrite lit_fails in Hi; [destruct Hi|].
      cbn [stops]. rewrite N.eqb_sym. exact H1.
    - apply seq_fails_l. cbn [Alts]. apply alt_fails; [|apply alt_fails]; apply cap_fails, plus_fails; assumption. }
  assert (E2 : exec re_paragraph (c :: s) = []).
  { unfold re_paragraph. apply seq_fails_l, cap_fails. unfold NumText.digits. apply alt_fails; apply plus_fails; assumption. }
  rewrite E, E2. reflexivity.
Qed.
Lemma no_article_kanji : forall cd w rest, w <> [] -> Forall (fun c => kanji c = true) w ->
  stops kanji rest -> stops (one_of (u "編章節款目条項号")) rest -> parse_article_number cd (w ++ rest) = Ok None.
Proof.
  intros cd w rest Hne Hw Hk Hs. unfold parse_article_number, captures.
  assert (Hstop : forall q : N -> bool, forallb (fun c => negb (q c)) kanji_list = true -> stops q (w ++ rest)).
  { intros q Hq. destruct Hw as [|c w Hc _]; [contradiction|]. cbn. apply (not_class_of kanji_list q Hq c). apply kanji_in, Hc. }
  assert (E : exec re_article (w ++ rest) = []).
  { unfold re_article. apply seq_fails_r. intros c s' Hi. apply opt_in in Hi as [Hi|[-> ->]].
    { exfalso. change (Lit (u "第")) with (Lit (uc "第" :: [])) in Hi.
      rewrite lit_fails in Hi; [destruct Hi|]. apply Hstop. vm_compute. reflexivity. }
    apply seq_fails_r. intros c s' Hi. cbn [Alts] in Hi.
    change (exec (Alt (Cap "arabic_num" (chars arabic)) (Alt (Cap "zenkaku_num" (chars zenkaku)) (Cap "kansuji" (chars kanji)))) (w ++ rest))
      with (exec (Cap "arabic_num" (chars arabic)) (w ++ rest) ++ exec (Cap "zenkaku_num" (chars zenkaku)) (w ++ rest)
            ++ exec (Cap "kansuji" (chars kanji)) (w ++ rest)) in Hi.
    rewrite (cap_fails "arabic_num" (chars arabic)) in Hi by (apply plus_fails, Hstop; vm_compute; reflexivity).
    rewrite (cap_fails "zenkaku_num" (chars zenkaku)) in Hi by (apply plus_fails, Hstop; vm_compute; reflexivity).
    cbn [app] in Hi. apply cap_in in Hi as [c' Hi].
    apply seq_fails_l, cap_fails, suffix_fails.
    apply (plus_chars_rest kanji (one_of (u "編章節款目条項号")) w rest c' s'); try assumption.
    intros x Hx. apply (not_class_of kanji_list); [vm_compute; reflexivity|apply kanji_in, Hx]. }
  assert (E2 : exec re_paragraph (w ++ rest) = []).
  { unfold re_paragraph. apply seq_fails_l, cap_fails. unfold NumText.digits.
    apply alt_fails; apply plus_fails, Hstop; vm_compute; reflexivity. }
  rewrite E, E2. reflexivity.
Qed.

(** ** Heading lines *)
Lemma heading_chars : forall cd sfx a c, In sfx heading_suffixes -> Forall (numeral cd) (numbers a) ->
  In c (gen_articles_text cd sfx a) -> In c (kanji_list ++ u "第のからまで" ++ sfx).
Proof.
  intros cd sfx a c _ H Hc. unfold numbers in H. inversion_clear H as [|? ? Hb H1]. apply Forall_app in H1 as [He Hr].
  assert (K : forall n, numeral cd n -> In c (kan cd n) -> In c kanji_list).
  { intros n [_ [Hn _]] Hi. rewrite Forall_forall in Hn. apply (Hn c Hi). }
  assert (M : forall l m, forallb (one_of m) l = true -> In c l -> In c m).
  { intros l m Hf Hi. rewrite forallb_forall in Hf. apply one_of_in, Hf, Hi. }
  assert (B : forall l, Forall (numeral cd) l -> In c (concat (map (fun n => u "の" ++ kan cd n) l)) ->
     In c (kanji_list ++ u "第のからまで" ++ sfx)).
  { intros l Hl Hi. induction Hl as [|n l Hn Hl IH]; [destruct Hi|]. cbn [map concat] in Hi.
    apply in_app_or in Hi as [Hi|Hi]; [|apply IH, Hi]. apply in_app_or in Hi as [Hi|Hi].
    - apply in_or_app. right. apply in_or_app. left. refine (M _ _ _ Hi). vm_compute. reflexivity.
    - apply in_or_app. left. apply (K n Hn Hi). }
  assert (L : forall l, forallb (one_of (u "第のからまで")) l = true -> In c l -> In c (kanji_list ++ u "第のからまで" ++ sfx)).
  { intros l Hf Hi. apply in_or_app. right. apply in_or_app. left. apply (M _ _ Hf Hi). }
  assert (S0 : In c sfx -> In c (kanji_list ++ u "第のからまで" ++ sfx)) by (intros Hi; apply in_or_app; right; apply in_or_app; right; exact Hi).
  assert (K0 : forall n, numeral cd n -> In c (kan cd n) -> In c (kanji_list ++ u "第のからまで" ++ sfx))
    by (intros n Hn Hi; apply in_or_app; left; apply (K n Hn Hi)).
  unfold gen_articles_text in Hc.
  apply in_app_or in Hc as [Hc|Hc]; [refine (L _ _ Hc); vm_compute; reflexivity|].
  apply in_app_or in Hc as [Hc|Hc]; [apply (K0 _ Hb Hc)|].
  apply in_app_or in Hc as [Hc|Hc]; [apply S0, Hc|].
  apply in_app_or in Hc as [Hc|Hc]; [apply (B _ He Hc)|].
  destruct (range_end_numbers a) as [|n l]; [destruct Hc|]. inversion_clear Hr as [|? ? Hn Hl].
  apply in_app_or in Hc as [Hc|Hc]; [refine (L _ _ Hc); vm_compute; reflexivity|].
  apply in_app_or in Hc as [Hc|Hc]; [apply (K0 _ Hn Hc)|].
  apply in_app_or in Hc as [Hc|Hc]; [apply S0, Hc|].
  apply in_app_or in Hc as [Hc|Hc]; [apply (B _ Hl Hc)|]. refine (L _ _ Hc); vm_compute; reflexivity.
Qed.
Lemma contains_in : forall c s, contains c s = true <-> In c s.
Proof.
  intros c s. unfold contains. rewrite existsb_exists. split.
  - intros [x [H E]]. apply N.eqb_eq in E. subst x. exact H.
  - intros H. exists c. split; [exact H|apply N.eqb_refl].
Qed.
Lemma contains_not : forall c s, ~ In c s -> contains c s = false.
Proof. intros c s H. destruct (contains c s) eqn:E; [|reflexivity]. apply contains_in in E. contradiction. Qed.
Lemma kind_suffix : forall sfx mk, In (sfx, mk) heading_kinds -> In sfx heading_suffixes.
Proof.
  intros sfx mk H. unfold heading_kinds in H. cbn [In] in H. unfold heading_suffixes. cbn [In].
  repeat (destruct H as [H|H]; [injection H as <- _; tauto|]). destruct H.
Qed.
Lemma heading_first : forall cd sfx a, exists r, gen_articles_text cd sfx a = uc "第" :: r.
Proof. intros cd sfx a. eexists. reflexivity. Qed.
Lemma suffix_in : forall cd sfx a c, In c sfx -> In c (gen_articles_text cd sfx a).
Proof. intros cd sfx a c H. unfold gen_articles_text. rewrite !in_app_iff. tauto. Qed.
Lemma heading_no_space : forall cd sfx a, In sfx heading_suffixes -> Forall (numeral cd) (numbers a) ->
  no_space (gen_articles_text cd sfx a).
Proof.
  intros cd sfx a Hs Ha. apply Forall_forall. intros c Hc. apply (heading_chars cd sfx a c Hs Ha) in Hc.
  assert (F : forall l, forallb space_free l = true -> In c l -> is_space c = false).
  { intros l Hl Hi. rewrite forallb_forall in Hl. apply negb_true_iff. apply (Hl c Hi). }
  apply in_app_or in Hc as [Hc|Hc]; [apply (F kanji_list ltac:(vm_compute; reflexivity) Hc)|].
  apply in_app_or in Hc as [Hc|Hc]; [apply (F (u "第のからまで") ltac:(vm_compute; reflexivity) Hc)|].
  unfold heading_suffixes in Hs. cbn [In] in Hs.
  repeat (destruct Hs as [<-|Hs]; [refine (F _ _ Hc); vm_compute; reflexivity|]). destruct Hs.
Qed.
(** The line that a first word with a heading number stands for, by its characters. *)
Definition heading_of (s : ustr) (n : ArticleNumber) (t : ustr) : line :=
  if contains (uc "編") s then LPart n t else if contains (uc "章") s then LChapter n t
  else if contains (uc "節") s then LSection n t else if contains (uc "款") s then LSubsection n t
  else if contains (uc "目") s then LDivision n t else if contains (uc "条") s then LArticle n t
  else LParagraph n t.
Lemma heading_of_kind : forall cd sfx mk a t, In (sfx, mk) heading_kinds -> Forall (numeral cd) (numbers a) ->
  forall n, heading_of (gen_articles_text cd sfx a) n t = mk n t.
Proof.
  intros cd sfx mk a t Hk Ha n. pose proof (kind_suffix _ _ Hk) as Hs.
  assert (No : forall c, one_of (kanji_list ++ u "第のからまで" ++ sfx) c = false -> contains c (gen_articles_text cd sfx a) = false).
  { intros c E. apply contains_not. intros Hi. apply (heading_chars cd sfx a c Hs Ha) in Hi. apply one_of_in in Hi. congruence. }
  assert (Yes : forall c, In c sfx -> contains c (gen_articles_text cd sfx a) = true)
    by (intros c Hc; apply contains_in, suffix_in, Hc).
  unfold heading_kinds in Hk. cbn [In] in Hk. unfold heading_of.
  repeat (destruct Hk as [Hk|Hk]; [injection Hk as <- <-;
    repeat first [rewrite No by (vm_compute; reflexivity) | rewrite Yes by (vm_compute; tauto); reflexivity]|]).
  destruct Hk.
Qed.

Lemma heading_of_spec : forall s n t mk, kind_of s mk -> heading_of s n t = mk n t.
Proof.
  intros s n t mk [[before [k [after [E [Hk Hb]]]]]|[-> H]].
  - assert (No : forall k' mk' c, In (k', mk') before -> In c k' -> contains c s = false)
      by (intros k' mk' c H1 H2; apply contains_not; exact (Hb k' mk' c H1 H2)).
    assert (Yes : forall c, In c k -> contains c s = true) by (intros c Hc; apply contains_in, Hk, Hc).
    clear Hb Hk. unfold heading_of, heading_kinds in *.
    repeat (destruct before as [|p0 before];
      [injection E; intros; subst; match goal with |- context [if contains ?c s then _ else _] =>
         replace (contains c s) with true by (symmetry; exact (Yes c (or_introl eq_refl))) end; reflexivity
      |cbn [app] in E; injection E as <- E; match goal with |- context [if contains ?c s then _ else _] =>
         replace (contains c s) with false by (symmetry; exact (No _ _ c (or_introl eq_refl) (or_introl eq_refl))) end;
       pose proof (fun k' mk' c Hi => No k' mk' c (or_intror Hi)) as No'; clear No; rename No' into No]).
    destruct before; discriminate E.
  - unfold heading_of, heading_kinds in *.
    assert (No : forall k' mk' c, In (k', mk') heading_kinds -> In c k' -> contains c s = false)
      by (intros k' mk' c H1 H2; apply contains_not; exact (H k' mk' c H1 H2)).
    unfold heading_kinds in No.
    do 6 (match goal with |- context [if contains ?c s then _ else _] =>
         replace (contains c s) with false by (symmetry; exact (No _ _ c (or_introl eq_refl) (or_introl eq_refl))) end;
       pose proof (fun k' mk' c Hi => No k' mk' c (or_intror Hi)) as No'; clear No; rename No' into No). reflexivity.
Qed.
(** A word that starts with a heading number; what follows the number in the word is lost. *)
Theorem heading_word : forall cd sfx a rest x w y t mk, In sfx heading_suffixes -> Forall (numeral cd) (numbers a) ->
  (range_end_numbers a = [] -> heading_follow rest) -> blank x -> blank y ->
  first_word w (gen_articles_text cd sfx a ++ rest) t -> ~ In 10%N t -> kind_of (gen_articles_text cd sfx a ++ rest) mk ->
  parse_line cd (x ++ w ++ y) = Ok (mk a t).
Proof.
  intros cd sfx a rest x w y t mk Hs Ha Hf Hx Hy Hw Hl Hk.
  assert (Hc : ~ caption_line w).
  { destruct (heading_first cd sfx a) as [r E]. rewrite E in Hw. cbn [app] in Hw.
    destruct Hw as [[g [-> _]]|[c [-> _]]]; cbn [app]; apply not_caption_first; vm_compute; discriminate. }
  rewrite (line_word cd x w y _ t Hx Hy Hw Hl Hc), (heading_roundtrip cd sfx a rest Hs Ha Hf). cbn [bind].
  f_equal. exact (heading_of_spec _ a t mk Hk).
Qed.
Lemma heading_kind_of : forall cd sfx mk a, In (sfx, mk) heading_kinds -> Forall (numeral cd) (numbers a) ->
  kind_of (gen_articles_text cd sfx a) mk.
Proof.
  intros cd sfx mk a Hk Ha. pose proof (kind_suffix _ _ Hk) as Hs.
  assert (No : forall c, one_of (kanji_list ++ u "第のからまで" ++ sfx) c = false -> ~ In c (gen_articles_text cd sfx a)).
  { intros c E Hi. apply (heading_chars cd sfx a c Hs Ha) in Hi. apply one_of_in in Hi. congruence. }
  assert (Yes : incl sfx (gen_articles_text cd sfx a)) by (intros c Hc; apply suffix_in, Hc).
  left. apply in_split in Hk as [before [after E]]. exists before, sfx, after. split; [exact E|]. split; [exact Yes|].
  intros k' mk' c Hb Hc. apply No. clear No Yes Hs Ha.
  unfold heading_kinds in E.
  repeat (destruct before as [|p0 before];
    [injection E as <- _ _; cbn [In] in Hb; repeat (destruct Hb as [Hb|Hb]; [injection Hb as <- _; destruct Hc as [<-|[]]; vm_compute; reflexivity|]); destruct Hb
    |cbn [app] in E; injection E as <- E]).
  destruct before; discriminate E.
Qed.
Lemma labelled_first : forall s t w, s <> [] -> no_space s -> labelled s t w -> first_word w s t /\ ~ In 10%N t.
Proof.
  intros s t w Hs Hn [g [Hg [Hb [_ [[Ht [He Hl]] ->]]]]]. split; [|exact Hl]. left. exists g. auto 8.
Qed.
Theorem heading_line : forall cd sfx mk a t w x y, In (sfx, mk) heading_kinds -> Forall (numeral cd) (numbers a) ->
  labelled (gen_articles_text cd sfx a) t w -> blank x -> blank y -> parse_line cd (x ++ w ++ y) = Ok (mk a t).
Proof.
  intros cd sfx mk a t w x y Hk Ha Hw Hx Hy.
  apply labelled_first in Hw as [Hw Hl]; [|discriminate|apply heading_no_space; [exact (kind_suffix _ _ Hk)|exact Ha]].
  apply (heading_word cd sfx a [] x w y t mk); try assumption; rewrite ?app_nil_r; try assumption.
  - exact (kind_suffix _ _ Hk).
  - intros _. split; [exact I|]. intros r E. discriminate E.
  - apply heading_kind_of; assumption.
Qed.

(** ** Paragraph labels *)
Lemma label_chars : forall a c, In c (paragraph_text a) -> zenkaku c = true \/ In c (u "のからまで").
Proof.
  intros a c H.
  assert (Z : forall n, In c (to_zenkaku_num n) -> zenkaku c = true)
    by (intros n Hi; pose proof (zenkaku_digits_class n) as F; rewrite Forall_forall in F; apply F, Hi).
  assert (L : forall l, forallb (one_of (u "のからまで")) l = true -> In c l -> In c (u "のからまで")).
  { intros l Hl Hi. rewrite forallb_forall in Hl. apply one_of_in, Hl, Hi. }
  assert (B : forall l, In c (concat (map (fun n => u "の" ++ to_zenkaku_num n) l)) -> zenkaku c = true \/ In c (u "のからまで")).
  { induction l as [|n l IH]; intros Hi; [destruct Hi|]. cbn [map concat] in Hi. apply in_app_or in Hi as [Hi|Hi]; [|apply IH, Hi].
    apply in_app_or in Hi as [Hi|Hi]; [right|left; exact (Z n Hi)]. refine (L _ _ Hi). vm_compute. reflexivity. }
  unfold paragraph_text in H. apply in_app_or in H as [H|H]; [left; exact (Z _ H)|].
  apply in_app_or in H as [H|H]; [exact (B _ H)|].
  destruct (range_end_numbers a) as [|n l]; [destruct H|].
  apply in_app_or in H as [H|H]; [right; refine (L _ _ H); vm_compute; reflexivity|].
  apply in_app_or in H as [H|H]; [left; exact (Z _ H)|].
  apply in_app_or in H as [H|H]; [exact (B _ H)|]. right. refine (L _ _ H). vm_compute. reflexivity.
Qed.
Lemma zenkaku_not : forall c d, zenkaku c = true -> zenkaku d = false -> c <> d.
Proof. intros c d H1 H2 ->. congruence. Qed.
Lemma zenkaku_no_space : forall c, zenkaku c = true -> is_space c = false.
Proof. intros c H. apply (pred_range CZen) in H. apply not_space. lia. Qed.
Lemma label_no_space : forall a, no_space (paragraph_text a).
Proof.
  intros a. apply Forall_forall. intros c H. apply label_chars in H as [H|H]; [apply zenkaku_no_space, H|].
  assert (F : forallb space_free (u "のからまで") = true) by (vm_compute; reflexivity).
  rewrite forallb_forall in F. apply negb_true_iff. apply (F c H).
Qed.
Lemma label_start : forall a, exists c r, paragraph_text a = c :: r /\ zenkaku c = true.
Proof.
  intros a. unfold paragraph_text. pose proof (to_zenkaku_nonempty (base_number a)) as N0. pose proof (zenkaku_digits_class (base_number a)) as F.
  destruct F as [|c r Hc _]; [contradiction|]. eexists _, _. split; [reflexivity|exact Hc].
Qed.
Theorem label_word : forall cd a rest x w y t mk, Forall (fun n => n < 2 ^ 64)%N (numbers a) ->
  (range_end_numbers a = [] -> label_follow rest) -> blank x -> blank y ->
  first_word w (paragraph_text a ++ rest) t -> ~ In 10%N t -> kind_of (paragraph_text a ++ rest) mk ->
  parse_line cd (x ++ w ++ y) = Ok (mk (mkAN (base_number a) (eda_numbers a) (firstn 1 (range_end_numbers a))) t).
Proof.
  intros cd a rest x w y t mk Ha Hf Hx Hy Hw Hl Hk.
  assert (Hc : ~ caption_line w).
  { destruct (label_start a) as [c [r [E Hz]]]. rewrite E in Hw. cbn [app] in Hw.
    destruct Hw as [[g [-> _]]|[d [-> _]]]; cbn [app]; apply not_caption_first, (zenkaku_not _ _ Hz); vm_compute; reflexivity. }
  rewrite (line_word cd x w y _ t Hx Hy Hw Hl Hc), (label_read cd a rest Ha Hf). cbn [bind].
  f_equal. exact (heading_of_spec _ _ t mk Hk).
Qed.
Lemma label_kind : forall a, kind_of (paragraph_text a) LParagraph.
Proof.
  intros a. right. split; [reflexivity|]. intros k' mk' c Hk Hc Hi. apply label_chars in Hi.
  unfold heading_kinds in Hk. cbn [In] in Hk.
  repeat (destruct Hk as [Hk|Hk]; [injection Hk as <- _; destruct Hc as [<-|[]]; destruct Hi as [Hi|Hi];
    [vm_compute in Hi; discriminate Hi|apply one_of_in in Hi; vm_compute in Hi; discriminate Hi]|]). destruct Hk.
Qed.
Theorem label_line : forall cd a t w x y, Forall (fun n => n < 2 ^ 64)%N (numbers a) ->
  labelled (paragraph_text a) t w -> blank x -> blank y ->
  parse_line cd (x ++ w ++ y) = Ok (LParagraph (mkAN (base_number a) (eda_numbers a) (firstn 1 (range_end_numbers a))) t).
Proof.
  intros cd a t w x y Ha Hw Hx Hy. destruct (label_start a) as [c [r [E _]]].
  apply labelled_first in Hw as [Hw Hl]; [|rewrite E; discriminate|apply label_no_space].
  apply (label_word cd a [] x w y t LParagraph); try assumption; rewrite ?app_nil_r; try assumption; [|apply label_kind].
  intros _. split; [exact I|]. intros r' E'. discriminate E'.
Qed.

(** ** Item labels *)
Lemma class_start : forall k c, pred k c = true -> k <> CKanji -> k <> CZen -> digit_start c = false.
Proof.
  intros k c H Hk Hz.
  assert (K : kanji c = false).
  { destruct (kanji c) eqn:E; [|reflexivity]. apply (pred_range CKanji) in E. apply pred_range in H. destruct k; try contradiction; lia. }
  apply pred_range in H. unfold digit_start. rewrite K, orb_false_r.
  change (uc "第") with 31532%N.
  assert (A : forall lo hi, (c < lo \/ hi < c)%N -> in_range lo hi c = false) by (intros lo hi; apply in_range_false).
  unfold arabic, zenkaku. change (uc "0") with 48%N. change (uc "9") with 57%N. change (uc "０") with 65296%N. change (uc "９") with 65305%N.
  rewrite !A by (destruct k; try contradiction; lia). rewrite !orb_false_r. apply N.eqb_neq. destruct k; try contradiction; lia.
Qed.
Lemma item_shape : forall cd p a s, Forall (writable cd p) (numbers a) -> item_text cd p a = Ok s ->
  exists w ws rr, s = wrap (in_paren p) w ++ branch_text ws ++ range_text rr /\ run (base_class p) w /\
    Forall (run (branch_class p)) ws /\
    match rr with None => True | Some (y, vs) => base_run (base_class p) y /\ Forall (run (branch_class p)) vs end.
Proof.
  intros cd p [b e r] s H Es. unfold numbers in H. cbn [base_number eda_numbers range_end_numbers] in *.
  inversion_clear H as [|? ? Hb Her]. apply Forall_app in Her as [He Hr].
  destruct (base_text cd p b Hb) as [w [B1 [B2 _]]]. destruct (branch_all cd p e He) as [ws [es [E1 [E2 _]]]].
  unfold item_text in Es. cbn [base_number eda_numbers range_end_numbers] in Es. rewrite B1, E1 in Es. cbn [bind] in Es.
  destruct r as [|n l].
  - cbn [bind] in Es. injection Es as <-. exists w, ws, None. auto.
  - inversion_clear Hr as [|? ? Hn Hl].
    destruct (base_text cd p n Hn) as [v [V1 [V2 _]]]. destruct (branch_all cd p l Hl) as [vs [fs [F1 [F2 _]]]].
    rewrite V1, F1 in Es. cbn [bind] in Es. injection Es as <-. exists w, ws, (Some (wrap (in_paren p) v, vs)).
    split; [reflexivity|]. split; [exact B2|]. split; [exact E2|]. split; [exists (in_paren p), v; auto|exact F2].
Qed.
Lemma item_no_space : forall cd p a s, Forall (writable cd p) (numbers a) -> item_text cd p a = Ok s -> no_space s.
Proof.
  intros cd p a s H E. destruct (item_shape cd p a s H E) as [w [ws [rr [-> [H1 [H2 H3]]]]]].
  apply Forall_app. split; [apply (base_no_space (base_class p)); exists (in_paren p), w; auto|].
  apply Forall_app. split; [apply (branches_no_space _ _ H2)|apply (range_no_space _ _ _ H3)].
Qed.
Lemma item_not_number : forall cd p a s, p <> NoParenZenkakuNum -> Forall (writable cd p) (numbers a) -> item_text cd p a = Ok s ->
  parse_article_number cd s = Ok None.
Proof.
  intros cd p a s Hp H E. destruct (item_shape cd p a s H E) as [w [ws [rr [-> [[H0 H1] [H2 H3]]]]]].
  destruct (in_paren p) eqn:Ep; [apply no_article_number; vm_compute; reflexivity|].
  cbn [wrap]. destruct (base_class p) eqn:Ec.
  3:{ apply no_article_kanji; [exact H0|exact H1| |];
        (destruct ws as [|v ws]; [destruct rr as [[y vs]|]; [vm_compute; reflexivity|exact I]|vm_compute; reflexivity]). }
  3:{ destruct p; try discriminate Ep; try discriminate Ec. contradiction. }
  all: destruct w as [|c w]; [contradiction|]; cbn [app]; apply no_article_number; inversion H1 as [|? ? X _]; subst;
    apply (class_start _ _ X); discriminate.
Qed.
Theorem item_line : forall cd p a s t w x y, p <> NoParenZenkakuNum -> Forall (writable cd p) (numbers a) ->
  item_text cd p a = Ok s -> labelled s t w -> blank x -> blank y ->
  parse_line cd (x ++ w ++ y) = Ok (LItem (mkIN s (base_number a) (eda_numbers a) [] (read_as p)) t).
Proof.
  intros cd p a s t w x y Hp H E Hw Hx Hy.
  pose proof (item_no_space cd p a s H E) as Hn. pose proof (item_not_number cd p a s Hp H E) as Hna.
  destruct (item_label_roundtrip cd p a H) as [s' [E' R]]. rewrite E in E'. injection E' as <-.
  specialize (R [] [] (Forall_nil _) (Forall_nil _)). cbn [app] in R. rewrite app_nil_r in R.
  assert (Hs : s <> []).
  { destruct (item_shape cd p a s H E) as [v [ws [rr [-> [[H0 _] _]]]]]. destruct (in_paren p); cbn [wrap]; [discriminate|].
    destruct v; [contradiction|discriminate]. }
  assert (Hc : ~ caption_line w).
  { destruct Hw as [g [Hg [_ [_ [[Ht _] ->]]]]]. destruct (item_shape cd p a s H E) as [v [ws [rr [-> [[H0 H1] _]]]]].
    destruct (in_paren p); cbn [wrap].
    - unfold paren. rewrite <- !app_assoc. change (u "（") with [uc "（"]. change (u "）") with [uc "）"]. cbn [app].
      apply not_caption_closed.
      + intros Hi. rewrite Forall_forall in H1. specialize (H1 _ Hi). apply pred_range in H1. change (uc "）") with 65289%N in H1.
        destruct (base_class p); lia.
      + destruct (branch_text ws); [|discriminate]. destruct (range_text rr); [|discriminate]. cbn [app]. destruct g; [contradiction|discriminate].
    - destruct v as [|c v]; [contradiction|]. cbn [app]. apply not_caption_first. intros ->. inversion H1 as [|? ? X _]; subst.
      apply pred_range in X. change (uc "（") with 65288%N in X. destruct (base_class p); lia. }
  apply labelled_first in Hw as [Hw Hl]; [|exact Hs|exact Hn].
  rewrite (line_word cd x w y s t Hx Hy Hw Hl Hc), Hna. cbn [bind]. rewrite R. reflexivity.
Qed.
(** Item labels of full-width digits are paragraph labels. *)
Theorem zenkaku_item_text : forall cd a, item_text cd NoParenZenkakuNum a = Ok (paragraph_text a).
Proof.
  intros cd a. assert (B : forall l, branch_texts (num_to_str_no_paren cd NoParenZenkakuNum) l =
    Ok (concat (map (fun n => u "の" ++ to_zenkaku_num n) l))).
  { induction l as [|n l IH]; [reflexivity|]. cbn [branch_texts]. cbn [num_to_str_no_paren bind]. rewrite IH. cbn [bind map concat].
    rewrite app_assoc. reflexivity. }
  unfold item_text, paragraph_text. cbn [num_to_str bind]. rewrite B. cbn [bind]. destruct (range_end_numbers a) as [|n l]; [reflexivity|].
  cbn [num_to_str bind]. rewrite B. reflexivity.
Qed.
Theorem zenkaku_item_line : forall cd a s t w x y, Forall (writable cd NoParenZenkakuNum) (numbers a) ->
  item_text cd NoParenZenkakuNum a = Ok s -> labelled s t w -> blank x -> blank y ->
  parse_line cd (x ++ w ++ y) = Ok (LParagraph (mkAN (base_number a) (eda_numbers a) (firstn 1 (range_end_numbers a))) t).
Proof.
  intros cd a s t w x y H E Hw Hx Hy. rewrite zenkaku_item_text in E. injection E as <-. apply label_line; assumption.
Qed.

(** ** Captions *)
Theorem caption_line_read : forall cd v x y, v <> [] -> ~ In (uc "）") v -> blank x -> blank y ->
  parse_line cd (x ++ (uc "（" :: v ++ [uc "）"]) ++ y) = Ok (LCaption v).
Proof.
  intros cd v x y Hv Hn Hx Hy. unfold parse_line. rewrite trim_edge; try assumption.
  - rewrite (caption_captures v Hv Hn). reflexivity.
  - split.
    + intros c r E. injection E as <- _. vm_compute. reflexivity.
    + intros r c E. change (uc "（" :: v ++ [uc "）"]) with ((uc "（" :: v) ++ [uc "）"]) in E. apply app_inj_tail in E as [_ <-].
      vm_compute. reflexivity.
Qed.

(** ** Text *)
Lemma number_start_digit : forall c, ~ number_start c -> digit_start c = false.
Proof.
  intros c H. unfold number_start in H. rewrite !in_app_iff in H.
  assert (K : kanji c = false) by (destruct (kanji c) eqn:E; [destruct H; right; right; apply kanji_in, E|reflexivity]).
  assert (Z : zenkaku c = false) by (destruct (zenkaku c) eqn:E; [destruct H; right; left; apply zenkaku_in, E|reflexivity]).
  unfold digit_start. rewrite K, Z, !orb_false_r.
  assert (X : one_of (u "第0123456789") c = false) by (destruct (one_of (u "第0123456789") c) eqn:E; [destruct H; left; apply one_of_in, E|reflexivity]).
  unfold arabic. destruct (in_range (uc "0") (uc "9") c) eqn:E.
  - exfalso. apply cases10 in E. vm_compute in E. repeat (destruct E as [E|E]; [subst c; vm_compute in X; discriminate X|]).
    subst c. vm_compute in X. discriminate X.
  - rewrite orb_false_r. destruct (N.eqb_spec c (uc "第")) as [->|]; [vm_compute in X; discriminate X|reflexivity].
Qed.
Lemma accepts_label : forall c, accepts re_item c = true -> label_char c.
Proof.
  assert (A : forall c, accepts item_class c = true -> label_char c).
  { intros c H. unfold item_class in H. cbn [Alts accepts chars Plus] in H. rewrite !orb_true_iff in H. unfold label_char.
    rewrite !in_app_iff.
    assert (U : upper c = true -> In c upper_letters).
    { intros X. apply one_of_in. unfold upper in X. apply in_range_true in X. change (uc "Ａ") with 65313%N in X. change (uc "Ｚ") with 65338%N in X.
      destruct (one_of upper_letters c) eqn:E; [reflexivity|]. exfalso. unfold one_of, upper_letters in E. cbn [existsb] in E.
      repeat (apply orb_false_iff in E as [?E E]). repeat match goal with Y : N.eqb _ _ = false |- _ => apply N.eqb_neq in Y end. lia. }
    assert (L : lower c = true -> In c lower_letters).
    { intros X. apply one_of_in. unfold lower in X. apply in_range_true in X. change (uc "ａ") with 65345%N in X. change (uc "ｚ") with 65370%N in X.
      destruct (one_of lower_letters c) eqn:E; [reflexivity|]. exfalso. unfold one_of, lower_letters in E. cbn [existsb] in E.
      repeat (apply orb_false_iff in E as [?E E]). repeat match goal with Y : N.eqb _ _ = false |- _ => apply N.eqb_neq in Y end. lia. }
    assert (Ka : katakana c = true -> is_katakana_letter c) by (intros X; apply in_range_true in X; exact X).
    assert (Hi : hiragana c = true -> is_hiragana_letter c) by (intros X; apply in_range_true in X; exact X).
    pose proof (kanji_in c) as Kj. pose proof (zenkaku_in c) as Ze. tauto. }
  assert (L : forall w c, accepts (Lit w) c = true -> In c w).
  { induction w as [|d w IH]; intros c H; [discriminate H|]. cbn [Lit accepts] in H. apply orb_true_iff in H as [H|H].
    - left. apply N.eqb_eq in H. exact H.
    - right. apply IH, H. }
  assert (B : forall c, accepts item_one c = true -> label_char c).
  { intros c H. unfold item_one in H. cbn [accepts] in H. rewrite !orb_true_iff in H.
    destruct H as [[H|[H|H]]|H]; try (apply A, H).
    - right. right. rewrite !in_app_iff. do 4 right. apply L in H. destruct H as [<-|[]]. left. reflexivity.
    - right. right. rewrite !in_app_iff. do 4 right. apply L in H. destruct H as [<-|[]]. right. left. reflexivity. }
  assert (Hir : forall c, In c (u "のからまで") -> label_char c).
  { intros c H. right. left. assert (F : forallb hiragana (u "のからまで") = true) by (vm_compute; reflexivity).
    rewrite forallb_forall in F. specialize (F c H). apply in_range_true in F. exact F. }
  assert (Br : forall c, accepts item_branches c = true -> label_char c).
  { intros c H. unfold item_branches, Plus in H. cbn [accepts] in H. rewrite !orb_true_iff in H.
    destruct H as [[H|H]|[H|H]]; try (apply B, H); apply Hir; apply L in H; destruct H as [<-|[]]; vm_compute; tauto. }
  intros c H. unfold re_item, Opt in H. cbn [accepts] in H. rewrite !orb_true_iff, ?orb_false_iff in H.
  assert (F : false = true -> label_char c) by discriminate.
  assert (L1 : accepts (Lit (u "から")) c = true -> label_char c) by (intros X; apply Hir; apply L in X; destruct X as [<-|[<-|[]]]; vm_compute; tauto).
  assert (L2 : accepts (Lit (u "まで")) c = true -> label_char c) by (intros X; apply Hir; apply L in X; destruct X as [<-|[<-|[]]]; vm_compute; tauto).
  specialize (B c). specialize (Br c). tauto.
Qed.
Theorem text_line : forall cd w x y, plain_text w -> blank x -> blank y -> parse_line cd (x ++ w ++ y) = Ok (LText w).
Proof.
  intros cd w x y [He [Hl [Hc [Hs|[s [t [c [Hw [[r Er] [Hn Hb]]]]]]]]]] Hx Hy.
  - unfold parse_line. rewrite (trim_edge x w y Hx Hy He), (not_caption w Hc), (split_short w Hs). cbn [bind].
    assert (E : captures re_suppl w = None); [|rewrite E; reflexivity].
    unfold captures. destruct w as [|c [|d w]]; [vm_compute; reflexivity| |cbn in Hs; lia].
    assert (E : exec re_suppl [c] = []); [|rewrite E; reflexivity].
    unfold re_suppl. apply seq_fails_r. intros c1 s1 H. apply lit_in in H as [_ H]. injection H as _ <-. reflexivity.
  - assert (Ht : ~ In 10%N t).
    { intros Hi. apply Hl. destruct Hw as [[g [-> _]]|[d [-> [_ [_ ->]]]]]; rewrite ?in_app_iff; auto. }
    rewrite (line_word cd x w y s t Hx Hy Hw Ht Hc). rewrite Er, (no_article_number cd c r (number_start_digit c Hn)), <- Er. cbn [bind].
    apply Exists_exists in Hb as [d [Hd Hb]].
    assert (Hsp : is_space d = false).
    { assert (X : no_space s) by (destruct Hw as [[g [_ [_ [_ [_ [X _]]]]]]|[e [-> [_ [X _]]]]]; [exact X|apply Forall_app in X as [X _]; exact X]).
      apply (proj1 (Forall_forall _ _) X d Hd). }
    rewrite (item_bad_char cd s d); [reflexivity|apply trim_keeps; assumption|].
    destruct (accepts re_item d) eqn:Ea; [|reflexivity]. apply accepts_label in Ea. contradiction.
Qed.
