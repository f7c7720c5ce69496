(** Facts about splitting lines, letters read as numbers and unreadable roman labels. *)
From Coq Require Import String Ascii List NArith ZArith Bool Arith Lia.
From Verif Require Import Base BaseFacts NumStr NumStrSpec NumStrFacts Regex RegexFacts NumText NumTextSpec NumTextFacts HeadingFacts LabelFacts ItemFacts ItemLabelFacts.
Import ListNotations.
Open Scope string_scope.
Open Scope list_scope.

(** ** Number and text of a line *)
Definition word (c : N) : bool := negb (is_space c || N.eqb c (uc "　")).
Definition gap (c : N) : bool := is_space c || N.eqb c (uc "　").
Definition in_line (c : N) : bool := negb (N.eqb c 10).
Lemma gap_space : forall c, gap c = is_space c.
Proof.
  intros c. unfold gap. destruct (N.eqb_spec c (uc "　")) as [->|]; [vm_compute; reflexivity|apply orb_false_r].
Qed.
Lemma word_space : forall c, word c = negb (is_space c).
Proof. intros c. unfold word. fold (gap c). rewrite gap_space. reflexivity. Qed.
Lemma word_all : forall s, Forall (fun c => is_space c = false) s -> Forall (fun c => word c = true) s.
Proof. intros s H. eapply Forall_impl; [|exact H]. intros c Hc. cbn beta. rewrite word_space, Hc. reflexivity. Qed.
Lemma gap_all : forall s, blank s -> Forall (fun c => gap c = true) s.
Proof. intros s H. eapply Forall_impl; [|exact H]. intros c Hc. cbn beta. rewrite gap_space. exact Hc. Qed.
Lemma line_all : forall s, ~ In 10%N s -> Forall (fun c => in_line c = true) s.
Proof.
  intros s H. apply Forall_forall. intros c Hc. unfold in_line. destruct (N.eqb_spec c 10) as [->|]; [contradiction|reflexivity].
Qed.

Theorem split_spaced : forall s g c t, s <> [] -> Forall (fun c => is_space c = false) s -> g <> [] -> blank g ->
  is_space c = false -> ~ In 10%N (c :: t) -> split_number (s ++ g ++ c :: t) = Ok (Some (s, c :: t)).
Proof.
  intros s g c t Hs Hw Hg Hb Hc Ht. unfold split_number.
  rewrite (starts_captures re_split _ [("s", s); ("text", c :: t)] []); [reflexivity|].
  unfold re_split. fold word gap in_line.
  apply (starts_seq _ _ _ [("s", s)] (g ++ c :: t)).
  { apply starts_cap, starts_plus_chars; [exact Hs|apply word_all, Hw|].
    destruct Hb as [|x g Hx _]; [contradiction|]. cbn [app stops]. rewrite word_space, Hx. reflexivity. }
  apply (starts_seq _ _ _ [] (c :: t)).
  { apply starts_star_chars; [apply gap_all, Hb|]. cbn [stops]. rewrite gap_space. exact Hc. }
  apply (starts_seq _ _ _ [("text", c :: t)] [] []); [|apply starts_end].
  rewrite <- (app_nil_r (c :: t)) at 1. apply starts_cap, starts_plus_chars; [discriminate|apply line_all, Ht|exact I].
Qed.

Lemma star_two : forall (p : N -> bool) w c, Forall (fun x => p x = true) w -> p c = true ->
  exists l, exec (Star (Chr p)) (w ++ [c]) = ([], []) :: ([], [c]) :: l.
Proof.
  intros p w c H Hc. induction H as [|x w Hx Hw [l IH]]; rewrite star_unfold.
  - cbn [app exec]. rewrite Hc. cbn. exists []. reflexivity.
  - cbn [app]. cbn [exec]. rewrite Hx. cbn [flat_map fst snd length].
    replace (Nat.ltb (length (w ++ [c])) (S (length (w ++ [c])))) with true by (symmetry; apply Nat.ltb_lt; lia).
    match goal with |- context [after [] ?e] => change e with (exec (Star (Chr p)) (w ++ [c])) end.
    rewrite IH. cbn. eexists. reflexivity.
Qed.
Theorem split_unspaced : forall s c, s <> [] -> Forall (fun c => is_space c = false) (s ++ [c]) ->
  split_number (s ++ [c]) = Ok (Some (s, [c])).
Proof.
  intros s c Hs H. apply Forall_app in H as [Hw Hc]. inversion_clear Hc as [|? ? Hc' _].
  unfold split_number.
  rewrite (starts_captures re_split _ [("s", s); ("text", [c])] []); [reflexivity|].
  unfold re_split. fold word gap in_line. unfold starts.
  destruct s as [|x s]; [contradiction|]. inversion_clear Hw as [|? ? Hx Hw'].
  set (K := Seq (Star (Chr gap)) (Seq (Cap "text" (chars in_line)) End)).
  assert (Wx : word x = true) by (rewrite word_space, Hx; reflexivity).
  assert (Wc : word c = true) by (rewrite word_space, Hc'; reflexivity).
  destruct (star_two word s c (word_all s Hw') Wc) as [l E].
  assert (E2 : exec (chars word) ((x :: s) ++ [c]) = ([], []) :: ([], [c]) :: map (fun r => ([] ++ fst r, snd r)) l).
  { unfold chars, Plus. cbn [exec app]. rewrite Wx. cbn [flat_map fst snd].
    match goal with |- after [] ?e ++ [] = _ => change e with (exec (Star (Chr word)) (s ++ [c])) end.
    rewrite E, app_nil_r. reflexivity. }
  change (exec (Seq (Cap "s" (chars word)) K) ((x :: s) ++ [c])) with
    (flat_map (fun y => after (fst y) (exec K (snd y)))
       (map (fun y => (("s", consumed ((x :: s) ++ [c]) (snd y)) :: fst y, snd y)) (exec (chars word) ((x :: s) ++ [c])))).
  rewrite E2. cbn [map flat_map fst snd].
  assert (K0 : exec K [] = []) by reflexivity.
  assert (K1 : starts K [c] [("text", [c])] []).
  { subst K. apply (starts_seq _ _ _ [] [c]).
    - apply starts_star_stop, exec_chr_stop. cbn. rewrite gap_space. exact Hc'.
    - apply (starts_seq _ _ _ [("text", [c])] [] []); [|apply starts_end].
      change [c] with ([c] ++ []) at 1. apply starts_cap, starts_plus_chars; [discriminate| |exact I].
      constructor; [|constructor]. unfold in_line. destruct (N.eqb_spec c 10) as [->|]; [discriminate Hc'|reflexivity]. }
  destruct K1 as [k K1]. rewrite K0, K1. cbn [after map app fst snd]. change (x :: s ++ [c]) with ((x :: s) ++ [c]). rewrite consumed_app. eexists. reflexivity.
Qed.
Theorem split_short : forall s, length s <= 1 -> split_number s = Ok None.
Proof.
  intros [|c [|d s]] H; [reflexivity| |cbn in H; lia]. unfold split_number, captures.
  assert (E : exec re_split [c] = []); [|rewrite E; reflexivity]. unfold re_split. apply seq_fails_r. intros k s' Hi.
  apply cap_in in Hi as [k' Hi]. apply plus_chars_in in Hi as [_ [w [Ew [Hne _]]]].
  destruct w as [|y w]; [contradiction|]. injection Ew as <- Ew. symmetry in Ew. apply app_eq_nil in Ew as [-> ->]. reflexivity.
Qed.
Theorem split_blank_start : forall c s, is_space c = true -> split_number (c :: s) = Ok None.
Proof.
  intros c s H. unfold split_number, captures.
  assert (E : exec re_split (c :: s) = []); [|rewrite E; reflexivity]. unfold re_split. fold word.
  apply seq_fails_l, cap_fails, plus_fails. cbn [stops]. rewrite word_space, H. reflexivity.
Qed.

(** ** Letters *)
Lemma one_letter : forall c, (65313 <= c <= 65338)%N -> parse_zenkaku_alphabet [c] = Some (c - 65312)%N.
Proof.
  intros c H. unfold parse_zenkaku_alphabet. cbn [map concat]. rewrite app_nil_r. unfold alphabet_digits.
  replace (N.ltb c 65345) with true by (symmetry; apply N.ltb_lt; lia). apply uparse_ushow.
  apply N.lt_trans with 27%N; [lia|reflexivity].
Qed.
Lemma one_letter_low : forall c, (65345 <= c <= 65370)%N -> parse_zenkaku_alphabet [c] = Some (c - 65344)%N.
Proof.
  intros c H. unfold parse_zenkaku_alphabet. cbn [map concat]. rewrite app_nil_r. unfold alphabet_digits.
  replace (N.ltb c 65345) with false by (symmetry; apply N.ltb_ge; lia). apply uparse_ushow.
  apply N.lt_trans with 27%N; [lia|reflexivity].
Qed.
(** A label of one full-width letter. *)
Theorem letter_label : forall cd b c x y, blank x -> blank y -> (upper c = true \/ lower c = true) -> is_roman [c] = false ->
  let s := x ++ wrap b [c] ++ y in
  parse_item_number cd s =
  Ok (Some (mkIN s (if upper c then c - 65312 else c - 65344)%N [] []
     (if upper c then (if b then ParenZenkakuUpper else NoParenZenkakuUpper)
      else (if b then ParenZenkakuLower else NoParenZenkakuLower)))).
Proof.
  intros cd b c x y Hx Hy [Hc|Hc] Hr s.
  - rewrite Hc. unfold s at 1. rewrite (single_label cd CUp b [c] x y); [|split; [discriminate|constructor; [exact Hc|constructor]]|exact Hx|exact Hy].
    apply upper_range in Hc. destruct b; cbn [reader]; unfold read_letters, read_plain; rewrite Hr, (one_letter c Hc); reflexivity.
  - assert (Hu : upper c = false).
    { destruct (upper c) eqn:E; [|reflexivity]. apply upper_range in E. apply lower_range in Hc. lia. }
    rewrite Hu. unfold s at 1. rewrite (single_label cd CLow b [c] x y); [|split; [discriminate|constructor; [exact Hc|constructor]]|exact Hx|exact Hy].
    apply lower_range in Hc. destruct b; cbn [reader]; unfold read_letters, read_plain; rewrite Hr, (one_letter_low c Hc); reflexivity.
Qed.
(** Any letter also used by roman numerals makes the label a roman one. *)
Theorem roman_letters_win : forall cd b w x y i, blank x -> blank y -> w <> [] ->
  (Forall (fun c => upper c = true) w \/ Forall (fun c => lower c = true) w) -> is_roman w = true ->
  parse_item_number cd (x ++ wrap b w ++ y) = Ok (Some i) ->
  is_alphabet (inum_pattern i) = false /\ parse_roman cd w = Some (inum_base i).
Proof.
  intros cd b w x y i Hx Hy Hn Hw Hr H.
  assert (X : exists k, (k = CUp \/ k = CLow) /\ run k w).
  { destruct Hw as [Hw|Hw]; [exists CUp|exists CLow]; (split; [auto|split; assumption]). }
  destruct X as [k [Hk Hrun]]. rewrite (single_label cd k b w x y Hrun Hx Hy) in H.
  destruct Hk as [->| ->]; destruct b; cbn [reader] in H; unfold read_letters, read_plain in H; rewrite Hr in H;
    destruct (parse_roman cd w) as [n|]; try discriminate H; cbn [unwrap bind] in H; injection H as <-; split; reflexivity.
Qed.

(** ** Roman numerals with a letter that is not converted *)
Lemma trim_start_keeps : forall s c, In c s -> is_space c = false -> In c (trim_start s).
Proof.
  intros s c H Hc. induction s as [|x s IH]; [destruct H|]. cbn. destruct (is_space x) eqn:E; [|exact H].
  destruct H as [->|H]; [congruence|auto].
Qed.
Lemma trim_keeps : forall s c, In c s -> is_space c = false -> In c (trim s).
Proof.
  intros s c H Hc. unfold trim. apply in_rev. rewrite rev_involutive. apply trim_start_keeps; [|exact Hc].
  apply in_rev. rewrite rev_involutive. apply trim_start_keeps; assumption.
Qed.
Lemma vdm_cases : forall c, In c (u "VDM") -> c = 86%N \/ c = 68%N \/ c = 77%N.
Proof. intros c H. change (u "VDM") with [86; 68; 77]%N in H. cbn [In] in H. intuition. Qed.
Theorem roman_unreadable : forall cd p a z s t c,
  In p [NoParenZenkakuRomanUpper; NoParenZenkakuRomanLower; ParenZenkakuRomanUpper; ParenZenkakuRomanLower] ->
  machine_i32 (base_number a) z -> roman_to cd z = Some s -> In c s -> In c (u "VDM") ->
  item_text cd p a = Ok t -> parse_item_number cd t = Ok None.
Proof.
  intros cd p a z s t c Hp Hz Hs Hi Hc Ht. apply as_i32_machine in Hz. subst z. apply vdm_cases in Hc.
  assert (U : In c (map roman_up s)).
  { apply in_map_iff. exists c. split; [|exact Hi]. destruct Hc as [->|[->| ->]]; reflexivity. }
  assert (L : In c (map roman_low s)).
  { apply in_map_iff. exists c. split; [|exact Hi]. destruct Hc as [->|[->| ->]]; reflexivity. }
  assert (B : exists w, num_to_str cd p (base_number a) = Ok w /\ In c w).
  { destruct Hp as [<-|[<-|[<-|[<-|[]]]]]; cbn [num_to_str]; unfold to_zenkaku_roman_upper, to_zenkaku_roman_lower;
      rewrite Hs; cbn [option_map unwrap rmap]; rewrite ?roman_up_map, ?roman_low_map.
    - eexists; split; [reflexivity|exact U].
    - eexists; split; [reflexivity|exact L].
    - eexists; split; [reflexivity|unfold paren; apply in_or_app; right; apply in_or_app; left; exact L].
    - eexists; split; [reflexivity|unfold paren; apply in_or_app; right; apply in_or_app; left; exact U]. }
  destruct B as [w [B1 B2]]. unfold item_text in Ht. rewrite B1 in Ht. cbn [bind] in Ht.
  destruct (branch_texts (num_to_str_no_paren cd p) (eda_numbers a)) as [e| |]; try discriminate Ht. cbn [bind] in Ht.
  destruct (match range_end_numbers a with [] => Ok [] | n :: l => _ end) as [r| |]; try discriminate Ht. cbn [bind] in Ht.
  injection Ht as <-. apply (item_bad_char cd _ c).
  - apply trim_keeps; [apply in_or_app; left; exact B2|]. destruct Hc as [->|[->| ->]]; vm_compute; reflexivity.
  - destruct Hc as [->|[->| ->]]; vm_compute; reflexivity.
Qed.

(** ** All lines *)
Lemma seq_in : forall a b s c1 s1 c2 s2, In (c1, s1) (exec a s) -> In (c2, s2) (exec b s1) ->
  In (c1 ++ c2, s2) (exec (Seq a b) s).
Proof.
  intros a b s c1 s1 c2 s2 H1 H2. cbn [exec]. apply in_flat_map. exists (c1, s1). split; [exact H1|]. cbn [fst snd].
  unfold after. apply in_map_iff. exists (c2, s2). auto.
Qed.
Lemma seq_out : forall a b s c s2, In (c, s2) (exec (Seq a b) s) -> exists c1 s1 c2,
  In (c1, s1) (exec a s) /\ In (c2, s2) (exec b s1) /\ c = c1 ++ c2.
Proof.
  intros a b s c s2 H. cbn [exec] in H. apply in_flat_map in H as [[c1 s1] [H1 H]]. cbn [fst snd] in H.
  unfold after in H. apply in_map_iff in H as [[c2 s2'] [E H2]]. cbn [fst snd] in E. injection E as <- <-. eauto 6.
Qed.
Lemma cap_out : forall n a s c s', In (c, s') (exec (Cap n a) s) -> exists c',
  In (c', s') (exec a s) /\ c = (n, consumed s s') :: c'.
Proof.
  intros n a s c s' H. cbn [exec] in H. apply in_map_iff in H as [[c1 s1] [E H]]. cbn [fst snd] in E. injection E as <- <-. eauto.
Qed.
Lemma cap_into : forall n a w c s', In (c, s') (exec a (w ++ s')) -> In ((n, w) :: c, s') (exec (Cap n a) (w ++ s')).
Proof.
  intros n a w c s' H. cbn [exec]. apply in_map_iff. exists (c, s'). cbn [fst snd]. rewrite consumed_app. auto.
Qed.
Lemma star_chars_all : forall (p : N -> bool) w s, Forall (fun c => p c = true) w -> In ([], s) (exec (Star (Chr p)) (w ++ s)).
Proof.
  intros p w s H. induction H as [|c w Hc _ IH]; rewrite star_unfold; apply in_or_app.
  - right. left. reflexivity.
  - left. cbn [app]. apply in_flat_map. exists ([], w ++ s). split; [cbn; rewrite Hc; left; reflexivity|]. cbn [fst snd length].
    replace (Nat.ltb (length (w ++ s)) (S (length (w ++ s)))) with true by (symmetry; apply Nat.ltb_lt; lia).
    unfold after. apply in_map_iff. exists ([], s). auto.
Qed.
Lemma plus_chars_all : forall (p : N -> bool) w s, w <> [] -> Forall (fun c => p c = true) w -> In ([], s) (exec (chars p) (w ++ s)).
Proof.
  intros p w s Hn H. destruct H as [|c w Hc Hw]; [contradiction|]. unfold chars, Plus.
  apply (seq_in _ _ _ [] (w ++ s) []); [cbn; rewrite Hc; left; reflexivity|apply star_chars_all, Hw].
Qed.
Lemma split_caps : forall line c s', In (c, s') (exec re_split line) <->
  exists s g t, c = [("s", s); ("text", t)] /\ s' = [] /\ split_into line s g t.
Proof.
  intros line c s'. unfold re_split. fold word gap in_line. split.
  - intros H. apply seq_out in H as [c1 [s1 [c2 [H1 [H ->]]]]]. apply seq_out in H as [c3 [s3 [c4 [H3 [H ->]]]]].
    apply seq_out in H as [c5 [s5 [c6 [H5 [H6 ->]]]]].
    apply cap_out in H1 as [c1' [H1 ->]]. apply plus_chars_in in H1 as [-> [s [-> [Hs Ws]]]].
    apply star_chars_in in H3 as [-> [g [-> Wg]]].
    apply cap_out in H5 as [c5' [H5 ->]]. apply plus_chars_in in H5 as [-> [t [-> [Ht Wt]]]].
    destruct s5; [|destruct H6]. destruct H6 as [H6|[]]. injection H6 as <- <-.
    rewrite !consumed_app. exists s, g, t. split; [reflexivity|]. split; [reflexivity|].
    rewrite app_nil_r. split; [reflexivity|]. split; [exact Hs|]. split; [exact Ht|].
    split; [eapply Forall_impl; [|exact Ws]; intros x Hx; cbn beta in *; rewrite word_space in Hx; apply negb_true_iff, Hx|].
    split; [eapply Forall_impl; [|exact Wg]; intros x Hx; cbn beta in *; rewrite gap_space in Hx; exact Hx|].
    intros Hi. rewrite Forall_forall in Wt. specialize (Wt _ Hi). discriminate Wt.
  - intros [s [g [t [-> [-> [-> [Hs [Ht [Ws [Wg Wt]]]]]]]]]].
    apply (seq_in _ _ _ [("s", s)] (g ++ t) [("text", t)]).
    { apply cap_into, plus_chars_all; [exact Hs|apply word_all, Ws]. }
    apply (seq_in _ _ _ [] t [("text", t)]); [apply star_chars_all, gap_all, Wg|].
    apply (seq_in _ _ _ [("text", t)] [] []); [|left; reflexivity].
    rewrite <- (app_nil_r t) at 2. apply cap_into, plus_chars_all; [exact Ht|apply line_all, Wt].
Qed.
Theorem split_total : forall line, split_number line <> Panic /\ (forall e, split_number line <> Err e).
Proof.
  intros line. unfold split_number. destruct (captures re_split line) as [c|] eqn:E; [|split; [|intros e]; discriminate].
  apply captures_in in E as [s' H]. apply split_caps in H as [s [g [t [-> _]]]]. split; [|intros e]; cbn; discriminate.
Qed.
Theorem split_sound : forall line s t, split_number line = Ok (Some (s, t)) -> exists g, split_into line s g t.
Proof.
  intros line s t H. unfold split_number in H. destruct (captures re_split line) as [c|] eqn:E; [|discriminate].
  apply captures_in in E as [s' E]. apply split_caps in E as [s0 [g [t0 [-> [_ E]]]]]. cbn in H. injection H as <- <-. eauto.
Qed.
Theorem split_complete : forall line, split_number line = Ok None -> forall s g t, ~ split_into line s g t.
Proof.
  intros line H s g t Hs. unfold split_number, captures in H. destruct (exec re_split line) as [|[c s'] l] eqn:E.
  - assert (X : In ([("s", s); ("text", t)], []) (exec re_split line)) by (apply split_caps; eauto 6).
    rewrite E in X. destruct X.
  - assert (X : In (c, s') (exec re_split line)) by (rewrite E; left; reflexivity).
    apply split_caps in X as [s0 [g0 [t0 [-> _]]]]. discriminate H.
Qed.

(** ** Headings with a character the readers do not know *)
Theorem heading_unreadable : forall cd w c rest, Forall (fun x => kanji x = true) w ->
  kanji c = false -> zenkaku c = false -> arabic c = false -> ~ In c (u "編章節款目条項号") ->
  parse_article_number cd (u "第" ++ w ++ c :: rest) = Ok None.
Proof.
  intros cd w c rest Hw Hk Hz Ha Hc. unfold parse_article_number.
  assert (E : exec re_article (u "第" ++ w ++ c :: rest) = []).
  { unfold re_article. apply seq_fails_r. intros c1 s1 H1. apply opt_in in H1 as [H1|[-> ->]].
    2: { apply seq_fails_l. cbn [Alts].
         apply alt_fails; [|apply alt_fails]; apply cap_fails, plus_fails; vm_compute; reflexivity. }
    apply lit_in in H1 as [-> H1]. apply app_inv_head in H1. subst s1. apply seq_fails_r. intros c2 s2 H2.
    apply seq_fails_l, cap_fails, suffix_fails. cbn [Alts] in H2.
    assert (Hs : one_of (u "編章節款目条項号") c = false).
    { destruct (one_of (u "編章節款目条項号") c) eqn:E; [|reflexivity]. apply one_of_in in E. contradiction. }
    assert (Y : forall p : N -> bool, p c = false -> (forall x, kanji x = true -> p x = true) \/ (forall x, kanji x = true -> p x = false) ->
       forall n, In (c2, s2) (exec (Cap n (chars p)) (w ++ c :: rest)) -> stops (one_of (u "編章節款目条項号")) s2).
    { intros p Hp Hcase n Hi. apply cap_in in Hi as [c' Hi]. destruct Hcase as [Hcase|Hcase].
      - apply plus_chars_in in Hi as [_ [v [Ev [_ Fv]]]]. clear -Ev Fv Hw Hs Hp. revert v Ev Fv.
        induction Hw as [|x w Hx Hw IH]; intros v Ev Fv; cbn [app] in Ev.
        + destruct Fv as [|y v Hy Fv]; cbn [app] in Ev; [subst s2; exact Hs|]. injection Ev as <- _. congruence.
        + destruct Fv as [|y v Hy Fv]; cbn [app] in Ev.
          * subst s2. cbn [stops]. apply (not_class_of kanji_list); [vm_compute; reflexivity|]. apply kanji_in, Hx.
          * injection Ev as <- Ev. exact (IH v Ev Fv).
      - exfalso. unfold chars in Hi. rewrite plus_fails in Hi; [destruct Hi|]. destruct Hw as [|x w Hx _]; cbn; [exact Hp|exact (Hcase x Hx)]. }
    change (exec (Alt (Cap "arabic_num" (chars arabic)) (Alt (Cap "zenkaku_num" (chars zenkaku)) (Cap "kansuji" (chars kanji)))) (w ++ c :: rest))
      with (exec (Cap "arabic_num" (chars arabic)) (w ++ c :: rest) ++ exec (Cap "zenkaku_num" (chars zenkaku)) (w ++ c :: rest)
          ++ exec (Cap "kansuji" (chars kanji)) (w ++ c :: rest)) in H2.
    apply in_app_or in H2 as [H2|H2]; [|apply in_app_or in H2 as [H2|H2]].
    - apply (Y arabic Ha) in H2; [exact H2|]. right. intros x Hx. apply (not_class_of kanji_list); [vm_compute; reflexivity|apply kanji_in, Hx].
    - apply (Y zenkaku Hz) in H2; [exact H2|]. right. intros x Hx. apply (not_class_of kanji_list); [vm_compute; reflexivity|apply kanji_in, Hx].
    - apply (Y kanji Hk) in H2; [exact H2|]. left. auto. }
  unfold captures at 1. rewrite E.
  assert (E2 : exec re_paragraph (u "第" ++ w ++ c :: rest) = []).
  { unfold re_paragraph. apply seq_fails_l, cap_fails. unfold NumText.digits. apply alt_fails; apply plus_fails; vm_compute; reflexivity. }
  unfold captures. rewrite E2. reflexivity.
Qed.

(** ** Forms used in the statements of the properties *)
Lemma alphabet_at : forall (l : ustr) (off : N), l = map (fun i => (off + N.of_nat i)%N) (seq 1 (length l)) ->
  forall i c, nth_error l i = Some c -> c = (off + N.of_nat (S i))%N.
Proof.
  intros l off E i c H. assert (L : i < length l) by (apply nth_error_Some; congruence).
  rewrite E in H. rewrite nth_error_map in H.
  rewrite (nth_error_nth' _ 0) in H by (rewrite seq_length; exact L). cbn [option_map] in H.
  rewrite seq_nth in H by exact L. injection H as <-. reflexivity.
Qed.
Theorem upper_label : forall cd b i c x y, blank x -> blank y -> nth_error upper_letters i = Some c -> ~ In c roman_letters ->
  let s := x ++ enclosed b [c] ++ y in
  parse_item_number cd s =
  Ok (Some (mkIN s (N.of_nat (S i)) [] [] (if b then ParenZenkakuUpper else NoParenZenkakuUpper))).
Proof.
  intros cd b i c x y Hx Hy Hc Hr s.
  assert (R : is_roman [c] = false).
  { unfold is_roman. cbn [existsb]. rewrite orb_false_r.
    destruct (one_of (u "ixvlcIXVLCｉｘｖｌｃＩＸＶＬＣ") c) eqn:E; [|reflexivity]. exfalso. apply Hr.
    assert (U : In c upper_letters) by (eapply nth_error_In, Hc).
    assert (F : forallb (fun z => negb (one_of (u "ixvlcIXVLCｉｘｖｌｃＩＸＶＬＣ") z) || one_of roman_letters z) upper_letters = true)
      by (vm_compute; reflexivity).
    rewrite forallb_forall in F. specialize (F c U). rewrite E in F. cbn [negb orb] in F. apply one_of_in, F. }
  assert (P : upper c = true).
  { apply (class_of upper_letters); [vm_compute; reflexivity|]. eapply nth_error_In, Hc. }
  apply (alphabet_at upper_letters 65312 ltac:(vm_compute; reflexivity)) in Hc.
  pose proof (letter_label cd b c x y Hx Hy (or_introl P) R) as H. cbv zeta in H. rewrite P in H.
  replace (c - 65312)%N with (N.of_nat (S i)) in H by lia. exact H.
Qed.
Theorem lower_label : forall cd b i c x y, blank x -> blank y -> nth_error lower_letters i = Some c -> ~ In c roman_letters ->
  let s := x ++ enclosed b [c] ++ y in
  parse_item_number cd s =
  Ok (Some (mkIN s (N.of_nat (S i)) [] [] (if b then ParenZenkakuLower else NoParenZenkakuLower))).
Proof.
  intros cd b i c x y Hx Hy Hc Hr s.
  assert (R : is_roman [c] = false).
  { unfold is_roman. cbn [existsb]. rewrite orb_false_r.
    destruct (one_of (u "ixvlcIXVLCｉｘｖｌｃＩＸＶＬＣ") c) eqn:E; [|reflexivity]. exfalso. apply Hr.
    assert (U : In c lower_letters) by (eapply nth_error_In, Hc).
    assert (F : forallb (fun z => negb (one_of (u "ixvlcIXVLCｉｘｖｌｃＩＸＶＬＣ") z) || one_of roman_letters z) lower_letters = true)
      by (vm_compute; reflexivity).
    rewrite forallb_forall in F. specialize (F c U). rewrite E in F. cbn [negb orb] in F. apply one_of_in, F. }
  assert (P : lower c = true).
  { apply (class_of lower_letters); [vm_compute; reflexivity|]. eapply nth_error_In, Hc. }
  assert (Q : upper c = false).
  { apply (not_class_of lower_letters); [vm_compute; reflexivity|]. eapply nth_error_In, Hc. }
  apply (alphabet_at lower_letters 65344 ltac:(vm_compute; reflexivity)) in Hc.
  pose proof (letter_label cd b c x y Hx Hy (or_intror P) R) as H. cbv zeta in H. rewrite Q in H.
  replace (c - 65344)%N with (N.of_nat (S i)) in H by lia. exact H.
Qed.
Theorem roman_letters_label : forall cd b w x y i, blank x -> blank y ->
  (Forall (fun c => In c upper_letters) w \/ Forall (fun c => In c lower_letters) w) ->
  Exists (fun c => In c roman_letters) w ->
  parse_item_number cd (x ++ enclosed b w ++ y) = Ok (Some i) ->
  ~ In (inum_pattern i) [NoParenZenkakuUpper; NoParenZenkakuLower; ParenZenkakuUpper; ParenZenkakuLower].
Proof.
  intros cd b w x y i Hx Hy Hw He H.
  assert (Hn : w <> []) by (intros ->; inversion He).
  assert (R : is_roman w = true).
  { apply Exists_exists in He as [c [Hi Hc]]. unfold is_roman. apply existsb_exists. exists c. split; [exact Hi|].
    apply (class_of roman_letters); [vm_compute; reflexivity|exact Hc]. }
  assert (P : Forall (fun c => upper c = true) w \/ Forall (fun c => lower c = true) w).
  { destruct Hw as [Hw|Hw]; [left|right]; (eapply Forall_impl; [|exact Hw]); intros c Hc.
    - apply (class_of upper_letters); [vm_compute; reflexivity|exact Hc].
    - apply (class_of lower_letters); [vm_compute; reflexivity|exact Hc]. }
  destruct (roman_letters_win cd b w x y i Hx Hy Hn P R H) as [A _].
  intros I. destruct I as [I|[I|[I|[I|[]]]]]; rewrite <- I in A; discriminate A.
Qed.
Theorem kana_label_panics : forall cd b w x y, blank x -> blank y -> w <> [] ->
  (Forall is_katakana_letter w /\ (forall n, ~ iroha_number iroha_katakana w n)) \/
  (Forall is_hiragana_letter w /\ (forall n, ~ iroha_number iroha_hiragana w n)) ->
  parse_item_number cd (x ++ enclosed b w ++ y) = Panic.
Proof.
  intros cd b w x y Hx Hy Hn H. apply (iroha_label_panics cd b w x y Hx Hy Hn).
  destruct H as [[Hw H]|[Hw H]]; [left|right]; (split; [|exact H]); (eapply Forall_impl; [|exact Hw]); intros c Hc.
  - apply katakana_range. exact Hc.
  - apply hiragana_range. exact Hc.
Qed.
Theorem iroha_inverse : forall n s,
  (to_iroha_katakana n = Some s <-> parse_iroha_katakana s = Some n) /\
  (to_iroha_hiragana n = Some s <-> parse_iroha_hiragana s = Some n).
Proof.
  intros n s. split.
  - etransitivity; [apply NumTextFacts.katakana_letter|symmetry; apply katakana_number].
  - etransitivity; [apply NumTextFacts.hiragana_letter|symmetry; apply hiragana_number].
Qed.
Theorem iroha_defined : forall n,
  ((exists s, to_iroha_katakana n = Some s) <-> (1 <= n <= 47)%N) /\
  ((exists s, to_iroha_hiragana n = Some s) <-> (1 <= n <= 47)%N).
Proof.
  intros n. split.
  - rewrite <- (iroha_domain iroha_katakana n) by (vm_compute; reflexivity).
    split; intros [s H]; exists s; apply NumTextFacts.katakana_letter, H.
  - rewrite <- (iroha_domain iroha_hiragana n) by (vm_compute; reflexivity).
    split; intros [s H]; exists s; apply NumTextFacts.hiragana_letter, H.
Qed.
Theorem heading_text_injective : forall cd sfx a b, In sfx heading_suffixes ->
  Forall (numeral cd) (numbers a) -> Forall (numeral cd) (numbers b) ->
  gen_articles_text cd sfx a = gen_articles_text cd sfx b -> a = b.
Proof.
  intros cd sfx a b Hs Ha Hb E.
  assert (F : heading_follow []) by (split; [exact I|intros r; discriminate]).
  pose proof (heading_roundtrip cd sfx a [] Hs Ha (fun _ => F)) as H1.
  pose proof (heading_roundtrip cd sfx b [] Hs Hb (fun _ => F)) as H2.
  rewrite E, H2 in H1. injection H1 as ->. reflexivity.
Qed.
(** Numbers whose kanji numeral has another character, such as those from ten thousand on. *)
Theorem heading_text_unreadable : forall cd sfx a w c v rest, kan cd (base_number a) = w ++ c :: v ->
  Forall (fun x => In x kanji_list) w -> ~ In c kanji_list -> ~ In c zenkaku_list ->
  ~ In c (u "0123456789") -> ~ In c (u "編章節款目条項号") ->
  parse_article_number cd (gen_articles_text cd sfx a ++ rest) = Ok None.
Proof.
  intros cd sfx a w c v rest E Hw Hk Hz Ha Hc. unfold gen_articles_text. rewrite E. rewrite <- !app_assoc. cbn [app].
  match goal with |- parse_article_number cd (u "第" ++ w ++ c :: ?r) = _ =>
    apply (heading_unreadable cd w c r) end.
  - eapply Forall_impl; [|exact Hw]. intros x Hx. apply kanji_in, Hx.
  - destruct (kanji c) eqn:K; [|reflexivity]. apply kanji_in in K. contradiction.
  - destruct (zenkaku c) eqn:K; [|reflexivity]. apply zenkaku_in in K. contradiction.
  - destruct (arabic c) eqn:K; [|reflexivity]. exfalso. apply Ha.
    unfold arabic in K. change (uc "0") with 48%N in K. change (uc "9") with 57%N in K. apply (cases10 c 48) in K.
    change (u "0123456789") with [48; 49; 50; 51; 52; 53; 54; 55; 56; 57]%N.
    repeat (destruct K as [->|K]; [vm_compute; tauto|]). subst c. vm_compute. tauto.
  - exact Hc.
Qed.
Theorem paren_roman_swapped : forall cd a, Forall (roman_numeral cd) (numbers a) ->
  exists s t,
  item_text cd ParenZenkakuRomanUpper a = Ok s /\ item_text cd ParenZenkakuRomanLower a = Ok t /\
  parse_item_number cd s = Ok (Some (mkIN s (base_number a) (eda_numbers a) [] ParenZenkakuRomanLower)) /\
  parse_item_number cd t = Ok (Some (mkIN t (base_number a) (eda_numbers a) [] ParenZenkakuRomanUpper)).
Proof.
  intros cd a H.
  destruct (item_label_roundtrip cd ParenZenkakuRomanUpper a H) as [s [S1 S2]].
  destruct (item_label_roundtrip cd ParenZenkakuRomanLower a H) as [t [T1 T2]].
  exists s, t. split; [exact S1|]. split; [exact T1|].
  specialize (S2 [] [] (Forall_nil _) (Forall_nil _)). specialize (T2 [] [] (Forall_nil _) (Forall_nil _)).
  cbn [app] in S2, T2. rewrite app_nil_r in S2, T2. split; assumption.
Qed.
