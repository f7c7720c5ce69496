(** Facts about paragraph labels, and texts on which reading a number panics. *)
From Coq Require Import String Ascii List NArith ZArith Bool Arith Lia.
From Verif Require Import Base BaseFacts NumStr NumStrSpec NumStrFacts Regex RegexFacts NumText NumTextSpec NumTextFacts HeadingFacts.
Import ListNotations.
Open Scope string_scope.
Open Scope list_scope.

(** ** Full-width digits as a run of characters *)
Lemma zenkaku_in : forall c, zenkaku c = true -> In c zenkaku_list.
Proof.
  intros c H. unfold zenkaku in H. change (uc "０") with 65296%N in H. change (uc "９") with 65305%N in H.
  apply (cases10 c 65296) in H. unfold zenkaku_list. cbn [In].
  repeat (destruct H as [->|H]; [cbv; tauto|]). subst c. cbv; tauto.
Qed.
Lemma zenkaku_not : forall (q : N -> bool), forallb (fun c => negb (q c)) zenkaku_list = true ->
  forall c, zenkaku c = true -> q c = false.
Proof. intros q Hq c H. exact (not_class_of _ _ Hq c (zenkaku_in c H)). Qed.
Lemma zenkaku_chars : forall n s, stops zenkaku s -> starts (chars zenkaku) (to_zenkaku_num n ++ s) [] s.
Proof.
  intros n s Hs. apply starts_plus_chars; [apply to_zenkaku_nonempty|apply zenkaku_digits_class|exact Hs].
Qed.
Lemma zenkaku_stops : forall (q : N -> bool) n s, forallb (fun c => negb (q c)) zenkaku_list = true ->
  stops q (to_zenkaku_num n ++ s).
Proof.
  intros q n s Hq. pose proof (zenkaku_digits_class n) as F. pose proof (to_zenkaku_nonempty n) as Hn.
  destruct F as [|c l Hc _]; [contradiction|]. cbn. apply (zenkaku_not q Hq c Hc).
Qed.
Lemma zenkaku_absent : forall n c, zenkaku c = false -> ~ In c (to_zenkaku_num n).
Proof.
  intros n c Hc Hi. pose proof (zenkaku_digits_class n) as F. rewrite Forall_forall in F. specialize (F c Hi). congruence.
Qed.
Lemma starts_digits : forall n s, stops zenkaku s -> starts NumText.digits (to_zenkaku_num n ++ s) [] s.
Proof. intros n s Hs. apply starts_alt_l, zenkaku_chars, Hs. Qed.

(** ** A paragraph label is not a heading *)
Lemma opt_in : forall a s c s', In (c, s') (exec (Opt a) s) -> In (c, s') (exec a s) \/ (c = [] /\ s' = s).
Proof.
  intros a s c s' H. unfold Opt in H. cbn [exec] in H. apply in_app_or in H as [H|[H|[]]]; [auto|].
  injection H as <- <-. auto.
Qed.
Lemma cap_in : forall n a s c s', In (c, s') (exec (Cap n a) s) -> exists c', In (c', s') (exec a s).
Proof.
  intros n a s c s' H. cbn [exec] in H. apply in_map_iff in H as [[c1 s1] [E H]]. cbn in E. injection E as _ <-. eauto.
Qed.
Lemma not_heading : forall w rest, w <> [] -> Forall (fun c => zenkaku c = true) w ->
  stops zenkaku rest -> stops (one_of (u "編章節款目条項号")) rest ->
  captures re_article (w ++ rest) = None.
Proof.
  intros w rest Hne Hw Hz Hs. unfold captures.
  assert (X : exec re_article (w ++ rest) = []); [|rewrite X; reflexivity].
  assert (Hstop : forall q : N -> bool, forallb (fun c => negb (q c)) zenkaku_list = true -> stops q (w ++ rest)).
  { intros q Hq. destruct Hw as [|c w Hc _]; [contradiction|]. cbn. apply (zenkaku_not q Hq c Hc). }
  unfold re_article. apply seq_fails_r. intros c s' Hi. apply opt_in in Hi as [Hi|[-> ->]].
  { exfalso. change (Lit (u "第")) with (Lit (uc "第" :: [])) in Hi.
    rewrite lit_fails in Hi; [destruct Hi|]. apply Hstop. vm_compute. reflexivity. }
  apply seq_fails_r. intros c s' Hi. cbn [Alts] in Hi.
  change (exec (Alt (Cap "arabic_num" (chars arabic)) (Alt (Cap "zenkaku_num" (chars zenkaku)) (Cap "kansuji" (chars kanji)))) (w ++ rest))
    with (exec (Cap "arabic_num" (chars arabic)) (w ++ rest) ++ exec (Cap "zenkaku_num" (chars zenkaku)) (w ++ rest)
          ++ exec (Cap "kansuji" (chars kanji)) (w ++ rest)) in Hi.
  rewrite (cap_fails "arabic_num" (chars arabic)) in Hi by (apply plus_fails, Hstop; vm_compute; reflexivity).
  rewrite (cap_fails "kansuji" (chars kanji)) in Hi by (apply plus_fails, Hstop; vm_compute; reflexivity).
  rewrite app_nil_r in Hi. cbn [app] in Hi. apply cap_in in Hi as [c' Hi].
  apply seq_fails_l, cap_fails, suffix_fails.
  apply (plus_chars_rest zenkaku (one_of (u "編章節款目条項号")) w rest c' s'); try assumption.
  apply zenkaku_not. vm_compute. reflexivity.
Qed.

(** ** Matching a label *)
Definition paragraph_branch : re := Seq (Alt (Lit (u "の")) (Lit (u "ノ"))) NumText.digits.
Lemma starts_pbranch : forall n s, stops zenkaku s -> starts paragraph_branch (u "の" ++ to_zenkaku_num n ++ s) [] s.
Proof.
  intros n s Hs. apply (starts_seq _ _ _ [] (to_zenkaku_num n ++ s) []).
  - apply starts_alt_l, starts_lit.
  - apply starts_digits, Hs.
Qed.
Lemma pbranch_stop : forall s, stops (one_of (u "のノ")) s -> exec paragraph_branch s = [].
Proof.
  intros s H. apply seq_fails_l. apply alt_fails.
  - change (Lit (u "の")) with (Lit (uc "の" :: [])). apply lit_fails. destruct s as [|c s]; [exact I|]. cbn [stops] in *.
    destruct (N.eqb_spec (uc "の") c) as [<-|]; [|reflexivity]. vm_compute in H. discriminate.
  - change (Lit (u "ノ")) with (Lit (uc "ノ" :: [])). apply lit_fails. destruct s as [|c s]; [exact I|]. cbn [stops] in *.
    destruct (N.eqb_spec (uc "ノ") c) as [<-|]; [|reflexivity]. vm_compute in H. discriminate.
Qed.
Definition label_branches (l : list N) : ustr := concat (map (fun n => u "の" ++ to_zenkaku_num n) l).
Lemma starts_pbranches : forall l s, stops zenkaku s -> stops (one_of (u "のノ")) s ->
  starts paragraph_branches (label_branches l ++ s) [] s.
Proof.
  intros l s Hk Hn. unfold label_branches. induction l as [|n l IH].
  - apply starts_star_stop. exact (pbranch_stop s Hn).
  - cbn [map concat]. rewrite <- !app_assoc.
    apply (starts_star_step _ _ [] (concat (map (fun n => u "の" ++ to_zenkaku_num n) l) ++ s) []).
    + apply starts_pbranch. apply stops_branches; [vm_compute; reflexivity|exact Hk].
    + change (u "の") with [uc "の"]. rewrite !app_length. cbn [length]. lia.
    + exact IH.
Qed.
Definition label_range_re : re :=
  Seq (Lit (u "から")) (Seq (Cap "num_2" NumText.digits) (Seq (Cap "eda_str_2" paragraph_branches) (Lit (u "まで")))).
Lemma starts_label_range : forall n l s,
  starts label_range_re (u "から" ++ to_zenkaku_num n ++ label_branches l ++ u "まで" ++ s)
    [("num_2", to_zenkaku_num n); ("eda_str_2", label_branches l)] s.
Proof.
  intros n l s. unfold label_range_re. eapply (starts_seq _ _ _ []); [apply starts_lit|].
  eapply (starts_seq _ _ _ [("num_2", _)]).
  - apply starts_cap, starts_digits. apply stops_branches; vm_compute; reflexivity.
  - rewrite <- (app_nil_r [("eda_str_2", _)]). eapply starts_seq; [|apply starts_lit].
    apply starts_cap, starts_pbranches; vm_compute; reflexivity.
Qed.
Definition label_range_caps (r : list N) : caps :=
  match r with [] => [] | n :: l => [("num_2", to_zenkaku_num n); ("eda_str_2", label_branches l)] end.
Lemma label_captures : forall a rest, (range_end_numbers a = [] -> label_follow rest) ->
  captures re_article (paragraph_text a ++ rest) = None /\
  captures re_paragraph (paragraph_text a ++ rest) =
  Some (("num", to_zenkaku_num (base_number a)) :: ("eda_str", label_branches (eda_numbers a))
        :: label_range_caps (range_end_numbers a)).
Proof.
  intros [b e r] rest Hf. unfold paragraph_text. cbn [base_number eda_numbers range_end_numbers] in *.
  fold (label_branches e). rewrite <- !app_assoc.
  set (tail := match r with [] => [] | n :: l => _ end ++ rest).
  assert (Ht : stops zenkaku tail /\ stops (one_of (u "のノ")) tail /\ stops (one_of (u "編章節款目条項号")) tail).
  { destruct r as [|n l]; subst tail.
    - destruct (Hf eq_refl) as [Hf1 _]. cbn [app].
      split; [|split]; eapply not_followed_stops; try exact Hf1; intros c.
      + intros Hc. apply zenkaku_in in Hc. 
        apply in_or_app. left. exact Hc.
      + apply sub_list. vm_compute. reflexivity.
      + apply sub_list. vm_compute. reflexivity.
    - split; [|split]; vm_compute; reflexivity. }
  destruct Ht as [Hz [Hn Hx]]. split.
  - apply not_heading; [apply to_zenkaku_nonempty|apply zenkaku_digits_class| |];
      apply stops_branches; try assumption; vm_compute; reflexivity.
  - apply (starts_captures _ _ _ rest).
    unfold re_paragraph. eapply (starts_seq _ _ _ [("num", _)]).
    { apply starts_cap, starts_digits. apply stops_branches; [vm_compute; reflexivity|assumption]. }
    eapply (starts_seq _ _ _ [("eda_str", _)]); [apply starts_cap, starts_pbranches; assumption|].
    destruct r as [|n l]; subst tail.
    + cbn [label_range_caps app]. apply starts_opt_skip. apply seq_fails_l. apply lit_absent.
      intros w E. destruct (Hf eq_refl) as [_ H]. exact (H w E).
    + cbn [label_range_caps]. apply starts_alt_l. fold (label_branches l). rewrite <- !app_assoc.
      exact (starts_label_range n l rest).
Qed.
Lemma label_number_zenkaku : forall n, (n < 2 ^ 64)%N -> label_number (to_zenkaku_num n) = Ok n.
Proof. intros n H. unfold label_number. rewrite uparse_zenkaku, zenkaku_roundtrip by exact H. reflexivity. Qed.
Lemma label_branches_numbers : forall l, Forall (fun n => n < 2 ^ 64)%N l ->
  all_ok label_number (branches (label_branches l)) = Ok l.
Proof.
  intros l H. unfold label_branches. rewrite branches_concat.
  - apply all_ok_map. intros n Hi. apply label_number_zenkaku. rewrite Forall_forall in H. exact (H n Hi).
  - intros n _. apply zenkaku_absent. vm_compute. reflexivity.
  - intros n _. apply to_zenkaku_nonempty.
Qed.

(** What a paragraph label is read as: the branch numbers of the end of a range are lost. *)
Theorem label_read : forall cd a rest, Forall (fun n => n < 2 ^ 64)%N (numbers a) ->
  (range_end_numbers a = [] -> label_follow rest) ->
  parse_article_number cd (paragraph_text a ++ rest) =
  Ok (Some (mkAN (base_number a) (eda_numbers a) (firstn 1 (range_end_numbers a)))).
Proof.
  intros cd a rest Hn Hf. unfold parse_article_number. destruct (label_captures a rest Hf) as [-> ->].
  destruct a as [b e r]. cbn [base_number eda_numbers range_end_numbers] in *.
  unfold numbers in Hn. cbn [base_number eda_numbers range_end_numbers] in Hn.
  inversion_clear Hn as [|? ? Hb Her]. apply Forall_app in Her as [He Hr].
  unfold read_label, group_text. cbn [group String.eqb Ascii.eqb Bool.eqb unwrap bind].
  rewrite (label_number_zenkaku b Hb). cbn [bind]. rewrite (label_branches_numbers e He). cbn [bind].
  destruct r as [|n l].
  - reflexivity.
  - inversion_clear Hr as [|? ? Hn _]. cbn [label_range_caps group String.eqb Ascii.eqb Bool.eqb firstn].
    rewrite uparse_zenkaku, zenkaku_roundtrip by exact Hn. reflexivity.
Qed.
Theorem label_roundtrip : forall cd a rest, Forall (fun n => n < 2 ^ 64)%N (numbers a) ->
  length (range_end_numbers a) <= 1 -> (range_end_numbers a = [] -> label_follow rest) ->
  parse_article_number cd (paragraph_text a ++ rest) = Ok (Some a).
Proof.
  intros cd a rest Hn Hl Hf. rewrite label_read by assumption. destruct a as [b e [|n [|m l]]]; try reflexivity.
  cbn in Hl. lia.
Qed.
Theorem label_range_lost : forall cd a rest, Forall (fun n => n < 2 ^ 64)%N (numbers a) ->
  1 < length (range_end_numbers a) -> exists a',
  parse_article_number cd (paragraph_text a ++ rest) = Ok (Some a') /\ a' <> a.
Proof.
  intros cd a rest Hn Hl. eexists. split.
  - apply label_read; [exact Hn|]. intros E. rewrite E in Hl. cbn in Hl. lia.
  - destruct a as [b e [|n [|m l]]]; cbn in Hl; try lia. cbn. intros E. discriminate.
Qed.

(** ** Panics *)
Lemma ascii_digits_class : forall n, Forall (fun c => arabic c = true) (ushow n).
Proof.
  intros n. rewrite ushow_digits. apply Forall_forall. intros c Hc. apply in_map_iff in Hc as [d [<- Hd]].
  pose proof (digits_lt n) as H. rewrite Forall_forall in H. specialize (H d Hd).
  unfold arabic. change (uc "0") with 48%N. change (uc "9") with 57%N. apply in_range_true. lia.
Qed.
Lemma ushow_nonempty : forall n, ushow n <> [].
Proof. intros n H. rewrite ushow_digits in H. apply map_eq_nil in H. exact (digits_nonempty n H). Qed.

Lemma exec_starts : forall r s, exec r s <> [] -> exists c s', starts r s c s'.
Proof. intros r s H. unfold starts. destruct (exec r s) as [|[c s'] l]; [contradiction|]. eauto. Qed.
Lemma star_total : forall a s, exec (Star a) s <> [].
Proof. intros a s H. rewrite star_unfold in H. apply app_eq_nil in H as [_ H]. discriminate. Qed.
Lemma opt_total : forall a s, exec (Opt a) s <> [].
Proof. intros a s H. unfold Opt in H. cbn [exec] in H. apply app_eq_nil in H as [_ H]. discriminate. Qed.
Lemma cap_total : forall n a s, exec a s <> [] -> exec (Cap n a) s <> [].
Proof. intros n a s H E. cbn [exec] in E. apply map_eq_nil in E. contradiction. Qed.

(** A heading with a number in ASCII digits that does not fit in a machine integer. *)
Theorem heading_overflow_panics : forall cd n sfx rest, (2 ^ 64 <= n)%N -> In sfx heading_suffixes ->
  parse_article_number cd (ushow n ++ sfx ++ rest) = Panic /\
  parse_article_number cd (u "第" ++ ushow n ++ sfx ++ rest) = Panic.
Proof.
  intros cd n sfx rest Hn Hs.
  assert (Num : starts (Alts [Cap "arabic_num" (chars arabic); Cap "zenkaku_num" (chars zenkaku); Cap "kansuji" (chars kanji)])
     (ushow n ++ sfx ++ rest) [("arabic_num", ushow n)] (sfx ++ rest)).
  { cbn [Alts]. apply starts_alt_l, starts_cap. apply starts_plus_chars; [apply ushow_nonempty|apply ascii_digits_class|].
    apply suffix_stops; [exact Hs|vm_compute; reflexivity]. }
  assert (Tail : exists c s', starts (Seq (Cap "suffix" heading_suffix) (Seq (Cap "eda_str" heading_branches) (Opt range_re)))
     (sfx ++ rest) c s').
  { destruct (exec_starts (Cap "eda_str" heading_branches) rest) as [c1 [s1 H1]];
      [apply cap_total, star_total|].
    destruct (exec_starts (Opt range_re) s1) as [c2 [s2 H2]]; [apply opt_total|].
    exists ([("suffix", sfx)] ++ c1 ++ c2), s2. eapply starts_seq; [apply starts_cap, starts_suffix, Hs|].
    eapply starts_seq; eassumption. }
  destruct Tail as [c [s' Tail]].
  assert (Read : read_heading cd (("arabic_num", ushow n) :: c) = Panic).
  { unfold read_heading, heading_number. cbn [group String.eqb Ascii.eqb Bool.eqb].
    rewrite (uparse_ushow_big n Hn). reflexivity. }
  unfold parse_article_number. split.
  - rewrite (starts_captures re_article _ (("arabic_num", ushow n) :: c) s'); [exact Read|].
    eapply (starts_seq _ _ _ [] (ushow n ++ sfx ++ rest)).
    + apply starts_opt_skip. change (Lit (u "第")) with (Lit (uc "第" :: [])). apply lit_fails.
      pose proof (ascii_digits_class n) as F. pose proof (ushow_nonempty n) as Hne.
      destruct F as [|x l Hx _]; [contradiction|]. cbn [app stops].
      destruct (N.eqb_spec (uc "第") x) as [<-|]; [|reflexivity]. vm_compute in Hx. discriminate.
    + eapply (starts_seq _ _ _ [("arabic_num", ushow n)]); [exact Num|exact Tail].
  - rewrite (starts_captures re_article _ (("arabic_num", ushow n) :: c) s'); [exact Read|].
    eapply (starts_seq _ _ _ [] (ushow n ++ sfx ++ rest)); [apply starts_alt_l, starts_lit|].
    eapply (starts_seq _ _ _ [("arabic_num", ushow n)]); [exact Num|exact Tail].
Qed.

(** A paragraph label whose branch number is written with the katakana [ノ]. *)
Theorem label_katakana_panics : forall cd n m rest, (n < 2 ^ 64)%N -> label_follow rest ->
  parse_article_number cd (to_zenkaku_num n ++ u "ノ" ++ to_zenkaku_num m ++ rest) = Panic.
Proof.
  intros cd n m rest Hn [Hf1 Hf2]. unfold parse_article_number.
  rewrite not_heading; [|apply to_zenkaku_nonempty|apply zenkaku_digits_class|vm_compute; reflexivity|vm_compute; reflexivity].
  assert (Hz : stops zenkaku rest).
  { eapply not_followed_stops; [exact Hf1|]. intros c Hc. apply zenkaku_in in Hc.
     apply in_or_app. left. exact Hc. }
  assert (Hk : stops (one_of (u "のノ")) rest).
  { eapply not_followed_stops; [exact Hf1|]. intros c. apply sub_list. vm_compute. reflexivity. }
  rewrite (starts_captures re_paragraph _ [("num", to_zenkaku_num n); ("eda_str", u "ノ" ++ to_zenkaku_num m)] rest).
  - unfold read_label, group_text. cbn [group String.eqb Ascii.eqb Bool.eqb unwrap bind].
    rewrite (label_number_zenkaku n Hn). cbn [bind].
    assert (E : branches (u "ノ" ++ to_zenkaku_num m) = [u "ノ" ++ to_zenkaku_num m]).
    { unfold branches. rewrite <- (app_nil_r (u "ノ" ++ to_zenkaku_num m)). rewrite usplit_app.
      - cbn [usplit]. rewrite !app_nil_r. reflexivity.
      - intros Hi. apply in_app_or in Hi as [Hi|Hi]; [vm_compute in Hi; destruct Hi as [Hi|[]]; discriminate|].
        exact (zenkaku_absent m (uc "の") eq_refl Hi). }
    rewrite E. cbn [all_ok bind].
    assert (E2 : label_number (u "ノ" ++ to_zenkaku_num m) = Panic).
    { change (u "ノ") with [uc "ノ"]. cbn [app]. unfold label_number.
      rewrite (uparse_high (uc "ノ")) by (vm_compute; first [discriminate|left; reflexivity]).
      rewrite parse_zenkaku_map. cbn [map]. change (unz (uc "ノ")) with 12494%N.
      rewrite (uparse_high 12494) by (first [vm_compute; discriminate|left; reflexivity]). reflexivity. }
    rewrite E2. reflexivity.
  - unfold re_paragraph. eapply (starts_seq _ _ _ [("num", _)]).
    { apply starts_cap, starts_digits. vm_compute. reflexivity. }
    eapply (starts_seq _ _ _ [("eda_str", _)] rest []).
    + rewrite app_assoc. apply starts_cap. rewrite <- app_assoc.
      apply (starts_star_step _ _ [] rest []).
      * apply (starts_seq _ _ _ [] (to_zenkaku_num m ++ rest) []).
        { apply starts_alt_r; [|apply starts_lit]. vm_compute. reflexivity. }
        apply starts_digits, Hz.
      * change (u "ノ") with [uc "ノ"]. rewrite !app_length. cbn [length]. lia.
      * apply starts_star_stop, pbranch_stop, Hk.
    + apply starts_opt_skip. apply seq_fails_l, lit_absent, Hf2.
Qed.
