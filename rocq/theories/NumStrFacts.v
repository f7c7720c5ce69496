(** Proofs about [Num] strings. *)
From Coq Require Import String Ascii List Arith NArith Bool Lia.
From Verif Require Import Base NumStr NumStrSpec BaseFacts.
Import ListNotations.
Open Scope string_scope.

Lemma usize_text_chars : forall s n, usize_text s n ->
  all_chars (fun c => c <> "_"%char /\ c <> ":"%char) s.
Proof.
  intros s n (ds & _ & Hlt & _ & _ & H).
  assert (D : all_chars (fun c => c <> "_"%char /\ c <> ":"%char) (dec_text ds)).
  { apply all_chars_impl with (2 := dec_text_chars _ Hlt).
    intros c [H1 H2]. split; intros ->; vm_compute in H1, H2; intuition congruence. }
  destruct H as [-> | ->]; [exact D|]. cbn. split; [|exact D]. split; discriminate.
Qed.

Lemma nums_text_chars : forall s ns, nums_text s ns -> all_chars (fun c => c <> ":"%char) s.
Proof.
  induction 1.
  - apply all_chars_impl with (2 := usize_text_chars _ _ H). tauto.
  - rewrite !all_chars_app. repeat split; auto; try discriminate.
    apply all_chars_impl with (2 := usize_text_chars _ _ H). tauto.
Qed.

Lemma parse_piece_spec : forall s n, parse_piece s = Ok n <-> usize_text s n.
Proof.
  intros. rewrite <- parse_usize_spec. unfold parse_piece.
  destruct (parse_usize s); split; intros H; inversion H; reflexivity.
Qed.

Lemma parse_pieces_spec : forall s ns,
  parse_pieces (split "_" s) = Ok ns <-> nums_text s ns.
Proof.
  split.
  - remember (split "_" s) as l eqn:E. symmetry in E. revert s ns E.
    induction l as [|x l IH]; intros s ns E H.
    + destruct (split_nonempty _ _ E).
    + cbn in H. destruct (parse_piece x) as [n| |] eqn:Hx; cbn in H; try discriminate.
      apply parse_piece_spec in Hx.
      apply split_inv in E. destruct E as [_ [[-> ->]|(r & -> & Hr)]].
      * cbn in H. injection H as <-. constructor. exact Hx.
      * destruct (parse_pieces l) as [ns'| |] eqn:Hl; cbn in H; try discriminate.
        injection H as <-. apply (nums_cons x n r ns'); auto.
  - induction 1.
    + rewrite split_none.
      * cbn. apply parse_piece_spec in H. rewrite H. reflexivity.
      * apply all_chars_impl with (2 := usize_text_chars _ _ H). tauto.
    + cbn [append]. rewrite split_app.
      * cbn. apply parse_piece_spec in H. rewrite H. cbn. rewrite IHnums_text. reflexivity.
      * apply all_chars_impl with (2 := usize_text_chars _ _ H). tauto.
Qed.

Lemma nums_text_nonempty : forall s, ~ nums_text s [].
Proof. intros s H. inversion H. Qed.

(** Acceptance of [from_num_str], both directions. *)
Lemma from_num_str_spec : forall s a,
  from_num_str s = Ok a <->
  num_text s (base_number a) (eda_numbers a) (range_end_numbers a).
Proof.
  intros s [b e r]. cbn. unfold num_text. split.
  - unfold from_num_str. destruct (split ":" s) as [|x l] eqn:E; [discriminate|].
    destruct (parse_pieces (split "_" x)) as [ns| |] eqn:Hx; cbn; try discriminate.
    apply parse_pieces_spec in Hx.
    destruct ns as [|b' e']; [discriminate|].
    apply split_inv in E. destruct E as [_ [[-> ->]|(t & -> & Ht)]].
    + intros H. injection H as <- <- <-. left. auto.
    + destruct l as [|y l]; [destruct (split_nonempty _ _ Ht)|].
      destruct (parse_pieces (split "_" y)) as [rs| |] eqn:Hy; cbn; try discriminate.
      intros H. injection H as <- <- <-. apply parse_pieces_spec in Hy.
      right. exists x, y. split; [exact Hx|]. split; [exact Hy|].
      apply split_inv in Ht. destruct Ht as [_ [[-> ->]|(u & -> & _)]].
      * left. reflexivity.
      * right. exists u. reflexivity.
  - unfold from_num_str.
    intros [[H ->]|(x & y & Hx & Hy & H)].
    + rewrite split_none by (apply nums_text_chars with (1 := H)).
      apply parse_pieces_spec in H. rewrite H. reflexivity.
    + assert (S : exists l, split ":" s = x :: y :: l).
      { pose proof (nums_text_chars _ _ Hx) as Cx. pose proof (nums_text_chars _ _ Hy) as Cy.
        destruct H as [->|(rest & ->)]; cbn [append].
        - rewrite split_app, split_none; eauto.
        - rewrite split_app by exact Cx. rewrite split_app by exact Cy. eauto. }
      destruct S as (l & ->).
      apply parse_pieces_spec in Hx. apply parse_pieces_spec in Hy.
      rewrite Hx. cbn. rewrite Hy. reflexivity.
Qed.

Lemma parse_pieces_no_panic : forall l, parse_pieces l <> Panic.
Proof.
  induction l as [|s l IH]; cbn; [discriminate|].
  unfold parse_piece. destruct (parse_usize s); cbn; [|discriminate].
  destruct (parse_pieces l); cbn; congruence.
Qed.

Lemma from_num_str_no_panic : forall s, from_num_str s <> Panic.
Proof.
  intros s. unfold from_num_str. destruct (split ":" s) as [|x l] eqn:E.
  - destruct (split_nonempty _ _ E).
  - pose proof (parse_pieces_no_panic (split "_" x)).
    destruct (parse_pieces (split "_" x)) as [[|b e]| |]; cbn; try congruence.
    destruct l as [|y l]; [discriminate|].
    pose proof (parse_pieces_no_panic (split "_" y)).
    destruct (parse_pieces (split "_" y)); cbn; congruence.
Qed.

(** ** Shape of [num_str] *)

(** Text of a non-empty list of numbers. *)
Definition und (l : list N) : string :=
  concat_strings (map (fun n => "_" ++ usize_to_string n) l).

Lemma nums_text_und : forall n l, is_usize n = true -> usizes l ->
  nums_text (usize_to_string n ++ und l) (n :: l).
Proof.
  intros n l Hn Hl. revert n Hn. induction Hl as [|m l Hm _ IH]; intros n Hn.
  - unfold und. cbn. rewrite append_nil_r_s. constructor. apply usize_to_string_text, Hn.
  - unfold und. cbn [map concat_strings fold_right].
    change (("_" ++ usize_to_string m) ++ fold_right append "" (map (fun n => "_" ++ usize_to_string n) l))
      with ("_" ++ (usize_to_string m ++ und l)).
    apply nums_cons; [apply usize_to_string_text, Hn | apply IH, Hm].
Qed.

Lemma num_str_norange : forall b e,
  num_str (mkAN b e []) = usize_to_string b ++ und e.
Proof.
  intros. unfold num_str, und, range_str. cbn [base_number eda_numbers range_end_numbers]. do 2 f_equal. apply map_ext. intros.
  rewrite append_nil_r_s. reflexivity.
Qed.

Lemma num_str_noeda : forall b r, num_str (mkAN b [] r) = usize_to_string b ++ und [].
Proof. reflexivity. Qed.

Lemma range_str_und : forall n l, range_str (n :: l) = ":" ++ (usize_to_string n ++ und l).
Proof. reflexivity. Qed.

Theorem num_str_roundtrip_norange : forall a, an_usize a -> range_end_numbers a = [] ->
  from_num_str (num_str a) = Ok a.
Proof.
  intros [b e r] (Hb & He & _) Hr. cbn in *. subst r.
  apply from_num_str_spec. cbn. left. split; [|reflexivity].
  rewrite num_str_norange. apply nums_text_und; assumption.
Qed.

Theorem num_str_roundtrip_one : forall b e1 r, an_usize (mkAN b [e1] r) ->
  from_num_str (num_str (mkAN b [e1] r)) = Ok (mkAN b [e1] r).
Proof.
  intros b e1 r (Hb & He & Hr). cbn in Hb, He, Hr.
  destruct r as [|r1 r]; [apply num_str_roundtrip_norange; repeat split; auto|].
  inversion Hr; subst. inversion He; subst.
  apply from_num_str_spec. cbn [base_number eda_numbers range_end_numbers].
  right. exists (usize_to_string b ++ und [e1]), (usize_to_string r1 ++ und r).
  split; [apply nums_text_und; assumption|].
  split; [apply nums_text_und; assumption|]. left.
  unfold num_str. cbn [base_number eda_numbers range_end_numbers map concat_strings fold_right].
  rewrite range_str_und. unfold und at 2. cbn [map concat_strings fold_right].
  rewrite !append_nil_r_s, !append_assoc_s. reflexivity.
Qed.

(** Two or more branch numbers: the second branch number is appended to the range and the
    other branch numbers after it are lost. *)
Theorem num_str_two : forall b e1 e2 es r1 r, an_usize (mkAN b (e1 :: e2 :: es) (r1 :: r)) ->
  from_num_str (num_str (mkAN b (e1 :: e2 :: es) (r1 :: r))) =
  Ok (mkAN b [e1] (r1 :: r ++ [e2])).
Proof.
  intros b e1 e2 es r1 r (Hb & He & Hr). cbn in Hb, He, Hr.
  inversion Hr; subst. inversion He as [|? ? He1 He']; subst. inversion He' as [|? ? He2 _]; subst.
  apply from_num_str_spec. cbn [base_number eda_numbers range_end_numbers].
  right. exists (usize_to_string b ++ und [e1]), (usize_to_string r1 ++ und (r ++ [e2])).
  split; [apply nums_text_und; [assumption| constructor; auto; constructor] |].
  split.
  { apply nums_text_und; [assumption|]. apply Forall_app. split; [assumption|].
    constructor; auto; constructor. }
  right.
  exists (usize_to_string r1 ++ und r ++ concat_strings
       (map (fun n => "_" ++ usize_to_string n ++ range_str (r1 :: r)) es)).
  assert (U : forall l1 l2, und (l1 ++ l2) = und l1 ++ und l2).
  { unfold und. induction l1; cbn; intros; [reflexivity|].
    rewrite append_assoc_s. f_equal. f_equal. apply IHl1. }
  rewrite U.
  unfold num_str. cbn [base_number eda_numbers range_end_numbers map concat_strings fold_right].
  fold (concat_strings (map (fun n => "_" ++ usize_to_string n ++ range_str (r1 :: r)) es)).
  rewrite range_str_und.
  replace (und [e1]) with ("_" ++ usize_to_string e1)
    by (unfold und; cbn; rewrite append_nil_r_s; reflexivity).
  replace (und [e2]) with ("_" ++ usize_to_string e2)
    by (unfold und; cbn; rewrite append_nil_r_s; reflexivity).
  repeat (rewrite append_assoc_s || cbn [append]). reflexivity.
Qed.

Theorem num_str_range_iff : forall a, an_usize a -> range_end_numbers a <> [] ->
  (from_num_str (num_str a) = Ok a <-> length (eda_numbers a) = 1%nat).
Proof.
  intros [b e r] Ha Hr. cbn in Hr |- *. destruct e as [|e1 [|e2 es]].
  - split; [|discriminate]. rewrite num_str_noeda.
    change (usize_to_string b ++ und []) with (num_str (mkAN b [] [])).
    rewrite num_str_roundtrip_norange; [|split; [apply Ha|split; constructor] |reflexivity].
    intros H. injection H as H. congruence.
  - split; [reflexivity|]. intros _. apply num_str_roundtrip_one, Ha.
  - split; [|discriminate]. destruct r as [|r1 r]; [congruence|].
    rewrite num_str_two by exact Ha. discriminate.
Qed.

Lemma forallb_usizes : forall l, forallb is_usize l = true <-> usizes l.
Proof. intros. rewrite forallb_forall. unfold usizes. rewrite Forall_forall. reflexivity. Qed.

(** Components read from a text are machine integers. *)
Lemma usize_text_bound : forall s n, usize_text s n -> is_usize n = true.
Proof. intros s n (ds & _ & _ & _ & H & _). apply is_usize_spec, H. Qed.

Lemma nums_text_bound : forall s l, nums_text s l -> usizes l.
Proof.
  induction 1; constructor; eauto using usize_text_bound.
Qed.

Lemma from_num_str_usize : forall s a, from_num_str s = Ok a -> an_usize a.
Proof.
  intros s [b e r] H. apply from_num_str_spec in H. cbn in H.
  unfold an_usize. cbn.
  destruct H as [[H ->]|(x & y & Hx & Hy & _)].
  - apply nums_text_bound in H. inversion H; subst. repeat split; auto. constructor.
  - apply nums_text_bound in Hx. apply nums_text_bound in Hy. inversion Hx; subst. auto.
Qed.

Theorem num_str_roundtrip_iff : forall a,
  from_num_str (num_str a) = Ok a <-> an_ok a = true.
Proof.
  intros a. unfold an_ok. split.
  - intros H. pose proof (from_num_str_usize _ _ H) as U.
    destruct U as (U1 & U2 & U3). pose proof U2 as V2. pose proof U3 as V3.
    apply forallb_usizes in U2. apply forallb_usizes in U3. rewrite U1, U2, U3. cbn [andb].
    destruct (range_end_numbers a) eqn:E; [reflexivity|].
    apply Nat.eqb_eq. apply num_str_range_iff; [|congruence|exact H].
    repeat split; auto. rewrite E. exact V3.
  - rewrite !andb_true_iff, !forallb_usizes. intros [[[H1 H2] H3] H4].
    destruct (range_end_numbers a) eqn:E.
    + apply num_str_roundtrip_norange; [|exact E]. repeat split; auto. rewrite E. exact H3.
    + apply Nat.eqb_eq in H4. apply num_str_range_iff; [|congruence|exact H4].
      repeat split; auto. rewrite E. exact H3.
Qed.

(** [num_str] is injective on range-free numbers, without any bound on the components. *)
Lemma concat_und_inj : forall e1 e2, und e1 = und e2 -> e1 = e2.
Proof.
  assert (D : forall n s m t, (s = "" \/ exists s', s = String "_" s') ->
              (t = "" \/ exists t', t = String "_" t') ->
              usize_to_string n ++ s = usize_to_string m ++ t ->
              usize_to_string n = usize_to_string m /\ s = t).
  { intros n s m t Hs Ht.
    pose proof (usize_to_string_chars n) as Cn. pose proof (usize_to_string_chars m) as Cm.
    revert Cn Cm. generalize (usize_to_string n) (usize_to_string m).
    assert (U : ~ is_digit_char "_"%char) by (intros [H1 H2]; vm_compute in H2; congruence).
    induction s0 as [|c s0 IH]; intros [|d s1] Cn Cm E; cbn in *.
    - auto.
    - destruct Hs as [-> | (s' & ->)]; [discriminate|]. injection E as <- _. tauto.
    - destruct Ht as [-> | (t' & ->)]; [discriminate|]. injection E as -> _. tauto.
    - injection E as <- E. destruct Cn, Cm. destruct (IH s1) as [-> ->]; auto. }
  assert (S : forall e, und e = "" \/ exists s, und e = String "_" s).
  { intros [|n e]; [left; reflexivity|right; eexists; reflexivity]. }
  induction e1 as [|n e1 IH]; intros [|m e2] E; try discriminate; [reflexivity|].
  unfold und in E. cbn [map concat_strings fold_right append] in E. injection E as E.
  apply (D n (und e1) m (und e2)) in E; auto. destruct E as [E1 E2].
  apply usize_to_string_inj in E1. apply IH in E2. congruence.
Qed.

Theorem num_str_inj : forall a b, range_end_numbers a = [] -> range_end_numbers b = [] ->
  num_str a = num_str b -> a = b.
Proof.
  intros [b1 e1 r1] [b2 e2 r2]. cbn [range_end_numbers]. intros -> ->.
  rewrite !num_str_norange. intros E.
  assert (F : und (b1 :: e1) = und (b2 :: e2)).
  { unfold und in *. cbn [map concat_strings fold_right append]. f_equal. exact E. }
  apply concat_und_inj in F. congruence.
Qed.

Theorem num_str_chars : forall a,
  num_str a <> "" /\
  all_chars (fun c => is_digit_char c \/ c = "_"%char \/ c = ":"%char) (num_str a).
Proof.
  intros [b e r]. 
  set (P := fun c => is_digit_char c \/ c = "_"%char \/ c = ":"%char).
  assert (N : forall n, all_chars P (usize_to_string n)).
  { intros. apply all_chars_impl with (2 := usize_to_string_chars n). left. assumption. }
  assert (U : forall l, all_chars P (und l)).
  { induction l; [exact I|]. unfold und. cbn [map concat_strings fold_right].
    rewrite !all_chars_app. repeat split; auto. right. left. reflexivity. }
  assert (Rg : all_chars P (range_str r)).
  { destruct r as [|n l]; [exact I|]. rewrite range_str_und, !all_chars_app.
    repeat split; auto. right. right. reflexivity. }
  split.
  - unfold num_str. cbn [base_number].
    assert (Z : usize_to_string b <> "").
    { unfold usize_to_string. rewrite string_of_digits_text.
      pose proof (digits_nonempty b). destruct (digits b); [congruence|discriminate]. }
    destruct (usize_to_string b); [congruence|discriminate].
  - unfold num_str. cbn [base_number eda_numbers range_end_numbers]. rewrite all_chars_app. split; [apply N|].
    induction e as [|n e IH]; [exact I|]. cbn [map concat_strings fold_right].
    rewrite !all_chars_app. repeat split; auto. right. left. reflexivity.
Qed.

(** ** The statements of [PropNumStr.v] *)
Lemma usizes_lt : forall l, Forall (fun n => n < 2 ^ 64)%N l -> usizes l.
Proof. intros l. apply Forall_impl. intros n. apply is_usize_spec. Qed.

Lemma num_str_roundtrip_C01 : forall b e,
  (b < 2 ^ 64)%N -> Forall (fun n => n < 2 ^ 64)%N e ->
  from_num_str (num_str (mkAN b e [])) = Ok (mkAN b e []).
Proof.
  intros b e Hb He. apply num_str_roundtrip_norange; [|reflexivity].
  split; [apply is_usize_spec, Hb|]. split; [apply usizes_lt, He|constructor].
Qed.

Lemma num_str_nobranch_C02 : forall b r, (b < 2 ^ 64)%N ->
  from_num_str (num_str (mkAN b [] r)) = Ok (mkAN b [] []).
Proof.
  intros b r Hb. change (num_str (mkAN b [] r)) with (num_str (mkAN b [] [])).
  apply num_str_roundtrip_C01; [exact Hb|constructor].
Qed.

Lemma num_str_two_C02 : forall b e1 e2 es r1 r,
  (b < 2 ^ 64)%N -> Forall (fun n => n < 2 ^ 64)%N (e1 :: e2 :: es) ->
  Forall (fun n => n < 2 ^ 64)%N (r1 :: r) ->
  from_num_str (num_str (mkAN b (e1 :: e2 :: es) (r1 :: r))) =
  Ok (mkAN b [e1] (r1 :: r ++ [e2])).
Proof.
  intros. apply num_str_two. split; [apply is_usize_spec; assumption|].
  split; apply usizes_lt; assumption.
Qed.

Lemma num_str_range_C02 : forall b e r,
  (b < 2 ^ 64)%N -> Forall (fun n => n < 2 ^ 64)%N e -> Forall (fun n => n < 2 ^ 64)%N r ->
  r <> [] ->
  exists c, from_num_str (num_str (mkAN b e r)) = Ok c /\
            (c = mkAN b e r <-> length e = 1%nat).
Proof.
  intros b e r Hb He Hr Hne.
  destruct e as [|e1 [|e2 es]].
  - eexists. split; [apply num_str_nobranch_C02, Hb|]. split; intros E; [|discriminate].
    inversion E. subst. contradiction.
  - eexists. split; [apply num_str_roundtrip_one|].
    + split; [apply is_usize_spec, Hb|]. split; apply usizes_lt; assumption.
    + split; reflexivity.
  - destruct r as [|r1 r]; [contradiction|].
    eexists. split; [apply num_str_two_C02; assumption|].
    split; intros E; [inversion E|discriminate].
Qed.

Lemma from_num_str_C03 : forall s b e r,
  from_num_str s = Ok (mkAN b e r) <-> num_text s b e r.
Proof. intros. apply (from_num_str_spec s (mkAN b e r)). Qed.

Lemma from_num_str_total : forall s,
  (exists a, from_num_str s = Ok a) \/ (exists err, from_num_str s = Err err).
Proof.
  intros s. pose proof (from_num_str_no_panic s).
  destruct (from_num_str s); [left|right|contradiction]; eexists; reflexivity.
Qed.

Lemma num_str_inj_C04 : forall b e b' e',
  num_str (mkAN b e []) = num_str (mkAN b' e' []) -> b = b' /\ e = e'.
Proof.
  intros b e b' e' H. apply num_str_inj in H; [|reflexivity|reflexivity].
  inversion H. split; reflexivity.
Qed.

Lemma num_str_clean_C05 : forall a,
  num_str a <> "" /\
  Forall (fun c => In c (list_ascii_of_string "0123456789_:")) (list_ascii_of_string (num_str a)).
Proof.
  intros a. destruct (num_str_chars a) as [H1 H2]. split; [exact H1|].
  revert H2. generalize (num_str a). induction s as [|c s IH]; cbn [all_chars list_ascii_of_string];
    [constructor|]. intros [Hc Hs]. constructor; [|apply IH, Hs].
  destruct Hc as [Hc|[-> | ->]]; [|cbn; tauto|cbn; tauto].
  unfold is_digit_char in Hc. revert Hc.
  destruct c as [[][][][][][][][]]; vm_compute; intuition congruence.
Qed.
