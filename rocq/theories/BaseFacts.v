(** Facts about decimal text and splitting. *)
From Coq Require Import String Ascii List NArith Bool Lia.
From Verif Require Import Base NumStrSpec.
Import ListNotations.
Open Scope string_scope.

Lemma append_assoc_s : forall a b c : string, (a ++ b) ++ c = a ++ (b ++ c).
Proof. induction a; simpl; intros; congruence. Qed.

Lemma append_nil_r_s : forall a : string, a ++ "" = a.
Proof. induction a; simpl; congruence. Qed.

Lemma append_inj_l : forall a b c : string, a ++ b = a ++ c -> b = c.
Proof. induction a; simpl; intros b c H; [exact H | inversion H; auto]. Qed.

(** ** Digits *)

Lemma digits_value_acc : forall l acc,
  fold_left (fun acc d => (acc * 10 + d)%N) l acc =
  (acc * 10 ^ N.of_nat (length l) + dec_value l)%N.
Proof.
  induction l as [|d l IH]; intros acc.
  - cbn. lia.
  - cbn [fold_left dec_value length]. rewrite IH.
    rewrite Nat2N.inj_succ, N.pow_succ_r'. lia.
Qed.

Lemma digits_value_spec : forall l, digits_value l = dec_value l.
Proof. intros. unfold digits_value. rewrite digits_value_acc. lia. Qed.

Lemma digits_value_app : forall l d, digits_value (l ++ [d]) = (digits_value l * 10 + d)%N.
Proof. intros. unfold digits_value. rewrite fold_left_app. reflexivity. Qed.

Lemma digits_rev_value : forall fuel n,
  (n < 2 ^ N.of_nat fuel)%N -> digits_value (rev (digits_rev fuel n)) = n.
Proof.
  induction fuel as [|f IH]; intros n H.
  - cbn in H. assert (n = 0%N) by lia. subst. reflexivity.
  - cbn [digits_rev]. destruct (N.ltb_spec n 10) as [Hn|Hn].
    + cbn. lia.
    + cbn [rev]. rewrite digits_value_app, IH.
      * pose proof (N.div_mod' n 10). lia.
      * rewrite Nat2N.inj_succ, N.pow_succ_r' in H.
        apply N.div_lt_upper_bound; lia.
Qed.

Lemma digits_rev_lt : forall fuel n, Forall (fun d => d < 10)%N (digits_rev fuel n).
Proof.
  induction fuel as [|f IH]; intros n; cbn; [constructor|].
  destruct (N.ltb_spec n 10) as [Hn|Hn]; constructor; auto.
  apply N.mod_lt. lia.
Qed.

Lemma size_nat_bound : forall n, (n < 2 ^ N.of_nat (S (N.size_nat n)))%N.
Proof.
  intros n. rewrite Nat2N.inj_succ, N.pow_succ_r'.
  assert (n < 2 ^ N.of_nat (N.size_nat n))%N; [|lia].
  destruct n as [|p]; [reflexivity|].
  cbn [N.size_nat].
  induction p as [p IH|p IH|].
  - cbn [Pos.size_nat]. rewrite Nat2N.inj_succ, N.pow_succ_r'. lia.
  - cbn [Pos.size_nat]. rewrite Nat2N.inj_succ, N.pow_succ_r'. lia.
  - reflexivity.
Qed.

Lemma digits_lt : forall n, Forall (fun d => d < 10)%N (digits n).
Proof. intros. unfold digits. apply Forall_rev, digits_rev_lt. Qed.

Lemma digits_val : forall n, digits_value (digits n) = n.
Proof. intros. unfold digits. apply digits_rev_value, size_nat_bound. Qed.

Lemma digits_rev_nonempty : forall f n, digits_rev (S f) n <> [].
Proof. intros. cbn. destruct (n <? 10)%N; discriminate. Qed.

Lemma digits_nonempty : forall n, digits n <> [].
Proof.
  intros n H. unfold digits in H.
  apply (digits_rev_nonempty (N.size_nat n) n).
  rewrite <- (rev_involutive (digits_rev _ n)), H. reflexivity.
Qed.

Lemma digits_inj : forall n m, digits n = digits m -> n = m.
Proof. intros n m H. rewrite <- (digits_val n), H, digits_val. reflexivity. Qed.

Lemma digit_of_ascii_of_digit : forall d, (d < 10)%N ->
  digit_of_ascii (ascii_of_digit d) = Some d.
Proof.
  intros d H. unfold digit_of_ascii, ascii_of_digit.
  rewrite N_ascii_embedding by lia.
  assert (N.leb 48 (48 + d) = true) as -> by (apply N.leb_le; lia).
  assert (N.leb (48 + d) 57 = true) as -> by (apply N.leb_le; lia).
  cbn [andb]. f_equal. lia.
Qed.

Lemma digit_of_ascii_spec : forall c d, digit_of_ascii c = Some d ->
  (d < 10)%N /\ c = ascii_of_digit d.
Proof.
  intros c d. unfold digit_of_ascii, ascii_of_digit.
  destruct (N.leb_spec 48 (N_of_ascii c)); cbn [andb]; [|discriminate].
  destruct (N.leb_spec (N_of_ascii c) 57); cbn [andb]; [|discriminate].
  intros E. injection E as <-. split; [lia|].
  replace (48 + (N_of_ascii c - 48))%N with (N_of_ascii c) by lia.
  symmetry. apply ascii_N_embedding.
Qed.

Lemma string_of_digits_text : forall l, string_of_digits l = dec_text l.
Proof. induction l; cbn; [reflexivity|]. unfold ascii_of_digit. f_equal. exact IHl. Qed.

Lemma digits_of_string_of_digits : forall l, Forall (fun d => d < 10)%N l ->
  digits_of_string (dec_text l) = Some l.
Proof.
  induction 1 as [|d l Hd Hl IH]; [reflexivity|].
  cbn [dec_text digits_of_string]. rewrite IH.
  change (ascii_of_N (48 + d)) with (ascii_of_digit d).
  rewrite digit_of_ascii_of_digit by exact Hd. reflexivity.
Qed.

Lemma digits_of_string_spec : forall s l, digits_of_string s = Some l ->
  Forall (fun d => d < 10)%N l /\ s = dec_text l.
Proof.
  induction s as [|c s IH]; intros l H; cbn in H.
  - injection H as <-. split; constructor.
  - destruct (digit_of_ascii c) as [d|] eqn:Hc; [|discriminate].
    destruct (digits_of_string s) as [l'|]; [|discriminate].
    injection H as <-. destruct (IH _ eq_refl) as [Hl ->].
    apply digit_of_ascii_spec in Hc. destruct Hc as [Hd ->].
    split; [constructor; assumption | reflexivity].
Qed.

Lemma dec_text_not_plus : forall ds r, Forall (fun d => d < 10)%N ds ->
  dec_text ds <> String "+" r.
Proof.
  intros ds r H. destruct H as [|d l Hd _]; [discriminate|].
  cbn [dec_text]. intros E.
  apply (f_equal (fun s => match s with String c _ => digit_of_ascii c | _ => None end)) in E.
  cbv beta iota in E.
  change (ascii_of_N (48 + d)) with (ascii_of_digit d) in E.
  rewrite digit_of_ascii_of_digit in E by exact Hd. discriminate E.
Qed.

Lemma usize_bound_pow : usize_bound = (2 ^ 64)%N.
Proof. reflexivity. Qed.

Lemma is_usize_spec : forall n, is_usize n = true <-> (n < 2 ^ 64)%N.
Proof. intros. unfold is_usize. rewrite N.ltb_lt, usize_bound_pow. reflexivity. Qed.

(** [parse_usize] accepts exactly the texts of the specification. *)
Lemma parse_usize_spec : forall s n, parse_usize s = Some n <-> usize_text s n.
Proof.
  assert (core : forall body n,
    match digits_of_string body with
    | Some (d :: l) =>
        let v := digits_value (d :: l) in if is_usize v then Some v else None
    | _ => None
    end = Some n <->
    exists ds, ds <> [] /\ Forall (fun d => d < 10)%N ds /\ dec_value ds = n /\
               (n < 2 ^ 64)%N /\ body = dec_text ds).
  { intros body n. split.
    - destruct (digits_of_string body) as [[|d l]|] eqn:E; try discriminate.
      apply digits_of_string_spec in E. destruct E as [Hl ->].
      cbv zeta. destruct (is_usize (digits_value (d :: l))) eqn:B; [|discriminate].
      intros E. injection E as <-. rewrite is_usize_spec in B.
      rewrite digits_value_spec in *.
      exists (d :: l). repeat split; auto. discriminate.
    - intros (ds & Hne & Hlt & Hv & Hb & ->).
      rewrite digits_of_string_of_digits by exact Hlt.
      destruct ds as [|d l]; [congruence|]. cbv zeta.
      rewrite digits_value_spec, Hv. apply is_usize_spec in Hb. rewrite Hb. reflexivity. }
  intros s n. unfold parse_usize, usize_text.
  destruct s as [|c r].
  - rewrite core. split; intros (ds & H1 & H2 & H3 & H4 & H5); exists ds; repeat split; auto.
    destruct H5 as [H5|H5]; [exact H5|discriminate H5].
  - destruct (Ascii.eqb_spec c "+"%char) as [->|Hc].
    + rewrite core. split; intros (ds & H1 & H2 & H3 & H4 & H5); exists ds; repeat split; auto.
      * right. rewrite <- H5. reflexivity.
      * destruct H5 as [H5|H5].
        -- symmetry in H5. destruct (dec_text_not_plus _ _ H2 H5).
        -- injection H5 as H5. exact H5.
    + rewrite core. split; intros (ds & H1 & H2 & H3 & H4 & H5); exists ds; repeat split; auto.
      destruct H5 as [H5|H5]; [exact H5|]. injection H5 as H5 _. congruence.
Qed.

Lemma usize_to_string_text : forall n, is_usize n = true -> usize_text (usize_to_string n) n.
Proof.
  intros n H. exists (digits n). split; [apply digits_nonempty|].
  split; [apply digits_lt|]. rewrite <- digits_value_spec, digits_val.
  split; [reflexivity|]. rewrite is_usize_spec in H. split; [exact H|].
  left. apply string_of_digits_text.
Qed.

Lemma parse_usize_to_string : forall n, is_usize n = true ->
  parse_usize (usize_to_string n) = Some n.
Proof. intros. apply parse_usize_spec, usize_to_string_text. assumption. Qed.

Lemma usize_to_string_inj : forall n m, usize_to_string n = usize_to_string m -> n = m.
Proof.
  intros n m H. unfold usize_to_string in H. rewrite !string_of_digits_text in H.
  apply (f_equal digits_of_string) in H.
  rewrite !digits_of_string_of_digits in H by apply digits_lt.
  injection H as H. apply digits_inj. exact H.
Qed.

(** ** Characters occurring in a string *)

Fixpoint all_chars (P : ascii -> Prop) (s : string) : Prop :=
  match s with
  | EmptyString => True
  | String c r => P c /\ all_chars P r
  end.

Lemma all_chars_app : forall P a b,
  all_chars P (a ++ b) <-> all_chars P a /\ all_chars P b.
Proof. induction a; cbn; intros; [tauto|]. rewrite IHa. tauto. Qed.

Lemma all_chars_impl : forall (P Q : ascii -> Prop) s, (forall c, P c -> Q c) ->
  all_chars P s -> all_chars Q s.
Proof. induction s; cbn; intros; [exact I|]. intuition. Qed.

Definition is_digit_char (c : ascii) : Prop := (48 <= N_of_ascii c <= 57)%N.

Lemma dec_text_chars : forall l, Forall (fun d => d < 10)%N l ->
  all_chars is_digit_char (dec_text l).
Proof.
  induction 1 as [|d l Hd _ IH]; cbn [dec_text all_chars]; [exact I|]. split; [|exact IH].
  unfold is_digit_char. rewrite N_ascii_embedding by lia. lia.
Qed.

Lemma usize_to_string_chars : forall n, all_chars is_digit_char (usize_to_string n).
Proof.
  intros. unfold usize_to_string. rewrite string_of_digits_text.
  apply dec_text_chars, digits_lt.
Qed.

(** ** Splitting *)

Lemma split_nonempty : forall c s, split c s <> [].
Proof.
  destruct s; cbn; [discriminate|].
  destruct (Ascii.eqb a c); [discriminate|]. destruct (split c s); discriminate.
Qed.

Lemma split_none : forall c s, all_chars (fun a => a <> c) s -> split c s = [s].
Proof.
  induction s as [|a s IH]; cbn; intros H; [reflexivity|].
  destruct H as [Ha Hs]. destruct (Ascii.eqb_spec a c); [contradiction|].
  rewrite IH by exact Hs. reflexivity.
Qed.

Lemma split_app : forall c a b, all_chars (fun x => x <> c) a ->
  split c (a ++ String c b) = a :: split c b.
Proof.
  induction a as [|x a IH]; cbn; intros b H.
  - rewrite Ascii.eqb_refl. reflexivity.
  - destruct H as [Hx Ha]. destruct (Ascii.eqb_spec x c); [contradiction|].
    rewrite IH by exact Ha. reflexivity.
Qed.

(** A split is the first piece, or the first piece, the separator and a split of the rest. *)
Lemma split_inv : forall c s x l, split c s = x :: l ->
  all_chars (fun a => a <> c) x /\
  ((l = [] /\ s = x) \/ (exists r, s = x ++ String c r /\ split c r = l)).
Proof.
  induction s as [|a s IH]; cbn; intros x l H.
  - injection H as <- <-. split; [exact I|]. left. auto.
  - destruct (Ascii.eqb_spec a c) as [->|Ha].
    + injection H as <- <-. split; [exact I|]. right. exists s. auto.
    + destruct (split c s) as [|x' l'] eqn:E.
      * destruct (split_nonempty c s E).
      * injection H as <- <-. destruct (IH _ _ eq_refl) as [H1 H2].
        split; [split; assumption|].
        destruct H2 as [[-> ->]|(r & -> & Hr)]; [left; auto|].
        right. exists r. auto.
Qed.
