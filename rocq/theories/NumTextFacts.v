(** Facts about number texts. *)
From Coq Require Import String Ascii List NArith ZArith Bool Arith Lia.
From Verif Require Import Base BaseFacts NumStr NumStrSpec NumStrFacts Regex RegexFacts NumText NumTextSpec.
Import ListNotations.
Open Scope list_scope.

(** ** Decimal digits *)
Lemma of_ascii_digits : forall l, Forall (fun d => d < 10)%N l ->
  of_ascii (string_of_digits l) = map (fun d => 48 + d)%N l.
Proof.
  intros l H. unfold of_ascii, string_of_digits. rewrite list_ascii_of_string_of_list_ascii, map_map.
  apply map_ext_in. intros d Hd. rewrite Forall_forall in H. specialize (H d Hd). unfold ascii_of_digit.
  apply N_ascii_embedding. lia.
Qed.
Lemma ushow_digits : forall n, ushow n = map (fun d => 48 + d)%N (Base.digits n).
Proof. intros n. unfold ushow, usize_to_string. apply of_ascii_digits, digits_lt. Qed.

Lemma uparse_digits : forall l, Forall (fun d => d < 10)%N l ->
  uparse (map (fun d => 48 + d)%N l) = parse_usize (string_of_digits l).
Proof.
  intros l H. unfold uparse, to_ascii.
  replace (forallb (fun c => N.ltb c 128) (map (fun d => (48 + d)%N) l)) with true.
  - unfold string_of_digits. rewrite map_map. reflexivity.
  - symmetry. apply forallb_forall. intros c Hc. apply in_map_iff in Hc as [d [<- Hd]].
    rewrite Forall_forall in H. specialize (H d Hd). apply N.ltb_lt. lia.
Qed.
Lemma parse_usize_digits : forall n, (n < 2 ^ 64)%N -> parse_usize (usize_to_string n) = Some n.
Proof.
  intros n H. apply parse_usize_spec. exists (Base.digits n).
  split; [apply digits_nonempty|]. split; [apply digits_lt|]. split; [rewrite <- digits_value_spec; apply digits_val|].
  split; [exact H|]. left. unfold usize_to_string. apply string_of_digits_text.
Qed.
Lemma uparse_ushow : forall n, (n < 2 ^ 64)%N -> uparse (ushow n) = Some n.
Proof. intros n H. rewrite ushow_digits, uparse_digits by apply digits_lt. apply parse_usize_digits, H. Qed.
Lemma uparse_ushow_big : forall n, (2 ^ 64 <= n)%N -> uparse (ushow n) = None.
Proof.
  intros n H. rewrite ushow_digits, uparse_digits by apply digits_lt. fold (usize_to_string n).
  destruct (parse_usize (usize_to_string n)) as [m|] eqn:E; [|reflexivity].
  apply parse_usize_spec in E as [ds [Hne [Hd [Hv [Hb [Ht|Ht]]]]]]; exfalso.
  - unfold usize_to_string in Ht. rewrite string_of_digits_text in Ht.
    assert (X : Some (Base.digits n) = Some ds).
    { rewrite <- (digits_of_string_of_digits _ (digits_lt n)), <- (digits_of_string_of_digits _ Hd). congruence. }
    injection X as <-. rewrite <- digits_value_spec, digits_val in Hv. lia.
  - unfold usize_to_string in Ht. rewrite string_of_digits_text in Ht.
    apply (dec_text_not_plus _ (dec_text ds) (digits_lt n)). exact Ht.
Qed.
Lemma uparse_high : forall c s, (128 <= c)%N -> In c s -> uparse s = None.
Proof.
  intros c s Hc Hi. unfold uparse, to_ascii. destruct (forallb _ s) eqn:E; [|reflexivity].
  rewrite forallb_forall in E. specialize (E c Hi). apply N.ltb_lt in E. lia.
Qed.

(** ** Full-width digits *)
Definition unz (c : N) : N := if in_range 65296 65305 c then (c - 65248)%N else c.
Definition toz (c : N) : N := if in_range 48 57 c then (c + 65248)%N else c.

Lemma map_replace : forall a b s, replace a b s = map (fun c => if N.eqb c a then b else c) s.
Proof. reflexivity. Qed.

Lemma cases10 : forall c lo, in_range lo (lo + 9) c = true ->
  c = lo \/ c = (lo + 1)%N \/ c = (lo + 2)%N \/ c = (lo + 3)%N \/ c = (lo + 4)%N \/ c = (lo + 5)%N \/
  c = (lo + 6)%N \/ c = (lo + 7)%N \/ c = (lo + 8)%N \/ c = (lo + 9)%N.
Proof. intros c lo H. apply andb_true_iff in H as [H1 H2]. apply N.leb_le in H1, H2. lia. Qed.

Lemma in_range_false : forall lo hi c, in_range lo hi c = false <-> (c < lo \/ hi < c)%N.
Proof.
  intros lo hi c. unfold in_range. rewrite andb_false_iff, !N.leb_gt. reflexivity.
Qed.
Lemma in_range_true : forall lo hi c, in_range lo hi c = true <-> (lo <= c <= hi)%N.
Proof. intros lo hi c. unfold in_range. rewrite andb_true_iff, !N.leb_le. reflexivity. Qed.

Lemma parse_zenkaku_map : forall s, parse_zenkaku_num s = uparse (map unz s).
Proof.
  intros s. unfold parse_zenkaku_num. f_equal. rewrite !map_replace, !map_map. apply map_ext. intros c.
  change (uc "０") with 65296%N. change (uc "１") with 65297%N. change (uc "２") with 65298%N.
  change (uc "３") with 65299%N. change (uc "４") with 65300%N. change (uc "５") with 65301%N.
  change (uc "６") with 65302%N. change (uc "７") with 65303%N. change (uc "８") with 65304%N.
  change (uc "９") with 65305%N.
  change (uc "0") with 48%N. change (uc "1") with 49%N. change (uc "2") with 50%N.
  change (uc "3") with 51%N. change (uc "4") with 52%N. change (uc "5") with 53%N.
  change (uc "6") with 54%N. change (uc "7") with 55%N. change (uc "8") with 56%N.
  change (uc "9") with 57%N.
  unfold unz. destruct (in_range 65296 65305 c) eqn:E.
  - apply (cases10 c 65296) in E. repeat (destruct E as [->|E]; [vm_compute; reflexivity|]). subst c. vm_compute. reflexivity.
  - apply in_range_false in E.
    repeat match goal with |- context [N.eqb c ?k] => replace (N.eqb c k) with false by (symmetry; apply N.eqb_neq; lia) end.
    reflexivity.
Qed.
Lemma to_zenkaku_map : forall n, to_zenkaku_num n = map toz (ushow n).
Proof.
  intros s. unfold to_zenkaku_num. rewrite !map_replace, !map_map. apply map_ext. intros c.
  change (uc "０") with 65296%N. change (uc "１") with 65297%N. change (uc "２") with 65298%N.
  change (uc "３") with 65299%N. change (uc "４") with 65300%N. change (uc "５") with 65301%N.
  change (uc "６") with 65302%N. change (uc "７") with 65303%N. change (uc "８") with 65304%N.
  change (uc "９") with 65305%N.
  change (uc "0") with 48%N. change (uc "1") with 49%N. change (uc "2") with 50%N.
  change (uc "3") with 51%N. change (uc "4") with 52%N. change (uc "5") with 53%N.
  change (uc "6") with 54%N. change (uc "7") with 55%N. change (uc "8") with 56%N.
  change (uc "9") with 57%N.
  unfold toz. destruct (in_range 48 57 c) eqn:E.
  - apply (cases10 c 48) in E. repeat (destruct E as [->|E]; [vm_compute; reflexivity|]). subst c. vm_compute. reflexivity.
  - apply in_range_false in E.
    repeat match goal with |- context [N.eqb c ?k] => replace (N.eqb c k) with false by (symmetry; apply N.eqb_neq; lia) end.
    reflexivity.
Qed.
Lemma to_zenkaku_digits : forall n, to_zenkaku_num n = map (fun d => 65296 + d)%N (Base.digits n).
Proof.
  intros n. rewrite to_zenkaku_map, ushow_digits, map_map. apply map_ext_in. intros d Hd.
  pose proof (digits_lt n) as H. rewrite Forall_forall in H. specialize (H d Hd). unfold toz.
  replace (in_range 48 57 (48 + d)) with true by (symmetry; apply in_range_true; lia). lia.
Qed.
Lemma zenkaku_digits_class : forall n, Forall (fun c => zenkaku c = true) (to_zenkaku_num n).
Proof.
  intros n. rewrite to_zenkaku_digits. apply Forall_forall. intros c Hc. apply in_map_iff in Hc as [d [<- Hd]].
  pose proof (digits_lt n) as H. rewrite Forall_forall in H. specialize (H d Hd).
  unfold zenkaku. change (uc "０") with 65296%N. change (uc "９") with 65305%N. apply in_range_true. lia.
Qed.
Lemma to_zenkaku_nonempty : forall n, to_zenkaku_num n <> [].
Proof.
  intros n H. rewrite to_zenkaku_digits in H. apply map_eq_nil in H. exact (digits_nonempty n H).
Qed.
Lemma unz_zenkaku : forall n, map unz (to_zenkaku_num n) = ushow n.
Proof.
  intros n. rewrite to_zenkaku_digits, ushow_digits, map_map. apply map_ext_in. intros d Hd.
  pose proof (digits_lt n) as H. rewrite Forall_forall in H. specialize (H d Hd). unfold unz.
  replace (in_range 65296 65305 (65296 + d)) with true by (symmetry; apply in_range_true; lia). lia.
Qed.
Theorem zenkaku_roundtrip : forall n, (n < 2 ^ 64)%N -> parse_zenkaku_num (to_zenkaku_num n) = Some n.
Proof. intros n H. rewrite parse_zenkaku_map, unz_zenkaku. apply uparse_ushow, H. Qed.
Lemma map_inj : forall A B (f : A -> B), (forall x y, f x = f y -> x = y) -> forall l r, map f l = map f r -> l = r.
Proof.
  intros A B f Hf l. induction l as [|x l IH]; intros [|y r] H; try discriminate; [reflexivity|].
  cbn [map] in H. injection H as H1 H2. f_equal; [apply Hf, H1|apply IH, H2].
Qed.
Theorem zenkaku_inj : forall n m, to_zenkaku_num n = to_zenkaku_num m -> n = m.
Proof.
  intros n m H. apply digits_inj. rewrite !to_zenkaku_digits in H.
  revert H. apply map_inj. intros x y E. lia.
Qed.
Lemma uparse_zenkaku : forall n, uparse (to_zenkaku_num n) = None.
Proof.
  intros n. pose proof (zenkaku_digits_class n) as H. pose proof (to_zenkaku_nonempty n) as Hn.
  destruct H as [|c l Hc _]; [contradiction|]. apply (uparse_high c); [|left; reflexivity].
  apply in_range_true in Hc. change (uc "０") with 65296%N in Hc. lia.
Qed.

(** ** Iroha *)
Lemma iroha_letters_spec : forall poem t n s,
  t = combine (map N.of_nat (seq 1 (length poem))) poem ->
  forall tbl, map (fun p => (fst p, u (snd p))) tbl = map (fun p => (fst p, [snd p])) t ->
  match_number tbl n = Some s <-> iroha_number poem s n.
Proof.
  intros poem t n s -> tbl Ht. unfold iroha_number.
  assert (X : forall k (poem : ustr) (tbl : list (N * string)),
    map (fun p => (fst p, u (snd p))) tbl = map (fun p => (fst p, [snd p])) (combine (map N.of_nat (seq k (length poem))) poem) ->
    match_number tbl n = Some s <-> exists i c, nth_error poem i = Some c /\ s = [c] /\ n = N.of_nat (k + i)).
  { clear. intros k poem. revert k. induction poem as [|c poem IH]; intros k tbl Ht.
    - destruct tbl; [|discriminate]. cbn. split; [discriminate|]. intros [[|i] [c [H _]]]; discriminate.
    - destruct tbl as [|[m x] tbl]; [discriminate|]. cbn [map combine fst snd seq length] in Ht. injection Ht as -> Hx Ht. cbn [match_number].
      destruct (N.eqb_spec n (N.of_nat k)) as [->|Hn].
      + rewrite Hx. split.
        * intros H. injection H as <-. exists 0, c. rewrite Nat.add_0_r. auto.
        * intros [[|i] [d [H [-> E]]]]; [cbn in H; congruence|]. apply Nat2N.inj in E. lia.
      + rewrite (IH (S k) tbl Ht). split.
        * intros [i [d [H [-> ->]]]]. exists (S i), d. split; [exact H|]. split; [reflexivity|f_equal; lia].
        * intros [[|i] [d [H [-> E]]]]; [rewrite Nat.add_0_r in E; contradiction|].
          exists i, d. split; [exact H|]. split; [reflexivity|]. rewrite E. f_equal. lia. }
  exact (X 1 poem tbl Ht).
Qed.
Lemma iroha_numbers_spec : forall poem s n, NoDup poem ->
  forall tbl, map (fun p => (u (fst p), snd p)) tbl =
    map (fun p => ([snd p], fst p)) (combine (map N.of_nat (seq 1 (length poem))) poem) ->
  match_text tbl s = Some n <-> iroha_number poem s n.
Proof.
  intros poem s n Hd tbl Ht. unfold iroha_number.
  assert (X : forall k (poem : ustr) (tbl : list (string * N)), NoDup poem ->
    map (fun p => (u (fst p), snd p)) tbl = map (fun p => ([snd p], fst p)) (combine (map N.of_nat (seq k (length poem))) poem) ->
    match_text tbl s = Some n <-> exists i c, nth_error poem i = Some c /\ s = [c] /\ n = N.of_nat (k + i)).
  { clear. intros k poem. revert k. induction poem as [|c poem IH]; intros k tbl Hd Ht.
    - destruct tbl; [|discriminate]. cbn. split; [discriminate|]. intros [[|i] [c [H _]]]; discriminate.
    - destruct tbl as [|[x m] tbl]; [discriminate|]. cbn [map combine fst snd seq length] in Ht. injection Ht as Hx -> Ht. cbn [match_text].
      inversion_clear Hd as [|? ? Hc Hd']. rewrite Hx.
      destruct (ueqb s [c]) eqn:E.
      + apply ueqb_eq in E. subst s. split.
        * intros H. injection H as <-. exists 0, c. rewrite Nat.add_0_r. auto.
        * intros [[|i] [d [H [E ->]]]]; [rewrite Nat.add_0_r; reflexivity|]. injection E as <-. exfalso. apply Hc.
          eapply nth_error_In. exact H.
      + rewrite (IH (S k) tbl Hd' Ht). split.
        * intros [i [d [H [-> ->]]]]. exists (S i), d. split; [exact H|]. split; [reflexivity|f_equal; lia].
        * intros [[|i] [d [H [-> E']]]].
          { cbn in H. injection H as <-. exfalso. assert (ueqb [c] [c] = true) by (apply ueqb_eq; reflexivity). congruence. }
          exists i, d. split; [exact H|]. split; [reflexivity|]. rewrite E'. f_equal. lia. }
  exact (X 1 poem tbl Hd Ht).
Qed.

Fixpoint nodup_b (l : ustr) : bool :=
  match l with [] => true | c :: r => negb (existsb (N.eqb c) r) && nodup_b r end.
Lemma nodup_b_spec : forall l, nodup_b l = true -> NoDup l.
Proof.
  induction l as [|c l IH]; intros H; constructor; apply andb_true_iff in H as [H1 H2]; [|auto].
  intros Hi. apply negb_true_iff in H1. rewrite <- not_true_iff_false in H1. apply H1. apply existsb_exists.
  exists c. split; [exact Hi|apply N.eqb_refl].
Qed.
Lemma katakana_letter : forall n s, to_iroha_katakana n = Some s <-> iroha_number iroha_katakana s n.
Proof. intros n s. eapply iroha_letters_spec; [reflexivity|vm_compute; reflexivity]. Qed.
Lemma hiragana_letter : forall n s, to_iroha_hiragana n = Some s <-> iroha_number iroha_hiragana s n.
Proof. intros n s. eapply iroha_letters_spec; [reflexivity|vm_compute; reflexivity]. Qed.
Lemma katakana_number : forall s n, parse_iroha_katakana s = Some n <-> iroha_number iroha_katakana s n.
Proof. intros s n. apply iroha_numbers_spec; [apply nodup_b_spec; vm_compute; reflexivity|vm_compute; reflexivity]. Qed.
Lemma hiragana_number : forall s n, parse_iroha_hiragana s = Some n <-> iroha_number iroha_hiragana s n.
Proof. intros s n. apply iroha_numbers_spec; [apply nodup_b_spec; vm_compute; reflexivity|vm_compute; reflexivity]. Qed.
Lemma iroha_domain : forall poem n, length poem = 47 ->
  (exists s, iroha_number poem s n) <-> (1 <= n <= 47)%N.
Proof.
  intros poem n H. split.
  - intros [s [i [c [Hi [_ ->]]]]]. assert (i < length poem) by (apply nth_error_Some; congruence). lia.
  - intros Hn. destruct (nth_error poem (N.to_nat n - 1)) as [c|] eqn:E.
    + exists [c], (N.to_nat n - 1), c. split; [exact E|]. split; [reflexivity|]. lia.
    + apply nth_error_None in E. lia.
Qed.
