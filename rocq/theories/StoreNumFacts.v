(** The numbers of the lines of a plain text are machine integers. *)
From Coq Require Import String List NArith ZArith Bool Arith Lia.
From Verif Require Import Base NumStr Ast Regex NumText NumTextSpec TextParse TextSpec NumberSpec ItemSpec
  NumberFacts ItemReadFacts ClassifyFacts StoreSpec.
Import ListNotations.
Open Scope list_scope.

(** ** The numbers of lines *)
Lemma pow64 : (0 < 2 ^ 64)%N. Proof. reflexivity. Qed.
Lemma mod64 : forall n, (n mod 2 ^ 64 < 2 ^ 64)%N.
Proof. intros n. apply N.mod_lt. discriminate. Qed.
Lemma fits_machine : forall n m, fits n = Some m -> (m < 2 ^ 64)%N.
Proof. intros n m. unfold fits. destruct (N.ltb_spec n (2 ^ 64)); [intros E; injection E as <-; assumption|discriminate]. Qed.
Lemma kansuji_machine : forall cd w n, kansuji cd w = Some n -> (n < 2 ^ 64)%N.
Proof. intros cd w n. unfold kansuji. destruct (unkan cd w); [|discriminate]. cbn [option_map]. intros E. injection E as <-. apply mod64. Qed.
Lemma decimal_machine : forall t n, decimal t = Some n -> (n < 2 ^ 64)%N.
Proof. intros [k w] n. unfold decimal. cbn [fst snd]. destruct k; try discriminate; unfold decimal_value; apply fits_machine. Qed.
Lemma branch_machine : forall cd t n, branch_value cd t = Some n -> (n < 2 ^ 64)%N.
Proof.
  intros cd t n. unfold branch_value. destruct (decimal t) eqn:E.
  - intros Q. injection Q as <-. exact (decimal_machine _ _ E).
  - apply kansuji_machine.
Qed.
Lemma first_machine : forall cd t n, first_value cd t = Ok (Some n) -> (n < 2 ^ 64)%N.
Proof.
  intros cd t n. unfold first_value. destruct (decimal t) eqn:E.
  - intros Q. assert (n0 = n) by (destruct (fst t); injection Q; auto). subst. exact (decimal_machine _ _ E).
  - destruct (fst t); try discriminate. intros Q. injection Q as Q. exact (kansuji_machine _ _ _ Q).
Qed.
Lemma sequence_machine : forall (l : list (option N)) r, (forall n, In (Some n) l -> (n < 2 ^ 64)%N) ->
  sequence l = Some r -> machine r.
Proof.
  induction l as [|[n|] l IH]; intros r H Q; [injection Q as <-; constructor| |discriminate].
  cbn [sequence] in Q. destruct (sequence l) as [r'|] eqn:E; [|discriminate]. injection Q as <-.
  constructor; [apply H; left; reflexivity|]. apply IH; [|reflexivity]. intros m Hm. apply H. right. exact Hm.
Qed.
Lemma piece_machine : forall cd p n, heading_piece cd p = Some n -> (n < 2 ^ 64)%N.
Proof. intros cd [t|w] n; [apply branch_machine|apply kansuji_machine]. Qed.
Lemma label_piece_machine : forall p n, label_piece p = Some n -> (n < 2 ^ 64)%N.
Proof. intros [t|w] n; [apply decimal_machine|discriminate]. Qed.
Lemma map_machine : forall A (f : A -> option N) l r, (forall x n, f x = Some n -> (n < 2 ^ 64)%N) ->
  sequence (map f l) = Some r -> machine r.
Proof.
  intros A f l r H. apply sequence_machine. intros n Hn. apply in_map_iff in Hn. destruct Hn as (x & E & _). exact (H _ _ E).
Qed.

Lemma number_machine : forall cd s n, number_reading cd s (Ok (Some n)) -> machine_number n.
Proof.
  intros cd s n [(h & _ & E)|[(_ & h & _ & E)|(_ & _ & E)]]; [| |discriminate].
  - unfold heading_value in E. destruct (first_value cd (nb_first h)) as [[b|]| |] eqn:Eb; cbn [bind] in E; try discriminate E.
    destruct (sequence (map _ (nb_branches h))) as [e|] eqn:Ee; [|discriminate].
    apply first_machine in Eb. apply map_machine in Ee; [|intros x m; apply branch_machine].
    destruct (nb_end h) as [[m l]|].
    + destruct (first_value cd m) as [[b'|]| |] eqn:Em; cbn [bind] in E; try discriminate E.
      destruct (sequence (map _ (pieces l))) as [f|] eqn:Ef; [|discriminate]. injection E as ->.
      apply first_machine in Em. apply map_machine in Ef; [|apply piece_machine].
      constructor; [exact Eb|]. apply Forall_app. split; [exact Ee|]. constructor; assumption.
    + injection E as ->. constructor; [exact Eb|]. apply Forall_app. split; [exact Ee|constructor].
  - unfold label_value in E. destruct (decimal (nb_first h)) as [b|] eqn:Eb; [|discriminate].
    destruct (sequence (map _ (pieces (nb_branches h)))) as [e|] eqn:Ee; [|discriminate].
    apply decimal_machine in Eb. apply map_machine in Ee; [|apply label_piece_machine].
    destruct (nb_end h) as [[m l]|].
    + destruct (decimal m) as [f|] eqn:Ef; cbn [option_map] in E; [|discriminate]. injection E as ->.
      apply decimal_machine in Ef. constructor; [exact Eb|]. apply Forall_app. split; [exact Ee|]. constructor; [exact Ef|constructor].
    + injection E as ->. constructor; [exact Eb|]. apply Forall_app. split; [exact Ee|constructor].
Qed.

Lemma place_small : forall poem c n, place poem c = Some n -> (n <= N.of_nat (length poem))%N.
Proof.
  induction poem as [|x poem IH]; intros c n; [discriminate|]. cbn [place length]. destruct (N.eqb x c).
  - intros E. injection E as <-. lia.
  - destruct (place poem c) as [m|] eqn:E; [|discriminate]. cbn [option_map]. intros Q. injection Q as <-. apply IH in E. lia.
Qed.
Lemma iroha_machine : forall poem w n, length poem <= 100 -> iroha_value poem w = Some n -> (n < 2 ^ 64)%N.
Proof.
  intros poem [|c [|d w]] n L; try discriminate. intros E. apply place_small in E.
  apply N.le_lt_trans with (1 := E). apply N.le_lt_trans with 100%N; [lia|reflexivity].
Qed.
Lemma roman_machine : forall cd w n, roman_value cd w = Some n -> (n < 2 ^ 64)%N.
Proof.
  intros cd w n. unfold roman_value. destruct (roman_from cd _) as [z|]; [|discriminate]. cbn [option_map]. intros E. injection E as <-.
  assert (H := Z.mod_pos_bound z (2 ^ 64) eq_refl). change (2 ^ 64)%N with (Z.to_N (2 ^ 64)). apply Z2N.inj_lt; lia.
Qed.
Lemma word_machine : forall cd k w n, word_value cd k w = Some n -> (n < 2 ^ 64)%N.
Proof.
  intros cd k w n. destruct k; cbn [word_value].
  - apply iroha_machine. vm_compute. lia.
  - apply iroha_machine. vm_compute. lia.
  - apply kansuji_machine.
  - unfold decimal_value. apply fits_machine.
  - destruct (has_roman w); [apply roman_machine|unfold letters_value; apply fits_machine].
  - destruct (has_roman w); [apply roman_machine|unfold letters_value; apply fits_machine].
Qed.
Lemma start_machine : forall cd s p n, start_reading cd s (Ok (Some (p, n))) -> (n < 2 ^ 64)%N.
Proof.
  intros cd s p n H. remember (Ok (Some (p, n))) as r eqn:E. destruct H; unfold word_reading in E; try discriminate E.
  - destruct (word_value cd k w) as [m|] eqn:V; [|discriminate E]. injection E as _ <-. exact (word_machine _ _ _ _ V).
  - destruct (word_value cd k w) as [m|] eqn:V; [|discriminate E]. injection E as _ <-. exact (word_machine _ _ _ _ V).
Qed.
Lemma collect_machine : forall cd l rs es, Forall2 (start_reading cd) l rs -> ItemSpec.collect rs = Ok es -> machine es.
Proof.
  intros cd l rs es H. revert es. induction H as [|s r l rs Hs H IH]; intros es E.
  - injection E as <-. constructor.
  - cbn [ItemSpec.collect] in E. destruct r as [o| |]; cbn [bind] in E; try discriminate E.
    destruct (ItemSpec.collect rs) as [ns| |]; cbn [bind] in E; try discriminate E. injection E as <-.
    destruct o as [[p n]|]; [|apply IH; reflexivity]. constructor; [exact (start_machine _ _ _ _ Hs)|apply IH; reflexivity].
Qed.
Lemma label_machine : forall cd s i, label_reading cd s (Ok (Some i)) -> machine (inum_base i :: inum_eda i) /\ inum_range i = [].
Proof.
  intros cd s i (x & t & y & _ & _ & _ & _ & [(_ & E)|(b & k & w & e & l & rs & _ & _ & _ & S & E)]); [discriminate|].
  unfold word_reading in E. destruct (word_value cd k w) as [n|] eqn:V; cbn [bind] in E; [|discriminate E].
  destruct (ItemSpec.collect rs) as [es| |] eqn:C; cbn [bind] in E; try discriminate E. injection E as ->. cbn [inum_base inum_eda inum_range snd].
  split; [|reflexivity]. constructor; [exact (word_machine _ _ _ _ V)|exact (collect_machine _ _ _ _ S C)].
Qed.

Lemma kind_machine : forall s mk n t, kind_of s mk -> machine_number n -> line_machine (mk n t).
Proof.
  intros s mk n t [(b & k & a & E & _)|[-> _]] H; [|exact H].
  assert (I : In (k, mk) heading_kinds) by (rewrite E; apply in_or_app; right; left; reflexivity).
  cbn in I. repeat destruct I as [I|I]; try (injection I as _ <-; exact H). destruct I.
Qed.

Theorem line_numbers_machine : forall cd l x, ~ In 10%N l -> parse_line cd l = Ok x -> line_machine x.
Proof.
  intros cd l x L H. apply (line_exact cd l (Ok x) L) in H.
  destruct H as (a & w & y & _ & _ & _ & _ & [(v & _ & _ & _ & E)|[(_ & _ & E)|(_ & s & t & _ & H)]]).
  - injection E as ->. exact I.
  - injection E as ->. exact I.
  - remember (Ok x) as r eqn:E. destruct H as [n mk Hn Hk|Hn|i Hn Hi|Hn Hi|Hn Hi]; try discriminate E; injection E as <-.
    + exact (kind_machine _ _ _ _ Hk (number_machine _ _ _ Hn)).
    + exact (label_machine _ _ _ Hi).
    + exact I.
Qed.

Theorem classified_machine : forall cd text lines, classify cd text = Ok lines -> Forall line_machine lines.
Proof.
  intros cd text lines H. apply classify_ok in H. pose proof (text_is_joined text) as [F _].
  induction H as [|l x ls xs H _ IH]; [constructor|]. inversion_clear F as [|? ? Hl Hls].
  constructor; [exact (line_numbers_machine cd l x Hl H)|exact (IH Hls)].
Qed.
