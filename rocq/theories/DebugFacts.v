(** The text of [Debug] determines the value. *)
From Coq Require Import String Ascii List NArith Bool Lia Arith.
From Verif Require Import Base BaseFacts NumStr Ast Regex ApiSpec Utf8Facts Utils Serde SerdeSpec SerdeLib SerdeFacts SerdeFacts2 Debug DebugSpec.
Import ListNotations.
Open Scope string_scope.
Open Scope list_scope.

Lemma sapp : forall a b c : string, ((a ++ b) ++ c = a ++ (b ++ c))%string.
Proof. induction a as [|x a IH]; intros b c; [reflexivity|]. cbn [append]. rewrite IH. reflexivity. Qed.
Lemma sapp_nil : forall a : string, (a ++ "" = a)%string.
Proof. induction a as [|x a IH]; [reflexivity|]. cbn [append]. rewrite IH. reflexivity. Qed.

(** ** Words *)
Definition word (c : ascii) : bool :=
  let n := N_of_ascii c in
  (N.leb 48 n && N.leb n 57) || (N.leb 65 n && N.leb n 90) || (N.leb 97 n && N.leb n 122) || N.eqb n 95.
Definition wordb (s : string) : bool := forallb word (list_ascii_of_string s).
Definition stop (s : string) : Prop := match s with EmptyString => True | String c _ => word c = false end.
Lemma word_split : forall a b s s', wordb a = true -> wordb b = true -> stop s -> stop s' ->
  (a ++ s = b ++ s')%string -> a = b /\ s = s'.
Proof.
  unfold wordb. induction a as [|x a IH]; intros [|y b] s s' Ha Hb Hs Hs' E; cbn [append] in E.
  - split; [reflexivity|exact E].
  - subst s. cbn in Hs. cbn [list_ascii_of_string forallb] in Hb. rewrite Hs in Hb. discriminate.
  - subst s'. cbn in Hs'. cbn [list_ascii_of_string forallb] in Ha. rewrite Hs' in Ha. discriminate.
  - injection E as -> E. cbn [list_ascii_of_string forallb] in Ha, Hb. apply andb_true_iff in Ha as [_ Ha]. apply andb_true_iff in Hb as [_ Hb].
    destruct (IH b s s' Ha Hb Hs Hs' E) as [-> ->]. split; reflexivity.
Qed.

(** ** Characters of a text *)
Lemma chars_byte : forall need acc n r, (n < 256)%N -> chars need acc (String (ascii_of_N n) r) =
  match need with
  | O => if N.ltb n 128 then n :: chars 0 0 r else if N.ltb n 224 then chars 1 (n - 192) r
         else if N.ltb n 240 then chars 2 (n - 224) r else chars 3 (n - 240) r
  | S O => (acc * 64 + (n - 128))%N :: chars 0 0 r
  | S k => chars k (acc * 64 + (n - 128)) r
  end.
Proof. intros need acc n r H. cbn [chars]. rewrite N_ascii_embedding by exact H. reflexivity. Qed.
Ltac cmps := repeat match goal with |- context [N.ltb ?a ?b] => destruct (N.ltb_spec a b); [try lia|try lia] end.
Lemma chars_char : forall c r, scalar c -> chars 0 0 (utf8_char c ++ r) = c :: chars 0 0 r.
Proof.
  intros c r Hc. unfold scalar in Hc. unfold utf8_char.
  assert (E1 : (c / 4096 = c / 64 / 64)%N) by (rewrite N.div_div by discriminate; reflexivity).
  assert (E2 : (c / 262144 = c / 64 / 64 / 64)%N) by (rewrite !N.div_div by discriminate; reflexivity).
  rewrite E1, E2.
  pose proof (N.div_mod c 64 ltac:(discriminate)) as D1. pose proof (N.mod_lt c 64 ltac:(discriminate)) as M1.
  set (q1 := (c / 64)%N) in *. set (r1 := (c mod 64)%N) in *.
  pose proof (N.div_mod q1 64 ltac:(discriminate)) as D2. pose proof (N.mod_lt q1 64 ltac:(discriminate)) as M2.
  set (q2 := (q1 / 64)%N) in *. set (r2 := (q1 mod 64)%N) in *.
  pose proof (N.div_mod q2 64 ltac:(discriminate)) as D3. pose proof (N.mod_lt q2 64 ltac:(discriminate)) as M3.
  set (q3 := (q2 / 64)%N) in *. set (r3 := (q2 mod 64)%N) in *.
  clearbody q1 q2 q3 r1 r2 r3.
  destruct (N.ltb_spec c 128); [|destruct (N.ltb_spec c 2048); [|destruct (N.ltb_spec c 65536)]]; cbn [append].
  - rewrite chars_byte by lia. cmps. reflexivity.
  - rewrite chars_byte by lia. cmps. rewrite chars_byte by lia. f_equal; lia.
  - rewrite chars_byte by lia. cmps. rewrite chars_byte by lia. rewrite chars_byte by lia. f_equal; lia.
  - rewrite chars_byte by lia. cmps. rewrite !chars_byte by lia. f_equal; lia.
Qed.
Lemma chars_enc : forall t, Forall scalar t -> chars 0 0 (enc t) = t.
Proof. induction 1 as [|c t Hc _ IH]; [reflexivity|]. rewrite enc_cons, chars_char, IH by exact Hc. reflexivity. Qed.

(** ** Hexadecimal numbers *)
Fixpoint hex_value (l : list N) (acc : N) : N := match l with [] => acc | d :: r => hex_value r (acc * 16 + d) end.
Lemma hex_value_app : forall l m acc, hex_value (l ++ m) acc = hex_value m (hex_value l acc).
Proof. induction l as [|d l IH]; intros m acc; [reflexivity|apply IH]. Qed.
Lemma hex_digits_ok : forall f n, (n < 16 ^ N.of_nat f)%N -> hex_value (hex_digits f n) 0 = n /\ Forall (fun d => d < 16)%N (hex_digits f n).
Proof.
  induction f as [|f IH]; intros n H; [cbn in *; split; [lia|constructor]|].
  cbn [hex_digits]. destruct (N.ltb_spec n 16); [split; [cbn; lia|repeat constructor; assumption]|].
  rewrite Nat2N.inj_succ, N.pow_succ_r' in H.
  pose proof (N.div_mod n 16 ltac:(discriminate)) as D. pose proof (N.mod_lt n 16 ltac:(discriminate)) as M.
  destruct (IH (n / 16)%N) as [V A]; [apply N.div_lt_upper_bound; [discriminate|exact H]|].
  split; [rewrite hex_value_app, V; cbn [hex_value]; lia|]. apply Forall_app. split; [exact A|repeat constructor; exact M].
Qed.
Lemma hex_char_inj : forall d e, (d < 16)%N -> (e < 16)%N -> hex_char d = hex_char e -> d = e.
Proof.
  intros d e Hd He H. unfold hex_char in H. apply (f_equal N_of_ascii) in H.
  destruct (N.ltb_spec d 10), (N.ltb_spec e 10); rewrite !N_ascii_embedding in H by lia; lia.
Qed.
Lemma hex_inj : forall a b, scalar a -> scalar b -> hex a = hex b -> a = b.
Proof.
  intros a b Ha Hb H. unfold hex in H. apply (f_equal list_ascii_of_string) in H. rewrite !list_ascii_of_string_of_list_ascii in H.
  unfold scalar in Ha, Hb.
  destruct (hex_digits_ok 6 a) as [Va Da]; [cbn; lia|]. destruct (hex_digits_ok 6 b) as [Vb Db]; [cbn; lia|].
  rewrite <- Va, <- Vb. f_equal.
  clear Ha Hb Va Vb. revert H Db. generalize (hex_digits 6 b). induction Da as [|d l Hd _ IH]; intros [|e m] H Db; try discriminate; [reflexivity|].
  injection H as H1 H2. inversion Db; subst. f_equal; [apply hex_char_inj; assumption|apply IH; assumption].
Qed.
Lemma hex_word : forall a, scalar a -> wordb (hex a) = true.
Proof.
  intros a Ha. unfold wordb, hex. rewrite list_ascii_of_string_of_list_ascii. unfold scalar in Ha.
  destruct (hex_digits_ok 6 a) as [_ Da]; [cbn; lia|]. induction Da as [|d l Hd _ IH]; [reflexivity|]. cbn [map forallb]. rewrite IH, andb_true_r.
  unfold word, hex_char. destruct (N.ltb_spec d 10); rewrite N_ascii_embedding by lia; rewrite !orb_true_iff, !andb_true_iff, !N.leb_le; lia.
Qed.

(** ** Escapes *)
(** The characters that have an escape of their own. *)
Definition own (c : N) : bool := existsb (N.eqb c) [0; 9; 10; 13; 34; 92]%N.
Lemma own_cases : forall c, own c = true -> (c = 0 \/ c = 9 \/ c = 10 \/ c = 13 \/ c = 34 \/ c = 92)%N.
Proof. unfold own. intros c H. apply existsb_exists in H as (d & Hd & E). apply N.eqb_eq in E. subst d. cbn in Hd. intuition. Qed.
Lemma escape_other : forall shown c, own c = false ->
  escape_debug shown c = if shown c then utf8_char c else ("\u{" ++ hex c ++ "}")%string.
Proof.
  intros shown c H. unfold own in H. cbn [existsb] in H. rewrite !orb_false_iff in H. rewrite !N.eqb_neq in H.
  destruct H as (H0 & H9 & H10 & H13 & H34 & H92 & _).
  unfold escape_debug. destruct c as [|p]; [congruence|].
  do 7 (try destruct p as [p|p|]; try reflexivity; try congruence).
Qed.
Lemma utf8_first : forall c, scalar c -> exists a r, utf8_char c = String a r /\
  (N_of_ascii a = c \/ 128 <= c /\ 128 <= N_of_ascii a)%N.
Proof.
  intros c Hc. unfold scalar in Hc. unfold utf8_char.
  assert (B : forall d m, d <> 0%N -> (c < d * m)%N -> (c / d < m)%N) by (intros d m Hd H; apply N.div_lt_upper_bound; assumption).
  destruct (N.ltb_spec c 128); [|destruct (N.ltb_spec c 2048); [|destruct (N.ltb_spec c 65536)]]; eexists; eexists; (split; [reflexivity|]).
  - rewrite N_ascii_embedding by lia. lia.
  - assert (Q : (c / 64 < 32)%N) by (apply B; [discriminate|lia]). clear B. set (q := (c / 64)%N) in *. clearbody q. rewrite N_ascii_embedding by lia. lia.
  - assert (Q : (c / 4096 < 16)%N) by (apply B; [discriminate|lia]). clear B. set (q := (c / 4096)%N) in *. clearbody q. rewrite N_ascii_embedding by lia. lia.
  - assert (Q : (c / 262144 < 5)%N) by (apply B; [discriminate|lia]). clear B. set (q := (c / 262144)%N) in *. clearbody q. rewrite N_ascii_embedding by lia. lia.
Qed.
Lemma utf8_split : forall c d r r', scalar c -> scalar d -> (utf8_char c ++ r = utf8_char d ++ r')%string -> c = d /\ r = r'.
Proof.
  intros c d r r' Hc Hd E. pose proof E as E'. apply (f_equal (chars 0 0)) in E. rewrite !chars_char in E by assumption.
  injection E as -> _. split; [reflexivity|]. apply append_inj_l in E'. exact E'.
Qed.
Lemma other_not : forall c, own c = false -> (c <> 34 /\ c <> 92)%N.
Proof. intros c H. unfold own in H. cbn [existsb] in H. rewrite !orb_false_iff, !N.eqb_neq in H. tauto. Qed.
Lemma escape_first : forall shown c, scalar c -> exists a r, escape_debug shown c = String a r /\ N_of_ascii a <> 34%N /\
  (own c = false -> shown c = true -> N_of_ascii a <> 92%N).
Proof.
  intros shown c Hc. destruct (own c) eqn:O.
  - apply own_cases in O. destruct O as [->|[->|[->|[->|[->| ->]]]]]; eexists; eexists; (split; [reflexivity|split; discriminate]).
  - rewrite escape_other by exact O. destruct (shown c).
    + destruct (utf8_first c Hc) as (a & r & E & F). exists a, r. apply other_not in O. split; [exact E|]. split; [|intros _ _]; lia.
    + eexists; eexists; split; [reflexivity|]. split; discriminate.
Qed.
Lemma escape_split : forall shown c d r r', scalar c -> scalar d ->
  (escape_debug shown c ++ r = escape_debug shown d ++ r')%string -> c = d /\ r = r'.
Proof.
  intros shown. 
  assert (W : forall c d r r', scalar c -> scalar d -> own c = true -> own d = false ->
    (escape_debug shown c ++ r = escape_debug shown d ++ r')%string -> False).
  { intros c d r r' Hc Hd Oc Od E. destruct (escape_first shown d Hd) as (a & t & Ea & _ & A).
    destruct (shown d) eqn:Sd.
    - specialize (A Od eq_refl). rewrite Ea in E. apply own_cases in Oc.
      destruct Oc as [->|[->|[->|[->|[->| ->]]]]]; cbn in E; injection E as <- _; apply A; reflexivity.
    - rewrite (escape_other shown d Od), Sd in E. apply own_cases in Oc.
      destruct Oc as [->|[->|[->|[->|[->| ->]]]]]; cbn in E; discriminate E. }
  assert (V : forall c d r r', scalar c -> own c = false -> shown c = true -> 
    (escape_debug shown c ++ r = "\u{" ++ d ++ r')%string -> False).
  { intros c d r r' Hc Oc Sc E. destruct (escape_first shown c Hc) as (a & t & Ea & _ & A). rewrite Ea in E.
    injection E as -> _. apply (A Oc Sc). reflexivity. }
  intros c d r r' Hc Hd E. destruct (own c) eqn:Oc, (own d) eqn:Od.
  - apply own_cases in Oc, Od.
    destruct Oc as [->|[->|[->|[->|[->| ->]]]]], Od as [->|[->|[->|[->|[->| ->]]]]]; cbn in E; try discriminate E; injection E as E; (split; [reflexivity|exact E]).
  - destruct (W c d r r' Hc Hd Oc Od E).
  - symmetry in E. destruct (W d c r' r Hd Hc Od Oc E).
  - destruct (shown c) eqn:Sc, (shown d) eqn:Sd.
    + rewrite !escape_other, Sc, Sd in E by assumption. apply utf8_split; assumption.
    + rewrite (escape_other shown d Od), Sd, !sapp in E. destruct (V c _ _ _ Hc Oc Sc E).
    + rewrite (escape_other shown c Oc), Sc, !sapp in E. symmetry in E. destruct (V d _ _ _ Hd Od Sd E).
    + rewrite !escape_other, Sc, Sd, !sapp in E by assumption. apply append_inj_l in E.
      destruct (word_split (hex c) (hex d) ("}" ++ r) ("}" ++ r') (hex_word c Hc) (hex_word d Hd) eq_refl eq_refl E) as [H1 H2].
      apply hex_inj in H1; [|assumption|assumption]. injection H2 as H2. split; assumption.
Qed.

(** ** Texts *)
Lemma concat_cons : forall x l, concat_strings (x :: l) = (x ++ concat_strings l)%string.
Proof. reflexivity. Qed.
Lemma quoted_split : forall shown t t' r r', Forall scalar t -> Forall scalar t' ->
  (concat_strings (map (escape_debug shown) t) ++ """" ++ r = concat_strings (map (escape_debug shown) t') ++ """" ++ r')%string ->
  t = t' /\ r = r'.
Proof.
  intros shown t t' r r' Ht. revert t'. induction Ht as [|c t Hc _ IH]; intros t' Ht' E; destruct Ht' as [|d t' Hd Ht'].
  - injection E as E. split; [reflexivity|exact E].
  - exfalso. cbn [map] in E. rewrite concat_cons, sapp in E. destruct (escape_first shown d Hd) as (a & s & Ea & A & _). rewrite Ea in E.
    injection E as <- _. apply A. reflexivity.
  - exfalso. cbn [map] in E. rewrite concat_cons, sapp in E. destruct (escape_first shown c Hc) as (a & s & Ea & A & _). rewrite Ea in E.
    injection E as -> _. apply A. reflexivity.
  - cbn [map] in E. rewrite !concat_cons, !sapp in E. apply escape_split in E as [-> E]; [|assumption|assumption].
    destruct (IH t' Ht' E) as [-> ->]. split; reflexivity.
Qed.
Lemma str_split : forall shown a b r r', encoded a -> encoded b ->
  (debug_str shown a ++ r = debug_str shown b ++ r')%string -> a = b /\ r = r'.
Proof.
  intros shown a b r r' (t & Ht & ->) (t' & Ht' & ->) E. unfold debug_str in E. rewrite !chars_enc, !sapp in E by assumption.
  apply append_inj_l in E. destruct (quoted_split shown t t' r r' Ht Ht' E) as [-> ->]. split; reflexivity.
Qed.
