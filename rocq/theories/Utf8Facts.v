(** Well-formed UTF-8. *)
From Coq Require Import String Ascii List Arith NArith ZArith Bool Lia.
From Verif Require Import Base Regex Api ApiSpec.
Import ListNotations.
Open Scope string_scope.
Open Scope list_scope.

Lemma utf8_byte : forall need lo hi n r, (n < 256)%N ->
  utf8_from need lo hi (String (ascii_of_N n) r) =
  match need with
  | S m => N.leb lo n && N.leb n hi && utf8_from m 128 191 r
  | O =>
      if N.ltb n 128 then utf8_from 0 128 191 r
      else if N.ltb n 194 then false
      else if N.ltb n 224 then utf8_from 1 128 191 r
      else if N.eqb n 224 then utf8_from 2 160 191 r
      else if N.eqb n 237 then utf8_from 2 128 159 r
      else if N.ltb n 240 then utf8_from 2 128 191 r
      else if N.eqb n 240 then utf8_from 3 144 191 r
      else if N.ltb n 244 then utf8_from 3 128 191 r
      else if N.eqb n 244 then utf8_from 3 128 143 r
      else false
  end.
Proof. intros. cbn [utf8_from]. rewrite N_ascii_embedding by assumption. reflexivity. Qed.

Ltac cmp := repeat match goal with
  | |- context [N.ltb ?a ?b] => destruct (N.ltb_spec a b); try lia
  | |- context [N.leb ?a ?b] => destruct (N.leb_spec a b); try lia
  | |- context [N.eqb ?a ?b] => destruct (N.eqb_spec a b); try lia
  end.

Lemma utf8_char_ok : forall c r, scalar c -> utf8_from 0 128 191 (utf8_char c ++ r) = utf8_from 0 128 191 r.
Proof.
  intros c r H. unfold scalar in H. unfold utf8_char.
  pose proof (N.div_mod c 64 ltac:(discriminate)) as D1. pose proof (N.mod_lt c 64 ltac:(discriminate)) as M1.
  pose proof (N.div_mod (c / 64) 64 ltac:(discriminate)) as D2. pose proof (N.mod_lt (c / 64) 64 ltac:(discriminate)) as M2.
  pose proof (N.div_mod (c / 4096) 64 ltac:(discriminate)) as D3. pose proof (N.mod_lt (c / 4096) 64 ltac:(discriminate)) as M3.
  assert (E1 : (c / 64 / 64 = c / 4096)%N) by (rewrite N.div_div by discriminate; reflexivity).
  assert (E2 : (c / 4096 / 64 = c / 262144)%N) by (rewrite N.div_div by discriminate; reflexivity).
  rewrite E1 in D2. rewrite E2 in D3.
  set (q1 := (c / 64)%N) in *. set (q2 := (c / 4096)%N) in *. set (q3 := (c / 262144)%N) in *.
  set (r1 := (c mod 64)%N) in *. set (r2 := (q1 mod 64)%N) in *. set (r3 := (q2 mod 64)%N) in *.
  clearbody q1 q2 q3 r1 r2 r3.
  destruct (N.ltb_spec c 128); [|destruct (N.ltb_spec c 2048); [|destruct (N.ltb_spec c 65536)]]; cbn [append];
    rewrite !utf8_byte by lia; cmp; reflexivity.
Qed.

Lemma enc_cons : forall c t, enc (c :: t) = (utf8_char c ++ enc t)%string.
Proof. reflexivity. Qed.
Lemma enc_app : forall a b, enc (a ++ b) = (enc a ++ enc b)%string.
Proof.
  induction a as [|c a IH]; intros b; [reflexivity|]. cbn [app]. rewrite !enc_cons, IH.
  induction (utf8_char c) as [|x s IHs]; [reflexivity|]. cbn. rewrite IHs. reflexivity.
Qed.

Lemma utf8_step : forall s, s <> "" -> utf8 s = true ->
  exists c r, scalar c /\ s = (utf8_char c ++ r)%string /\ utf8 r = true /\ String.length r < String.length s.
Proof.
  unfold utf8. intros s Hs H. destruct s as [|c1 s]; [congruence|]. clear Hs.
  rewrite <- (ascii_N_embedding c1) in H |- *. set (b1 := N_of_ascii c1) in *.
  assert (B1 : (b1 < 256)%N) by apply N_ascii_bounded. clearbody b1. clear c1. rewrite utf8_byte in H by exact B1.
  assert (one : forall lo hi s, utf8_from 1 lo hi s = true -> exists b r, s = String (ascii_of_N b) r /\ (lo <= b <= hi)%N /\ (b < 256)%N /\ utf8_from 0 128 191 r = true).
  { intros lo hi [|x r]; cbn [utf8_from]; [discriminate|]. rewrite !andb_true_iff, !N.leb_le. intros [[L U] E].
    exists (N_of_ascii x), r. rewrite ascii_N_embedding. repeat split; auto. apply N_ascii_bounded. }
  assert (two : forall lo hi s, utf8_from 2 lo hi s = true -> exists b r, s = String (ascii_of_N b) r /\ (lo <= b <= hi)%N /\ (b < 256)%N /\ utf8_from 1 128 191 r = true).
  { intros lo hi [|x r]; cbn [utf8_from]; [discriminate|]. rewrite !andb_true_iff, !N.leb_le. intros [[L U] E].
    exists (N_of_ascii x), r. rewrite ascii_N_embedding. repeat split; auto. apply N_ascii_bounded. }
  assert (three : forall lo hi s, utf8_from 3 lo hi s = true -> exists b r, s = String (ascii_of_N b) r /\ (lo <= b <= hi)%N /\ (b < 256)%N /\ utf8_from 2 128 191 r = true).
  { intros lo hi [|x r]; cbn [utf8_from]; [discriminate|]. rewrite !andb_true_iff, !N.leb_le. intros [[L U] E].
    exists (N_of_ascii x), r. rewrite ascii_N_embedding. repeat split; auto. apply N_ascii_bounded. }
  assert (C1 : forall b2 r, (194 <= b1 < 224)%N -> (128 <= b2 <= 191)%N ->
    exists c, scalar c /\ String (ascii_of_N b1) (String (ascii_of_N b2) r) = (utf8_char c ++ r)%string).
  { intros b2 r H1 H2. exists ((b1 - 192) * 64 + (b2 - 128))%N. unfold scalar. split; [lia|]. unfold utf8_char.
    assert (Q : (((b1 - 192) * 64 + (b2 - 128)) / 64 = b1 - 192)%N) by (symmetry; apply N.div_unique with (r := (b2 - 128)%N); lia).
    assert (M : (((b1 - 192) * 64 + (b2 - 128)) mod 64 = b2 - 128)%N) by (symmetry; apply N.mod_unique with (q := (b1 - 192)%N); lia).
    rewrite Q, M. cmp. cbn [append]. replace (192 + (b1 - 192))%N with b1 by lia. replace (128 + (b2 - 128))%N with b2 by lia. reflexivity. }
  assert (C2 : forall b2 b3 r, (224 <= b1 < 240)%N -> (128 <= b2 <= 191)%N -> (128 <= b3 <= 191)%N -> (b1 = 224 -> 160 <= b2)%N -> (b1 = 237 -> b2 <= 159)%N ->
    exists c, scalar c /\ String (ascii_of_N b1) (String (ascii_of_N b2) (String (ascii_of_N b3) r)) = (utf8_char c ++ r)%string).
  { intros b2 b3 r H1 H2 H3 H4 H5. set (q := ((b1 - 224) * 64 + (b2 - 128))%N). exists (q * 64 + (b3 - 128))%N.
    assert (Q : ((q * 64 + (b3 - 128)) / 64 = q)%N) by (symmetry; apply N.div_unique with (r := (b3 - 128)%N); lia).
    assert (M : ((q * 64 + (b3 - 128)) mod 64 = b3 - 128)%N) by (symmetry; apply N.mod_unique with (q := q); lia).
    assert (Q2 : (q / 64 = b1 - 224)%N) by (symmetry; apply N.div_unique with (r := (b2 - 128)%N); lia).
    assert (M2 : (q mod 64 = b2 - 128)%N) by (symmetry; apply N.mod_unique with (q := (b1 - 224)%N); lia).
    assert (Q3 : ((q * 64 + (b3 - 128)) / 4096 = b1 - 224)%N) by (change 4096%N with (64 * 64)%N; rewrite <- N.div_div, Q by discriminate; exact Q2).
    unfold scalar. split; [unfold q; destruct (N.eq_dec b1 237); [lia|]; destruct (N.le_gt_cases b1 237); lia|].
    unfold utf8_char. rewrite Q3, Q, M, M2. unfold q. destruct (N.eq_dec b1 224); cmp; cbn [append];
    replace (224 + (b1 - 224))%N with b1 by lia; replace (128 + (b2 - 128))%N with b2 by lia; replace (128 + (b3 - 128))%N with b3 by lia; reflexivity. }
  assert (C3 : forall b2 b3 b4 r, (240 <= b1 <= 244)%N -> (128 <= b2 <= 191)%N -> (128 <= b3 <= 191)%N -> (128 <= b4 <= 191)%N -> (b1 = 240 -> 144 <= b2)%N -> (b1 = 244 -> b2 <= 143)%N ->
    exists c, scalar c /\ String (ascii_of_N b1) (String (ascii_of_N b2) (String (ascii_of_N b3) (String (ascii_of_N b4) r))) = (utf8_char c ++ r)%string).
  { intros b2 b3 b4 r H1 H2 H3 H3' H4 H5. set (p := ((b1 - 240) * 64 + (b2 - 128))%N). set (q := (p * 64 + (b3 - 128))%N). exists (q * 64 + (b4 - 128))%N.
    assert (Q : ((q * 64 + (b4 - 128)) / 64 = q)%N) by (symmetry; apply N.div_unique with (r := (b4 - 128)%N); lia).
    assert (M : ((q * 64 + (b4 - 128)) mod 64 = b4 - 128)%N) by (symmetry; apply N.mod_unique with (q := q); lia).
    assert (Q2 : (q / 64 = p)%N) by (symmetry; apply N.div_unique with (r := (b3 - 128)%N); lia).
    assert (M2 : (q mod 64 = b3 - 128)%N) by (symmetry; apply N.mod_unique with (q := p); lia).
    assert (Qp : (p / 64 = b1 - 240)%N) by (symmetry; apply N.div_unique with (r := (b2 - 128)%N); lia).
    assert (Mp : (p mod 64 = b2 - 128)%N) by (symmetry; apply N.mod_unique with (q := (b1 - 240)%N); lia).
    assert (Q3 : ((q * 64 + (b4 - 128)) / 4096 = p)%N) by (change 4096%N with (64 * 64)%N; rewrite <- N.div_div, Q by discriminate; exact Q2).
    assert (Q4 : ((q * 64 + (b4 - 128)) / 262144 = b1 - 240)%N) by (change 262144%N with (4096 * 64)%N; rewrite <- N.div_div, Q3 by discriminate; exact Qp).
    unfold scalar. split; [unfold q, p; destruct (N.eq_dec b1 244); lia|].
    unfold utf8_char. rewrite Q4, Q3, Q, M, M2, Mp. unfold q, p. destruct (N.eq_dec b1 240); cmp; cbn [append];
    replace (240 + (b1 - 240))%N with b1 by lia; replace (128 + (b2 - 128))%N with b2 by lia; replace (128 + (b3 - 128))%N with b3 by lia; replace (128 + (b4 - 128))%N with b4 by lia; reflexivity. }
  assert (K1 : (194 <= b1 < 224)%N -> utf8_from 1 128 191 s = true -> exists c r, scalar c /\ String (ascii_of_N b1) s = (utf8_char c ++ r)%string /\
     utf8_from 0 128 191 r = true /\ String.length r < String.length (String (ascii_of_N b1) s)).
  { intros Hb E. apply one in E as (b2 & r & -> & R2 & _ & E). destruct (C1 b2 r Hb R2) as (c & Sc & Ec).
    exists c, r. repeat split; [exact Sc|exact Ec|exact E|cbn; lia]. }
  assert (K2 : forall lo hi, (224 <= b1 < 240)%N -> (128 <= lo)%N -> (hi <= 191)%N -> (b1 = 224 -> 160 <= lo)%N -> (b1 = 237 -> hi <= 159)%N -> utf8_from 2 lo hi s = true ->
     exists c r, scalar c /\ String (ascii_of_N b1) s = (utf8_char c ++ r)%string /\
     utf8_from 0 128 191 r = true /\ String.length r < String.length (String (ascii_of_N b1) s)).
  { intros lo hi Hb L U H1 H2 E. apply two in E as (b2 & r & -> & R2 & _ & E). apply one in E as (b3 & r' & -> & R3 & _ & E).
    destruct (C2 b2 b3 r' Hb) as (c & Sc & Ec); [lia|lia|lia|lia|]. exists c, r'. repeat split; [exact Sc|exact Ec|exact E|cbn; lia]. }
  assert (K3 : forall lo hi, (240 <= b1 <= 244)%N -> (128 <= lo)%N -> (hi <= 191)%N -> (b1 = 240 -> 144 <= lo)%N -> (b1 = 244 -> hi <= 143)%N -> utf8_from 3 lo hi s = true ->
     exists c r, scalar c /\ String (ascii_of_N b1) s = (utf8_char c ++ r)%string /\
     utf8_from 0 128 191 r = true /\ String.length r < String.length (String (ascii_of_N b1) s)).
  { intros lo hi Hb L U H1 H2 E. apply three in E as (b2 & r & -> & R2 & _ & E). apply two in E as (b3 & r' & -> & R3 & _ & E).
    apply one in E as (b4 & r'' & -> & R4 & _ & E).
    destruct (C3 b2 b3 b4 r'' Hb) as (c & Sc & Ec); [lia|lia|lia|lia|lia|]. exists c, r''. repeat split; [exact Sc|exact Ec|exact E|cbn; lia]. }
  revert H. destruct (N.ltb_spec b1 128).
  { intros E. exists b1, s. split; [unfold scalar; lia|]. unfold utf8_char. destruct (N.ltb_spec b1 128); [|lia]. split; [reflexivity|]. split; [exact E|cbn; lia]. }
  destruct (N.ltb_spec b1 194); [discriminate|].
  destruct (N.ltb_spec b1 224); [intros E; apply K1; [lia|exact E]|].
  destruct (N.eqb_spec b1 224); [intros E; refine (K2 _ _ _ _ _ _ _ E); lia|].
  destruct (N.eqb_spec b1 237); [intros E; refine (K2 _ _ _ _ _ _ _ E); lia|].
  destruct (N.ltb_spec b1 240); [intros E; refine (K2 _ _ _ _ _ _ _ E); lia|].
  destruct (N.eqb_spec b1 240); [intros E; refine (K3 _ _ _ _ _ _ _ E); lia|].
  destruct (N.ltb_spec b1 244); [intros E; refine (K3 _ _ _ _ _ _ _ E); lia|].
  destruct (N.eqb_spec b1 244); [intros E; refine (K3 _ _ _ _ _ _ _ E); lia|discriminate].
Qed.

Theorem utf8_iff : forall s, utf8 s = true <-> encoded s.
Proof.
  intros s. split.
  - remember (String.length s) as n eqn:En. revert s En. induction n as [n IH] using lt_wf_ind. intros s -> H.
    destruct s as [|x s']; [exists []; split; [constructor|reflexivity]|].
    destruct (utf8_step (String x s') ltac:(discriminate) H) as (c & r & Sc & E & Hr & L).
    destruct (IH (String.length r) L r eq_refl Hr) as (t & St & ->). exists (c :: t). split; [constructor; assumption|]. exact E.
  - intros (t & St & ->). unfold utf8. induction St as [|c t Sc St IH]; [reflexivity|]. rewrite enc_cons, utf8_char_ok by exact Sc. exact IH.
Qed.
