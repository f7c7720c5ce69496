(** Properties C01-C05: the text of [Num] attributes. *)
From Coq Require Import String Ascii List NArith Bool Lia.
From Verif Require Import Base NumStr NumStrSpec BaseFacts NumStrFacts.
Import ListNotations.
Open Scope string_scope.

(** C01.  A number without range whose components are machine integers is read back. *)
Theorem C01_num_str_roundtrip : forall b e,
  (b < 2 ^ 64)%N -> Forall (fun n => n < 2 ^ 64)%N e ->
  from_num_str (num_str (mkAN b e [])) = Ok (mkAN b e []).
Proof. exact num_str_roundtrip_C01. Qed.
Print Assumptions C01_num_str_roundtrip.

Example C01_case :
  (33 < 2 ^ 64)%N /\ Forall (fun n => n < 2 ^ 64)%N [2; 18446744073709551615]%N /\
  num_str (mkAN 33 [2; 18446744073709551615] [])%N = "33_2_18446744073709551615".
Proof. repeat split; repeat constructor. Qed.

(** C02.  A ranged number is read back iff it has exactly one branch number; otherwise the call
    succeeds with another number. *)
Theorem C02_num_str_range : forall b e r,
  (b < 2 ^ 64)%N -> Forall (fun n => n < 2 ^ 64)%N e -> Forall (fun n => n < 2 ^ 64)%N r ->
  r <> [] ->
  exists c, from_num_str (num_str (mkAN b e r)) = Ok c /\
            (c = mkAN b e r <-> length e = 1%nat).
Proof. exact num_str_range_C02. Qed.
Print Assumptions C02_num_str_range.

(** The number read instead, in both failing cases. *)
Theorem C02_num_str_range_no_branch : forall b r, (b < 2 ^ 64)%N ->
  from_num_str (num_str (mkAN b [] r)) = Ok (mkAN b [] []).
Proof. exact num_str_nobranch_C02. Qed.
Print Assumptions C02_num_str_range_no_branch.

Theorem C02_num_str_range_two_branches : forall b e1 e2 es r1 r,
  (b < 2 ^ 64)%N -> Forall (fun n => n < 2 ^ 64)%N (e1 :: e2 :: es) ->
  Forall (fun n => n < 2 ^ 64)%N (r1 :: r) ->
  from_num_str (num_str (mkAN b (e1 :: e2 :: es) (r1 :: r))) =
  Ok (mkAN b [e1] (r1 :: r ++ [e2])).
Proof. exact num_str_two_C02. Qed.
Print Assumptions C02_num_str_range_two_branches.

Example C02_case :
  from_num_str (num_str (mkAN 38 [] [84]%N)) = Ok (mkAN 38 [] []) /\
  from_num_str (num_str (mkAN 38 [2] [84; 3]))%N = Ok (mkAN 38 [2] [84; 3])%N /\
  from_num_str (num_str (mkAN 38 [2; 5] [84; 3]))%N = Ok (mkAN 38 [2] [84; 3; 5])%N.
Proof. repeat split; vm_compute; reflexivity. Qed.

(** C03.  The texts accepted, the numbers returned, and no panic. *)
Theorem C03_from_num_str_accepts : forall s b e r,
  from_num_str s = Ok (mkAN b e r) <-> num_text s b e r.
Proof. exact from_num_str_C03. Qed.
Print Assumptions C03_from_num_str_accepts.

Theorem C03_from_num_str_total : forall s,
  (exists a, from_num_str s = Ok a) \/ (exists err, from_num_str s = Err err).
Proof. exact from_num_str_total. Qed.
Print Assumptions C03_from_num_str_total.

Example C03_case :
  from_num_str "12_3:45_+6:rest" = Ok (mkAN 12 [3] [45; 6])%N /\
  (exists err, from_num_str "12__3" = Err err) /\
  (exists err, from_num_str "18446744073709551616" = Err err).
Proof. repeat split; try eexists; vm_compute; reflexivity. Qed.

(** C04.  The text identifies the number. *)
Theorem C04_num_str_injective : forall b e b' e',
  num_str (mkAN b e []) = num_str (mkAN b' e' []) -> b = b' /\ e = e'.
Proof. exact num_str_inj_C04. Qed.
Print Assumptions C04_num_str_injective.

Example C04_case : num_str (mkAN 1 [12] [])%N = "1_12" /\ num_str (mkAN 11 [2] [])%N = "11_2".
Proof. split; reflexivity. Qed.

(** C05.  Only digits, ["_"] and [":"], and at least one character. *)
Theorem C05_num_str_clean : forall a,
  num_str a <> "" /\
  Forall (fun c => In c (list_ascii_of_string "0123456789_:")) (list_ascii_of_string (num_str a)).
Proof. exact num_str_clean_C05. Qed.
Print Assumptions C05_num_str_clean.
