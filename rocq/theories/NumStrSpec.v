(** Independent specification of the [Num] attribute grammar. *)
From Coq Require Import String Ascii List NArith Bool.
From Verif Require Import Base NumStr.
Import ListNotations.
Open Scope string_scope.

(** Value of a list of decimal digits: sum of digit times power of ten. *)
Fixpoint dec_value (l : list N) : N :=
  match l with
  | [] => 0
  | d :: r => (d * 10 ^ N.of_nat (length r) + dec_value r)%N
  end.

(** The text of a digit list. *)
Fixpoint dec_text (l : list N) : string :=
  match l with
  | [] => ""
  | d :: r => String (ascii_of_N (48 + d)) (dec_text r)
  end.

(** [s] is a text accepted for a 64-bit unsigned integer, and [n] is its value. *)
Definition usize_text (s : string) (n : N) : Prop :=
  exists ds, ds <> [] /\ Forall (fun d => d < 10)%N ds /\ dec_value ds = n /\
             (n < 2 ^ 64)%N /\ (s = dec_text ds \/ s = "+" ++ dec_text ds).

(** [s] is the text of the non-empty list of numbers [ns], separated by ["_"]. *)
Inductive nums_text : string -> list N -> Prop :=
| nums_one s n : usize_text s n -> nums_text s [n]
| nums_cons s n r ns :
    usize_text s n -> nums_text r ns -> nums_text (s ++ "_" ++ r) (n :: ns).

(** The texts accepted for an article number with the given components. A part after a
    second colon is not looked at. *)
Definition num_text (s : string) (base : N) (eda range : list N) : Prop :=
  (nums_text s (base :: eda) /\ range = []) \/
  (exists a b, nums_text a (base :: eda) /\ nums_text b range /\
     (s = a ++ ":" ++ b \/ exists rest, s = a ++ ":" ++ b ++ ":" ++ rest)).

(** The numbers that survive being written and read: machine integers, and a range end
    only together with exactly one branch number. *)
Definition an_ok (a : ArticleNumber) : bool :=
  is_usize (base_number a) && forallb is_usize (eda_numbers a)
  && forallb is_usize (range_end_numbers a)
  && (match range_end_numbers a with
      | [] => true
      | _ => Nat.eqb (length (eda_numbers a)) 1
      end).

(** Machine integers. *)
Definition usizes (l : list N) : Prop := Forall (fun n => is_usize n = true) l.

(** Every component is a machine integer. *)
Definition an_usize (a : ArticleNumber) : Prop :=
  is_usize (base_number a) = true /\ usizes (eda_numbers a) /\ usizes (range_end_numbers a).
