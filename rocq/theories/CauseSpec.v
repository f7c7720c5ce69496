(** What the results of the public functions on XML text stand for. *)
From Coq Require Import String List Arith.
From Verif Require Import Base Xml Ast XmlWrite XmlParse Api.
Import ListNotations.
Open Scope string_scope.
Open Scope list_scope.

(** [taken w s b r s']: a writer in state [s] is handed the bytes [b], again and again what is left of them, and this
    ends with [r] in state [s'].  Nothing taken is an error, more taken than given is a panic. *)
Inductive taken {S} (w : writer S) : S -> string -> io_end -> S -> Prop :=
| all_done s : taken w s "" Done s
| some_taken s p q s1 r s2 : p <> "" -> w s (p ++ q)%string = (Wrote (String.length p), s1) -> taken w s1 q r s2 ->
    taken w s (p ++ q)%string r s2
| none_taken s b s1 : b <> "" -> w s b = (Wrote 0, s1) -> taken w s b Io_error s1
| too_much s b n s1 : b <> "" -> w s b = (Wrote n, s1) -> String.length b < n -> taken w s b Io_panic s1
| again s b s1 r s2 : b <> "" -> w s b = (Interrupted, s1) -> taken w s1 b r s2 -> taken w s b r s2
| failed s b s1 : b <> "" -> w s b = (Failed, s1) -> taken w s b Io_error s1.

(** One string after the other, up to the first that is not taken. *)
Inductive all_taken {S} (w : writer S) : S -> list string -> io_end -> S -> Prop :=
| no_more s : all_taken w s [] Done s
| next s b s1 l r s2 : taken w s b Done s1 -> all_taken w s1 l r s2 -> all_taken w s (b :: l) r s2
| stop s b r s1 l : taken w s b r s1 -> r <> Done -> all_taken w s (b :: l) r s1.

(** The result of [write_file] for the way in which the writing ends and the crate's own verdict. *)
Definition outcome (r : io_end) (ok : bool) : R unit :=
  match r, ok with
  | Done, true => Ok tt
  | Done, false => Err Io
  | Io_error, _ => Err Io
  | Io_panic, _ => Panic
  end.

(** A writer that never claims more than it was given. *)
Definition modest {S} (w : writer S) : Prop := forall s b n s', b <> "" -> w s b = (Wrote n, s') -> n <= String.length b.
