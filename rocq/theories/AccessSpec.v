(** Specification of accessors. *)
From Coq Require Import List.
Import ListNotations.

(** A getter and a setter of the same field. *)
Definition pair_of {T V} (get : T -> V) (set : V -> T -> T) : Prop :=
  (forall v t, get (set v t) = v) /\ (forall t, set (get t) t = t) /\ (forall v w t, set v (set w t) = set v t).
(** A setter that leaves the field of a getter alone. *)
Definition leaves {T V W} (get : T -> V) (set : W -> T -> T) : Prop := forall v t, get (set v t) = get t.
