(** What a match of a regular expression is, without an engine.

    A match is a derivation: which alternative was taken and how often a repetition went on.  Of
    two derivations over the same text the preferred one takes, at the first place where they
    differ, the earlier alternative or goes on with the repetition (the documented leftmost-first,
    greedy rule of the crate [regex]). *)
From Coq Require Import String List NArith Bool.
From Verif Require Import Regex.
Import ListNotations.
Open Scope list_scope.

Inductive tree :=
| Nothing                     (* the empty text or [$] *)
| One (c : N)
| Both (a b : tree)
| First (a : tree)
| Second (b : tree)
| Stop                        (* the repetition ends *)
| More (a rest : tree)        (* the repetition goes on *)
| Named (n : string) (a : tree).

(** [parses r s t s']: [r] matches the start of [s] as [t] says and leaves [s']. *)
Inductive parses : re -> ustr -> tree -> ustr -> Prop :=
| parses_eps : forall s, parses Eps s Nothing s
| parses_end : parses End [] Nothing []
| parses_chr : forall (p : N -> bool) c s, p c = true -> parses (Chr p) (c :: s) (One c) s
| parses_seq : forall a b s s1 s2 t1 t2, parses a s t1 s1 -> parses b s1 t2 s2 ->
    parses (Seq a b) s (Both t1 t2) s2
| parses_first : forall a b s s' t, parses a s t s' -> parses (Alt a b) s (First t) s'
| parses_second : forall a b s s' t, parses b s t s' -> parses (Alt a b) s (Second t) s'
| parses_stop : forall a s, parses (Star a) s Stop s
| parses_more : forall a s s1 s2 t ts, parses a s t s1 -> s1 <> s -> parses (Star a) s1 ts s2 ->
    parses (Star a) s (More t ts) s2
| parses_named : forall n a s s' t, parses a s t s' -> parses (Cap n a) s (Named n t) s'.

(** The text that was read. *)
Fixpoint text_of (t : tree) : ustr :=
  match t with
  | Nothing | Stop => []
  | One c => [c]
  | Both a b | More a b => text_of a ++ text_of b
  | First a | Second a | Named _ a => text_of a
  end.

(** The groups that took part, in the order in which they open. *)
Fixpoint groups_of (t : tree) : list (string * ustr) :=
  match t with
  | Nothing | Stop | One _ => []
  | Both a b | More a b => groups_of a ++ groups_of b
  | First a | Second a => groups_of a
  | Named n a => (n, text_of a) :: groups_of a
  end.

Inductive prefers : tree -> tree -> Prop :=
| prefers_first : forall a b, prefers (First a) (Second b)
| prefers_more : forall a b, prefers (More a b) Stop
| prefers_both_l : forall a a' b b', prefers a a' -> prefers (Both a b) (Both a' b')
| prefers_both_r : forall a b b', prefers b b' -> prefers (Both a b) (Both a b')
| prefers_more_l : forall a a' b b', prefers a a' -> prefers (More a b) (More a' b')
| prefers_more_r : forall a b b', prefers b b' -> prefers (More a b) (More a b')
| prefers_in_first : forall a a', prefers a a' -> prefers (First a) (First a')
| prefers_in_second : forall a a', prefers a a' -> prefers (Second a) (Second a')
| prefers_named : forall n a a', prefers a a' -> prefers (Named n a) (Named n a').

(** [t] is the match to report. *)
Definition best (r : re) (s : ustr) (t : tree) (s' : ustr) : Prop :=
  parses r s t s' /\ forall t' s'', parses r s t' s'' -> t' = t \/ prefers t t'.

(** [a] is repeated somewhere in [r]. *)
Inductive repeated (a : re) : re -> Prop :=
| repeated_here : repeated a (Star a)
| repeated_star : forall r, repeated a r -> repeated a (Star r)
| repeated_seq_l : forall r q, repeated a r -> repeated a (Seq r q)
| repeated_seq_r : forall r q, repeated a q -> repeated a (Seq r q)
| repeated_alt_l : forall r q, repeated a r -> repeated a (Alt r q)
| repeated_alt_r : forall r q, repeated a q -> repeated a (Alt r q)
| repeated_cap : forall n r, repeated a r -> repeated a (Cap n r).
