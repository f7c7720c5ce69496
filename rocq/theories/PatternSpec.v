(** How patterns are written: the grammar of the part of the syntax of the crate [regex] that is used. *)
From Coq Require Import String List NArith Bool.
From Verif Require Import Regex Pattern.
Import ListNotations.
Open Scope string_scope.
Open Scope list_scope.

(** Characters that stand for themselves. *)
Definition plain (c : N) : Prop := ~ In c (u "()[]{}.$^*+?|\").
(** Characters that stand for themselves in a class. *)
Definition plain_in_class (c : N) : Prop := ~ In c (u "[]\").
Definition starts_with (c : string) (s : ustr) : Prop := exists r, s = uc c :: r.

(** A class up to its bracket. *)
Inductive spells_items : list class_item -> ustr -> Prop :=
| items_end : spells_items [] [uc "]"]
| items_space : forall l s, spells_items l s -> spells_items (Space :: l) (uc "\" :: uc "s" :: s)
| items_range : forall a z l s, plain_in_class a -> z <> uc "]" -> spells_items l s ->
    spells_items (Between a z :: l) (a :: uc "-" :: z :: s)
| items_one : forall a l s, plain_in_class a -> ~ starts_with "-" s -> spells_items l s ->
    spells_items (Between a a :: l) (a :: s).

Inductive sort := Alternatives | Sequence | Piece | Atom.
Inductive spells : sort -> pattern -> ustr -> Prop :=
| spells_one : forall a s, spells Sequence a s -> spells Alternatives a s
| spells_or : forall a b s s', spells Sequence a s -> spells Alternatives b s' ->
    spells Alternatives (PAlt a b) (s ++ uc "|" :: s')
| spells_nothing : spells Sequence PEmpty []
| spells_then : forall a b s s', spells Piece a s -> spells Sequence b s' -> spells Sequence (PSeq a b) (s ++ s')
| spells_once : forall a s, spells Atom a s -> spells Piece a s
| spells_star : forall a s, spells Atom a s -> spells Piece (PStar a) (s ++ [uc "*"])
| spells_plus : forall a s, spells Atom a s -> spells Piece (PPlus a) (s ++ [uc "+"])
| spells_opt : forall a s, spells Atom a s -> spells Piece (POpt a) (s ++ [uc "?"])
| spells_char : forall c, plain c -> spells Atom (PClass false [Between c c]) [c]
| spells_dot : spells Atom (PClass true [Between 10 10]) [uc "."]
| spells_end : spells Atom PEnd [uc "$"]
| spells_space : spells Atom (PClass false [Space]) [uc "\"; uc "s"]
| spells_class : forall l s, spells_items l s -> ~ starts_with "^" s -> spells Atom (PClass false l) (uc "[" :: s)
| spells_not_class : forall l s, spells_items l s -> spells Atom (PClass true l) (uc "[" :: uc "^" :: s)
| spells_group : forall a s, spells Alternatives a s -> spells Atom a (uc "(" :: s ++ [uc ")"])
| spells_named : forall n a s, ~ In (uc ">") n -> spells Alternatives a s ->
    spells Atom (PNamed (enc n) a) (uc "(" :: uc "?" :: uc "<" :: n ++ uc ">" :: s ++ [uc ")"]).
