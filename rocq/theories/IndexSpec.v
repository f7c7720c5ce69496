(** Specification: which listings of texts have an index of their own for each text. *)
From Coq Require Import List.
From Verif Require Import Base NumStr Ast.
Import ListNotations.

(** The number of an item. *)
Definition own_number (k : kind) (x : Knot k) : option (option ArticleNumber) :=
  match x with @mkItem l f => Some (it_num f) | _ => None end.

(** Below an item, no two siblings have the same number (or no number, both of them). *)
Inductive apart : forall k, Knot k -> Prop :=
| apart_item : forall l f,
    NoDup (map (own_number (sub_item l)) (it_children f)) ->
    Forall (apart (sub_item l)) (it_children f) ->
    apart (KItem l) (mk (KItem l) f).

(** The same for the items of a paragraph. *)
Definition items_apart (p : Knot KParagraph) : Prop :=
  NoDup (map (own_number (KItem Item0)) (par_children (un KParagraph p))) /\
  Forall (apart (KItem Item0)) (par_children (un KParagraph p)).
