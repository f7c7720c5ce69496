(** Documents whose texts are read piece by piece as they stand: what is read of them is tidy. *)
From Coq Require Import String List NArith Bool.
From Verif Require Import Base Xml XmlSpec Ast XmlParse RoundTripSpec ReadingSpec TidySpec.
Import ListNotations.
Open Scope string_scope.
Open Scope list_scope.

(** Elements with mixed content, all of which is read. *)
Definition mixed_tags : list string :=
  ["Line"; "Sentence"; "TableColumn"; "QuoteStruct"; "ArithFormula"; "Note"; "Style"; "Format"].
(** The elements that count inside titles, labels and captions; all others are passed over there. *)
Definition inline_tags : list string := ["Ruby"; "Line"; "Sup"; "Sub"].

(** The child nodes that become pieces of text or stand between them, in an element with tag [n]; in a
    ruby the reading is kept apart from the text. *)
Definition counts (n : string) (x : XMLNode) : bool :=
  match x with
  | NText _ => true
  | NOther _ => false
  | NElement d =>
      negb (String.eqb n "Ruby")
      && (existsb (String.eqb n) mixed_tags || existsb (String.eqb (name d)) inline_tags)
  end.

(** No two texts side by side. *)
Fixpoint apart (l : list XMLNode) : bool :=
  match l with
  | [] => true
  | NText _ :: r => match r with NText _ :: _ => false | _ => apart r end
  | _ :: r => apart r
  end.

(** One element, not looking into its children. *)
Definition neat_element (e : Element) : Prop :=
  structural (name e) = false ->
  (forall s, In (NText s) (children e) -> blank s = false) /\ apart (filter (counts (name e)) (children e)) = true.

(** A document of such elements, in which every line can be read. *)
Definition neat_document (e : Element) : Prop :=
  forall c, inside c e -> neat_element c /\ (name c = "Line" -> ~ refused KLine c).
