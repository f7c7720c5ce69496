(** Specification for the messages of errors: texts without a space. *)
From Coq Require Import String Ascii List.
From Verif Require Import Base Xml XmlSpec.
Import ListNotations.

Definition spaceless (s : string) : Prop := ~ In " "%char (list_ascii_of_string s).

(** Every tag in the document is without a space, as in every XML text. *)
Definition spaceless_tags (e : Element) : Prop := forall c, inside c e -> spaceless (name c).

(** The name that the message mentions first, where there are two. *)
Definition first_name (e : Error) : option string :=
  match e with
  | MissingRequiredAttribute _ a | AttributeParseError _ a => Some a
  | WrongTagName w _ | UnexpectedTag w _ | ParsingError w _ => Some w
  | MissingRequiredTag _ | XMLParsing | Io => None
  end.
Definition sharp (e : Error) : Prop := forall s, first_name e = Some s -> spaceless s.
