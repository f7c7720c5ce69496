(** The message of an error.

    Model file: definitions only. *)
From Coq Require Import String List.
From Verif Require Import Base.
Open Scope string_scope.

(** [Display] of [Error], from the [#[error(..)]] attributes of /repo/src/result.rs 7-38 by the derive
    macro of crate thiserror: the fixed parts with the [Display] of the named fields in between. *)
Definition message (e : Error) : string :=
  match e with
  | MissingRequiredAttribute t a => "Missing required attribute of " ++ a ++ " at " ++ t ++ " tag"
  | MissingRequiredTag t => "Missing required tag of " ++ t ++ " tag"
  | AttributeParseError t a => "Attribure parse error of " ++ a ++ " at " ++ t ++ " tag"
  | WrongTagName w x => "Tag name is " ++ w ++ " but expected " ++ x
  | UnexpectedTag w t => "Unexpected " ++ w ++ " tag at " ++ t
  | XMLParsing => "xml parsing error"
  | ParsingError w s => w ++ " parsing error: " ++ s
  | Io => "write error"
  end.
