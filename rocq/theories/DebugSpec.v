(** Specification of what is expected of [Debug].  Independent of [Debug.v]. *)
From Coq Require Import String Ascii List NArith Bool.
From Verif Require Import Base Serde ApiSpec.
Import ListNotations.
Open Scope list_scope.

(** All texts of a document are texts of Rust: sequences of characters in UTF-8. *)
Inductive texts : json -> Prop :=
| tx_null : texts JNull
| tx_bool : forall b, texts (JBool b)
| tx_num : forall n, texts (JNum n)
| tx_str : forall s, encoded s -> texts (JStr s)
| tx_arr : forall l, (forall j, In j l -> texts j) -> texts (JArr l)
| tx_obj : forall l, (forall n j, In (n, j) l -> texts j) -> texts (JObj l).

(** Every byte of a text satisfies a condition. *)
Fixpoint bytes (P : N -> Prop) (s : string) : Prop :=
  match s with
  | EmptyString => True
  | String c r => P (N_of_ascii c) /\ bytes P r
  end.

(** The texts of an error. *)
Definition error_texts (e : Error) : list string :=
  match e with
  | MissingRequiredAttribute a b | AttributeParseError a b | WrongTagName a b | UnexpectedTag a b | ParsingError a b => [a; b]
  | MissingRequiredTag a => [a]
  | XMLParsing | Io => []
  end.
