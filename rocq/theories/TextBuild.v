(** Building texts: the methods of [Text] and [TextWithWritingMode] in /repo/src/text.rs.

    Model file: definitions only.

    A text is the list [contents]; a method on [&mut self] returns the new text; [clone] is the identity. *)
From Coq Require Import String List Bool.
From Verif Require Import Base Xml Ast XmlParse Utils.
Import ListNotations.
Open Scope string_scope.
Open Scope list_scope.

(** [Text::new]: 19-24. *)
Definition text_new : Text Knot := [].
(** [Text::from_value], 60-65, for a value whose [to_string()] is [s]. *)
Definition from_value (s : string) : Text Knot := [TE_Text s].
(** [Text::add_text], 67-72: the loop that pushes. *)
Definition add_text (t2 : Text Knot) (t : Text Knot) : Text Knot :=
  fold_left (fun acc e => acc ++ [e]) t2 t.
(** 73-76. *)
Definition add_string (s : string) (t : Text Knot) : Text Knot := t ++ [TE_Text s].
(** 77-80. *)
Definition add_ruby (r : Knot KRuby) (t : Text Knot) : Text Knot := t ++ [TE_Ruby r].
(** 81-84. *)
Definition add_line (l : Knot KLine) (t : Text Knot) : Text Knot := t ++ [TE_Line l].
(** 85-88. *)
Definition add_sup (s : string) (t : Text Knot) : Text Knot := t ++ [TE_Sup s].
(** 89-92. *)
Definition add_sub (s : string) (t : Text Knot) : Text Knot := t ++ [TE_Sub s].
(** [Text::with_writing_mode]: 93-98. *)
Definition with_writing_mode (m : WritingMode) (t : Text Knot) : TextWithWritingMode Knot := mkTWM t m.

(** [if let Ok(v) = r { add(v) }]; a panic goes through. *)
Definition if_ok {A} (r : R A) (add : A -> Text Knot -> Text Knot) (t : Text Knot) : R (Text Knot) :=
  match r with Ok v => Ok (add v t) | Err _ => Ok t | Panic => Panic end.
(** [impl Parser for Text]: 132-160. *)
Definition text_parser (e : Element) : R (Text Knot) :=
  let text := text_new in
  if String.eqb (name e) "Ruby" then if_ok (parse KRuby e) add_ruby text
  else if String.eqb (name e) "Line" then if_ok (parse KLine e) add_line text
  else if String.eqb (name e) "Sup" then if_ok (parse_sup e) add_sup text
  else if String.eqb (name e) "Sub" then if_ok (parse_sub e) add_sub text
  else Ok text.

(** [TextWithWritingMode::to_string]: 233-247. *)
Definition twm_str (t : TextWithWritingMode Knot) : string :=
  fold_left (fun s v => match v with
    | TE_Sub x => s ++ x
    | TE_Sup x => s ++ x
    | TE_Ruby r => s ++ ruby_str r
    | TE_Line _ => s
    | TE_Text x => s ++ x
    end)%string (twm_contents t) "".
