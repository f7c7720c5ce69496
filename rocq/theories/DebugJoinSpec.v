(** From the indented output of [Debug] to the one on one line, by looking at the output only: line breaks are taken out with
    the spaces after them, and with the comma before a closing bracket. *)
From Coq Require Import String Ascii List NArith Bool.
Import ListNotations.
Open Scope string_scope.

(** What was read last: a comma not yet written, a curly or another opening bracket; a line break after one of these; or
    anything else. *)
Inductive place := Within | Comma | Curly | Bracket | AfterCurly | AfterBracket | AfterComma.
Definition line_break (p : place) : place :=
  match p with Comma => AfterComma | Curly => AfterCurly | Bracket => AfterBracket | _ => p end.
Definition line_start (p : place) : bool := match p with AfterCurly | AfterBracket | AfterComma => true | _ => false end.
Definition is (c d : ascii) : bool := Ascii.eqb c d.
Definition before (p : place) (c : ascii) : string :=
  match p with
  | Comma => ","
  | AfterCurly => " "
  | AfterComma => if is c "}" then " " else if is c ")" || is c "]" then "" else ", "
  | _ => ""
  end.
Definition after (c : ascii) : place := if is c "{" then Curly else if is c "(" || is c "[" then Bracket else Within.
Fixpoint joined (p : place) (s : string) : string :=
  match s with
  | EmptyString => match p with Comma => "," | _ => "" end
  | String c r =>
      if is c (ascii_of_N 10) then joined (line_break p) r
      else if is c " " && line_start p then joined p r
      else (before p c ++ (if is c "," then joined Comma r else String c (joined (after c) r)))%string
  end.
Definition one_line (s : string) : string := joined Within s.
