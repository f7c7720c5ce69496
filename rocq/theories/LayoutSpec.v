(** What does not matter in the layout of plain text, and what does: texts with the same lines up to
    white space at both ends of lines.  The specification looks at the characters of the text only. *)
From Coq Require Import List NArith.
From Verif Require Import Base Regex NumTextSpec TextParse TextSpec.
Import ListNotations.
Open Scope list_scope.

(** Two lines with the same characters between white space. *)
Definition same_line (l l' : ustr) : Prop :=
  exists w x y x' y', blank x /\ blank y /\ blank x' /\ blank y' /\ l = x ++ w ++ y /\ l' = x' ++ w ++ y'.

(** Two texts with the same lines, with or without a line feed at the end. *)
Definition same_text (t t' : ustr) : Prop :=
  exists ls ls', joined ls t /\ joined ls' t' /\ Forall2 same_line ls ls'.

(** The lines each followed by the characters [e]. *)
Definition ended (e : ustr) (ls : list ustr) : ustr := concat (map (fun l => l ++ e) ls).

(** The lines end in a heading or a caption. *)
Definition after_heading (a : list line) : Prop := exists b h, a = b ++ [h] /\ heading_or_caption h.
