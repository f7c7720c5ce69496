(** Specification of when two sequences of lines say the same law body. *)
From Coq Require Import String List NArith Bool.
From Verif Require Import Base NumStr Ast Regex NumText TextParse TextSpec.
Import ListNotations.
Open Scope list_scope.

(** The lines without the captions that do not stand directly before an article. *)
Fixpoint kept_lines (ls : list line) : list line :=
  match ls with
  | [] => []
  | LCaption s :: r => match r with LArticle _ _ :: _ => LCaption s :: kept_lines r | _ => kept_lines r end
  | l :: r => l :: kept_lines r
  end.

(** Two lines that differ at most in how the label of an item is written. *)
Definition like (l l' : line) : Prop :=
  match l, l' with
  | LItem i t, LItem i' t' =>
      inum_base i = inum_base i' /\ inum_eda i = inum_eda i' /\ inum_range i = inum_range i' /\ t = t'
  | _, _ => l = l'
  end.

(** The levels of the items, in order. *)
Fixpoint levels (open : list ItemPattern) (ls : list line) : list nat :=
  match ls with
  | [] => []
  | LItem i _ :: r =>
      match next_items (inum_pattern i) open with Some o => (length o - 1) :: levels o r | None => [] end
  | LArticle _ _ :: r | LParagraph _ _ :: r => levels [] r
  | _ :: r => levels open r
  end.

Definition same_lines (a a' : list line) : Prop :=
  Forall2 like (kept_lines a) (kept_lines a') /\ levels [] a = levels [] a'.

(** The lines [a] are read, and reading ends there. *)
Definition read_part (ls a : list line) : Prop :=
  exists rest, ls = a ++ rest /\ readable a /\ (rest = [] \/ exists l r, rest = l :: r /\ misplaced a l).

(** The text that a line has beside its number. *)
Definition words_of (l : line) : ustr :=
  match l with
  | LCaption s | LText s | LSuppl (Some s) => s
  | LPart _ t | LChapter _ t | LSection _ t | LSubsection _ t | LDivision _ t | LArticle _ t | LParagraph _ t | LItem _ t => t
  | LSuppl None => []
  end.
