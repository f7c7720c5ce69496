(** Laws that are read from plain text and stored as XML: which of them come back.  The
    specification looks at the lines of the text only. *)
From Coq Require Import String List NArith Bool.
From Verif Require Import Base NumStr Ast Regex NumText TextParse TidySpec.
Import ListNotations.
Open Scope list_scope.

(** A number with the end of a range is kept only if it has exactly one branch. *)
Definition range_kept (n : ArticleNumber) : Prop :=
  range_end_numbers n = [] \/ length (eda_numbers n) = 1.

(** The line is a heading or a paragraph whose number is kept, or of another sort. *)
Definition line_kept (l : line) : Prop :=
  match l with
  | LPart n _ | LChapter n _ | LSection n _ | LSubsection n _ | LDivision n _ | LArticle n _
  | LParagraph n _ => range_kept n
  | LCaption _ | LItem _ _ | LSuppl _ | LText _ => True
  end.

(** Every number of the line is a machine integer. *)
Definition machine (l : list N) : Prop := Forall (fun n => n < 2 ^ 64)%N l.
Definition machine_number (n : ArticleNumber) : Prop :=
  machine (base_number n :: eda_numbers n ++ range_end_numbers n).
Definition line_machine (l : line) : Prop :=
  match l with
  | LPart n _ | LChapter n _ | LSection n _ | LSubsection n _ | LDivision n _ | LArticle n _
  | LParagraph n _ => machine_number n
  | LItem i _ => machine (inum_base i :: inum_eda i) /\ inum_range i = []
  | LCaption _ | LSuppl _ | LText _ => True
  end.

(** Fewer lines than there are machine integers. *)
Definition countable (l : list line) : Prop := (N.of_nat (length l) < 2 ^ 64)%N.

(** The line is not an article and its text, if it has one, is not only blanks. *)
Definition seen (t : ustr) : Prop := blank (enc t) = false.
Definition line_seen (l : line) : Prop :=
  match l with
  | LArticle _ _ => False
  | LPart _ t | LChapter _ t | LSection _ t | LSubsection _ t | LDivision _ t | LParagraph _ t | LItem _ t | LText t => seen t
  | LCaption _ | LSuppl _ => True
  end.
