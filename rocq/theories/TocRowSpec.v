(** The rows of the table of contents, computed from the headings and articles in their order. *)
From Coq Require Import String List NArith.
From Verif Require Import Base NumStr Xml Ast Utils UtilsSpec.
Import ListNotations.
Open Scope string_scope.
Open Scope list_scope.

(** The row that each heading now open shows last, the innermost one first. *)
Definition open_rows := list (rank * Toc).
Definition last_row (s : open_rows) : Toc :=
  match s with (_, t) :: _ => t | [] => mkToc None None None None None None None end.
(** Only this number of headings stays open, the outer ones. *)
Definition keep_open (n : nat) (s : open_rows) : open_rows := skipn (length s - n) s.
(** A part shows what the chapter directly in it shows. *)
Definition shared (r : rank) (t : Toc) (s : open_rows) : open_rows :=
  match r, s with RChapter, (RPart, _) :: s => (RPart, t) :: s | _, _ => s end.
Definition shows (t : Toc) (s : open_rows) : open_rows :=
  match s with (r, _) :: s => (r, t) :: shared r t s | [] => [] end.
(** The row of a heading: its number is put in. *)
Definition heading_row (r : rank) (n : ArticleNumber) (title : string) (t : Toc) : Toc :=
  match r, t with
  | RPart, mkToc _ c s u d a _ => mkToc (Some n) c s u d a (Some title)
  | RChapter, mkToc p _ s u d a _ => mkToc p (Some n) s u d a (Some title)
  | RSection, mkToc p c _ u d a _ => mkToc p c (Some n) u d a (Some title)
  | RSubsection, mkToc p c s _ d a _ => mkToc p c s (Some n) d a (Some title)
  | RDivision, mkToc p c s u _ a _ => mkToc p c s u (Some n) a (Some title)
  end.
(** An article is entered as if it were a division. *)
Definition step_row (s : open_rows) (e : entry) : Toc * open_rows :=
  let depth := length (en_trail e) in
  match en_article e with
  | Some n =>
      let s := keep_open depth s in
      let t := heading_row RDivision n (en_title e) (last_row s) in (t, shows t s)
  | None =>
      let s := keep_open (pred depth) s in
      let '(r, n) := last (en_trail e) (RPart, mkAN 0 [] []) in
      let t := heading_row r n (en_title e) (last_row s) in (t, (r, t) :: shared r t s)
  end.
Fixpoint scan_rows (s : open_rows) (l : list entry) : list Toc * open_rows :=
  match l with
  | [] => ([], s)
  | e :: l => let '(t, s) := step_row s e in let '(ts, s) := scan_rows s l in (t :: ts, s)
  end.
Definition rows (l : list entry) : list Toc := fst (scan_rows [] l).
(** A heading or article in no heading. *)
Definition outermost (e : entry) : Prop :=
  length (en_trail e) <= match en_article e with Some _ => 0 | None => 1 end.
