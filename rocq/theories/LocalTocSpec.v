(** Replacing one element of an XML tree and the table of contents. *)
From Coq Require Import String List NArith Bool.
From Verif Require Import Base NumStr Xml Ast NumText Utils UtilsSpec ReadSpec ReadingSpec DocTextSpec DocListSpec Serde LocalSpec.
Import ListNotations.
Open Scope string_scope.
Open Scope list_scope.

(** The headings and articles at and below an element that stands under these headings. *)
Definition places_at (t : written_trail) (c : Element) : list (written_trail * Element) :=
  map (fun x => (t ++ fst x, snd x)) (places c).
(** In each of the headings around the place an element (the title) stands before it. *)
Fixpoint titled (p : place) : Prop :=
  match p with Here => True | Under _ _ l p _ => elements l <> [] /\ titled p end.
(** The table of contents says this of these headings and articles. *)
Definition shown (l : list (written_trail * Element)) (ts : list Toc) : Prop :=
  exists xs, Forall2 entry_for l xs /\ Forall2 toc_says xs ts.
(** Two rows that show the same heading or article: with the same title, the same part, section and subsection, inside
    chapters the same chapter, for articles the same number. *)
Definition same_row (x y : Toc) : Prop := exists e, toc_says e x /\ toc_says e y.
(** Two headings or articles with the same headings around them, the same number and the same title. *)
Definition alike (p p' : written_trail * Element) : Prop :=
  fst p = fst p' /\ is_article (snd p) = is_article (snd p') /\ place_title (snd p) = place_title (snd p') /\
  get (snd p) "Num" = get (snd p') "Num".
