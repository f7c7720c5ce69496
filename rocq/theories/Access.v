(** The accessors of the two records of utils.rs, beyond those that the listings themselves use. *)
From Coq Require Import String List NArith Bool.
From Verif Require Import Base NumStr Ast Utils.
Import ListNotations.

(** /repo/src/utils.rs 48-50, 54-56, 60-62, 66-68, 72-74 and 78-80: clones of the fields. *)
Definition get_part (w : WithNumberArticle) := wn_part w.
Definition get_chapter (w : WithNumberArticle) := wn_chapter w.
Definition get_section (w : WithNumberArticle) := wn_section w.
Definition get_subsection (w : WithNumberArticle) := wn_subsection w.
Definition get_division (w : WithNumberArticle) := wn_division w.
Definition get_article (w : WithNumberArticle) := wn_article w.
(** /repo/src/utils.rs 75-77. *)
Definition set_articl a w := mkWNA (wn_part w) (wn_chapter w) (wn_section w) (wn_subsection w) (wn_division w) a.

(** /repo/src/utils.rs 948-968. *)
Definition toc_get_part (t : Toc) := toc_part t.
Definition toc_get_chapter (t : Toc) := toc_chapter t.
Definition toc_get_section (t : Toc) := toc_section t.
Definition toc_get_subsection (t : Toc) := toc_subsection t.
Definition toc_get_division (t : Toc) := toc_division t.
Definition toc_get_article (t : Toc) := toc_article t.
Definition toc_get_title (t : Toc) := toc_title t.

(** Outside the crate the fields of [Toc] cannot be reached (they are [pub(crate)]), so that a value made there
    comes from [default] by calls of setters. *)
Inductive toc_call :=
| CallPart (n : option ArticleNumber) | CallChapter (n : option ArticleNumber) | CallSection (n : option ArticleNumber)
| CallSubsection (n : option ArticleNumber) | CallDivision (n : option ArticleNumber)
| CallArticle (n : option ArticleNumber) | CallTitle (s : option string).
Definition call (t : Toc) (c : toc_call) : Toc :=
  match c with
  | CallPart n => toc_set_part n t
  | CallChapter n => toc_set_chapter n t
  | CallSection n => toc_set_section n t
  | CallSubsection n => toc_set_subsection n t
  | CallDivision n => toc_set_division n t
  | CallArticle n => toc_set_article n t
  | CallTitle s => toc_set_title s t
  end.
Definition calls (l : list toc_call) (t : Toc) : Toc := fold_left call l t.
