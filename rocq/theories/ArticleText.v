(** The text of the number of a heading or article, with which its line starts in print.  The constructors
    [Part::new] ... [Article::new] (/repo/src/article.rs 25-39, 143-157, 261-275, 387-401, 507-521, 612-630)
    only store their arguments; the model uses the records directly. *)
From Coq Require Import String List NArith.
From Verif Require Import Base NumStr Ast Regex NumText.

(** [Part::number_text] ... [Article::number_text], /repo/src/article.rs 41-43, 159-161, 277-279, 403-405,
    523-525, 632-634. *)
Definition part_number_text (cd : codec) (x : Knot KPart) : ustr := part_text cd (hd_num (un KPart x)).
Definition chapter_number_text (cd : codec) (x : Knot KChapter) : ustr := chapter_text cd (hd_num (un KChapter x)).
Definition section_number_text (cd : codec) (x : Knot KSection) : ustr := section_text cd (hd_num (un KSection x)).
Definition subsection_number_text (cd : codec) (x : Knot KSubsection) : ustr := subsection_text cd (hd_num (un KSubsection x)).
Definition division_number_text (cd : codec) (x : Knot KDivision) : ustr := division_text cd (hd_num (un KDivision x)).
Definition article_number_text (cd : codec) (x : Knot KArticle) : ustr := article_text cd (art_num (un KArticle x)).
