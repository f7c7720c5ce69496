(** Property C72: the accessors of the listings. *)
From Coq Require Import String List NArith Bool.
From Verif Require Import Base NumStr Ast Utils Access AccessSpec Samples.
Import ListNotations.
Open Scope string_scope.
Open Scope list_scope.

(** C72.  Articles with numbers: each setter sets what its getter returns, and nothing else. *)
Theorem C72_article_accessors :
  (pair_of get_part set_part /\ pair_of get_chapter set_chapter /\ pair_of get_section set_section /\
   pair_of get_subsection set_subsection /\ pair_of get_division set_division /\ pair_of get_article set_articl) /\
  (leaves get_part set_chapter /\ leaves get_part set_section /\ leaves get_part set_subsection /\ leaves get_part set_division /\ leaves get_part set_articl) /\
  (leaves get_chapter set_part /\ leaves get_chapter set_section /\ leaves get_chapter set_subsection /\ leaves get_chapter set_division /\ leaves get_chapter set_articl) /\
  (leaves get_section set_part /\ leaves get_section set_chapter /\ leaves get_section set_subsection /\ leaves get_section set_division /\ leaves get_section set_articl) /\
  (leaves get_subsection set_part /\ leaves get_subsection set_chapter /\ leaves get_subsection set_section /\ leaves get_subsection set_division /\ leaves get_subsection set_articl) /\
  (leaves get_division set_part /\ leaves get_division set_chapter /\ leaves get_division set_section /\ leaves get_division set_subsection /\ leaves get_division set_articl) /\
  (leaves get_article set_part /\ leaves get_article set_chapter /\ leaves get_article set_section /\ leaves get_article set_subsection /\ leaves get_article set_division).
Proof. unfold pair_of, leaves. repeat split; try (intros; reflexivity); intros []; reflexivity. Qed.
Print Assumptions C72_article_accessors.

(** Entries of the table of contents: the same for all but the number of an article. *)
Theorem C72_toc_accessors :
  (pair_of toc_get_part toc_set_part /\ pair_of toc_get_chapter toc_set_chapter /\ pair_of toc_get_section toc_set_section /\
   pair_of toc_get_subsection toc_set_subsection /\ pair_of toc_get_division toc_set_division /\ pair_of toc_get_title toc_set_title) /\
  (leaves toc_get_part toc_set_chapter /\ leaves toc_get_part toc_set_section /\ leaves toc_get_part toc_set_subsection /\
   leaves toc_get_part toc_set_division /\ leaves toc_get_part toc_set_article /\ leaves toc_get_part toc_set_title) /\
  (leaves toc_get_chapter toc_set_part /\ leaves toc_get_chapter toc_set_section /\ leaves toc_get_chapter toc_set_subsection /\
   leaves toc_get_chapter toc_set_division /\ leaves toc_get_chapter toc_set_article /\ leaves toc_get_chapter toc_set_title) /\
  (leaves toc_get_section toc_set_part /\ leaves toc_get_section toc_set_chapter /\ leaves toc_get_section toc_set_subsection /\
   leaves toc_get_section toc_set_division /\ leaves toc_get_section toc_set_article /\ leaves toc_get_section toc_set_title) /\
  (leaves toc_get_subsection toc_set_part /\ leaves toc_get_subsection toc_set_chapter /\ leaves toc_get_subsection toc_set_section /\
   leaves toc_get_subsection toc_set_division /\ leaves toc_get_subsection toc_set_article /\ leaves toc_get_subsection toc_set_title) /\
  (leaves toc_get_division toc_set_part /\ leaves toc_get_division toc_set_chapter /\ leaves toc_get_division toc_set_section /\
   leaves toc_get_division toc_set_subsection /\ leaves toc_get_division toc_set_title) /\
  (leaves toc_get_title toc_set_part /\ leaves toc_get_title toc_set_chapter /\ leaves toc_get_title toc_set_section /\
   leaves toc_get_title toc_set_subsection /\ leaves toc_get_title toc_set_division /\ leaves toc_get_title toc_set_article).
Proof. unfold pair_of, leaves. repeat split; try (intros; reflexivity); intros []; reflexivity. Qed.
Print Assumptions C72_toc_accessors.

(** The setter of the article number does not set it: it overwrites the number of the division. *)
Theorem C72_article_refuted : exists n t,
  toc_get_article (toc_set_article n t) <> n /\ toc_get_division (toc_set_article n t) <> toc_get_division t.
Proof. exists (Some (num1 1)), toc_default. split; vm_compute; discriminate. Qed.
Print Assumptions C72_article_refuted.

Theorem C72_article_division : pair_of toc_get_division toc_set_article /\ leaves toc_get_article toc_set_article.
Proof. repeat split. intros []. reflexivity. Qed.
Print Assumptions C72_article_division.

(** No calls of setters whatever give an entry with an article number; all other entries can be made. *)
Theorem C72_article_never : forall t, (exists l, calls l toc_default = t) <-> toc_get_article t = None.
Proof.
  intros t. split.
  - intros [l <-]. unfold calls. assert (G : forall u, toc_get_article u = None -> toc_get_article (fold_left call l u) = None); [|apply G; reflexivity].
    induction l as [|c l IH]; intros u Hu; [exact Hu|]. cbn [fold_left]. apply IH. destruct c; exact Hu.
  - destruct t as [p c s u d a n]. cbn. intros ->.
    exists [CallPart p; CallChapter c; CallSection s; CallSubsection u; CallDivision d; CallTitle n]. reflexivity.
Qed.
Print Assumptions C72_article_never.

Example C72_case : toc_get_article (calls [CallTitle (Some "第一条"); CallArticle (Some (num1 1))] toc_default) = None /\
  toc_get_division (calls [CallDivision (Some (num1 3)); CallArticle (Some (num1 1))] toc_default) = Some (num1 1) /\
  calls [CallPart (Some (num1 2)); CallPart None] toc_default = toc_default.
Proof. repeat split. Qed.
