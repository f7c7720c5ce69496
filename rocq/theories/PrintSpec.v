(** Specification of printing: the lines that stand for the listing of a law body (TextSpec.v), with one
    labelling pattern for each level of items. *)
From Coq Require Import String List NArith Bool Arith.
From Verif Require Import Base NumStr Ast Regex NumText TextParse TextSpec.
Import ListNotations.
Open Scope list_scope.

Definition heading (r : rank) : ArticleNumber -> ustr -> line :=
  match r with
  | RPart => LPart | RChapter => LChapter | RSection => LSection | RSubsection => LSubsection | RDivision => LDivision
  end.
Definition caption_lines (cap : option ustr) : list line := match cap with Some s => [LCaption s] | None => [] end.
Definition stored_caption (cap : option ustr) : option (Caption Knot) := option_map (fun s => mkCaption (as_text s) None) cap.

(** An article is printed on the line of its first sentence, and so are paragraphs and items; every further
    sentence is a line of text, and so is every sentence of the preamble. *)
Inductive prints (pattern : nat -> ItemPattern) : list entry -> list line -> Prop :=
| prints_nil : prints pattern [] []
| prints_head d r t n es ls : prints pattern es ls ->
    prints pattern (EHead d r (as_text t) n (says_deleted t) false :: es) (heading r n t :: ls)
| prints_article d cap n t es ls : prints pattern es ls ->
    prints pattern (EArt d (stored_caption cap) (as_text []) None n (says_deleted t) false ::
        paragraph false (mkAN 1 [] []) :: sentence 1 t :: es)
      (caption_lines cap ++ LArticle n t :: ls)
| prints_paragraph n t es ls : prints pattern es ls ->
    prints pattern (paragraph false n :: sentence 1 t :: es) (LParagraph n t :: ls)
| prints_item k i t es ls : inum_pattern i = pattern k -> prints pattern es ls ->
    prints pattern (EItem k None [] (Some (mkAN (inum_base i) (inum_eda i) (inum_range i))) (says_deleted t) false :: sentence 1 t :: es)
      (LItem i t :: ls)
| prints_preamble n t es ls : prints pattern es ls ->
    prints pattern (paragraph true n :: sentence 0 t :: es) (LText t :: ls)
| prints_sentence k t es ls : prints pattern es ls -> prints pattern (sentence k t :: es) (LText t :: ls).

(** The pattern of a level differs from those of the two levels before. *)
Definition scheme (pattern : nat -> ItemPattern) : Prop :=
  forall k, k < 10 -> pattern (S k) <> pattern k /\ (k < 9 -> pattern (S (S k)) <> pattern k).
