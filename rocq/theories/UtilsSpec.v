(** Specification of the listings. *)
From Coq Require Import String List NArith Bool.
From Verif Require Import Base NumStr Xml Ast ReadSpec Utils.
Import ListNotations.
Open Scope string_scope.
Open Scope list_scope.

(** ** Articles and groups of paragraphs *)

(** The articles of a supplementary provision. *)
Definition suppl_articles (v : Knot KSuppl) : list (Knot KArticle) :=
  flat_map (fun c => match c with SP_Article a => [a] | SP_Chapter d => chapter_articles d | _ => [] end)
    (sp_children (un KSuppl v)).

(** [l] consists of the groups, with the separators between them. *)
Fixpoint woven {P C} (inj : P -> C) (groups : list (list P)) (seps : list C) (l : list C) : Prop :=
  match groups, seps with
  | [g], [] => l = map inj g
  | g :: gs, s :: ss => exists r, l = map inj g ++ s :: r /\ woven inj gs ss r
  | _, _ => False
  end.
Definition main_paragraph (c : MainContents Knot) : bool := match c with MC_Paragraph _ => true | _ => false end.
Definition suppl_structure (c : SupplContents Knot) : bool :=
  match c with SP_Paragraph _ | SP_Article _ | SP_Chapter _ => true | _ => false end.
Definition suppl_paragraph (c : SupplContents Knot) : bool := match c with SP_Paragraph _ => true | _ => false end.

(** ** Headings around articles *)

Inductive rank := RPart | RChapter | RSection | RSubsection | RDivision.
(** The headings around a place, from the outermost one, with their numbers. *)
Definition trail := list (rank * ArticleNumber).
Definition under {A} (r : rank) (n : ArticleNumber) (x : trail * A) : trail * A := ((r, n) :: fst x, snd x).

Definition division_trails (v : Knot KDivision) : list (trail * Knot KArticle) :=
  map (fun a => under RDivision (hd_num (un KDivision v)) ([], a)) (hd_children (un KDivision v)).
Definition subsection_trails (v : Knot KSubsection) : list (trail * Knot KArticle) :=
  map (under RSubsection (hd_num (un KSubsection v)))
    (flat_map (fun c => match c with SuC_Article a => [([], a)] | SuC_Division d => division_trails d end)
      (hd_children (un KSubsection v))).
Definition section_trails (v : Knot KSection) : list (trail * Knot KArticle) :=
  map (under RSection (hd_num (un KSection v)))
    (flat_map (fun c => match c with
      | SeC_Article a => [([], a)] | SeC_Subsection d => subsection_trails d | SeC_Division d => division_trails d end)
      (hd_children (un KSection v))).
Definition chapter_trails (v : Knot KChapter) : list (trail * Knot KArticle) :=
  map (under RChapter (hd_num (un KChapter v)))
    (flat_map (fun c => match c with ChC_Article a => [([], a)] | ChC_Section d => section_trails d end)
      (hd_children (un KChapter v))).
Definition part_trails (v : Knot KPart) : list (trail * Knot KArticle) :=
  map (under RPart (hd_num (un KPart v)))
    (flat_map (fun c => match c with PC_Article a => [([], a)] | PC_Chapter d => chapter_trails d end)
      (hd_children (un KPart v))).
Definition main_trails (v : Knot KMain) : list (trail * Knot KArticle) :=
  flat_map (fun c => match c with
    | MC_Part d => part_trails d | MC_Chapter d => chapter_trails d | MC_Section d => section_trails d
    | MC_Article a => [([], a)] | MC_Paragraph _ => [] end) (main_children (un KMain v)).
Definition suppl_trails (v : Knot KSuppl) : list (trail * Knot KArticle) :=
  flat_map (fun c => match c with SP_Article a => [([], a)] | SP_Chapter d => chapter_trails d | _ => [] end)
    (sp_children (un KSuppl v)).

(** The number noted for a rank. *)
Definition noted (w : WithNumberArticle) (r : rank) : option ArticleNumber :=
  match r with
  | RPart => wn_part w | RChapter => wn_chapter w | RSection => wn_section w
  | RSubsection => wn_subsection w | RDivision => wn_division w
  end.
(** [n] is the number of the heading of rank [r]. *)
Definition number_at (t : trail) (r : rank) (n : ArticleNumber) : Prop := In (r, n) t.
(** [n] is the number of what comes right below the heading of rank [r]: a heading, or the article [a]. *)
Definition number_below (t : trail) (a : Knot KArticle) (r : rank) (n : ArticleNumber) : Prop :=
  exists x m y, t = x ++ (r, m) :: y /\ n = hd (art_num (un KArticle a)) (map snd y).
(** What the listing notes. *)
Definition noted_as (x : trail * Knot KArticle) (w : WithNumberArticle) : Prop :=
  wn_article w = snd x /\
  (forall n, noted w RDivision = Some n <-> number_at (fst x) RDivision n) /\
  (forall r n, r <> RDivision -> (noted w r = Some n <-> number_below (fst x) (snd x) r n)).

(** ** Texts of items *)

(** An item at or below an item: the numbers from the outer one to this one, its level and its sentences. *)
Inductive item_in : forall k, Knot k -> list (option ArticleNumber) -> lvl -> SentenceOrColumnOrTable Knot -> Prop :=
| II_self : forall l f, item_in (KItem l) (mk (KItem l) f) [it_num f] l (it_sentence f)
| II_below : forall l f c p l' s, In c (it_children f) -> item_in (sub_item l) c p l' s ->
    item_in (KItem l) (mk (KItem l) f) (it_num f :: p) l' s.

(** All items at or below one, each before those below it and before its later siblings. *)
Fixpoint items_of (k : kind) (x : Knot k) {struct x} : list (list (option ArticleNumber) * lvl * SentenceOrColumnOrTable Knot) :=
  match x with
  | @mkItem l f =>
      ([it_num f], l, it_sentence f) ::
      map (fun '(p, l', s) => (it_num f :: p, l', s)) (flat_map (items_of (sub_item l)) (it_children f))
  | _ => []
  end.

(** Text of an item of a level: that of a table in a sixth subitem is missing. *)
Definition item_text_of (l : lvl) (s : SentenceOrColumnOrTable Knot) : string :=
  match l, s with
  | Sub6, SCT_Table _ => ""
  | _, SCT_Table t => table_to_str t
  | _, SCT_Sentence ss => concat_strings (map sentence_str ss)
  | _, SCT_Column cs => join " " (map sentence_str (flat_map (fun c => col_sentence (un KColumn c)) cs))
  end.
Definition paragraph_entries (x : Knot KParagraph) : list (TextIndex * string) :=
  let p := un KParagraph x in
  (mkTI (par_num p) [], concat_strings (map sentence_str (par_sentence p))) ::
  map (fun '(q, l, s) => (mkTI (par_num p) q, item_text_of l s)) (flat_map (items_of (KItem Item0)) (par_children p)).

(** ** Text as it stands in the XML tree *)

(** The text directly in an element. *)
Definition direct_text (e : Element) : string :=
  concat_strings (map (fun n => match n with NText s => s | _ => "" end) (children e)).
(** The text an element starts with. *)
Definition leading_text (e : Element) : string := match children e with NText s :: _ => s | _ => "" end.
(** Plain text, ruby bases, and subscripts and superscripts with the marks given. *)
Definition inline_text (sub sup : string -> string) (n : XMLNode) : string :=
  match n with
  | NText s => s
  | NElement c =>
      if String.eqb (name c) "Ruby" then direct_text c
      else if String.eqb (name c) "Sub" then sub (leading_text c)
      else if String.eqb (name c) "Sup" then sup (leading_text c)
      else ""
  | NOther _ => ""
  end.
Definition mark (c s : string) : string := (c ++ "{" ++ s ++ "}")%string.
(** In sentences, also one level deep in formulas and quotations. *)
Definition sentence_node_text (n : XMLNode) : string :=
  match n with
  | NElement c =>
      if String.eqb (name c) "ArithFormula" || String.eqb (name c) "QuoteStruct"
      then concat_strings (map (inline_text (mark "_") (mark "^")) (children c))
      else inline_text (mark "_") (mark "^") n
  | _ => inline_text (mark "_") (mark "^") n
  end.

(** ** Table of contents *)

(** An entry: the headings around it (and itself), its number if it is an article, its title. *)
Record entry := mkEntry { en_trail : trail; en_article : option ArticleNumber; en_title : string }.
Definition en_under (r : rank) (n : ArticleNumber) (e : entry) : entry :=
  mkEntry ((r, n) :: en_trail e) (en_article e) (en_title e).
Definition article_entry (a : Knot KArticle) : entry :=
  mkEntry [] (Some (art_num (un KArticle a))) (text_str (art_title (un KArticle a))).
(** A heading and what is below it. *)
Definition with_heading {C} (r : rank) (h : HeadF Knot C) (l : list entry) : list entry :=
  map (en_under r (hd_num h)) (mkEntry [] None (text_str (hd_title h)) :: l).
Definition division_entries (v : Knot KDivision) : list entry :=
  with_heading RDivision (un KDivision v) (map article_entry (hd_children (un KDivision v))).
Definition subsection_entries (v : Knot KSubsection) : list entry :=
  with_heading RSubsection (un KSubsection v)
    (flat_map (fun c => match c with SuC_Article a => [article_entry a] | SuC_Division d => division_entries d end)
      (hd_children (un KSubsection v))).
Definition section_entries (v : Knot KSection) : list entry :=
  with_heading RSection (un KSection v)
    (flat_map (fun c => match c with
      | SeC_Article a => [article_entry a] | SeC_Subsection d => subsection_entries d | SeC_Division d => division_entries d end)
      (hd_children (un KSection v))).
Definition chapter_entries (v : Knot KChapter) : list entry :=
  with_heading RChapter (un KChapter v)
    (flat_map (fun c => match c with ChC_Article a => [article_entry a] | ChC_Section d => section_entries d end)
      (hd_children (un KChapter v))).
Definition part_entries (v : Knot KPart) : list entry :=
  with_heading RPart (un KPart v)
    (flat_map (fun c => match c with PC_Article a => [article_entry a] | PC_Chapter d => chapter_entries d end)
      (hd_children (un KPart v))).
Definition main_entries (v : Knot KMain) : list entry :=
  flat_map (fun c => match c with
    | MC_Part d => part_entries d | MC_Chapter d => chapter_entries d | MC_Section d => section_entries d
    | MC_Article a => [article_entry a] | MC_Paragraph _ => [] end) (main_children (un KMain v)).
Definition suppl_entries (v : Knot KSuppl) : list entry :=
  flat_map (fun c => match c with SP_Article a => [article_entry a] | SP_Chapter d => chapter_entries d | _ => [] end)
    (sp_children (un KSuppl v)).

(** The number a record has for a rank. *)
Definition toc_number (t : Toc) (r : rank) : option ArticleNumber :=
  match r with
  | RPart => toc_part t | RChapter => toc_chapter t | RSection => toc_section t
  | RSubsection => toc_subsection t | RDivision => toc_division t
  end.
Definition listed_number (o : option ArticleNumber) (t : trail) (r : rank) : Prop := forall n, o = Some n <-> number_at t r n.
Definition in_rank (t : trail) (r : rank) : Prop := exists n, number_at t r n.
(** What the table of contents says of an entry: the title and the numbers of parts, sections and subsections
    are right, and so is that of the chapter except outside chapters; articles have their number as that of
    a division, and no number as articles. *)
Definition toc_says (e : entry) (t : Toc) : Prop :=
  toc_title t = Some (en_title e) /\
  toc_article t = None /\
  listed_number (toc_part t) (en_trail e) RPart /\
  listed_number (toc_section t) (en_trail e) RSection /\
  listed_number (toc_subsection t) (en_trail e) RSubsection /\
  (forall n, number_at (en_trail e) RChapter n -> toc_chapter t = Some n) /\
  (forall n, en_article e = Some n -> toc_division t = Some n) /\
  (forall n, en_article e = None -> number_at (en_trail e) RDivision n -> toc_division t = Some n).

(** What exactly it says.  [each] runs over children together with their earlier siblings. *)
Fixpoint each {C T} (f : list C -> C -> list T) (before l : list C) : list T :=
  match l with [] => [] | c :: r => f before c ++ each f (before ++ [c]) r end.
(** The last of some numbers, or else the one inherited. *)
Definition last_or (l : list ArticleNumber) (d : option ArticleNumber) : option ArticleNumber :=
  match rev l with [] => d | n :: _ => Some n end.
Definition article_no (a : Knot KArticle) : ArticleNumber := art_num (un KArticle a).
Definition title_of (t : Text Knot) : option string := Some (text_str t).
Definition article_toc (p c s u : option ArticleNumber) (a : Knot KArticle) : Toc :=
  mkToc p c s u (Some (article_no a)) None (title_of (art_title (un KArticle a))).

(** The number of the division that headings show is that of the last article before them, directly below
    one of the headings around them. *)
Definition division_toc (p c s u : option ArticleNumber) (v : Knot KDivision) : list Toc :=
  let h := un KDivision v in
  mkToc p c s u (Some (hd_num h)) None (title_of (hd_title h)) :: map (article_toc p c s u) (hd_children h).
Definition subsection_toc (p c s d : option ArticleNumber) (v : Knot KSubsection) : list Toc :=
  let h := un KSubsection v in
  mkToc p c s (Some (hd_num h)) d None (title_of (hd_title h)) ::
  flat_map (fun x => match x with
    | SuC_Article a => [article_toc p c s (Some (hd_num h)) a]
    | SuC_Division e => division_toc p c s (Some (hd_num h)) e end) (hd_children h).
Definition section_toc (p c d : option ArticleNumber) (v : Knot KSection) : list Toc :=
  let h := un KSection v in
  mkToc p c (Some (hd_num h)) None d None (title_of (hd_title h)) ::
  each (fun before x => match x with
    | SeC_Article a => [article_toc p c (Some (hd_num h)) None a]
    | SeC_Subsection e =>
        subsection_toc p c (Some (hd_num h))
          (last_or (flat_map (fun y => match y with SeC_Article a => [article_no a] | _ => [] end) before) d) e
    | SeC_Division e => division_toc p c (Some (hd_num h)) None e end) [] (hd_children h).
Definition chapter_own (v : Knot KChapter) : list ArticleNumber :=
  flat_map (fun y => match y with ChC_Article a => [article_no a] | _ => [] end) (hd_children (un KChapter v)).
Definition chapter_toc (p d : option ArticleNumber) (v : Knot KChapter) : list Toc :=
  let h := un KChapter v in
  mkToc p (Some (hd_num h)) None None d None (title_of (hd_title h)) ::
  each (fun before x => match x with
    | ChC_Article a => [article_toc p (Some (hd_num h)) None None a]
    | ChC_Section e => section_toc p (Some (hd_num h))
        (last_or (flat_map (fun y => match y with ChC_Article a => [article_no a] | _ => [] end) before) d) e end)
    [] (hd_children h).
(** Articles directly in a part show the number of the last chapter before them. *)
Definition part_toc (v : Knot KPart) : list Toc :=
  let h := un KPart v in
  mkToc (Some (hd_num h)) None None None None None (title_of (hd_title h)) ::
  each (fun before x => match x with
    | PC_Article a => [article_toc (Some (hd_num h))
        (last_or (flat_map (fun y => match y with PC_Chapter e => [hd_num (un KChapter e)] | _ => [] end) before) None) None None a]
    | PC_Chapter e => chapter_toc (Some (hd_num h))
        (last_or (flat_map (fun y => match y with PC_Article a => [article_no a] | PC_Chapter e => chapter_own e end) before) None) e end)
    [] (hd_children h).
Definition main_toc (v : Knot KMain) : list Toc :=
  flat_map (fun c => match c with
    | MC_Part d => part_toc d | MC_Chapter d => chapter_toc None None d | MC_Section d => section_toc None None None d
    | MC_Article a => [article_toc None None None None a] | MC_Paragraph _ => [] end) (main_children (un KMain v)).
Definition suppl_toc (v : Knot KSuppl) : list Toc :=
  flat_map (fun c => match c with SP_Article a => [article_toc None None None None a] | SP_Chapter d => chapter_toc None None d | _ => [] end)
    (sp_children (un KSuppl v)).
