(** Specification of attributes and of the order of children as read. *)
From Coq Require Import String List NArith Bool.
From Verif Require Import Base NumStr NumStrSpec Xml Ast XmlParse.
Import ListNotations.
Open Scope string_scope.
Open Scope list_scope.

(** ** Numbers *)

(** The structures with a required number: tag and number field. *)
Definition numbered (k : kind) : option (string * (Knot k -> ArticleNumber)) :=
  match k with
  | KPart => Some ("Part", fun v => hd_num (un KPart v))
  | KChapter => Some ("Chapter", fun v => hd_num (un KChapter v))
  | KSection => Some ("Section", fun v => hd_num (un KSection v))
  | KSubsection => Some ("Subsection", fun v => hd_num (un KSubsection v))
  | KDivision => Some ("Division", fun v => hd_num (un KDivision v))
  | KArticle => Some ("Article", fun v => art_num (un KArticle v))
  | KParagraph => Some ("Paragraph", fun v => par_num (un KParagraph v))
  | KTOCPart => Some ("TOCPart", fun v => th_num (un KTOCPart v))
  | KTOCChapter => Some ("TOCChapter", fun v => th_num (un KTOCChapter v))
  | KTOCSection => Some ("TOCSection", fun v => th_num (un KTOCSection v))
  | KTOCSubsection => Some ("TOCSubsection", fun v => th_num (un KTOCSubsection v))
  | KTOCDivision => Some ("TOCDivision", fun v => th_num (un KTOCDivision v))
  | KTOCArticle => Some ("TOCArticle", fun v => ta_num (un KTOCArticle v))
  | _ => None
  end.

(** A text outside the number grammar. *)
Definition no_number (s : string) : Prop := forall b ed r, ~ num_text s b ed r.

(** ** Flags *)

(** [b] is the meaning of a flag attribute. *)
Definition bool_attr (a : option string) (b : bool) : Prop :=
  (b = true <-> a = Some "true") /\ (a = None \/ a = Some "true" \/ a = Some "false").

(** Attribute and field of each flag that counts as [false] when absent. *)
Definition flags (k : kind) : list (string * (Knot k -> bool)) :=
  match k with
  | KPart => [("Delete", fun v => hd_delete (un KPart v)); ("Hide", fun v => hd_hide (un KPart v))]
  | KChapter =>
      [("Delete", fun v => hd_delete (un KChapter v)); ("Hide", fun v => hd_hide (un KChapter v))]
  | KSection =>
      [("Delete", fun v => hd_delete (un KSection v)); ("Hide", fun v => hd_hide (un KSection v))]
  | KSubsection =>
      [("Delete", fun v => hd_delete (un KSubsection v));
       ("Hide", fun v => hd_hide (un KSubsection v))]
  | KDivision =>
      [("Delete", fun v => hd_delete (un KDivision v)); ("Hide", fun v => hd_hide (un KDivision v))]
  | KArticle =>
      [("Delete", fun v => art_delete (un KArticle v)); ("Hide", fun v => art_hide (un KArticle v))]
  | KParagraph =>
      [("OldStyle", fun v => par_old_style (un KParagraph v));
       ("OldNum", fun v => par_old_num (un KParagraph v));
       ("Hide", fun v => par_hide (un KParagraph v))]
  | KItem l =>
      [("Delete", fun v => it_delete (un (KItem l) v)); ("Hide", fun v => it_hide (un (KItem l) v))]
  | KColumn => [("LineBreak", fun v => col_line_break (un KColumn v))]
  | KTOCPart => [("Delete", fun v => th_delete (un KTOCPart v))]
  | KTOCChapter => [("Delete", fun v => th_delete (un KTOCChapter v))]
  | KTOCSection => [("Delete", fun v => th_delete (un KTOCSection v))]
  | KTOCSubsection => [("Delete", fun v => th_delete (un KTOCSubsection v))]
  | KTOCDivision => [("Delete", fun v => th_delete (un KTOCDivision v))]
  | KTOCArticle => [("Delete", fun v => ta_delete (un KTOCArticle v))]
  | _ => []
  end.

(** The flags that stay undefined when absent. *)
Definition optional_flags (k : kind) : list (string * (Knot k -> option bool)) :=
  match k with
  | KMain => [("Extract", fun v => main_extract (un KMain v))]
  | KSuppl => [("Extract", fun v => sp_extract (un KSuppl v))]
  | _ => []
  end.

(** ** Order of children *)

(** The child elements, and those with a given tag. *)
Fixpoint elements (l : list XMLNode) : list Element :=
  match l with
  | [] => []
  | NElement e :: r => e :: elements r
  | _ :: r => elements r
  end.
Definition with_tag (t : string) (l : list XMLNode) : list Element :=
  filter (fun c => String.eqb (name c) t) (elements l).

(** [x] is what [c] is read to. *)
Definition reads (k : kind) (c : Element) (x : Knot k) : Prop := parse k c = Ok x.

Definition part_reads (c : Element) (x : PartContents Knot) : Prop :=
  match x with
  | PC_Article v => name c = "Article" /\ reads KArticle c v
  | PC_Chapter v => name c = "Chapter" /\ reads KChapter c v
  end.
Definition chapter_reads (c : Element) (x : ChapterContents Knot) : Prop :=
  match x with
  | ChC_Article v => name c = "Article" /\ reads KArticle c v
  | ChC_Section v => name c = "Section" /\ reads KSection c v
  end.
Definition section_reads (c : Element) (x : SectionContents Knot) : Prop :=
  match x with
  | SeC_Article v => name c = "Article" /\ reads KArticle c v
  | SeC_Subsection v => name c = "Subsection" /\ reads KSubsection c v
  | SeC_Division v => name c = "Division" /\ reads KDivision c v
  end.
Definition subsection_reads (c : Element) (x : SubsectionContents Knot) : Prop :=
  match x with
  | SuC_Article v => name c = "Article" /\ reads KArticle c v
  | SuC_Division v => name c = "Division" /\ reads KDivision c v
  end.
Definition division_reads (c : Element) (x : Knot KArticle) : Prop :=
  name c = "Article" /\ reads KArticle c x.
Definition main_reads (c : Element) (x : MainContents Knot) : Prop :=
  match x with
  | MC_Part v => name c = "Part" /\ reads KPart c v
  | MC_Chapter v => name c = "Chapter" /\ reads KChapter c v
  | MC_Section v => name c = "Section" /\ reads KSection c v
  | MC_Article v => name c = "Article" /\ reads KArticle c v
  | MC_Paragraph v => name c = "Paragraph" /\ reads KParagraph c v
  end.
Definition suppl_reads (c : Element) (x : SupplContents Knot) : Prop :=
  match x with
  | SP_Chapter v => name c = "Chapter" /\ reads KChapter c v
  | SP_Article v => name c = "Article" /\ reads KArticle c v
  | SP_Paragraph v => name c = "Paragraph" /\ reads KParagraph c v
  | SP_Table v => name c = "SupplProvisionAppdxTable" /\ reads KSupplTable c v
  | SP_Style v => name c = "SupplProvisionAppdxStyle" /\ reads KSupplStyle c v
  | SP_Appdx v => name c = "SupplProvisionAppdx" /\ reads KSupplAppdx c v
  end.

(** Text and inline elements of a sentence, node by node. *)
Definition sentence_reads (n : XMLNode) (x : SentenceElement Knot) : Prop :=
  match x, n with
  | SE_String s, NText t => s = t
  | SE_Line v, NElement c => name c = "Line" /\ reads KLine c v
  | SE_Quote v, NElement c => name c = "QuoteStruct" /\ reads (KCont CQuote) c v
  | SE_Arith a, NElement c => name c = "ArithFormula" /\ reads (KCont CArith) c (af_contents a)
  | SE_Ruby v, NElement c => name c = "Ruby" /\ reads KRuby c v
  | SE_Sup s, NElement c => name c = "Sup"
  | SE_Sub s, NElement c => name c = "Sub"
  | _, _ => False
  end.
Definition not_other (n : XMLNode) : bool := match n with NOther _ => false | _ => true end.

(** Tag of the children of an item. *)
Definition item_child_tag (l : lvl) : string :=
  match l with
  | Item0 => "Subitem1" | Sub1 => "Subitem2" | Sub2 => "Subitem3" | Sub3 => "Subitem4"
  | Sub4 => "Subitem5" | Sub5 => "Subitem6" | Sub6 => "Subitem7" | Sub7 => "Subitem8"
  | Sub8 => "Subitem9" | Sub9 => "Subitem10" | Sub10 => ""
  end.

(** ** Articles in document order *)

(** The [Article] elements below an element, through the headings. *)
Fixpoint articles_in (e : Element) : list Element :=
  let 'mkElement n _ l := e in
  if String.eqb n "Article" then [e]
  else if existsb (String.eqb n)
            ["MainProvision"; "Part"; "Chapter"; "Section"; "Subsection"; "Division"]
  then flat_map (fun x => match x with NElement c => articles_in c | _ => [] end) l
  else [].

(** The articles of a main provision. *)
Definition division_articles (v : Knot KDivision) : list (Knot KArticle) :=
  hd_children (un KDivision v).
Definition subsection_articles (v : Knot KSubsection) : list (Knot KArticle) :=
  flat_map (fun c => match c with SuC_Article a => [a] | SuC_Division d => division_articles d end)
    (hd_children (un KSubsection v)).
Definition section_articles (v : Knot KSection) : list (Knot KArticle) :=
  flat_map (fun c => match c with
                     | SeC_Article a => [a]
                     | SeC_Subsection d => subsection_articles d
                     | SeC_Division d => division_articles d
                     end)
    (hd_children (un KSection v)).
Definition chapter_articles (v : Knot KChapter) : list (Knot KArticle) :=
  flat_map (fun c => match c with ChC_Article a => [a] | ChC_Section d => section_articles d end)
    (hd_children (un KChapter v)).
Definition part_articles (v : Knot KPart) : list (Knot KArticle) :=
  flat_map (fun c => match c with PC_Article a => [a] | PC_Chapter d => chapter_articles d end)
    (hd_children (un KPart v)).
Definition main_articles (v : Knot KMain) : list (Knot KArticle) :=
  flat_map (fun c => match c with
                     | MC_Part d => part_articles d
                     | MC_Chapter d => chapter_articles d
                     | MC_Section d => section_articles d
                     | MC_Article a => [a]
                     | MC_Paragraph _ => []
                     end)
    (main_children (un KMain v)).
