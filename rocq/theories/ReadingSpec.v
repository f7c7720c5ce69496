(** What each reader returns, rule by rule.

    [reading k e f] says that an element [e] is accepted by the reader of kind [k] and that
    [f] is the record or variant built from it.  The rules name tags, attributes and the
    values of the child elements; they do not refer to the loops, tables or attribute readers
    of the model.  The values of child elements are given by a relation, the first argument of
    the rules; [reads_in] takes the rules as the definition of that relation. *)
From Coq Require Import String List NArith Bool.
From Verif Require Import Base NumStr NumStrSpec Xml Ast XmlParse GrammarSpec ReadSpec.
Import ListNotations.
Open Scope string_scope.
Open Scope list_scope.

(** ** Attributes *)

(** An article number that must be present. *)
Definition number (a : option string) (n : ArticleNumber) : Prop :=
  exists s, a = Some s /\ num_text s (base_number n) (eda_numbers n) (range_end_numbers n).

(** An item number: must be present, anything that is not a number counts as no number. *)
Definition item_number (a : option string) (o : option ArticleNumber) : Prop :=
  exists s, a = Some s /\
  match o with
  | Some n => num_text s (base_number n) (eda_numbers n) (range_end_numbers n)
  | None => no_number s
  end.

(** An integer that may be absent, but not malformed. *)
Definition integer_opt (a : option string) (o : option N) : Prop :=
  match a, o with
  | None, None => True
  | Some s, Some n => usize_text s n
  | _, _ => False
  end.

(** A flag that stays undefined when absent. *)
Definition flag_opt (a : option string) (o : option bool) : Prop :=
  match o with
  | None => a = None
  | Some true => a = Some "true"
  | Some false => a = Some "false"
  end.

(** One of the listed values; one of them or absent; one of them, anything else counting as
    absent. *)
Definition one_of {X} (l : list (string * X)) (a : option string) (x : X) : Prop :=
  exists s, a = Some s /\ In (s, x) l.
Definition one_of_opt {X} (l : list (string * X)) (a : option string) (o : option X) : Prop :=
  match o with Some x => one_of l a x | None => a = None end.
Definition one_of_any {X} (l : list (string * X)) (a : option string) (o : option X) : Prop :=
  match o with Some x => one_of l a x | None => forall x, ~ one_of l a x end.

Definition line_styles : list (string * LineStyle) :=
  [("solid", LSolid); ("none", LNone); ("dotted", LDotted); ("double", LDotted)].
Definition alignments : list (string * Align) :=
  [("left", ALeft); ("center", ACenter); ("right", ARight); ("justify", AJustify)].
Definition positions : list (string * Position) :=
  [("top", PTop); ("middle", PMiddle); ("bottom", PBottom)].
Definition sentence_functions : list (string * SentenceFunction) :=
  [("main", FMain); ("proviso", FProviso)].
Definition sentence_indents : list (string * SentenceIndent) :=
  [("Paragraph", IParagraph); ("Item", IItem Item0); ("Subitem1", IItem Sub1);
   ("Subitem2", IItem Sub2); ("Subitem3", IItem Sub3); ("Subitem4", IItem Sub4);
   ("Subitem5", IItem Sub5); ("Subitem6", IItem Sub6); ("Subitem7", IItem Sub7);
   ("Subitem8", IItem Sub8); ("Subitem9", IItem Sub9); ("Subitem10", IItem Sub10)].
Definition suppl_types : list (string * SupplProvisionType) := [("New", TNew); ("Amend", TAmend)].
Definition era_names : list (string * Era) :=
  [("Meiji", Meiji); ("Taisho", Taisho); ("Showa", Showa); ("Heisei", Heisei); ("Reiwa", Reiwa)].
Definition law_type_names : list (string * LawType) :=
  [("Constitution", Constitution); ("Act", Act); ("CabinetOrder", CabinetOrder);
   ("ImperialOrder", ImperialOrder); ("MinisterialOrdinance", MinisterialOrdinance);
   ("Rule", Rule); ("Misc", Misc)].
Definition lang_names : list (string * Lang) := [("ja", Ja); ("en", En)].

(** The writing mode is horizontal only if the attribute says so. *)
Definition mode (a : option string) (m : WritingMode) : Prop :=
  m = Horizontal <-> a = Some "horizontal".

(** A border is solid unless the attribute names another style. *)
Definition border_style (a : option string) (st : LineStyle) : Prop :=
  one_of line_styles a st \/ (st = LSolid /\ forall x, ~ one_of line_styles a x).

(** ** Child elements *)

(** Every child element has one of these tags. *)
Definition known (tags : list string) (l : list XMLNode) : Prop :=
  forall c, In (NElement c) l -> In (name c) tags.

(** The values of the children with a tag, in order. *)
Definition each {X} (P : Element -> X -> Prop) (t : string) (l : list XMLNode) (xs : list X) : Prop :=
  Forall2 P (with_tag t l) xs.

(** Every child with the tag is readable and the last one counts. *)
Definition latest {X} (P : Element -> X -> Prop) (t : string) (l : list XMLNode) (o : option X) :
    Prop :=
  exists xs, each P t l xs /\ o = hd_error (rev xs).
Definition latest_or {X} (d : X) (P : Element -> X -> Prop) (t : string) (l : list XMLNode) (x : X) :
    Prop :=
  exists xs, each P t l xs /\ x = last xs d.

(** The values of the children with one of the tags, in order. *)
Definition with_tags (ts : list string) (l : list XMLNode) : list Element :=
  filter (fun c => existsb (String.eqb (name c)) ts) (elements l).

(** ** Text *)

(** The text nodes, and their text. *)
Fixpoint text_nodes (l : list XMLNode) : list string :=
  match l with
  | [] => []
  | NText s :: r => s :: text_nodes r
  | _ :: r => text_nodes r
  end.
Definition own_text (c : Element) : string := String.concat "" (text_nodes (children c)).

(** The text of [Sup] and [Sub]: the first child node, if it is text. *)
Definition leading_text (c : Element) (s : string) : Prop :=
  (exists r, children c = NText s :: r) \/
  (s = "" /\ forall t r, children c <> NText t :: r).

(** The reader gives an error. *)
Definition refused (k : kind) (c : Element) : Prop := exists er, parse k c = Err er.

Section Given.
(** What the child elements are read to. *)
Variable given : forall k : kind, Element -> Knot k -> Prop.

Definition inline_reads (c : Element) (x : TextElement Knot) : Prop :=
  match x with
  | TE_Ruby v => name c = "Ruby" /\ given KRuby c v
  | TE_Line v => name c = "Line" /\ given KLine c v
  | TE_Sup s => name c = "Sup" /\ leading_text c s
  | TE_Sub s => name c = "Sub" /\ leading_text c s
  | TE_Text _ => False
  end.

(** Text with inline elements: foreign elements, and lines that cannot be read, are dropped. *)
Inductive text_reads : list XMLNode -> Text Knot -> Prop :=
| text_end : text_reads [] []
| text_text s l t : text_reads l t -> text_reads (NText s :: l) (TE_Text s :: t)
| text_other s l t : text_reads l t -> text_reads (NOther s :: l) t
| text_inline c x l t : inline_reads c x -> text_reads l t -> text_reads (NElement c :: l) (x :: t)
| text_foreign c l t : ~ In (name c) ["Ruby"; "Line"; "Sup"; "Sub"] -> text_reads l t ->
    text_reads (NElement c :: l) t
| text_bad_ruby c l t : name c = "Ruby" -> refused KRuby c -> text_reads l t ->
    text_reads (NElement c :: l) t
| text_bad_line c l t : name c = "Line" -> refused KLine c -> text_reads l t ->
    text_reads (NElement c :: l) t.

Definition text_of (c : Element) (t : Text Knot) : Prop := text_reads (children c) t.
Definition moded_text_of (c : Element) (t : TextWithWritingMode Knot) : Prop :=
  text_reads (children c) (twm_contents t) /\ mode (get c "WritingMode") (twm_mode t).
Definition caption_of (c : Element) (t : Caption Knot) : Prop :=
  text_reads (children c) (cap_text t) /\ flag_opt (get c "CommonCaption") (cap_common t).

(** ** Mixed content, node by node; comments and the like are passed over *)
Definition mixed {X} (P : XMLNode -> X -> Prop) (l : list XMLNode) (xs : list X) : Prop :=
  Forall2 P (filter not_other l) xs.

Definition formula_reads (c : Element) (a : ArithFormula Knot) : Prop :=
  integer_opt (get c "Num") (af_num a) /\ given (KCont CArith) c (af_contents a).

Definition line_node (n : XMLNode) (x : LineContents Knot) : Prop :=
  match n, x with
  | NText t, LC_String s => s = t
  | NElement c, LC_Quote v => name c = "QuoteStruct" /\ given (KCont CQuote) c v
  | NElement c, LC_Arith a => name c = "ArithFormula" /\ formula_reads c a
  | NElement c, LC_Ruby v => name c = "Ruby" /\ given KRuby c v
  | NElement c, LC_Sup s => name c = "Sup" /\ leading_text c s
  | NElement c, LC_Sub s => name c = "Sub" /\ leading_text c s
  | _, _ => False
  end.

Definition sentence_node (n : XMLNode) (x : SentenceElement Knot) : Prop :=
  match n, x with
  | NText t, SE_String s => s = t
  | NElement c, SE_Line v => name c = "Line" /\ given KLine c v
  | NElement c, SE_Quote v => name c = "QuoteStruct" /\ given (KCont CQuote) c v
  | NElement c, SE_Arith a => name c = "ArithFormula" /\ formula_reads c a
  | NElement c, SE_Ruby v => name c = "Ruby" /\ given KRuby c v
  | NElement c, SE_Sup s => name c = "Sup" /\ leading_text c s
  | NElement c, SE_Sub s => name c = "Sub" /\ leading_text c s
  | _, _ => False
  end.

(** Tag of an item level. *)
Definition level_tag (l : lvl) : string :=
  match l with
  | Item0 => "Item" | Sub1 => "Subitem1" | Sub2 => "Subitem2" | Sub3 => "Subitem3"
  | Sub4 => "Subitem4" | Sub5 => "Subitem5" | Sub6 => "Subitem6" | Sub7 => "Subitem7"
  | Sub8 => "Subitem8" | Sub9 => "Subitem9" | Sub10 => "Subitem10"
  end.

Definition contents_node (n : XMLNode) (x : ContentsElement Knot) : Prop :=
  match n, x with
  | NText t, CE_String s => s = t
  | NElement c, CE_Table v => name c = "Table" /\ given KTable c v
  | NElement c, CE_TableStruct v => name c = "TableStruct" /\ given KTableStruct c v
  | NElement c, CE_Fig s => name c = "Fig" /\ get c "src" = Some s
  | NElement c, CE_FigStruct v => name c = "FigStruct" /\ given KFigStruct c v
  | NElement c, CE_Quote v => name c = "QuoteStruct" /\ given (KCont CQuote) c v
  | NElement c, CE_NoteStruct v => name c = "NoteStruct" /\ given (KCStruct SNote) c v
  | NElement c, CE_StyleStruct v => name c = "StyleStruct" /\ given (KCStruct SStyle) c v
  | NElement c, CE_AppdxTable v => name c = "AppdxTable" /\ given KAppdxTable c v
  | NElement c, CE_Ruby v => name c = "Ruby" /\ given KRuby c v
  | NElement c, CE_Line v => name c = "Line" /\ given KLine c v
  | NElement c, CE_Sup s => name c = "Sup" /\ leading_text c s
  | NElement c, CE_Sub s => name c = "Sub" /\ leading_text c s
  | NElement c, CE_Paragraph v => name c = "Paragraph" /\ given KParagraph c v
  | NElement c, @CE_Item _ l v => name c = level_tag l /\ given (KItem l) c v
  | NElement c, CE_List v => name c = "List" /\ given (KList List0) c v
  | NElement c, CE_Sentence v => name c = "Sentence" /\ given KSentence c v
  | NElement c, CE_Arith a => name c = "ArithFormula" /\ formula_reads c a
  | NElement c, CE_Remarks v => name c = "Remarks" /\ given KRemarks c v
  | NElement c, CE_TOC v => name c = "TOC" /\ given KTOC c v
  | NElement c, CE_TOCSection v => name c = "TOCSection" /\ given KTOCSection c v
  | NElement c, CE_TableRow v => name c = "TableRow" /\ given KTableRow c v
  | _, _ => False
  end.

Definition cell_node (n : XMLNode) (x : TableColumnContents Knot) : Prop :=
  match n, x with
  | NText t, TC_String s => s = t
  | NElement c, TC_Part v => name c = "Part" /\ given KPart c v
  | NElement c, TC_Chapter v => name c = "Chapter" /\ given KChapter c v
  | NElement c, TC_Section v => name c = "Section" /\ given KSection c v
  | NElement c, TC_Subsection v => name c = "Subsection" /\ given KSubsection c v
  | NElement c, TC_Division v => name c = "Division" /\ given KDivision c v
  | NElement c, TC_Article v => name c = "Article" /\ given KArticle c v
  | NElement c, TC_Paragraph v => name c = "Paragraph" /\ given KParagraph c v
  | NElement c, @TC_Item _ l v => name c = level_tag l /\ given (KItem l) c v
  | NElement c, TC_FigStruct v => name c = "FigStruct" /\ given KFigStruct c v
  | NElement c, TC_Remarks v => name c = "Remarks" /\ given KRemarks c v
  | NElement c, TC_Sentence v => name c = "Sentence" /\ given KSentence c v
  | NElement c, TC_Column v => name c = "Column" /\ given KColumn c v
  | _, _ => False
  end.

(** ** Choices of child elements *)
Definition struct_reads (c : Element) (x : Struct Knot) : Prop :=
  match x with
  | Struct_Table v => name c = "TableStruct" /\ given KTableStruct c v
  | Struct_Fig v => name c = "FigStruct" /\ given KFigStruct c v
  | Struct_Style v => name c = "StyleStruct" /\ given (KCStruct SStyle) c v
  | Struct_List v => name c = "List" /\ given (KList List0) c v
  end.
Definition struct_tags : list string := ["TableStruct"; "FigStruct"; "StyleStruct"; "List"].

Definition list_sentence_reads (c : Element) (x : ListSentence Knot) : Prop :=
  match x with
  | LS_Sentence v => name c = "Sentence" /\ given KSentence c v
  | LS_Column v => name c = "Column" /\ given KColumn c v
  end.
Definition remarks_reads (c : Element) (x : RemarksContents Knot) : Prop :=
  match x with
  | RC_Item v => name c = "Item" /\ given (KItem Item0) c v
  | RC_Sentence v => name c = "Sentence" /\ given KSentence c v
  end.
Definition appdx_table_reads (c : Element) (x : AppdxTableContents Knot) : Prop :=
  match x with
  | AT_TableStruct v => name c = "TableStruct" /\ given KTableStruct c v
  | AT_Item v => name c = "Item" /\ given (KItem Item0) c v
  end.
Definition appdx_note_reads (c : Element) (x : AppdxNoteContents Knot) : Prop :=
  match x with
  | AN_NoteStruct v => name c = "NoteStruct" /\ given (KCStruct SNote) c v
  | AN_FigStruct v => name c = "FigStruct" /\ given KFigStruct c v
  | AN_TableStruct v => name c = "TableStruct" /\ given KTableStruct c v
  end.
Definition appdx_fig_reads (c : Element) (x : AppdxFigContents Knot) : Prop :=
  match x with
  | AF_FigStruct v => name c = "FigStruct" /\ given KFigStruct c v
  | AF_TableStruct v => name c = "TableStruct" /\ given KTableStruct c v
  end.
Definition toc_section_reads (c : Element) (x : TOCSectionContents Knot) : Prop :=
  match x with
  | TSC_Subsection v => name c = "TOCSubsection" /\ given KTOCSubsection c v
  | TSC_Division v => name c = "TOCDivision" /\ given KTOCDivision c v
  end.
Definition toc_suppl_reads (c : Element) (x : TOCSupplContents Knot) : Prop :=
  match x with
  | TSP_Article v => name c = "TOCArticle" /\ given KTOCArticle c v
  | TSP_Chapter v => name c = "TOCChapter" /\ given KTOCChapter c v
  end.
Definition toc_main_reads (c : Element) (x : TOCMainContents Knot) : Prop :=
  match x with
  | TM_Part v => name c = "TOCPart" /\ given KTOCPart c v
  | TM_Chapter v => name c = "TOCChapter" /\ given KTOCChapter c v
  | TM_Section v => name c = "TOCSection" /\ given KTOCSection c v
  | TM_Article v => name c = "TOCArticle" /\ given KTOCArticle c v
  end.
Definition new_provision_reads (c : Element) (x : NewProvision Knot) : Prop :=
  match x with
  | NP_LawTitle v => name c = "LawTitle" /\ given KLawTitle c v
  | NP_Preamble v => name c = "Preamble" /\ given KPreamble c v
  | NP_TOC v => name c = "TOC" /\ given KTOC c v
  | NP_Part v => name c = "Part" /\ given KPart c v
  | NP_PartTitle t => name c = "PartTitle" /\ text_of c t
  | NP_Chapter v => name c = "Chapter" /\ given KChapter c v
  | NP_ChapterTitle t => name c = "ChapterTitle" /\ text_of c t
  | NP_Section v => name c = "Section" /\ given KSection c v
  | NP_SectionTitle t => name c = "SectionTitle" /\ text_of c t
  | NP_Subsection v => name c = "Subsection" /\ given KSubsection c v
  | NP_SubsectionTitle t => name c = "SubsectionTitle" /\ text_of c t
  | NP_Division v => name c = "Division" /\ given KDivision c v
  | NP_DivisionTitle t => name c = "DivisionTitle" /\ text_of c t
  | NP_Article v => name c = "Article" /\ given KArticle c v
  | NP_SupplNote t => name c = "SupplNote" /\ text_of c t
  | NP_Paragraph v => name c = "Paragraph" /\ given KParagraph c v
  | @NP_Item _ l v => name c = level_tag l /\ given (KItem l) c v
  | NP_List v => name c = "List" /\ given (KList List0) c v
  | NP_Sentence v => name c = "Sentence" /\ given KSentence c v
  | NP_Amend v => name c = "AmendProvision" /\ given KAmend c v
  | NP_AppdxTable v => name c = "AppdxTable" /\ given KAppdxTable c v
  | NP_AppdxNote v => name c = "AppdxNote" /\ given KAppdxNote c v
  | NP_AppdxStyle v => name c = "AppdxStyle" /\ given KAppdxStyle c v
  | NP_Appdx v => name c = "Appdx" /\ given KAppdx c v
  | NP_AppdxFig v => name c = "AppdxFig" /\ given KAppdxFig c v
  | NP_AppdxFormat v => name c = "AppdxFormat" /\ given KAppdxFormat c v
  | NP_SupplStyle v => name c = "SupplProvisionAppdxStyle" /\ given KSupplStyle c v
  | NP_SupplTable v => name c = "SupplProvisionAppdxTable" /\ given KSupplTable c v
  | NP_SupplAppdx v => name c = "SupplProvisionAppdx" /\ given KSupplAppdx c v
  | NP_TableStruct v => name c = "TableStruct" /\ given KTableStruct c v
  | NP_TableRow v => name c = "TableRow" /\ given KTableRow c v
  | NP_TableColumn v => name c = "TableColumn" /\ given KTableColumn c v
  | NP_FigStruct v => name c = "FigStruct" /\ given KFigStruct c v
  | @NP_CStruct _ SNote v => name c = "NoteStruct" /\ given (KCStruct SNote) c v
  | @NP_CStruct _ SStyle v => name c = "StyleStruct" /\ given (KCStruct SStyle) c v
  | @NP_CStruct _ SFormat v => name c = "FormatStruct" /\ given (KCStruct SFormat) c v
  | NP_Remarks v => name c = "Remarks" /\ given KRemarks c v
  | NP_LawBody v => name c = "LawBody" /\ given KLawBody c v
  end.

Definition part_reads (c : Element) (x : PartContents Knot) : Prop :=
  match x with
  | PC_Article v => name c = "Article" /\ given KArticle c v
  | PC_Chapter v => name c = "Chapter" /\ given KChapter c v
  end.
Definition chapter_reads (c : Element) (x : ChapterContents Knot) : Prop :=
  match x with
  | ChC_Article v => name c = "Article" /\ given KArticle c v
  | ChC_Section v => name c = "Section" /\ given KSection c v
  end.
Definition section_reads (c : Element) (x : SectionContents Knot) : Prop :=
  match x with
  | SeC_Article v => name c = "Article" /\ given KArticle c v
  | SeC_Subsection v => name c = "Subsection" /\ given KSubsection c v
  | SeC_Division v => name c = "Division" /\ given KDivision c v
  end.
Definition subsection_reads (c : Element) (x : SubsectionContents Knot) : Prop :=
  match x with
  | SuC_Article v => name c = "Article" /\ given KArticle c v
  | SuC_Division v => name c = "Division" /\ given KDivision c v
  end.
Definition division_reads (c : Element) (x : Knot KArticle) : Prop :=
  name c = "Article" /\ given KArticle c x.
Definition main_reads (c : Element) (x : MainContents Knot) : Prop :=
  match x with
  | MC_Part v => name c = "Part" /\ given KPart c v
  | MC_Chapter v => name c = "Chapter" /\ given KChapter c v
  | MC_Section v => name c = "Section" /\ given KSection c v
  | MC_Article v => name c = "Article" /\ given KArticle c v
  | MC_Paragraph v => name c = "Paragraph" /\ given KParagraph c v
  end.
Definition suppl_reads (c : Element) (x : SupplContents Knot) : Prop :=
  match x with
  | SP_Chapter v => name c = "Chapter" /\ given KChapter c v
  | SP_Article v => name c = "Article" /\ given KArticle c v
  | SP_Paragraph v => name c = "Paragraph" /\ given KParagraph c v
  | SP_Table v => name c = "SupplProvisionAppdxTable" /\ given KSupplTable c v
  | SP_Style v => name c = "SupplProvisionAppdxStyle" /\ given KSupplStyle c v
  | SP_Appdx v => name c = "SupplProvisionAppdx" /\ given KSupplAppdx c v
  end.

(** ** Parts that are not kinds of their own *)

(** Columns are preferred to sentences, and both to a table; the others are read and dropped. *)
Definition sct_reads (c : Element) (x : SentenceOrColumnOrTable Knot) : Prop :=
  known ["Sentence"; "Column"; "Table"] (children c) /\
  exists ss cs t,
    each (given KSentence) "Sentence" (children c) ss /\
    each (given KColumn) "Column" (children c) cs /\
    latest (given KTable) "Table" (children c) t /\
    match x with
    | SCT_Column l => l = cs /\ cs <> []
    | SCT_Sentence l => cs = [] /\ l = ss /\ ss <> []
    | SCT_Table b => cs = [] /\ ss = [] /\ t = Some b
    end.

Definition header_row_reads (c : Element) (x : TableHeaderRow Knot) : Prop :=
  name c = "TableHeaderRow" /\ each text_of "TableHeaderColumn" (children c) x.

Definition remarks_label_reads (c : Element) (x : RemarksLabel Knot) : Prop :=
  name c = "RemarksLabel" /\ bool_attr (get c "LineBreak") (rl_line_break x) /\
  text_of c (rl_text x).

Definition fig_reads (c : Element) (s : string) : Prop := get c "src" = Some s.

(** Remarks that can be read; the others are dropped. *)
Inductive readable : list Element -> list (Knot KRemarks) -> Prop :=
| readable_end : readable [] []
| readable_one c r l rs : given KRemarks c r -> readable l rs -> readable (c :: l) (r :: rs)
| readable_not c l rs : refused KRemarks c -> readable l rs -> readable (c :: l) rs.

(** A structure with tag [n], title tag [tn], body tag [bn]: the remarks before and after the
    first body are kept apart, and the last title and body count. *)
Definition structure {T B} (n tn bn : string) (pt : Element -> T -> Prop) (pb : Element -> B -> Prop)
    (e : Element) (f : StructF Knot T B) : Prop :=
  name e = n /\ known [tn; "Remarks"; bn] (children e) /\
  latest pt tn (children e) (st_title f) /\
  latest pb bn (children e) (Some (st_body f)) /\
  exists before b after,
    children e = before ++ NElement b :: after /\ name b = bn /\ with_tag bn before = [] /\
    readable (with_tag "Remarks" before) (st_title_remarks f) /\
    readable (with_tag "Remarks" after) (st_remarks f).

(** The sentence of an amendment is the first child node. *)
Definition amend_sentence_reads (c : Element) (x : Knot KSentence) : Prop :=
  exists s r, children c = NElement s :: r /\ given KSentence s x.

(** A heading: the title comes first. *)
Definition heading {C} (n : string) (P : Element -> C -> Prop) (e : Element) (f : HeadF Knot C) : Prop :=
  name e = n /\ number (get e "Num") (hd_num f) /\
  bool_attr (get e "Delete") (hd_delete f) /\ bool_attr (get e "Hide") (hd_hide f) /\
  exists t rest,
    children e = NElement t :: rest /\ name t = (n ++ "Title")%string /\
    text_of t (hd_title f) /\ Forall2 P (elements rest) (hd_children f).

(** A heading of the table of contents, with title tag [tn] and children tags [ts]. *)
Definition toc_heading {C} (n tn : string) (ts : list string) (P : Element -> C -> Prop)
    (e : Element) (f : TOCHeadF Knot C) : Prop :=
  name e = n /\ number (get e "Num") (th_num f) /\ bool_attr (get e "Delete") (th_delete f) /\
  known (tn :: "ArticleRange" :: ts) (children e) /\
  latest_or [] text_of tn (children e) (th_title f) /\
  latest text_of "ArticleRange" (children e) (th_range f) /\
  Forall2 P (with_tags ts (children e)) (th_children f).

(** An appended table, note, style or format. *)
Definition appended {C} (n : string) (ts : list string) (P : Element -> C -> Prop)
    (e : Element) (f : AppdxTF Knot C) : Prop :=
  name e = n /\ get e "Num" = ax_num f /\
  known ((n ++ "Title")%string :: "RelatedArticleNum" :: "Remarks" :: ts) (children e) /\
  latest moded_text_of (n ++ "Title")%string (children e) (ax_title f) /\
  latest text_of "RelatedArticleNum" (children e) (ax_related f) /\
  Forall2 P (with_tags ts (children e)) (ax_children f) /\
  latest (given KRemarks) "Remarks" (children e) (ax_remarks f).

(** An appended table or style of a supplementary provision. *)
Definition suppl_appended {C} (n t : string) (P : Element -> C -> Prop)
    (e : Element) (f : SupplTSF Knot C) : Prop :=
  name e = n /\ get e "Num" = sts_num f /\
  known [(n ++ "Title")%string; "RelatedArticleNum"; t] (children e) /\
  latest moded_text_of (n ++ "Title")%string (children e) (Some (sts_title f)) /\
  latest text_of "RelatedArticleNum" (children e) (sts_related f) /\
  each P t (children e) (sts_children f).

(** Tag of a list level. *)
Definition list_level_tag (l : llvl) : string :=
  match l with
  | List0 => "List" | Sublist1 => "Sublist1" | Sublist2 => "Sublist2" | Sublist3 => "Sublist3"
  end.

(** The tags of the children of an item. *)
Definition sub_level_tags (l : lvl) : list string :=
  match l with Sub10 => [] | _ => [item_child_tag l] end.

(** ** The rules *)
Definition reading (k : kind) (e : Element) : F Knot k -> Prop :=
  match k return F Knot k -> Prop with
  | KVoid => fun _ => False
  | KRuby => fun f =>
      name e = "Ruby" /\ ruby_text f = map (fun s => TE_Text s) (text_nodes (children e)) /\
      latest_or "" (fun c s => s = own_text c) "Rt" (children e) (ruby_ruby f)
  | KLine => fun f =>
      name e = "Line" /\ one_of line_styles (get e "Style") (line_style f) /\
      mixed line_node (children e) (line_contents f)
  | KCont _ => fun f => mixed contents_node (children e) f
  | KSentence => fun f =>
      name e = "Sentence" /\ integer_opt (get e "Num") (sen_num f) /\
      one_of_opt sentence_functions (get e "Function") (sen_function f) /\
      one_of_opt sentence_indents (get e "Indent") (sen_indent f) /\
      mode (get e "WritingMode") (sen_mode f) /\
      mixed sentence_node (children e) (sen_contents f)
  | KColumn => fun f =>
      name e = "Column" /\ integer_opt (get e "Num") (col_num f) /\
      bool_attr (get e "LineBreak") (col_line_break f) /\
      one_of_any alignments (get e "Align") (col_align f) /\
      Forall2 (given KSentence) (elements (children e)) (col_sentence f)
  | KTable => fun f =>
      name e = "Table" /\ mode (get e "WritingMode") (tb_mode f) /\
      known ["TableHeaderRow"; "TableRow"] (children e) /\
      each header_row_reads "TableHeaderRow" (children e) (tb_header f) /\
      each (given KTableRow) "TableRow" (children e) (tb_row f)
  | KTableRow => fun f =>
      name e = "TableRow" /\ each (given KTableColumn) "TableColumn" (children e) f
  | KTableColumn => fun f =>
      name e = "TableColumn" /\
      border_style (get e "BorderTop") (tc_border_top f) /\
      border_style (get e "BorderBottom") (tc_border_bottom f) /\
      border_style (get e "BorderLeft") (tc_border_left f) /\
      border_style (get e "BorderRight") (tc_border_right f) /\
      get e "rowspan" = tc_rowspan f /\ get e "colspan" = tc_colspan f /\
      one_of_any alignments (get e "Align") (tc_align f) /\
      one_of_any positions (get e "Valign") (tc_valign f) /\
      mixed cell_node (children e) (tc_contents f)
  | KRemarks => fun f =>
      name e = "Remarks" /\ known ["RemarksLabel"; "Item"; "Sentence"] (children e) /\
      latest remarks_label_reads "RemarksLabel" (children e) (Some (rem_label f)) /\
      Forall2 remarks_reads (with_tags ["Item"; "Sentence"] (children e)) (rem_children f)
  | KCStruct SNote => structure "NoteStruct" "NoteStructTitle" "Note" text_of (given (KCont CNote)) e
  | KCStruct SStyle => structure "StyleStruct" "StyleStructTitle" "Style" text_of (given (KCont CStyle)) e
  | KCStruct SFormat =>
      structure "FormatStruct" "FormatStructTitle" "Format" text_of (given (KCont CFormat)) e
  | KFigStruct => structure "FigStruct" "FigStructTitle" "Fig" text_of fig_reads e
  | KTableStruct =>
      structure "TableStruct" "TableStructTitle" "Table" moded_text_of (given KTable) e
  | KList l => fun f =>
      name e = list_level_tag l /\
      exists s rest,
        children e = NElement s :: rest /\ name s = (list_level_tag l ++ "Sentence")%string /\
        Forall2 list_sentence_reads (elements (children s)) (list_sentence f) /\
        (l <> Sublist3 -> Forall2 (given (sub_list l)) (elements rest) (list_children f))
  | KClass => fun f =>
      name e = "Class" /\ get e "Num" = Some (class_num f) /\
      known ["ClassTitle"; "ClassSentence"; "Item"] (children e) /\
      latest text_of "ClassTitle" (children e) (class_title f) /\
      latest sct_reads "ClassSentence" (children e) (Some (class_sentence f)) /\
      each (given (KItem Item0)) "Item" (children e) (class_children f)
  | KItem l => fun f =>
      name e = level_tag l /\ item_number (get e "Num") (it_num f) /\
      bool_attr (get e "Delete") (it_delete f) /\ bool_attr (get e "Hide") (it_hide f) /\
      known ([level_tag l ++ "Title"; level_tag l ++ "Sentence"]%string ++ struct_tags
             ++ sub_level_tags l) (children e) /\
      latest text_of (level_tag l ++ "Title")%string (children e) (it_title f) /\
      latest sct_reads (level_tag l ++ "Sentence")%string (children e) (Some (it_sentence f)) /\
      Forall2 struct_reads (with_tags struct_tags (children e)) (it_struct_list f) /\
      Forall2 (given (sub_item l)) (with_tags (sub_level_tags l) (children e)) (it_children f)
  | KParagraph => fun f =>
      name e = "Paragraph" /\ number (get e "Num") (par_num f) /\
      bool_attr (get e "OldStyle") (par_old_style f) /\
      bool_attr (get e "OldNum") (par_old_num f) /\ bool_attr (get e "Hide") (par_hide f) /\
      known (["ParagraphCaption"; "ParagraphNum"; "ParagraphSentence"; "AmendProvision"; "Class";
              "Item"] ++ struct_tags) (children e) /\
      latest caption_of "ParagraphCaption" (children e) (par_caption f) /\
      latest_or [] text_of "ParagraphNum" (children e) (par_paragraph_num f) /\
      Forall2 (given KSentence)
        (flat_map (fun c => elements (children c)) (with_tag "ParagraphSentence" (children e)))
        (par_sentence f) /\
      each (given KAmend) "AmendProvision" (children e) (par_amend_provision f) /\
      each (given KClass) "Class" (children e) (par_class f) /\
      Forall2 struct_reads (with_tags struct_tags (children e)) (par_struct_list f) /\
      each (given (KItem Item0)) "Item" (children e) (par_children f)
  | KArticle => fun f =>
      name e = "Article" /\ number (get e "Num") (art_num f) /\
      bool_attr (get e "Delete") (art_delete f) /\ bool_attr (get e "Hide") (art_hide f) /\
      exists head body c rest,
        children e = head ++ body /\ body = NElement c :: rest /\
        known ["ArticleCaption"; "ArticleTitle"] head /\
        known ["Paragraph"; "SupplNote"] body /\
        latest caption_of "ArticleCaption" head (art_caption f) /\
        latest_or [] text_of "ArticleTitle" head (art_title f) /\
        each (given KParagraph) "Paragraph" body (art_paragraph f) /\
        latest text_of "SupplNote" body (art_suppl_note f)
  | KPart => heading "Part" part_reads e
  | KChapter => heading "Chapter" chapter_reads e
  | KSection => heading "Section" section_reads e
  | KSubsection => heading "Subsection" subsection_reads e
  | KDivision => heading "Division" division_reads e
  | KAmend => fun f =>
      name e = "AmendProvision" /\
      known ["AmendProvisionSentence"; "NewProvision"] (children e) /\
      latest amend_sentence_reads "AmendProvisionSentence" (children e) (am_sentence f) /\
      Forall2 new_provision_reads
        (flat_map (fun c => elements (children c)) (with_tag "NewProvision" (children e)))
        (am_new f)
  | KLawTitle => fun f =>
      name e = "LawTitle" /\ get e "Kana" = lt_kana f /\ get e "Abbrev" = lt_abbrev f /\
      get e "AbbrevKana" = lt_abbrev_kana f /\ text_of e (lt_text f)
  | KPreamble => fun f =>
      name e = "Preamble" /\ each (given KParagraph) "Paragraph" (children e) f
  | KMain => fun f =>
      name e = "MainProvision" /\ flag_opt (get e "Extract") (main_extract f) /\
      Forall2 main_reads (elements (children e)) (main_children f)
  | KSuppl => fun f =>
      name e = "SupplProvision" /\ one_of_opt suppl_types (get e "Type") (sp_type f) /\
      flag_opt (get e "Extract") (sp_extract f) /\ get e "AmendLawNum" = sp_amend_law_num f /\
      known ["SupplProvisionLabel"; "Chapter"; "Article"; "Paragraph"; "SupplProvisionAppdxTable";
             "SupplProvisionAppdxStyle"; "SupplProvisionAppdx"] (children e) /\
      latest_or [] text_of "SupplProvisionLabel" (children e) (sp_label f) /\
      Forall2 suppl_reads
        (with_tags ["Chapter"; "Article"; "Paragraph"; "SupplProvisionAppdxTable";
                    "SupplProvisionAppdxStyle"; "SupplProvisionAppdx"] (children e))
        (sp_children f)
  | KSupplTable => suppl_appended "SupplProvisionAppdxTable" "TableStruct" (given KTableStruct) e
  | KSupplStyle => suppl_appended "SupplProvisionAppdxStyle" "StyleStruct" (given (KCStruct SStyle)) e
  | KSupplAppdx => fun f =>
      name e = "SupplProvisionAppdx" /\ get e "Num" = sa_num f /\
      known ["ArithFormulaNum"; "RelatedArticleNum"; "ArithFormula"] (children e) /\
      latest text_of "ArithFormulaNum" (children e) (sa_arith_formula_num f) /\
      latest text_of "RelatedArticleNum" (children e) (sa_related f) /\
      each formula_reads "ArithFormula" (children e) (sa_arith_formula f)
  | KAppdxTable => appended "AppdxTable" ["TableStruct"; "Item"] appdx_table_reads e
  | KAppdxNote => appended "AppdxNote" ["NoteStruct"; "FigStruct"; "TableStruct"] appdx_note_reads e
  | KAppdxStyle => appended "AppdxStyle" ["StyleStruct"] (given (KCStruct SStyle)) e
  | KAppdxFormat => appended "AppdxFormat" ["FormatStruct"] (given (KCStruct SFormat)) e
  | KAppdx => fun f =>
      name e = "Appdx" /\
      known ["ArithFormulaNum"; "RelatedArticleNum"; "ArithFormula"; "Remarks"] (children e) /\
      latest text_of "ArithFormulaNum" (children e) (ap_arith_formula_num f) /\
      latest text_of "RelatedArticleNum" (children e) (ap_related f) /\
      each formula_reads "ArithFormula" (children e) (ap_arith_formula f) /\
      latest (given KRemarks) "Remarks" (children e) (ap_remarks f)
  | KAppdxFig => fun f =>
      name e = "AppdxFig" /\ get e "Num" = af_fnum f /\
      known ["AppdxFigTitle"; "RelatedArticleNum"; "FigStruct"; "TableStruct"] (children e) /\
      latest moded_text_of "AppdxFigTitle" (children e) (af_title f) /\
      latest text_of "RelatedArticleNum" (children e) (af_related f) /\
      Forall2 appdx_fig_reads (with_tags ["FigStruct"; "TableStruct"] (children e)) (af_children f)
  | KTOC => fun f =>
      name e = "TOC" /\
      known ["TOCLabel"; "TOCPreambleLabel"; "TOCPart"; "TOCChapter"; "TOCSection"; "TOCArticle";
             "TOCSupplProvision"; "TOCAppdxTableLabel"] (children e) /\
      latest text_of "TOCLabel" (children e) (toc_label f) /\
      latest text_of "TOCPreambleLabel" (children e) (toc_preamble_label f) /\
      Forall2 toc_main_reads
        (with_tags ["TOCPart"; "TOCChapter"; "TOCSection"; "TOCArticle"] (children e)) (toc_main f) /\
      latest (given KTOCSuppl) "TOCSupplProvision" (children e) (toc_suppl f) /\
      each text_of "TOCAppdxTableLabel" (children e) (toc_appdx_table_label f)
  | KTOCPart => toc_heading "TOCPart" "PartTitle" ["TOCChapter"] (given KTOCChapter) e
  | KTOCChapter => toc_heading "TOCChapter" "ChapterTitle" ["TOCSection"] (given KTOCSection) e
  | KTOCSection =>
      toc_heading "TOCSection" "SectionTitle" ["TOCSubsection"; "TOCDivision"] toc_section_reads e
  | KTOCSubsection =>
      toc_heading "TOCSubsection" "SubsectionTitle" ["TOCDivision"] (given KTOCDivision) e
  | KTOCDivision => toc_heading "TOCDivision" "DivisionTitle" [] (fun _ _ => False) e
  | KTOCArticle => fun f =>
      name e = "TOCArticle" /\ number (get e "Num") (ta_num f) /\
      bool_attr (get e "Delete") (ta_delete f) /\
      known ["ArticleTitle"; "ArticleCaption"] (children e) /\
      latest_or [] text_of "ArticleTitle" (children e) (ta_title f) /\
      latest caption_of "ArticleCaption" (children e) (Some (ta_caption f))
  | KTOCSuppl => fun f =>
      name e = "TOCSupplProvision" /\
      known ["SupplProvisionLabel"; "ArticleRange"; "TOCArticle"; "TOCChapter"] (children e) /\
      latest_or [] text_of "SupplProvisionLabel" (children e) (ts_label f) /\
      latest text_of "ArticleRange" (children e) (ts_range f) /\
      Forall2 toc_suppl_reads (with_tags ["TOCArticle"; "TOCChapter"] (children e)) (ts_children f)
  | KLawBody => fun f =>
      name e = "LawBody" /\ get e "Subject" = lb_subject f /\
      known ["LawTitle"; "EnactStatement"; "TOC"; "Preamble"; "MainProvision"; "SupplProvision";
             "AppdxTable"; "AppdxNote"; "AppdxStyle"; "Appdx"; "AppdxFig"; "AppdxFormat"]
        (children e) /\
      latest (given KLawTitle) "LawTitle" (children e) (lb_law_title f) /\
      each text_of "EnactStatement" (children e) (lb_enact_statement f) /\
      latest (given KTOC) "TOC" (children e) (lb_toc f) /\
      latest (given KPreamble) "Preamble" (children e) (lb_preamble f) /\
      latest (given KMain) "MainProvision" (children e) (Some (lb_main_provision f)) /\
      each (given KSuppl) "SupplProvision" (children e) (lb_suppl_provision f) /\
      each (given KAppdxTable) "AppdxTable" (children e) (lb_appdx_table f) /\
      each (given KAppdxNote) "AppdxNote" (children e) (lb_appdx_note f) /\
      each (given KAppdxStyle) "AppdxStyle" (children e) (lb_appdx_style f) /\
      each (given KAppdx) "Appdx" (children e) (lb_appdx f) /\
      each (given KAppdxFig) "AppdxFig" (children e) (lb_appdx_fig f) /\
      each (given KAppdxFormat) "AppdxFormat" (children e) (lb_appdx_format f)
  end.
End Given.

(** A relation between elements and values that the rules hold of. *)
Definition follows_rules (R : forall k : kind, Element -> Knot k -> Prop) : Prop :=
  forall k e v, tagged k e -> R k e v <-> reading R k e (un k v).

(** What an element of some kind is read to, by the rules alone: [n] bounds the nesting. *)
Fixpoint reads_in (n : nat) (k : kind) (e : Element) (v : Knot k) : Prop :=
  match n with
  | O => False
  | S m => reading (reads_in m) k e (un k v)
  end.
Definition read_by_rules (k : kind) (e : Element) (v : Knot k) : Prop := exists n, reads_in n k e v.

(** The number, month or day of a law: empty counts as absent. *)
Definition law_integer (a : option string) (o : option N) : Prop :=
  match o with
  | Some n => exists s, a = Some s /\ usize_text s n
  | None => a = None \/ a = Some ""
  end.

Definition law_reading (e : Element) (v : Law) : Prop :=
  name e = "Law" /\
  one_of era_names (get e "Era") (law_era v) /\
  (exists s, get e "Year" = Some s /\ usize_text s (law_year v)) /\
  match law_no v with Some n => number (get e "Num") n | None => get e "Num" = Some "" end /\
  law_integer (get e "PromulgateMonth") (law_promulgate_month v) /\
  law_integer (get e "PromulgateDay") (law_promulgate_day v) /\
  one_of law_type_names (get e "LawType") (law_type v) /\
  one_of lang_names (get e "Lang") (law_lang v) /\
  exists n b rest,
    children e = NElement n :: NElement b :: rest /\ name n = "LawNum" /\
    law_num v = own_text n /\ read_by_rules KLawBody b (law_body v).
