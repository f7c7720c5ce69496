(** The structure of a law: every [pub struct]/[pub enum] of /repo/src that the XML layer
    reads and writes.

    Model file: definitions only.

    All these types are mutually recursive (an amendment may quote a whole law body), so each Rust
    type is a record or variant type over a family [K] giving the child types; [Knot] ties the
    knot with one constructor for each member of [kind].  The Rust type [T] is [Knot KT]. *)
From Coq Require Import String List NArith Bool.
From Verif Require Import Base NumStr.
Import ListNotations.
Open Scope string_scope.
Set Implicit Arguments.
Set Contextual Implicit.
Set Maximal Implicit Insertion.

(** [Item], [Subitem1] .. [Subitem10]: /repo/src/paragraph.rs 164-1733. *)
Inductive lvl :=
  Item0 | Sub1 | Sub2 | Sub3 | Sub4 | Sub5 | Sub6 | Sub7 | Sub8 | Sub9 | Sub10.

(** [List], [Sublist1] .. [Sublist3]: /repo/src/list.rs 13-314. *)
Inductive llvl := List0 | Sublist1 | Sublist2 | Sublist3.

(** The newtypes around [Contents]: /repo/src/structs.rs 45-62 (QuoteStruct), /repo/src/contents.rs
    247-317 (Style, Note, Format, ArithFormula). *)
Inductive cname := CQuote | CArith | CNote | CStyle | CFormat.

(** [NoteStruct], [StyleStruct], [FormatStruct]: /repo/src/structs.rs 64-290. *)
Inductive sname := SNote | SStyle | SFormat.

Inductive kind :=
| KVoid  (* no value; child kind of the deepest subitem and sublist *)
| KRuby | KLine | KCont (c : cname) | KSentence | KColumn
| KTable | KTableRow | KTableColumn | KRemarks
| KCStruct (s : sname) | KFigStruct | KTableStruct
| KList (l : llvl) | KClass | KItem (l : lvl) | KParagraph
| KArticle | KPart | KChapter | KSection | KSubsection | KDivision
| KAmend | KLawTitle | KPreamble | KMain
| KSuppl | KSupplTable | KSupplStyle | KSupplAppdx
| KAppdxTable | KAppdxNote | KAppdxStyle | KAppdxFormat | KAppdx | KAppdxFig
| KTOC | KTOCPart | KTOCChapter | KTOCSection | KTOCSubsection | KTOCDivision
| KTOCArticle | KTOCSuppl
| KLawBody.

(** Child kind of an item level. *)
Definition sub_item (l : lvl) : kind :=
  match l with
  | Item0 => KItem Sub1 | Sub1 => KItem Sub2 | Sub2 => KItem Sub3 | Sub3 => KItem Sub4
  | Sub4 => KItem Sub5 | Sub5 => KItem Sub6 | Sub6 => KItem Sub7 | Sub7 => KItem Sub8
  | Sub8 => KItem Sub9 | Sub9 => KItem Sub10 | Sub10 => KVoid
  end.

(** Child kind of a list level. *)
Definition sub_list (l : llvl) : kind :=
  match l with
  | List0 => KList Sublist1 | Sublist1 => KList Sublist2 | Sublist2 => KList Sublist3
  | Sublist3 => KVoid
  end.

(** /repo/src/text.rs 178-182. *)
Inductive WritingMode := Vertical | Horizontal.

(** /repo/src/line.rs 93-100. *)
Inductive LineStyle := LDotted | LDouble | LSolid | LNone.

(** /repo/src/class.rs 240-246. *)
Inductive Align := ALeft | ACenter | ARight | AJustify.

(** /repo/src/table.rs 375-380. *)
Inductive Position := PTop | PMiddle | PBottom.

(** /repo/src/sentence.rs 210-214. *)
Inductive SentenceFunction := FMain | FProviso.

(** /repo/src/sentence.rs 216-230: [Paragraph] or one of the item levels. *)
Inductive SentenceIndent := IParagraph | IItem (l : lvl).

(** /repo/src/suppl_provision.rs 150-154. *)
Inductive SupplProvisionType := TNew | TAmend.

(** /repo/src/law.rs 262-275. *)
Inductive Era := Meiji | Taisho | Showa | Heisei | Reiwa.

(** /repo/src/law.rs 277-294. *)
Inductive LawType :=
  Constitution | Act | CabinetOrder | ImperialOrder | MinisterialOrdinance | Rule | Misc.

(** /repo/src/law.rs 296-301. *)
Inductive Lang := Ja | En.

Section Types.
Context (K : kind -> Type).

(** /repo/src/text.rs 249-257. [Sup] and [Sub] (324-392) are their text. *)
Inductive TextElement :=
| TE_Ruby (r : K KRuby)
| TE_Line (l : K KLine)
| TE_Sup (s : string)
| TE_Sub (s : string)
| TE_Text (s : string).

(** /repo/src/text.rs 11-15: the single field [contents]. *)
Definition Text := list TextElement.

(** /repo/src/text.rs 184-189. *)
Record TextWithWritingMode := mkTWM {
  twm_contents : list TextElement;
  twm_mode : WritingMode
}.

(** /repo/src/text.rs 258-266. *)
Record RubyF := mkRubyF { ruby_text : Text; ruby_ruby : string }.

(** /repo/src/contents.rs 299-304. The contents are a [KCont CArith]. *)
Record ArithFormula := mkArith { af_num : option N; af_contents : K (KCont CArith) }.

(** /repo/src/line.rs 83-91. *)
Inductive LineContents :=
| LC_Quote (q : K (KCont CQuote))
| LC_Arith (a : ArithFormula)
| LC_Ruby (r : K KRuby)
| LC_Sup (s : string)
| LC_Sub (s : string)
| LC_String (s : string).

(** /repo/src/line.rs 12-16. *)
Record LineF := mkLineF { line_contents : list LineContents; line_style : LineStyle }.

(** /repo/src/contents.rs 210-245; [Item] and the ten [Subitem] variants are one
    constructor indexed by the level; [Fig] (/repo/src/fig.rs 9-12) is its [src]. *)
Inductive ContentsElement :=
| CE_Table (v : K KTable)
| CE_TableStruct (v : K KTableStruct)
| CE_Fig (src : string)
| CE_FigStruct (v : K KFigStruct)
| CE_Quote (v : K (KCont CQuote))
| CE_NoteStruct (v : K (KCStruct SNote))
| CE_StyleStruct (v : K (KCStruct SStyle))
| CE_AppdxTable (v : K KAppdxTable)
| CE_Ruby (v : K KRuby)
| CE_Line (v : K KLine)
| CE_Sup (s : string)
| CE_Sub (s : string)
| CE_String (s : string)
| CE_Paragraph (v : K KParagraph)
| CE_Item (l : lvl) (v : K (KItem l))
| CE_List (v : K (KList List0))
| CE_Sentence (v : K KSentence)
| CE_Arith (v : ArithFormula)
| CE_Remarks (v : K KRemarks)
| CE_TOC (v : K KTOC)
| CE_TOCSection (v : K KTOCSection)
| CE_TableRow (v : K KTableRow).

(** /repo/src/contents.rs 20-25. *)
Definition ContentsF := list ContentsElement.

(** /repo/src/sentence.rs 198-208. *)
Inductive SentenceElement :=
| SE_Line (v : K KLine)
| SE_Quote (v : K (KCont CQuote))
| SE_Arith (v : ArithFormula)
| SE_Ruby (v : K KRuby)
| SE_Sup (s : string)
| SE_Sub (s : string)
| SE_String (s : string).

(** /repo/src/sentence.rs 12-19. *)
Record SentenceF := mkSentenceF {
  sen_contents : list SentenceElement;
  sen_num : option N;
  sen_function : option SentenceFunction;
  sen_indent : option SentenceIndent;
  sen_mode : WritingMode
}.

(** /repo/src/class.rs 189-195. *)
Record ColumnF := mkColumnF {
  col_sentence : list (K KSentence);
  col_num : option N;
  col_line_break : bool;
  col_align : option Align
}.

(** /repo/src/class.rs 85-90. *)
Inductive SentenceOrColumnOrTable :=
| SCT_Sentence (l : list (K KSentence))
| SCT_Column (l : list (K KColumn))
| SCT_Table (t : K KTable).

(** /repo/src/class.rs 154-158. *)
Record Caption := mkCaption { cap_text : Text; cap_common : option bool }.

(** /repo/src/class.rs 15-21. *)
Record ClassF := mkClassF {
  class_title : option Text;
  class_sentence : SentenceOrColumnOrTable;
  class_children : list (K (KItem Item0));
  class_num : string
}.

(** /repo/src/table.rs 77-80: the single field [columns]. *)
Definition TableHeaderRow := list Text.

(** /repo/src/table.rs 17-22. *)
Record TableF := mkTableF {
  tb_header : list TableHeaderRow;
  tb_row : list (K KTableRow);
  tb_mode : WritingMode
}.

(** /repo/src/table.rs 113-116: the single field [columns]. *)
Definition TableRowF := list (K KTableColumn).

(** /repo/src/table.rs 348-373, items as in [ContentsElement]. *)
Inductive TableColumnContents :=
| TC_Part (v : K KPart)
| TC_Chapter (v : K KChapter)
| TC_Section (v : K KSection)
| TC_Subsection (v : K KSubsection)
| TC_Division (v : K KDivision)
| TC_Article (v : K KArticle)
| TC_Paragraph (v : K KParagraph)
| TC_Item (l : lvl) (v : K (KItem l))
| TC_FigStruct (v : K KFigStruct)
| TC_Remarks (v : K KRemarks)
| TC_Sentence (v : K KSentence)
| TC_Column (v : K KColumn)
| TC_String (s : string).

(** /repo/src/table.rs 149-160. *)
Record TableColumnF := mkTableColumnF {
  tc_contents : list TableColumnContents;
  tc_border_top : LineStyle;
  tc_border_bottom : LineStyle;
  tc_border_left : LineStyle;
  tc_border_right : LineStyle;
  tc_rowspan : option string;
  tc_colspan : option string;
  tc_align : option Align;
  tc_valign : option Position
}.

(** /repo/src/remarks.rs 73-77. *)
Record RemarksLabel := mkRemarksLabel { rl_text : Text; rl_line_break : bool }.

(** /repo/src/remarks.rs 103-107. *)
Inductive RemarksContents :=
| RC_Item (v : K (KItem Item0))
| RC_Sentence (v : K KSentence).

(** /repo/src/remarks.rs 13-17. *)
Record RemarksF := mkRemarksF {
  rem_label : RemarksLabel;
  rem_children : list RemarksContents
}.

(** [NoteStruct] /repo/src/structs.rs 64-70, [StyleStruct] 140-146, [FormatStruct] 216-222,
    [FigStruct] 292-298, [TableStruct] 367-373: same fields, with title type [T] and body type [B]. *)
Record StructF (T B : Type) := mkStructF {
  st_title : option T;
  st_title_remarks : list (K KRemarks);
  st_body : B;
  st_remarks : list (K KRemarks)
}.

(** Body kind of a contents structure. *)
Definition body_of (s : sname) : cname :=
  match s with SNote => CNote | SStyle => CStyle | SFormat => CFormat end.

Definition CStructF (s : sname) := StructF Text (K (KCont (body_of s))).
Definition FigStructF := StructF Text string.
Definition TableStructF := StructF TextWithWritingMode (K KTable).

(** /repo/src/structs.rs 15-21. *)
Inductive Struct :=
| Struct_Table (v : K KTableStruct)
| Struct_Fig (v : K KFigStruct)
| Struct_Style (v : K (KCStruct SStyle))
| Struct_List (v : K (KList List0)).

(** /repo/src/list.rs 90-94. *)
Inductive ListSentence :=
| LS_Sentence (v : K KSentence)
| LS_Column (v : K KColumn).

(** /repo/src/list.rs 12-17, 96-101, 173-178, 250-253 (the last without children). *)
Record ListF (l : llvl) := mkListF {
  list_sentence : list ListSentence;
  list_children : list (K (sub_list l))
}.

(** /repo/src/paragraph.rs 163-172 ([Item]) and the same structure for [Subitem1] .. [Subitem10]
    at 307-316, 451-460, 595-604, 739-748, 883-892, 1027-1036, 1171-1180, 1315-1324, 1459-1468,
    1603-1611 (the last without children). *)
Record ItemF (l : lvl) := mkItemF {
  it_title : option Text;
  it_sentence : SentenceOrColumnOrTable;
  it_children : list (K (sub_item l));
  it_struct_list : list Struct;
  it_num : option ArticleNumber;
  it_delete : bool;
  it_hide : bool
}.

(** /repo/src/paragraph.rs 17-30. *)
Record ParagraphF := mkParagraphF {
  par_caption : option Caption;
  par_paragraph_num : Text;
  par_amend_provision : list (K KAmend);
  par_class : list (K KClass);
  par_sentence : list (K KSentence);
  par_struct_list : list Struct;
  par_children : list (K (KItem Item0));
  par_num : ArticleNumber;
  par_old_style : bool;
  par_old_num : bool;
  par_hide : bool
}.

(** /repo/src/article.rs 600-610. *)
Record ArticleF := mkArticleF {
  art_caption : option Caption;
  art_title : Text;
  art_paragraph : list (K KParagraph);
  art_suppl_note : option Text;
  art_num : ArticleNumber;
  art_delete : bool;
  art_hide : bool
}.

(** [Part] /repo/src/article.rs 15-22, [Chapter] 133-140, [Section] 251-258, [Subsection] 377-384,
    [Division] 497-504: same fields, with children of type [C]. *)
Record HeadF (C : Type) := mkHeadF {
  hd_title : Text;
  hd_children : list C;
  hd_num : ArticleNumber;
  hd_delete : bool;
  hd_hide : bool
}.

(** /repo/src/article.rs 126-130. *)
Inductive PartContents := PC_Article (v : K KArticle) | PC_Chapter (v : K KChapter).
(** /repo/src/article.rs 244-248. *)
Inductive ChapterContents := ChC_Article (v : K KArticle) | ChC_Section (v : K KSection).
(** /repo/src/article.rs 369-374. *)
Inductive SectionContents :=
  SeC_Article (v : K KArticle) | SeC_Subsection (v : K KSubsection) | SeC_Division (v : K KDivision).
(** /repo/src/article.rs 490-494. *)
Inductive SubsectionContents :=
  SuC_Article (v : K KArticle) | SuC_Division (v : K KDivision).

Definition PartF := HeadF PartContents.
Definition ChapterF := HeadF ChapterContents.
Definition SectionF := HeadF SectionContents.
Definition SubsectionF := HeadF SubsectionContents.
Definition DivisionF := HeadF (K KArticle).

(** /repo/src/law.rs 970-1020, items as in [ContentsElement]. *)
Inductive NewProvision :=
| NP_LawTitle (v : K KLawTitle)
| NP_Preamble (v : K KPreamble)
| NP_TOC (v : K KTOC)
| NP_Part (v : K KPart)
| NP_PartTitle (t : Text)
| NP_Chapter (v : K KChapter)
| NP_ChapterTitle (t : Text)
| NP_Section (v : K KSection)
| NP_SectionTitle (t : Text)
| NP_Subsection (v : K KSubsection)
| NP_SubsectionTitle (t : Text)
| NP_Division (v : K KDivision)
| NP_DivisionTitle (t : Text)
| NP_Article (v : K KArticle)
| NP_SupplNote (t : Text)
| NP_Paragraph (v : K KParagraph)
| NP_Item (l : lvl) (v : K (KItem l))
| NP_List (v : K (KList List0))
| NP_Sentence (v : K KSentence)
| NP_Amend (v : K KAmend)
| NP_AppdxTable (v : K KAppdxTable)
| NP_AppdxNote (v : K KAppdxNote)
| NP_AppdxStyle (v : K KAppdxStyle)
| NP_Appdx (v : K KAppdx)
| NP_AppdxFig (v : K KAppdxFig)
| NP_AppdxFormat (v : K KAppdxFormat)
| NP_SupplStyle (v : K KSupplStyle)
| NP_SupplTable (v : K KSupplTable)
| NP_SupplAppdx (v : K KSupplAppdx)
| NP_TableStruct (v : K KTableStruct)
| NP_TableRow (v : K KTableRow)
| NP_TableColumn (v : K KTableColumn)
| NP_FigStruct (v : K KFigStruct)
| NP_CStruct (s : sname) (v : K (KCStruct s))
| NP_Remarks (v : K KRemarks)
| NP_LawBody (v : K KLawBody).

(** /repo/src/law.rs 642-647. *)
Record AmendF := mkAmendF {
  am_sentence : option (K KSentence);
  am_new : list NewProvision
}.

(** /repo/src/law.rs 475-486. *)
Record LawTitleF := mkLawTitleF {
  lt_kana : option string;
  lt_abbrev : option string;
  lt_abbrev_kana : option string;
  lt_text : Text
}.

(** /repo/src/law.rs 524-528: the single field [children]. *)
Definition PreambleF := list (K KParagraph).

(** /repo/src/law.rs 626-640. *)
Inductive MainContents :=
| MC_Part (v : K KPart)
| MC_Chapter (v : K KChapter)
| MC_Section (v : K KSection)
| MC_Article (v : K KArticle)
| MC_Paragraph (v : K KParagraph).

(** /repo/src/law.rs 558-564. *)
Record MainF := mkMainF { main_children : list MainContents; main_extract : option bool }.

(** /repo/src/suppl_provision.rs 140-148. *)
Inductive SupplContents :=
| SP_Chapter (v : K KChapter)
| SP_Article (v : K KArticle)
| SP_Paragraph (v : K KParagraph)
| SP_Table (v : K KSupplTable)
| SP_Style (v : K KSupplStyle)
| SP_Appdx (v : K KSupplAppdx).

(** /repo/src/suppl_provision.rs 15-23. *)
Record SupplF := mkSupplF {
  sp_label : Text;
  sp_children : list SupplContents;
  sp_type : option SupplProvisionType;
  sp_amend_law_num : option string;
  sp_extract : option bool
}.

(** [SupplProvisionAppdxTable] /repo/src/suppl_provision.rs 156-162 and [SupplProvisionAppdxStyle]
    230-236, with children of type [C]. *)
Record SupplTSF (C : Type) := mkSupplTSF {
  sts_title : TextWithWritingMode;
  sts_related : option Text;
  sts_children : list C;
  sts_num : option string
}.

Definition SupplTableF := SupplTSF (K KTableStruct).
Definition SupplStyleF := SupplTSF (K (KCStruct SStyle)).

(** /repo/src/suppl_provision.rs 304-310. *)
Record SupplAppdxF := mkSupplAppdxF {
  sa_arith_formula_num : option Text;
  sa_related : option Text;
  sa_arith_formula : list ArithFormula;
  sa_num : option string
}.

(** [AppdxTable] /repo/src/appdx.rs 15-22, [AppdxNote] 104-111, [AppdxStyle] 199-206, [AppdxFormat]
    275-282: same fields, with children of type [C]. *)
Record AppdxTF (C : Type) := mkAppdxTF {
  ax_title : option TextWithWritingMode;
  ax_related : option Text;
  ax_children : list C;
  ax_remarks : option (K KRemarks);
  ax_num : option string
}.

(** /repo/src/appdx.rs 98-102. *)
Inductive AppdxTableContents :=
  AT_TableStruct (v : K KTableStruct) | AT_Item (v : K (KItem Item0)).
(** /repo/src/appdx.rs 192-197. *)
Inductive AppdxNoteContents :=
| AN_NoteStruct (v : K (KCStruct SNote))
| AN_FigStruct (v : K KFigStruct)
| AN_TableStruct (v : K KTableStruct).
(** /repo/src/appdx.rs 489-493. *)
Inductive AppdxFigContents :=
  AF_FigStruct (v : K KFigStruct) | AF_TableStruct (v : K KTableStruct).

Definition AppdxTableF := AppdxTF AppdxTableContents.
Definition AppdxNoteF := AppdxTF AppdxNoteContents.
Definition AppdxStyleF := AppdxTF (K (KCStruct SStyle)).
Definition AppdxFormatF := AppdxTF (K (KCStruct SFormat)).

(** /repo/src/appdx.rs 350-356. *)
Record AppdxF := mkAppdxF {
  ap_arith_formula_num : option Text;
  ap_related : option Text;
  ap_arith_formula : list ArithFormula;
  ap_remarks : option (K KRemarks)
}.

(** /repo/src/appdx.rs 417-423. *)
Record AppdxFigF := mkAppdxFigF {
  af_title : option TextWithWritingMode;
  af_related : option Text;
  af_children : list AppdxFigContents;
  af_fnum : option string
}.

(** [TOCPart] /repo/src/table_of_contents.rs 127-140, [TOCChapter] 203-216, [TOCSection] 279-292,
    [TOCSubsection] 373-386, [TOCDivision] 451-462 (no children): same fields. *)
Record TOCHeadF (C : Type) := mkTOCHeadF {
  th_title : Text;
  th_range : option Text;
  th_num : ArticleNumber;
  th_delete : bool;
  th_children : list C
}.

(** /repo/src/table_of_contents.rs 364-371. *)
Inductive TOCSectionContents :=
  TSC_Subsection (v : K KTOCSubsection) | TSC_Division (v : K KTOCDivision).

Definition TOCPartF := TOCHeadF (K KTOCChapter).
Definition TOCChapterF := TOCHeadF (K KTOCSection).
Definition TOCSectionF := TOCHeadF TOCSectionContents.
Definition TOCSubsectionF := TOCHeadF (K KTOCDivision).
Definition TOCDivisionF := TOCHeadF Empty_set.

(** /repo/src/table_of_contents.rs 518-529. *)
Record TOCArticleF := mkTOCArticleF {
  ta_title : Text;
  ta_caption : Caption;
  ta_num : ArticleNumber;
  ta_delete : bool
}.

(** /repo/src/table_of_contents.rs 666-673. *)
Inductive TOCSupplContents :=
  TSP_Article (v : K KTOCArticle) | TSP_Chapter (v : K KTOCChapter).

(** /repo/src/table_of_contents.rs 590-599. *)
Record TOCSupplF := mkTOCSupplF {
  ts_label : Text;
  ts_range : option Text;
  ts_children : list TOCSupplContents
}.

(** /repo/src/table_of_contents.rs 115-125. *)
Inductive TOCMainContents :=
| TM_Part (v : K KTOCPart)
| TM_Chapter (v : K KTOCChapter)
| TM_Section (v : K KTOCSection)
| TM_Article (v : K KTOCArticle).

(** /repo/src/table_of_contents.rs 12-25. *)
Record TOCF := mkTOCF {
  toc_label : option Text;
  toc_preamble_label : option Text;
  toc_main : list TOCMainContents;
  toc_suppl : option (K KTOCSuppl);
  toc_appdx_table_label : list Text
}.

(** /repo/src/law.rs 303-332. *)
Record LawBodyF := mkLawBodyF {
  lb_law_title : option (K KLawTitle);
  lb_enact_statement : list Text;
  lb_subject : option string;
  lb_toc : option (K KTOC);
  lb_preamble : option (K KPreamble);
  lb_main_provision : K KMain;
  lb_suppl_provision : list (K KSuppl);
  lb_appdx_table : list (K KAppdxTable);
  lb_appdx_note : list (K KAppdxNote);
  lb_appdx_style : list (K KAppdxStyle);
  lb_appdx : list (K KAppdx);
  lb_appdx_fig : list (K KAppdxFig);
  lb_appdx_format : list (K KAppdxFormat)
}.

End Types.

(** The recursive types. *)
Inductive Knot : kind -> Type :=
| mkRuby : RubyF Knot -> Knot KRuby
| mkLine : LineF Knot -> Knot KLine
| mkCont (c : cname) : ContentsF Knot -> Knot (KCont c)
| mkSentence : SentenceF Knot -> Knot KSentence
| mkColumn : ColumnF Knot -> Knot KColumn
| mkTable : TableF Knot -> Knot KTable
| mkTableRow : TableRowF Knot -> Knot KTableRow
| mkTableColumn : TableColumnF Knot -> Knot KTableColumn
| mkRemarks : RemarksF Knot -> Knot KRemarks
| mkCStruct (s : sname) : CStructF Knot s -> Knot (KCStruct s)
| mkFigStruct : FigStructF Knot -> Knot KFigStruct
| mkTableStruct : TableStructF Knot -> Knot KTableStruct
| mkList (l : llvl) : ListF Knot l -> Knot (KList l)
| mkClass : ClassF Knot -> Knot KClass
| mkItem (l : lvl) : ItemF Knot l -> Knot (KItem l)
| mkParagraph : ParagraphF Knot -> Knot KParagraph
| mkArticle : ArticleF Knot -> Knot KArticle
| mkPart : PartF Knot -> Knot KPart
| mkChapter : ChapterF Knot -> Knot KChapter
| mkSection : SectionF Knot -> Knot KSection
| mkSubsection : SubsectionF Knot -> Knot KSubsection
| mkDivision : DivisionF Knot -> Knot KDivision
| mkAmend : AmendF Knot -> Knot KAmend
| mkLawTitle : LawTitleF Knot -> Knot KLawTitle
| mkPreamble : PreambleF Knot -> Knot KPreamble
| mkMain : MainF Knot -> Knot KMain
| mkSuppl : SupplF Knot -> Knot KSuppl
| mkSupplTable : SupplTableF Knot -> Knot KSupplTable
| mkSupplStyle : SupplStyleF Knot -> Knot KSupplStyle
| mkSupplAppdx : SupplAppdxF Knot -> Knot KSupplAppdx
| mkAppdxTable : AppdxTableF Knot -> Knot KAppdxTable
| mkAppdxNote : AppdxNoteF Knot -> Knot KAppdxNote
| mkAppdxStyle : AppdxStyleF Knot -> Knot KAppdxStyle
| mkAppdxFormat : AppdxFormatF Knot -> Knot KAppdxFormat
| mkAppdx : AppdxF Knot -> Knot KAppdx
| mkAppdxFig : AppdxFigF Knot -> Knot KAppdxFig
| mkTOC : TOCF Knot -> Knot KTOC
| mkTOCPart : TOCPartF Knot -> Knot KTOCPart
| mkTOCChapter : TOCChapterF Knot -> Knot KTOCChapter
| mkTOCSection : TOCSectionF Knot -> Knot KTOCSection
| mkTOCSubsection : TOCSubsectionF Knot -> Knot KTOCSubsection
| mkTOCDivision : TOCDivisionF Knot -> Knot KTOCDivision
| mkTOCArticle : TOCArticleF Knot -> Knot KTOCArticle
| mkTOCSuppl : TOCSupplF Knot -> Knot KTOCSuppl
| mkLawBody : LawBodyF Knot -> Knot KLawBody.

(** /repo/src/law.rs 24-46. *)
Record Law := mkLaw {
  law_era : Era;
  law_year : N;
  law_no : option ArticleNumber;  (* field [num] *)
  law_promulgate_month : option N;
  law_promulgate_day : option N;
  law_type : LawType;
  law_lang : Lang;
  law_num : string;
  law_body : Knot KLawBody
}.

(** The record or variant type behind each kind. *)
Definition F (K : kind -> Type) (k : kind) : Type :=
  match k with
  | KVoid => Empty_set
  | KRuby => RubyF K
  | KLine => LineF K
  | KCont _ => ContentsF K
  | KSentence => SentenceF K
  | KColumn => ColumnF K
  | KTable => TableF K
  | KTableRow => TableRowF K
  | KTableColumn => TableColumnF K
  | KRemarks => RemarksF K
  | KCStruct s => CStructF K s
  | KFigStruct => FigStructF K
  | KTableStruct => TableStructF K
  | KList l => ListF K l
  | KClass => ClassF K
  | KItem l => ItemF K l
  | KParagraph => ParagraphF K
  | KArticle => ArticleF K
  | KPart => PartF K
  | KChapter => ChapterF K
  | KSection => SectionF K
  | KSubsection => SubsectionF K
  | KDivision => DivisionF K
  | KAmend => AmendF K
  | KLawTitle => LawTitleF K
  | KPreamble => PreambleF K
  | KMain => MainF K
  | KSuppl => SupplF K
  | KSupplTable => SupplTableF K
  | KSupplStyle => SupplStyleF K
  | KSupplAppdx => SupplAppdxF K
  | KAppdxTable => AppdxTableF K
  | KAppdxNote => AppdxNoteF K
  | KAppdxStyle => AppdxStyleF K
  | KAppdxFormat => AppdxFormatF K
  | KAppdx => AppdxF K
  | KAppdxFig => AppdxFigF K
  | KTOC => TOCF K
  | KTOCPart => TOCPartF K
  | KTOCChapter => TOCChapterF K
  | KTOCSection => TOCSectionF K
  | KTOCSubsection => TOCSubsectionF K
  | KTOCDivision => TOCDivisionF K
  | KTOCArticle => TOCArticleF K
  | KTOCSuppl => TOCSupplF K
  | KLawBody => LawBodyF K
  end.

(** Building a value of a kind. *)
Definition mk (k : kind) : F Knot k -> Knot k :=
  match k with
  | KVoid => fun x => match x with end
  | KRuby => @mkRuby
  | KLine => @mkLine
  | KCont c => @mkCont c
  | KSentence => @mkSentence
  | KColumn => @mkColumn
  | KTable => @mkTable
  | KTableRow => @mkTableRow
  | KTableColumn => @mkTableColumn
  | KRemarks => @mkRemarks
  | KCStruct s => @mkCStruct s
  | KFigStruct => @mkFigStruct
  | KTableStruct => @mkTableStruct
  | KList l => @mkList l
  | KClass => @mkClass
  | KItem l => @mkItem l
  | KParagraph => @mkParagraph
  | KArticle => @mkArticle
  | KPart => @mkPart
  | KChapter => @mkChapter
  | KSection => @mkSection
  | KSubsection => @mkSubsection
  | KDivision => @mkDivision
  | KAmend => @mkAmend
  | KLawTitle => @mkLawTitle
  | KPreamble => @mkPreamble
  | KMain => @mkMain
  | KSuppl => @mkSuppl
  | KSupplTable => @mkSupplTable
  | KSupplStyle => @mkSupplStyle
  | KSupplAppdx => @mkSupplAppdx
  | KAppdxTable => @mkAppdxTable
  | KAppdxNote => @mkAppdxNote
  | KAppdxStyle => @mkAppdxStyle
  | KAppdxFormat => @mkAppdxFormat
  | KAppdx => @mkAppdx
  | KAppdxFig => @mkAppdxFig
  | KTOC => @mkTOC
  | KTOCPart => @mkTOCPart
  | KTOCChapter => @mkTOCChapter
  | KTOCSection => @mkTOCSection
  | KTOCSubsection => @mkTOCSubsection
  | KTOCDivision => @mkTOCDivision
  | KTOCArticle => @mkTOCArticle
  | KTOCSuppl => @mkTOCSuppl
  | KLawBody => @mkLawBody
  end.
Arguments mk : clear implicits.

(** The record behind a value. *)
Definition un (k : kind) (x : Knot k) : F Knot k :=
  match x in Knot k return F Knot k with
  | mkRuby f => f
  | mkLine f => f
  | @mkCont _ f => f
  | mkSentence f => f
  | mkColumn f => f
  | mkTable f => f
  | mkTableRow f => f
  | mkTableColumn f => f
  | mkRemarks f => f
  | @mkCStruct _ f => f
  | mkFigStruct f => f
  | mkTableStruct f => f
  | @mkList _ f => f
  | mkClass f => f
  | @mkItem _ f => f
  | mkParagraph f => f
  | mkArticle f => f
  | mkPart f => f
  | mkChapter f => f
  | mkSection f => f
  | mkSubsection f => f
  | mkDivision f => f
  | mkAmend f => f
  | mkLawTitle f => f
  | mkPreamble f => f
  | mkMain f => f
  | mkSuppl f => f
  | mkSupplTable f => f
  | mkSupplStyle f => f
  | mkSupplAppdx f => f
  | mkAppdxTable f => f
  | mkAppdxNote f => f
  | mkAppdxStyle f => f
  | mkAppdxFormat f => f
  | mkAppdx f => f
  | mkAppdxFig f => f
  | mkTOC f => f
  | mkTOCPart f => f
  | mkTOCChapter f => f
  | mkTOCSection f => f
  | mkTOCSubsection f => f
  | mkTOCDivision f => f
  | mkTOCArticle f => f
  | mkTOCSuppl f => f
  | mkLawBody f => f
  end.
Arguments un : clear implicits.
