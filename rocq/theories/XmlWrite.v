(** The XML writers: every [to_xml_element] of /repo/src.

    Model file: definitions only.  [w] is the recursive call. *)
From Coq Require Import String List NArith Bool.
From Verif Require Import Base NumStr Xml Ast.
Import ListNotations.
Open Scope string_scope.

(** ** Tag names written for each type *)

(** /repo/src/paragraph.rs 264, 408, 552, 696, 840, 984, 1128, 1272, 1416, 1560, 1695. *)
Definition item_tag (l : lvl) : string :=
  match l with
  | Item0 => "Item" | Sub1 => "Subitem1" | Sub2 => "Subitem2" | Sub3 => "Subitem3"
  | Sub4 => "Subitem4" | Sub5 => "Subitem5" | Sub6 => "Subitem6" | Sub7 => "Subitem7"
  | Sub8 => "Subitem8" | Sub9 => "Subitem9" | Sub10 => "Subitem10"
  end.

(** /repo/src/list.rs 72-88, 155-171, 232-248, 301-314. *)
Definition list_tag (l : llvl) : string :=
  match l with
  | List0 => "List" | Sublist1 => "Sublist1" | Sublist2 => "Sublist2" | Sublist3 => "Sublist3"
  end.

(** /repo/src/structs.rs 60, /repo/src/contents.rs 260, 277, 295, 315. *)
Definition cont_tag (c : cname) : string :=
  match c with
  | CQuote => "QuoteStruct" | CArith => "ArithFormula" | CNote => "Note" | CStyle => "Style"
  | CFormat => "Format"
  end.

(** /repo/src/structs.rs 120-138, 196-214, 272-290. *)
Definition struct_tag (s : sname) : string :=
  match s with SNote => "NoteStruct" | SStyle => "StyleStruct" | SFormat => "FormatStruct" end.

(** ** Attribute values written *)

(** /repo/src/line.rs 113-120. *)
Definition linestyle_str (s : LineStyle) : string :=
  match s with LDotted => "dotted" | LDouble => "double" | LSolid => "solid" | LNone => "none" end.

(** /repo/src/class.rs 259-266. *)
Definition align_str (a : Align) : string :=
  match a with ALeft => "left" | ACenter => "center" | ARight => "right" | AJustify => "justify" end.

(** /repo/src/table.rs 392-398. *)
Definition position_str (p : Position) : string :=
  match p with PTop => "top" | PMiddle => "middle" | PBottom => "bottom" end.

(** /repo/src/sentence.rs 115-125. *)
Definition function_str (f : SentenceFunction) : string :=
  match f with FMain => "main" | FProviso => "proviso" end.

(** /repo/src/sentence.rs 126-176. *)
Definition indent_str (i : SentenceIndent) : string :=
  match i with IParagraph => "Paragraph" | IItem l => item_tag l end.

(** [if let WritingMode::Horizontal = m { insert("WritingMode", "horizontal") }]:
    /repo/src/text.rs 224-227, /repo/src/sentence.rs 177-183, /repo/src/table.rs 69-72. *)
Definition mode_str (m : WritingMode) : option string :=
  match m with Horizontal => Some "horizontal" | Vertical => None end.

(** /repo/src/suppl_provision.rs 120-129. *)
Definition suppl_type_str (t : SupplProvisionType) : string :=
  match t with TNew => "New" | TAmend => "Amend" end.

(** /repo/src/law.rs 190-206. *)
Definition era_str (x : Era) : string :=
  match x with
  | Meiji => "Meiji" | Taisho => "Taisho" | Showa => "Showa" | Heisei => "Heisei"
  | Reiwa => "Reiwa"
  end.

(** /repo/src/law.rs 220-249. *)
Definition law_type_str (x : LawType) : string :=
  match x with
  | Constitution => "Constitution" | Act => "Act" | CabinetOrder => "CabinetOrder"
  | ImperialOrder => "ImperialOrder" | MinisterialOrdinance => "MinisterialOrdinance"
  | Rule => "Rule" | Misc => "Misc"
  end.

(** /repo/src/law.rs 250-257. *)
Definition lang_str (x : Lang) : string := match x with Ja => "ja" | En => "en" end.

Section Write.
Context {K : kind -> Type}.
Context (w : forall k, K k -> Element).

(** /repo/src/text.rs 351-357 and 386-392. *)
Definition write_sup (s : string) : Element := mkElement "Sup" [] [NText s].
Definition write_sub (s : string) : Element := mkElement "Sub" [] [NText s].

(** /repo/src/text.rs 100-112. *)
Definition write_text_node (t : TextElement K) : XMLNode :=
  match t with
  | TE_Text s => NText s
  | TE_Ruby r => NElement (w KRuby r)
  | TE_Line l => NElement (w KLine l)
  | TE_Sub s => NElement (write_sub s)
  | TE_Sup s => NElement (write_sup s)
  end.
Definition write_text_nodes (t : Text K) : list XMLNode := map write_text_node t.

(** /repo/src/text.rs 162-176. *)
Definition write_text (n : string) (t : Text K) : Element :=
  mkElement n [] (write_text_nodes t).

(** /repo/src/text.rs 212-230. *)
Definition write_twm (n : string) (t : TextWithWritingMode K) : Element :=
  mkElement n (insert_opt "WritingMode" (mode_str (twm_mode t)) [])
    (write_text_nodes (twm_contents t)).

(** /repo/src/text.rs 311-322. *)
Definition write_ruby (r : RubyF K) : Element :=
  mkElement "Ruby" []
    (write_text_nodes (ruby_text r) ++ [NElement (mkElement "Rt" [] [NText (ruby_ruby r)])])%list.

(** /repo/src/contents.rs 313-317: the number is not written. *)
Definition write_arith (a : ArithFormula K) : Element := w (KCont CArith) (af_contents a).

(** /repo/src/line.rs 69-78. *)
Definition write_line_node (c : LineContents K) : XMLNode :=
  match c with
  | LC_Quote v => NElement (w (KCont CQuote) v)
  | LC_Arith v => NElement (write_arith v)
  | LC_Ruby v => NElement (w KRuby v)
  | LC_Sup s => NElement (write_sup s)
  | LC_Sub s => NElement (write_sub s)
  | LC_String s => NText s
  end.

(** /repo/src/line.rs 64-81. *)
Definition write_line (l : LineF K) : Element :=
  mkElement "Line" (insert "Style" (linestyle_str (line_style l)) [])
    (map write_line_node (line_contents l)).

(** /repo/src/fig.rs 28-34. *)
Definition write_fig (src : string) : Element := mkElement "Fig" (insert "src" src []) [].

(** /repo/src/contents.rs 171-204. *)
Definition write_contents_node (c : ContentsElement K) : XMLNode :=
  match c with
  | CE_Table v => NElement (w KTable v)
  | CE_TableStruct v => NElement (w KTableStruct v)
  | CE_Fig s => NElement (write_fig s)
  | CE_FigStruct v => NElement (w KFigStruct v)
  | CE_Quote v => NElement (w (KCont CQuote) v)
  | CE_NoteStruct v => NElement (w (KCStruct SNote) v)
  | CE_StyleStruct v => NElement (w (KCStruct SStyle) v)
  | CE_AppdxTable v => NElement (w KAppdxTable v)
  | CE_Ruby v => NElement (w KRuby v)
  | CE_Line v => NElement (w KLine v)
  | CE_Sup s => NElement (write_sup s)
  | CE_Sub s => NElement (write_sub s)
  | CE_String s => NText s
  | CE_Paragraph v => NElement (w KParagraph v)
  | CE_Item l v => NElement (w (KItem l) v)
  | CE_List v => NElement (w (KList List0) v)
  | CE_Sentence v => NElement (w KSentence v)
  | CE_Arith v => NElement (write_arith v)
  | CE_Remarks v => NElement (w KRemarks v)
  | CE_TOC v => NElement (w KTOC v)
  | CE_TOCSection v => NElement (w KTOCSection v)
  | CE_TableRow v => NElement (w KTableRow v)
  end.

(** /repo/src/contents.rs 167-208, with the tag given by the newtype. *)
Definition write_cont (c : cname) (l : ContentsF K) : Element :=
  mkElement (cont_tag c) [] (map write_contents_node l).

(** /repo/src/sentence.rs 184-194. *)
Definition write_sentence_node (c : SentenceElement K) : XMLNode :=
  match c with
  | SE_Line v => NElement (w KLine v)
  | SE_Quote v => NElement (w (KCont CQuote) v)
  | SE_Arith v => NElement (write_arith v)
  | SE_Ruby v => NElement (w KRuby v)
  | SE_Sup s => NElement (write_sup s)
  | SE_Sub s => NElement (write_sub s)
  | SE_String s => NText s
  end.

(** /repo/src/sentence.rs 109-197. *)
Definition write_sentence (s : SentenceF K) : Element :=
  mkElement "Sentence"
    (insert_opt "WritingMode" (mode_str (sen_mode s))
      (insert_opt "Indent" (option_map indent_str (sen_indent s))
        (insert_opt "Function" (option_map function_str (sen_function s))
          (insert_opt "Num" (option_map usize_to_string (sen_num s)) []))))
    (map write_sentence_node (sen_contents s)).

(** /repo/src/class.rs 222-238. *)
Definition write_column (c : ColumnF K) : Element :=
  mkElement "Column"
    (insert_opt "Align" (option_map align_str (col_align c))
      (insert "LineBreak" (bool_to_string (col_line_break c))
        (insert_opt "Num" (option_map usize_to_string (col_num c)) [])))
    (els (w KSentence) (col_sentence c)).

(** /repo/src/class.rs 92-112. *)
Definition write_sct (n : string) (s : SentenceOrColumnOrTable K) : Element :=
  mkElement n []
    match s with
    | SCT_Sentence l => els (w KSentence) l
    | SCT_Column l => els (w KColumn) l
    | SCT_Table t => [NElement (w KTable t)]
    end.

(** /repo/src/class.rs 177-187. *)
Definition write_caption (n : string) (c : Caption K) : Element :=
  mkElement n (insert_opt "CommonCaption" (option_map bool_to_string (cap_common c)) [])
    (write_text_nodes (cap_text c)).

(** /repo/src/class.rs 64-83. *)
Definition write_class (c : ClassF K) : Element :=
  mkElement "Class" (insert "Num" (class_num c) [])
    (el_opt (write_text "ClassTitle") (class_title c)
     ++ [NElement (write_sct "ClassSentence" (class_sentence c))]
     ++ els (w (KItem Item0)) (class_children c))%list.

(** /repo/src/table.rs 101-111. *)
Definition write_header_row (r : TableHeaderRow K) : Element :=
  mkElement "TableHeaderRow" [] (els (write_text "TableHeaderColumn") r).

(** /repo/src/table.rs 60-75. *)
Definition write_table (t : TableF K) : Element :=
  mkElement "Table" (insert_opt "WritingMode" (mode_str (tb_mode t)) [])
    (els write_header_row (tb_header t) ++ els (w KTableRow) (tb_row t))%list.

(** /repo/src/table.rs 137-147. *)
Definition write_table_row (r : TableRowF K) : Element :=
  mkElement "TableRow" [] (els (w KTableColumn) r).

(** /repo/src/table.rs 318-343. *)
Definition write_cell_node (c : TableColumnContents K) : XMLNode :=
  match c with
  | TC_Part v => NElement (w KPart v)
  | TC_Chapter v => NElement (w KChapter v)
  | TC_Section v => NElement (w KSection v)
  | TC_Subsection v => NElement (w KSubsection v)
  | TC_Division v => NElement (w KDivision v)
  | TC_Article v => NElement (w KArticle v)
  | TC_Paragraph v => NElement (w KParagraph v)
  | TC_Item l v => NElement (w (KItem l) v)
  | TC_FigStruct v => NElement (w KFigStruct v)
  | TC_Remarks v => NElement (w KRemarks v)
  | TC_Sentence v => NElement (w KSentence v)
  | TC_Column v => NElement (w KColumn v)
  | TC_String s => NText s
  end.

(** /repo/src/table.rs 292-346: the alignments are inserted under the key [rowspan]. *)
Definition write_table_column (c : TableColumnF K) : Element :=
  mkElement "TableColumn"
    (insert_opt "rowspan" (option_map position_str (tc_valign c))
      (insert_opt "rowspan" (option_map align_str (tc_align c))
        (insert_opt "colspan" (tc_colspan c)
          (insert_opt "rowspan" (tc_rowspan c)
            (insert "BorderRight" (linestyle_str (tc_border_right c))
              (insert "BorderLeft" (linestyle_str (tc_border_left c))
                (insert "BorderBottom" (linestyle_str (tc_border_bottom c))
                  (insert "BorderTop" (linestyle_str (tc_border_top c)) []))))))))
    (map write_cell_node (tc_contents c)).

(** /repo/src/remarks.rs 60-66. *)
Definition write_remarks_node (c : RemarksContents K) : Element :=
  match c with
  | RC_Item v => w (KItem Item0) v
  | RC_Sentence v => w KSentence v
  end.

(** /repo/src/remarks.rs 56-71: the label is not written (its writer, 91-101, is never called). *)
Definition write_remarks (r : RemarksF K) : Element :=
  mkElement "Remarks" [] (els write_remarks_node (rem_children r)).

(** The common form of /repo/src/structs.rs 120-138, 196-214, 272-290, 348-365, 424-442. *)
Definition write_struct {T B} (n : string) (wt : T -> Element) (wb : B -> Element)
    (s : StructF K T B) : Element :=
  mkElement n []
    (el_opt wt (st_title s)
     ++ els (w KRemarks) (st_title_remarks s)
     ++ [NElement (wb (st_body s))]
     ++ els (w KRemarks) (st_remarks s))%list.

Definition write_cstruct (s : sname) (v : CStructF K s) : Element :=
  write_struct (struct_tag s) (write_text (struct_tag s ++ "Title"))
    (w (KCont (body_of s))) v.
Definition write_fig_struct (v : FigStructF K) : Element :=
  write_struct "FigStruct" (write_text "FigStructTitle") write_fig v.
Definition write_table_struct (v : TableStructF K) : Element :=
  write_struct "TableStruct" (write_twm "TableStructTitle") (w KTable) v.

(** /repo/src/structs.rs 35-44. *)
Definition write_struct_any (s : Struct K) : Element :=
  match s with
  | Struct_Table v => w KTableStruct v
  | Struct_Fig v => w KFigStruct v
  | Struct_Style v => w (KCStruct SStyle) v
  | Struct_List v => w (KList List0) v
  end.

(** /repo/src/list.rs 75-81. *)
Definition write_list_sentence (s : ListSentence K) : Element :=
  match s with
  | LS_Sentence v => w KSentence v
  | LS_Column v => w KColumn v
  end.

(** /repo/src/list.rs 72-88, 155-171, 232-248, 301-314. *)
Definition write_list (l : llvl) (v : ListF K l) : Element :=
  mkElement (list_tag l) []
    (NElement (mkElement (list_tag l ++ "Sentence") []
                 (els write_list_sentence (list_sentence v)))
     :: els (w (sub_list l)) (list_children v)).

(** /repo/src/paragraph.rs 262-305 and the same for the ten subitem levels: 406-449, 550-593, 694-737,
    838-881, 982-1025, 1126-1169, 1270-1313, 1414-1457, 1558-1601, 1693-1733. *)
Definition write_item (l : lvl) (v : ItemF K l) : Element :=
  mkElement (item_tag l)
    (insert_flag "Hide" (it_hide v)
      (insert_flag "Delete" (it_delete v)
        (insert_opt "Num" (option_map num_str (it_num v)) [])))
    (el_opt (write_text (item_tag l ++ "Title")) (it_title v)
     ++ [NElement (write_sct (item_tag l ++ "Sentence") (it_sentence v))]
     ++ els (w (sub_item l)) (it_children v)
     ++ els write_struct_any (it_struct_list v))%list.

(** /repo/src/paragraph.rs 115-161. *)
Definition write_paragraph (v : ParagraphF K) : Element :=
  mkElement "Paragraph"
    (insert_flag "Hide" (par_hide v)
      (insert_flag "OldNum" (par_old_num v)
        (insert_flag "OldStyle" (par_old_style v)
          (insert "Num" (num_str (par_num v)) []))))
    (el_opt (write_caption "ParagraphCaption") (par_caption v)
     ++ [NElement (write_text "ParagraphNum" (par_paragraph_num v))]
     ++ [NElement (mkElement "ParagraphSentence" [] (els (w KSentence) (par_sentence v)))]
     ++ els (w KAmend) (par_amend_provision v)
     ++ els (w KClass) (par_class v)
     ++ els write_struct_any (par_struct_list v)
     ++ els (w (KItem Item0)) (par_children v))%list.

(** /repo/src/article.rs 692-723. *)
Definition write_article (v : ArticleF K) : Element :=
  mkElement "Article"
    (insert_flag "Hide" (art_hide v)
      (insert_flag "Delete" (art_delete v)
        (insert "Num" (num_str (art_num v)) [])))
    (el_opt (write_caption "ArticleCaption") (art_caption v)
     ++ [NElement (write_text "ArticleTitle" (art_title v))]
     ++ els (w KParagraph) (art_paragraph v)
     ++ el_opt (write_text "SupplNote") (art_suppl_note v))%list.

(** The common form of /repo/src/article.rs 96-124 (Part), 214-242 (Chapter), 336-367
    (Section), 458-488 (Subsection), 574-597 (Division); the title is written as [n ++ "Title"]. *)
Definition write_head {C} (n : string) (wc : C -> Element) (v : HeadF K C) : Element :=
  mkElement n
    (insert_flag "Hide" (hd_hide v)
      (insert_flag "Delete" (hd_delete v)
        (insert "Num" (num_str (hd_num v)) [])))
    (NElement (write_text (n ++ "Title") (hd_title v)) :: els wc (hd_children v)).

Definition write_part_node (c : PartContents K) : Element :=
  match c with PC_Article v => w KArticle v | PC_Chapter v => w KChapter v end.
Definition write_chapter_node (c : ChapterContents K) : Element :=
  match c with ChC_Article v => w KArticle v | ChC_Section v => w KSection v end.
Definition write_section_node (c : SectionContents K) : Element :=
  match c with
  | SeC_Article v => w KArticle v
  | SeC_Subsection v => w KSubsection v
  | SeC_Division v => w KDivision v
  end.
Definition write_subsection_node (c : SubsectionContents K) : Element :=
  match c with SuC_Article v => w KArticle v | SuC_Division v => w KDivision v end.

(** /repo/src/law.rs 896-963. *)
Definition write_new_provision (c : NewProvision K) : Element :=
  match c with
  | NP_LawTitle v => w KLawTitle v
  | NP_Preamble v => w KPreamble v
  | NP_TOC v => w KTOC v
  | NP_Part v => w KPart v
  | NP_PartTitle t => write_text "PartTitle" t
  | NP_Chapter v => w KChapter v
  | NP_ChapterTitle t => write_text "ChapterTitle" t
  | NP_Section v => w KSection v
  | NP_SectionTitle t => write_text "SectionTitle" t
  | NP_Subsection v => w KSubsection v
  | NP_SubsectionTitle t => write_text "SubsectionTitle" t
  | NP_Division v => w KDivision v
  | NP_DivisionTitle t => write_text "DivisionTitle" t
  | NP_Article v => w KArticle v
  | NP_SupplNote t => write_text "SupplNote" t
  | NP_Paragraph v => w KParagraph v
  | NP_Item l v => w (KItem l) v
  | NP_List v => w (KList List0) v
  | NP_Sentence v => w KSentence v
  | NP_Amend v => w KAmend v
  | NP_AppdxTable v => w KAppdxTable v
  | NP_AppdxNote v => w KAppdxNote v
  | NP_AppdxStyle v => w KAppdxStyle v
  | NP_Appdx v => w KAppdx v
  | NP_AppdxFig v => w KAppdxFig v
  | NP_AppdxFormat v => w KAppdxFormat v
  | NP_SupplStyle v => w KSupplStyle v
  | NP_SupplTable v => w KSupplTable v
  | NP_SupplAppdx v => w KSupplAppdx v
  | NP_TableStruct v => w KTableStruct v
  | NP_TableRow v => w KTableRow v
  | NP_TableColumn v => w KTableColumn v
  | NP_FigStruct v => w KFigStruct v
  | NP_CStruct s v => w (KCStruct s) v
  | NP_Remarks v => w KRemarks v
  | NP_LawBody v => w KLawBody v
  end.

(** /repo/src/law.rs 886-968: every new provision is wrapped in an element
    [AmendProvisionSentence] of its own, where the schema has [NewProvision]. *)
Definition write_amend (v : AmendF K) : Element :=
  mkElement "AmendProvision" []
    (el_opt (fun s => mkElement "AmendProvisionSentence" [] [NElement (w KSentence s)])
       (am_sentence v)
     ++ els (fun c => mkElement "AmendProvisionSentence" [] [NElement (write_new_provision c)])
       (am_new v))%list.

(** /repo/src/law.rs 506-521. *)
Definition write_law_title (v : LawTitleF K) : Element :=
  mkElement "LawTitle"
    (insert_opt "AbbrevKana" (lt_abbrev_kana v)
      (insert_opt "Abbrev" (lt_abbrev v)
        (insert_opt "Kana" (lt_kana v) [])))
    (write_text_nodes (lt_text v)).

(** /repo/src/law.rs 548-556. *)
Definition write_preamble (v : PreambleF K) : Element :=
  mkElement "Preamble" [] (els (w KParagraph) v).

(** /repo/src/law.rs 608-618. *)
Definition write_main_node (c : MainContents K) : Element :=
  match c with
  | MC_Part v => w KPart v
  | MC_Chapter v => w KChapter v
  | MC_Section v => w KSection v
  | MC_Article v => w KArticle v
  | MC_Paragraph v => w KParagraph v
  end.

(** /repo/src/law.rs 605-624. *)
Definition write_main (v : MainF K) : Element :=
  mkElement "MainProvision"
    (insert_opt "Extract" (option_map bool_to_string (main_extract v)) [])
    (els write_main_node (main_children v)).

(** /repo/src/suppl_provision.rs 99-118. *)
Definition write_suppl_node (c : SupplContents K) : Element :=
  match c with
  | SP_Chapter v => w KChapter v
  | SP_Article v => w KArticle v
  | SP_Paragraph v => w KParagraph v
  | SP_Table v => w KSupplTable v
  | SP_Style v => w KSupplStyle v
  | SP_Appdx v => w KSupplAppdx v
  end.

(** /repo/src/suppl_provision.rs 90-138: the label is written only when it is not empty. *)
Definition write_suppl (v : SupplF K) : Element :=
  mkElement "SupplProvision"
    (insert_opt "Extract" (option_map bool_to_string (sp_extract v))
      (insert_opt "AmendLawNum" (sp_amend_law_num v)
        (insert_opt "Type" (option_map suppl_type_str (sp_type v)) [])))
    (match sp_label v with
     | [] => []
     | _ => [NElement (write_text "SupplProvisionLabel" (sp_label v))]
     end ++ els write_suppl_node (sp_children v))%list.

(** /repo/src/suppl_provision.rs 207-228 (title tag [SupplProvisionAppdxTableitle]) and 281-302. *)
Definition write_suppl_ts {C} (n tn : string) (wc : C -> Element) (v : SupplTSF K C) : Element :=
  mkElement n (insert_opt "Num" (sts_num v) [])
    ([NElement (write_twm tn (sts_title v))]
     ++ el_opt (write_text "RelatedArticleNum") (sts_related v)
     ++ els wc (sts_children v))%list.

Definition write_suppl_table (v : SupplTableF K) : Element :=
  write_suppl_ts "SupplProvisionAppdxTable" "SupplProvisionAppdxTableitle" (w KTableStruct) v.
Definition write_suppl_style (v : SupplStyleF K) : Element :=
  write_suppl_ts "SupplProvisionAppdxStyle" "SupplProvisionAppdxStyleTitle"
    (w (KCStruct SStyle)) v.

(** /repo/src/suppl_provision.rs 348-369: written as [Appdx], the related article number as
    [ArithFormulaNum]. *)
Definition write_suppl_appdx (v : SupplAppdxF K) : Element :=
  mkElement "Appdx" (insert_opt "Num" (sa_num v) [])
    (el_opt (write_text "ArithFormulaNum") (sa_arith_formula_num v)
     ++ el_opt (write_text "ArithFormulaNum") (sa_related v)
     ++ els write_arith (sa_arith_formula v))%list.

(** The common form of /repo/src/appdx.rs 69-96 (AppdxTable), 162-190 (AppdxNote),
    249-273 (AppdxStyle), 324-348 (AppdxFormat). *)
Definition write_appdx_t {C} (n : string) (wc : C -> Element) (v : AppdxTF K C) : Element :=
  mkElement n (insert_opt "Num" (ax_num v) [])
    (el_opt (write_twm (n ++ "Title")) (ax_title v)
     ++ el_opt (write_text "RelatedArticleNum") (ax_related v)
     ++ els wc (ax_children v)
     ++ el_opt (w KRemarks) (ax_remarks v))%list.

Definition write_appdx_table_node (c : AppdxTableContents K) : Element :=
  match c with
  | AT_TableStruct v => w KTableStruct v
  | AT_Item v => w (KItem Item0) v
  end.
Definition write_appdx_note_node (c : AppdxNoteContents K) : Element :=
  match c with
  | AN_NoteStruct v => w (KCStruct SNote) v
  | AN_FigStruct v => w KFigStruct v
  | AN_TableStruct v => w KTableStruct v
  end.
Definition write_appdx_fig_node (c : AppdxFigContents K) : Element :=
  match c with
  | AF_FigStruct v => w KFigStruct v
  | AF_TableStruct v => w KTableStruct v
  end.

(** /repo/src/appdx.rs 394-415: the related article number is written as
    [ArithFormulaNum]. *)
Definition write_appdx (v : AppdxF K) : Element :=
  mkElement "Appdx" []
    (el_opt (write_text "ArithFormulaNum") (ap_arith_formula_num v)
     ++ el_opt (write_text "ArithFormulaNum") (ap_related v)
     ++ els write_arith (ap_arith_formula v)
     ++ el_opt (w KRemarks) (ap_remarks v))%list.

(** /repo/src/appdx.rs 463-487. *)
Definition write_appdx_fig (v : AppdxFigF K) : Element :=
  mkElement "AppdxFig" (insert_opt "Num" (af_fnum v) [])
    (el_opt (write_twm "AppdxFigTitle") (af_title v)
     ++ el_opt (write_text "RelatedArticleNum") (af_related v)
     ++ els write_appdx_fig_node (af_children v))%list.

(** The common form of /repo/src/table_of_contents.rs 180-201, 256-277, 336-362, 426-449, 496-516. *)
Definition write_toc_head {C} (n tn : string) (wc : C -> Element) (v : TOCHeadF K C) : Element :=
  mkElement n
    (insert_flag "Delete" (th_delete v) (insert "Num" (num_str (th_num v)) []))
    ([NElement (write_text tn (th_title v))]
     ++ el_opt (write_text "ArticleRange") (th_range v)
     ++ els wc (th_children v))%list.

Definition write_toc_section_node (c : TOCSectionContents K) : Element :=
  match c with
  | TSC_Subsection v => w KTOCSubsection v
  | TSC_Division v => w KTOCDivision v
  end.

(** /repo/src/table_of_contents.rs 570-588. *)
Definition write_toc_article (v : TOCArticleF K) : Element :=
  mkElement "TOCArticle"
    (insert_flag "Delete" (ta_delete v) (insert "Num" (num_str (ta_num v)) []))
    [NElement (write_text "ArticleTitle" (ta_title v));
     NElement (write_caption "ArticleCaption" (ta_caption v))].

Definition write_toc_suppl_node (c : TOCSupplContents K) : Element :=
  match c with
  | TSP_Article v => w KTOCArticle v
  | TSP_Chapter v => w KTOCChapter v
  end.

(** /repo/src/table_of_contents.rs 639-664. *)
Definition write_toc_suppl (v : TOCSupplF K) : Element :=
  mkElement "TOCSupplProvision" []
    ([NElement (write_text "SupplProvisionLabel" (ts_label v))]
     ++ el_opt (write_text "ArticleRange") (ts_range v)
     ++ els write_toc_suppl_node (ts_children v))%list.

Definition write_toc_main_node (c : TOCMainContents K) : Element :=
  match c with
  | TM_Part v => w KTOCPart v
  | TM_Chapter v => w KTOCChapter v
  | TM_Section v => w KTOCSection v
  | TM_Article v => w KTOCArticle v
  end.

(** /repo/src/table_of_contents.rs 84-113: the preamble label is written as [TOCLabel]. *)
Definition write_toc (v : TOCF K) : Element :=
  mkElement "TOC" []
    (el_opt (write_text "TOCLabel") (toc_label v)
     ++ el_opt (write_text "TOCLabel") (toc_preamble_label v)
     ++ els write_toc_main_node (toc_main v)
     ++ el_opt (w KTOCSuppl) (toc_suppl v)
     ++ els (write_text "TOCAppdxTableLabel") (toc_appdx_table_label v))%list.

(** /repo/src/law.rs 427-472. *)
Definition write_law_body (v : LawBodyF K) : Element :=
  mkElement "LawBody" (insert_opt "Subject" (lb_subject v) [])
    (el_opt (w KLawTitle) (lb_law_title v)
     ++ els (write_text "EnactStatement") (lb_enact_statement v)
     ++ el_opt (w KTOC) (lb_toc v)
     ++ el_opt (w KPreamble) (lb_preamble v)
     ++ [NElement (w KMain (lb_main_provision v))]
     ++ els (w KSuppl) (lb_suppl_provision v)
     ++ els (w KAppdxTable) (lb_appdx_table v)
     ++ els (w KAppdxNote) (lb_appdx_note v)
     ++ els (w KAppdxStyle) (lb_appdx_style v)
     ++ els (w KAppdx) (lb_appdx v)
     ++ els (w KAppdxFig) (lb_appdx_fig v)
     ++ els (w KAppdxFormat) (lb_appdx_format v))%list.

(** The writer of each type. *)
Definition wstep (k : kind) : F K k -> Element :=
  match k with
  | KVoid => fun x => match x with end
  | KRuby => write_ruby
  | KLine => write_line
  | KCont c => write_cont c
  | KSentence => write_sentence
  | KColumn => write_column
  | KTable => write_table
  | KTableRow => write_table_row
  | KTableColumn => write_table_column
  | KRemarks => write_remarks
  | KCStruct s => write_cstruct s
  | KFigStruct => write_fig_struct
  | KTableStruct => write_table_struct
  | KList l => write_list l
  | KClass => write_class
  | KItem l => write_item l
  | KParagraph => write_paragraph
  | KArticle => write_article
  | KPart => write_head "Part" write_part_node
  | KChapter => write_head "Chapter" write_chapter_node
  | KSection => write_head "Section" write_section_node
  | KSubsection => write_head "Subsection" write_subsection_node
  | KDivision => write_head "Division" (w KArticle)
  | KAmend => write_amend
  | KLawTitle => write_law_title
  | KPreamble => write_preamble
  | KMain => write_main
  | KSuppl => write_suppl
  | KSupplTable => write_suppl_table
  | KSupplStyle => write_suppl_style
  | KSupplAppdx => write_suppl_appdx
  | KAppdxTable => write_appdx_t "AppdxTable" write_appdx_table_node
  | KAppdxNote => write_appdx_t "AppdxNote" write_appdx_note_node
  | KAppdxStyle => write_appdx_t "AppdxStyle" (w (KCStruct SStyle))
  | KAppdxFormat => write_appdx_t "AppdxFormat" (w (KCStruct SFormat))
  | KAppdx => write_appdx
  | KAppdxFig => write_appdx_fig
  | KTOC => write_toc
  | KTOCPart => write_toc_head "TOCPart" "PartTitle" (w KTOCChapter)
  | KTOCChapter => write_toc_head "TOCChapter" "ChapterTitle" (w KTOCSection)
  | KTOCSection => write_toc_head "TOCSection" "SectionTitle" write_toc_section_node
  | KTOCSubsection => write_toc_head "TOCSubsection" "SubsectionTitle" (w KTOCDivision)
  | KTOCDivision =>
      write_toc_head "TOCDivision" "DivisionTitle"
        (fun x : Empty_set => match x with end)
  | KTOCArticle => write_toc_article
  | KTOCSuppl => write_toc_suppl
  | KLawBody => write_law_body
  end.
End Write.

(** [T::to_xml_element] for every type [T] of the knot: structural recursion. *)
Fixpoint write (k : kind) (x : Knot k) {struct x} : Element :=
  match x with
  | mkRuby f => write_ruby write f
  | mkLine f => write_line write f
  | @mkCont c f => write_cont write c f
  | mkSentence f => write_sentence write f
  | mkColumn f => write_column write f
  | mkTable f => write_table write f
  | mkTableRow f => write_table_row write f
  | mkTableColumn f => write_table_column write f
  | mkRemarks f => write_remarks write f
  | @mkCStruct s f => write_cstruct write s f
  | mkFigStruct f => write_fig_struct write f
  | mkTableStruct f => write_table_struct write f
  | @mkList l f => write_list write l f
  | mkClass f => write_class write f
  | @mkItem l f => write_item write l f
  | mkParagraph f => write_paragraph write f
  | mkArticle f => write_article write f
  | mkPart f => write_head write "Part" (write_part_node write) f
  | mkChapter f => write_head write "Chapter" (write_chapter_node write) f
  | mkSection f => write_head write "Section" (write_section_node write) f
  | mkSubsection f => write_head write "Subsection" (write_subsection_node write) f
  | mkDivision f => write_head write "Division" (write KArticle) f
  | mkAmend f => write_amend write f
  | mkLawTitle f => write_law_title write f
  | mkPreamble f => write_preamble write f
  | mkMain f => write_main write f
  | mkSuppl f => write_suppl write f
  | mkSupplTable f => write_suppl_table write f
  | mkSupplStyle f => write_suppl_style write f
  | mkSupplAppdx f => write_suppl_appdx write f
  | mkAppdxTable f => write_appdx_t write "AppdxTable" (write_appdx_table_node write) f
  | mkAppdxNote f => write_appdx_t write "AppdxNote" (write_appdx_note_node write) f
  | mkAppdxStyle f => write_appdx_t write "AppdxStyle" (write (KCStruct SStyle)) f
  | mkAppdxFormat f => write_appdx_t write "AppdxFormat" (write (KCStruct SFormat)) f
  | mkAppdx f => write_appdx write f
  | mkAppdxFig f => write_appdx_fig write f
  | mkTOC f => write_toc write f
  | mkTOCPart f => write_toc_head write "TOCPart" "PartTitle" (write KTOCChapter) f
  | mkTOCChapter f => write_toc_head write "TOCChapter" "ChapterTitle" (write KTOCSection) f
  | mkTOCSection f => write_toc_head write "TOCSection" "SectionTitle" (write_toc_section_node write) f
  | mkTOCSubsection f => write_toc_head write "TOCSubsection" "SubsectionTitle" (write KTOCDivision) f
  | mkTOCDivision f => write_toc_head write "TOCDivision" "DivisionTitle" (fun x : Empty_set => match x with end) f
  | mkTOCArticle f => write_toc_article write f
  | mkTOCSuppl f => write_toc_suppl write f
  | mkLawBody f => write_law_body write f
  end.

(** /repo/src/law.rs 182-260: [Law::to_xml_element]. *)
Definition write_law (l : Law) : Element :=
  mkElement "Law"
    (insert "Lang" (lang_str (law_lang l))
      (insert "LawType" (law_type_str (law_type l))
        (insert_opt "PromulgateDay" (option_map usize_to_string (law_promulgate_day l))
          (insert_opt "PromulgateMonth" (option_map usize_to_string (law_promulgate_month l))
            (insert_opt "Num" (option_map num_str (law_no l))
              (insert "Year" (usize_to_string (law_year l))
                (insert "Era" (era_str (law_era l)) [])))))))
    [NElement (mkElement "LawNum" [] [NText (law_num l)]);
     NElement (write KLawBody (law_body l))].
