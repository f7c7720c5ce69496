(** What [derive(PartialEq, Hash, Default)] generates for the types of /repo/src.

    Model file: definitions only.

    [derive(PartialEq)] compares field by field, and for enums the variants and then their data.  [derive(Hash)] feeds
    the fields to the hasher in the order of their declaration, for enums the number of the variant first; here the
    result is the sequence of calls of the methods of [std::hash::Hasher].  [derive(Eq)] has no code and
    [derive(Clone)] gives an equal value, which needs no model.  [derive(Default)] of [Toc] is
    [Utils.toc_default].  [derive(Debug)] is not modelled.

    Comments name the lines of the type, which has the attribute directly before it; kinds that are
    merged in [Ast] are merged here, and the fields of the copies are in the same order. *)
From Coq Require Import String Ascii List NArith Bool Arith.
From Verif Require Import Base NumStr Ast Regex NumText Utils Serde TextParse.
Import ListNotations.
Open Scope string_scope.
Open Scope list_scope.

(** ** Tables *)
(** Position of an item type among those of an enum, /repo/src/contents.rs 226-236, /repo/src/law.rs 989-999,
    /repo/src/table.rs 356-366, /repo/src/sentence.rs 218-229. *)
Definition level_index (l : lvl) : nat :=
  match l with | Item0 => 0 | Sub1 => 1 | Sub2 => 2 | Sub3 => 3 | Sub4 => 4 | Sub5 => 5 | Sub6 => 6 | Sub7 => 7
  | Sub8 => 8 | Sub9 => 9 | Sub10 => 10
  end.
(** /repo/src/law.rs 1014-1016. *)
Definition struct_index (s : sname) : nat := match s with SNote => 0 | SStyle => 1 | SFormat => 2 end.
(** /repo/src/article_number.rs 332-366. *)
Definition pattern_index (p : ItemPattern) : nat :=
  match p with | NoParenKansuji => 0 | NoParenIrohaKatakana => 1 | NoParenIrohaHiragana => 2
  | NoParenZenkakuNum => 3 | NoParenZenkakuRomanUpper => 4 | NoParenZenkakuRomanLower => 5
  | NoParenZenkakuUpper => 6 | NoParenZenkakuLower => 7 | ParenKansuji => 8 | ParenIrohaKatakana => 9
  | ParenIrohaHiragana => 10 | ParenZenkakuNum => 11 | ParenZenkakuRomanUpper => 12
  | ParenZenkakuRomanLower => 13 | ParenZenkakuUpper => 14 | ParenZenkakuLower => 15
  end.

(** The datum of a variant of the same type. *)
Definition at_level {K : kind -> Type} (l m : lvl) : K (KItem m) -> option (K (KItem l)) :=
  match l, m return K (KItem m) -> option (K (KItem l)) with | Item0, Item0 => fun v => Some v
  | Sub1, Sub1 => fun v => Some v | Sub2, Sub2 => fun v => Some v | Sub3, Sub3 => fun v => Some v
  | Sub4, Sub4 => fun v => Some v | Sub5, Sub5 => fun v => Some v | Sub6, Sub6 => fun v => Some v
  | Sub7, Sub7 => fun v => Some v | Sub8, Sub8 => fun v => Some v | Sub9, Sub9 => fun v => Some v
  | Sub10, Sub10 => fun v => Some v | _, _ => fun _ => None
  end.
Definition of_struct {K : kind -> Type} (s t : sname) : K (KCStruct t) -> option (K (KCStruct s)) :=
  match s, t return K (KCStruct t) -> option (K (KCStruct s)) with | SNote, SNote => fun v => Some v
  | SStyle, SStyle => fun v => Some v | SFormat, SFormat => fun v => Some v | _, _ => fun _ => None
  end.

(** ** PartialEq *)

(** [impl PartialEq for Option<T>, Vec<T>]. *)
Definition peq_opt {A} (e : A -> A -> bool) (a b : option A) : bool :=
  match a, b with Some x, Some y => e x y | None, None => true | _, _ => false end.
Definition peq_vec {A} (e : A -> A -> bool) : list A -> list A -> bool :=
  fix vec a b :=
    match a, b with
    | [], [] => true
    | x :: a, y :: b => e x y && vec a b
    | _, _ => false
    end.

(** /repo/src/article_number.rs 11-19. *)
Definition peq_AN (a b : ArticleNumber) : bool :=
  N.eqb (base_number a) (base_number b)
  && peq_vec N.eqb (eda_numbers a) (eda_numbers b)
  && peq_vec N.eqb (range_end_numbers a) (range_end_numbers b).
(** /repo/src/text.rs 178-182. *)
Definition peq_mode (m m' : WritingMode) : bool :=
  match m, m' with Vertical, Vertical | Horizontal, Horizontal => true | _, _ => false end.
(** /repo/src/line.rs 93-100. *)
Definition peq_linestyle (s s' : LineStyle) : bool :=
  match s, s' with LDotted, LDotted | LDouble, LDouble | LSolid, LSolid | LNone, LNone => true | _, _ => false end.
(** /repo/src/class.rs 240-246. *)
Definition peq_align (a b : Align) : bool :=
  match a, b with ALeft, ALeft | ACenter, ACenter | ARight, ARight | AJustify, AJustify => true | _, _ => false end.
(** /repo/src/table.rs 375-380. *)
Definition peq_position (p q : Position) : bool :=
  match p, q with PTop, PTop | PMiddle, PMiddle | PBottom, PBottom => true | _, _ => false end.
(** /repo/src/sentence.rs 210-214. *)
Definition peq_function (f g : SentenceFunction) : bool :=
  match f, g with FMain, FMain | FProviso, FProviso => true | _, _ => false end.
(** /repo/src/sentence.rs 216-230. *)
Definition peq_indent (i j : SentenceIndent) : bool :=
  match i, j with IParagraph, IParagraph => true | IItem l, IItem m => Nat.eqb (level_index l) (level_index m)
  | _, _ => false
  end.
(** /repo/src/suppl_provision.rs 150-154. *)
Definition peq_suppl_type (t t' : SupplProvisionType) : bool :=
  match t, t' with TNew, TNew | TAmend, TAmend => true | _, _ => false end.
(** /repo/src/law.rs 262-275. *)
Definition peq_era (e e' : Era) : bool :=
  match e, e' with Meiji, Meiji | Taisho, Taisho | Showa, Showa | Heisei, Heisei | Reiwa, Reiwa => true
    | _, _ => false end.
(** /repo/src/law.rs 277-294. *)
Definition peq_law_type (t t' : LawType) : bool :=
  match t, t' with Constitution, Constitution | Act, Act | CabinetOrder, CabinetOrder
  | ImperialOrder, ImperialOrder | MinisterialOrdinance, MinisterialOrdinance | Rule, Rule | Misc, Misc => true
  | _, _ => false
  end.
(** /repo/src/law.rs 296-301. *)
Definition peq_lang (l l' : Lang) : bool :=
  match l, l' with Ja, Ja | En, En => true | _, _ => false end.
(** /repo/src/text.rs 324-329, 359-364: [Sup], [Sub] (one field [text]); /repo/src/fig.rs 9-12: [Fig]. *)
Definition peq_sup (s s' : string) : bool :=
  String.eqb s s'.
Definition peq_fig (s s' : string) : bool :=
  String.eqb s s'.
(** /repo/src/utils.rs 329-336. *)
Definition peq_index (i j : TextIndex) : bool :=
  peq_AN (ti_paragraph i) (ti_paragraph j)
  && peq_vec (peq_opt peq_AN) (ti_items i) (ti_items j).
(** /repo/src/article_number.rs 332-366. *)
Definition peq_pattern (p q : ItemPattern) : bool := Nat.eqb (pattern_index p) (pattern_index q).
(** /repo/src/article_number.rs 319-330. See [Serde.ItemNumberB]. *)
Definition peq_item_number (i j : ItemNumberB) : bool :=
  String.eqb (inb_str i) (inb_str j)
  && N.eqb (inb_base i) (inb_base j)
  && peq_vec N.eqb (inb_eda i) (inb_eda j)
  && peq_vec N.eqb (inb_range i) (inb_range j)
  && peq_pattern (inb_pattern i) (inb_pattern j).

Section PartialEq.
Context {K : kind -> Type} (w : forall k, K k -> K k -> bool).

(** /repo/src/text.rs 249-257. *)
Definition peq_te (t t' : TextElement K) : bool :=
  match t, t' with
  | TE_Ruby r, TE_Ruby r' => w KRuby r r'
  | TE_Line l, TE_Line l' => w KLine l l'
  | TE_Sup s, TE_Sup s' => peq_sup s s'
  | TE_Sub s, TE_Sub s' => peq_sup s s'
  | TE_Text s, TE_Text s' => String.eqb s s'
  | _, _ => false
  end.
(** /repo/src/text.rs 11-15. *)
Definition peq_text (t t' : Text K) : bool :=
  peq_vec peq_te t t'.
(** /repo/src/text.rs 184-189. *)
Definition peq_twm (t t' : TextWithWritingMode K) : bool :=
  peq_vec peq_te (twm_contents t) (twm_contents t')
  && peq_mode (twm_mode t) (twm_mode t').
(** /repo/src/text.rs 258-266. *)
Definition peq_ruby (f g : RubyF K) : bool :=
  peq_text (ruby_text f) (ruby_text g)
  && String.eqb (ruby_ruby f) (ruby_ruby g).
(** /repo/src/contents.rs 299-304. *)
Definition peq_arith (a b : ArithFormula K) : bool :=
  peq_opt N.eqb (af_num a) (af_num b)
  && w (KCont CArith) (af_contents a) (af_contents b).
(** /repo/src/line.rs 83-91. *)
Definition peq_lc (c c' : LineContents K) : bool :=
  match c, c' with
  | LC_Quote v, LC_Quote v' => w (KCont CQuote) v v'
  | LC_Arith a, LC_Arith a' => peq_arith a a'
  | LC_Ruby v, LC_Ruby v' => w KRuby v v'
  | LC_Sup s, LC_Sup s' => peq_sup s s'
  | LC_Sub s, LC_Sub s' => peq_sup s s'
  | LC_String s, LC_String s' => String.eqb s s'
  | _, _ => false
  end.
(** /repo/src/line.rs 12-16. *)
Definition peq_line (f g : LineF K) : bool :=
  peq_vec peq_lc (line_contents f) (line_contents g)
  && peq_linestyle (line_style f) (line_style g).
(** /repo/src/contents.rs 210-245. *)
Definition peq_ce (c c' : ContentsElement K) : bool :=
  match c, c' with
  | CE_Table v, CE_Table v' => w KTable v v'
  | CE_TableStruct v, CE_TableStruct v' => w KTableStruct v v'
  | CE_Fig s, CE_Fig s' => peq_fig s s'
  | CE_FigStruct v, CE_FigStruct v' => w KFigStruct v v'
  | CE_Quote v, CE_Quote v' => w (KCont CQuote) v v'
  | CE_NoteStruct v, CE_NoteStruct v' => w (KCStruct SNote) v v'
  | CE_StyleStruct v, CE_StyleStruct v' => w (KCStruct SStyle) v v'
  | CE_AppdxTable v, CE_AppdxTable v' => w KAppdxTable v v'
  | CE_Ruby v, CE_Ruby v' => w KRuby v v'
  | CE_Line v, CE_Line v' => w KLine v v'
  | CE_Sup s, CE_Sup s' => peq_sup s s'
  | CE_Sub s, CE_Sub s' => peq_sup s s'
  | CE_String s, CE_String s' => String.eqb s s'
  | CE_Paragraph v, CE_Paragraph v' => w KParagraph v v'
  | CE_Item l v, CE_Item m v' => match at_level l m v' with Some x => w (KItem l) v x | None => false end
  | CE_List v, CE_List v' => w (KList List0) v v'
  | CE_Sentence v, CE_Sentence v' => w KSentence v v'
  | CE_Arith a, CE_Arith a' => peq_arith a a'
  | CE_Remarks v, CE_Remarks v' => w KRemarks v v'
  | CE_TOC v, CE_TOC v' => w KTOC v v'
  | CE_TOCSection v, CE_TOCSection v' => w KTOCSection v v'
  | CE_TableRow v, CE_TableRow v' => w KTableRow v v'
  | _, _ => false
  end.
(** /repo/src/contents.rs 20-25 ([Contents]); /repo/src/structs.rs 45-50, /repo/src/contents.rs 246-250,
    263-267, 281-285: the newtypes around it.  The contents of an [ArithFormula] are a plain [Contents]. *)
Definition peq_contents (f g : ContentsF K) : bool :=
  peq_vec peq_ce f g.
Definition peq_cont (c : cname) (f g : ContentsF K) : bool := peq_contents f g.
(** /repo/src/sentence.rs 198-208. *)
Definition peq_se (c c' : SentenceElement K) : bool :=
  match c, c' with
  | SE_Line v, SE_Line v' => w KLine v v'
  | SE_Quote v, SE_Quote v' => w (KCont CQuote) v v'
  | SE_Arith a, SE_Arith a' => peq_arith a a'
  | SE_Ruby v, SE_Ruby v' => w KRuby v v'
  | SE_Sup s, SE_Sup s' => peq_sup s s'
  | SE_Sub s, SE_Sub s' => peq_sup s s'
  | SE_String s, SE_String s' => String.eqb s s'
  | _, _ => false
  end.
(** /repo/src/sentence.rs 12-19. *)
Definition peq_sentence (f g : SentenceF K) : bool :=
  peq_vec peq_se (sen_contents f) (sen_contents g)
  && peq_opt N.eqb (sen_num f) (sen_num g)
  && peq_opt peq_function (sen_function f) (sen_function g)
  && peq_opt peq_indent (sen_indent f) (sen_indent g)
  && peq_mode (sen_mode f) (sen_mode g).
(** /repo/src/class.rs 189-195. *)
Definition peq_column (f g : ColumnF K) : bool :=
  peq_vec (w KSentence) (col_sentence f) (col_sentence g)
  && peq_opt N.eqb (col_num f) (col_num g)
  && Bool.eqb (col_line_break f) (col_line_break g)
  && peq_opt peq_align (col_align f) (col_align g).
(** /repo/src/class.rs 85-90. *)
Definition peq_sct (s s' : SentenceOrColumnOrTable K) : bool :=
  match s, s' with
  | SCT_Sentence l, SCT_Sentence l' => peq_vec (w KSentence) l l'
  | SCT_Column l, SCT_Column l' => peq_vec (w KColumn) l l'
  | SCT_Table t, SCT_Table t' => w KTable t t'
  | _, _ => false
  end.
(** /repo/src/class.rs 154-158. *)
Definition peq_caption (c c' : Caption K) : bool :=
  peq_text (cap_text c) (cap_text c')
  && peq_opt Bool.eqb (cap_common c) (cap_common c').
(** /repo/src/class.rs 15-21. *)
Definition peq_class (f g : ClassF K) : bool :=
  peq_opt peq_text (class_title f) (class_title g)
  && peq_sct (class_sentence f) (class_sentence g)
  && peq_vec (w (KItem Item0)) (class_children f) (class_children g)
  && String.eqb (class_num f) (class_num g).
(** /repo/src/table.rs 77-80. *)
Definition peq_header (r r' : TableHeaderRow K) : bool :=
  peq_vec peq_text r r'.
(** /repo/src/table.rs 17-22. *)
Definition peq_table (f g : TableF K) : bool :=
  peq_vec peq_header (tb_header f) (tb_header g)
  && peq_vec (w KTableRow) (tb_row f) (tb_row g)
  && peq_mode (tb_mode f) (tb_mode g).
(** /repo/src/table.rs 113-116. *)
Definition peq_table_row (f g : TableRowF K) : bool :=
  peq_vec (w KTableColumn) f g.
(** /repo/src/table.rs 348-373. *)
Definition peq_tc (c c' : TableColumnContents K) : bool :=
  match c, c' with
  | TC_Part v, TC_Part v' => w KPart v v'
  | TC_Chapter v, TC_Chapter v' => w KChapter v v'
  | TC_Section v, TC_Section v' => w KSection v v'
  | TC_Subsection v, TC_Subsection v' => w KSubsection v v'
  | TC_Division v, TC_Division v' => w KDivision v v'
  | TC_Article v, TC_Article v' => w KArticle v v'
  | TC_Paragraph v, TC_Paragraph v' => w KParagraph v v'
  | TC_Item l v, TC_Item m v' => match at_level l m v' with Some x => w (KItem l) v x | None => false end
  | TC_FigStruct v, TC_FigStruct v' => w KFigStruct v v'
  | TC_Remarks v, TC_Remarks v' => w KRemarks v v'
  | TC_Sentence v, TC_Sentence v' => w KSentence v v'
  | TC_Column v, TC_Column v' => w KColumn v v'
  | TC_String s, TC_String s' => String.eqb s s'
  | _, _ => false
  end.
(** /repo/src/table.rs 149-160. *)
Definition peq_table_column (f g : TableColumnF K) : bool :=
  peq_vec peq_tc (tc_contents f) (tc_contents g)
  && peq_linestyle (tc_border_top f) (tc_border_top g)
  && peq_linestyle (tc_border_bottom f) (tc_border_bottom g)
  && peq_linestyle (tc_border_left f) (tc_border_left g)
  && peq_linestyle (tc_border_right f) (tc_border_right g)
  && peq_opt String.eqb (tc_rowspan f) (tc_rowspan g)
  && peq_opt String.eqb (tc_colspan f) (tc_colspan g)
  && peq_opt peq_align (tc_align f) (tc_align g)
  && peq_opt peq_position (tc_valign f) (tc_valign g).
(** /repo/src/remarks.rs 73-77, 103-107, 13-17. *)
Definition peq_rlabel (r r' : RemarksLabel K) : bool :=
  peq_text (rl_text r) (rl_text r')
  && Bool.eqb (rl_line_break r) (rl_line_break r').
Definition peq_rc (c c' : RemarksContents K) : bool :=
  match c, c' with
  | RC_Item v, RC_Item v' => w (KItem Item0) v v'
  | RC_Sentence v, RC_Sentence v' => w KSentence v v'
  | _, _ => false
  end.
Definition peq_remarks (f g : RemarksF K) : bool :=
  peq_rlabel (rem_label f) (rem_label g)
  && peq_vec peq_rc (rem_children f) (rem_children g).
(** /repo/src/structs.rs 64-70, 140-146, 216-222. *)
Definition peq_cstruct (s : sname) (f g : CStructF K s) : bool :=
  peq_opt peq_text (st_title f) (st_title g)
  && peq_vec (w KRemarks) (st_title_remarks f) (st_title_remarks g)
  && w (KCont (body_of s)) (st_body f) (st_body g)
  && peq_vec (w KRemarks) (st_remarks f) (st_remarks g).
(** /repo/src/structs.rs 292-298. *)
Definition peq_fig_struct (f g : FigStructF K) : bool :=
  peq_opt peq_text (st_title f) (st_title g)
  && peq_vec (w KRemarks) (st_title_remarks f) (st_title_remarks g)
  && peq_fig (st_body f) (st_body g)
  && peq_vec (w KRemarks) (st_remarks f) (st_remarks g).
(** /repo/src/structs.rs 367-373. *)
Definition peq_table_struct (f g : TableStructF K) : bool :=
  peq_opt peq_twm (st_title f) (st_title g)
  && peq_vec (w KRemarks) (st_title_remarks f) (st_title_remarks g)
  && w KTable (st_body f) (st_body g)
  && peq_vec (w KRemarks) (st_remarks f) (st_remarks g).
(** /repo/src/structs.rs 15-21. *)
Definition peq_struct (s s' : Struct K) : bool :=
  match s, s' with
  | Struct_Table v, Struct_Table v' => w KTableStruct v v'
  | Struct_Fig v, Struct_Fig v' => w KFigStruct v v'
  | Struct_Style v, Struct_Style v' => w (KCStruct SStyle) v v'
  | Struct_List v, Struct_List v' => w (KList List0) v v'
  | _, _ => false
  end.
(** /repo/src/list.rs 90-94. *)
Definition peq_ls (s s' : ListSentence K) : bool :=
  match s, s' with
  | LS_Sentence v, LS_Sentence v' => w KSentence v v'
  | LS_Column v, LS_Column v' => w KColumn v v'
  | _, _ => false
  end.
(** /repo/src/list.rs 12-17, 96-101, 173-178, 250-253. *)
Definition peq_list (l : llvl) (f g : ListF K l) : bool :=
  peq_vec peq_ls (list_sentence f) (list_sentence g)
  && (if list_nests l then peq_vec (w (sub_list l)) (list_children f) (list_children g) else true).
(** /repo/src/paragraph.rs 163-172 and the ten copies. *)
Definition peq_item (l : lvl) (f g : ItemF K l) : bool :=
  peq_opt peq_text (it_title f) (it_title g)
  && peq_sct (it_sentence f) (it_sentence g)
  && (if item_nests l then peq_vec (w (sub_item l)) (it_children f) (it_children g) else true)
  && peq_vec peq_struct (it_struct_list f) (it_struct_list g)
  && peq_opt peq_AN (it_num f) (it_num g)
  && Bool.eqb (it_delete f) (it_delete g)
  && Bool.eqb (it_hide f) (it_hide g).
(** /repo/src/paragraph.rs 17-30. *)
Definition peq_paragraph (f g : ParagraphF K) : bool :=
  peq_opt peq_caption (par_caption f) (par_caption g)
  && peq_text (par_paragraph_num f) (par_paragraph_num g)
  && peq_vec (w KAmend) (par_amend_provision f) (par_amend_provision g)
  && peq_vec (w KClass) (par_class f) (par_class g)
  && peq_vec (w KSentence) (par_sentence f) (par_sentence g)
  && peq_vec peq_struct (par_struct_list f) (par_struct_list g)
  && peq_vec (w (KItem Item0)) (par_children f) (par_children g)
  && peq_AN (par_num f) (par_num g)
  && Bool.eqb (par_old_style f) (par_old_style g)
  && Bool.eqb (par_old_num f) (par_old_num g)
  && Bool.eqb (par_hide f) (par_hide g).
(** /repo/src/article.rs 600-610. *)
Definition peq_article (f g : ArticleF K) : bool :=
  peq_opt peq_caption (art_caption f) (art_caption g)
  && peq_text (art_title f) (art_title g)
  && peq_vec (w KParagraph) (art_paragraph f) (art_paragraph g)
  && peq_opt peq_text (art_suppl_note f) (art_suppl_note g)
  && peq_AN (art_num f) (art_num g)
  && Bool.eqb (art_delete f) (art_delete g)
  && Bool.eqb (art_hide f) (art_hide g).
(** /repo/src/article.rs 15-22, 133-140, 251-258, 377-384, 497-504. *)
Definition peq_head {C} (c : C -> C -> bool) (f g : HeadF K C) : bool :=
  peq_text (hd_title f) (hd_title g)
  && peq_vec c (hd_children f) (hd_children g)
  && peq_AN (hd_num f) (hd_num g)
  && Bool.eqb (hd_delete f) (hd_delete g)
  && Bool.eqb (hd_hide f) (hd_hide g).
(** /repo/src/article.rs 126-130, 244-248, 369-374, 490-494. *)
Definition peq_pc (c c' : PartContents K) : bool :=
  match c, c' with
  | PC_Article v, PC_Article v' => w KArticle v v'
  | PC_Chapter v, PC_Chapter v' => w KChapter v v'
  | _, _ => false
  end.
Definition peq_chc (c c' : ChapterContents K) : bool :=
  match c, c' with
  | ChC_Article v, ChC_Article v' => w KArticle v v'
  | ChC_Section v, ChC_Section v' => w KSection v v'
  | _, _ => false
  end.
Definition peq_sec (c c' : SectionContents K) : bool :=
  match c, c' with
  | SeC_Article v, SeC_Article v' => w KArticle v v'
  | SeC_Subsection v, SeC_Subsection v' => w KSubsection v v'
  | SeC_Division v, SeC_Division v' => w KDivision v v'
  | _, _ => false
  end.
Definition peq_suc (c c' : SubsectionContents K) : bool :=
  match c, c' with
  | SuC_Article v, SuC_Article v' => w KArticle v v'
  | SuC_Division v, SuC_Division v' => w KDivision v v'
  | _, _ => false
  end.
(** /repo/src/law.rs 970-1020. *)
Definition peq_np (c c' : NewProvision K) : bool :=
  match c, c' with
  | NP_LawTitle v, NP_LawTitle v' => w KLawTitle v v'
  | NP_Preamble v, NP_Preamble v' => w KPreamble v v'
  | NP_TOC v, NP_TOC v' => w KTOC v v'
  | NP_Part v, NP_Part v' => w KPart v v'
  | NP_PartTitle t, NP_PartTitle t' => peq_text t t'
  | NP_Chapter v, NP_Chapter v' => w KChapter v v'
  | NP_ChapterTitle t, NP_ChapterTitle t' => peq_text t t'
  | NP_Section v, NP_Section v' => w KSection v v'
  | NP_SectionTitle t, NP_SectionTitle t' => peq_text t t'
  | NP_Subsection v, NP_Subsection v' => w KSubsection v v'
  | NP_SubsectionTitle t, NP_SubsectionTitle t' => peq_text t t'
  | NP_Division v, NP_Division v' => w KDivision v v'
  | NP_DivisionTitle t, NP_DivisionTitle t' => peq_text t t'
  | NP_Article v, NP_Article v' => w KArticle v v'
  | NP_SupplNote t, NP_SupplNote t' => peq_text t t'
  | NP_Paragraph v, NP_Paragraph v' => w KParagraph v v'
  | NP_Item l v, NP_Item m v' => match at_level l m v' with Some x => w (KItem l) v x | None => false end
  | NP_List v, NP_List v' => w (KList List0) v v'
  | NP_Sentence v, NP_Sentence v' => w KSentence v v'
  | NP_Amend v, NP_Amend v' => w KAmend v v'
  | NP_AppdxTable v, NP_AppdxTable v' => w KAppdxTable v v'
  | NP_AppdxNote v, NP_AppdxNote v' => w KAppdxNote v v'
  | NP_AppdxStyle v, NP_AppdxStyle v' => w KAppdxStyle v v'
  | NP_Appdx v, NP_Appdx v' => w KAppdx v v'
  | NP_AppdxFig v, NP_AppdxFig v' => w KAppdxFig v v'
  | NP_AppdxFormat v, NP_AppdxFormat v' => w KAppdxFormat v v'
  | NP_SupplStyle v, NP_SupplStyle v' => w KSupplStyle v v'
  | NP_SupplTable v, NP_SupplTable v' => w KSupplTable v v'
  | NP_SupplAppdx v, NP_SupplAppdx v' => w KSupplAppdx v v'
  | NP_TableStruct v, NP_TableStruct v' => w KTableStruct v v'
  | NP_TableRow v, NP_TableRow v' => w KTableRow v v'
  | NP_TableColumn v, NP_TableColumn v' => w KTableColumn v v'
  | NP_FigStruct v, NP_FigStruct v' => w KFigStruct v v'
  | NP_CStruct s v, NP_CStruct s' v' => match of_struct s s' v' with Some x => w (KCStruct s) v x | None => false end
  | NP_Remarks v, NP_Remarks v' => w KRemarks v v'
  | NP_LawBody v, NP_LawBody v' => w KLawBody v v'
  | _, _ => false
  end.
(** /repo/src/law.rs 642-647. *)
Definition peq_amend (f g : AmendF K) : bool :=
  peq_opt (w KSentence) (am_sentence f) (am_sentence g)
  && peq_vec peq_np (am_new f) (am_new g).
(** /repo/src/law.rs 475-486. *)
Definition peq_law_title (f g : LawTitleF K) : bool :=
  peq_opt String.eqb (lt_kana f) (lt_kana g)
  && peq_opt String.eqb (lt_abbrev f) (lt_abbrev g)
  && peq_opt String.eqb (lt_abbrev_kana f) (lt_abbrev_kana g)
  && peq_text (lt_text f) (lt_text g).
(** /repo/src/law.rs 524-528. *)
Definition peq_preamble (f g : PreambleF K) : bool :=
  peq_vec (w KParagraph) f g.
(** /repo/src/law.rs 626-640, 558-564. *)
Definition peq_mc (c c' : MainContents K) : bool :=
  match c, c' with
  | MC_Part v, MC_Part v' => w KPart v v'
  | MC_Chapter v, MC_Chapter v' => w KChapter v v'
  | MC_Section v, MC_Section v' => w KSection v v'
  | MC_Article v, MC_Article v' => w KArticle v v'
  | MC_Paragraph v, MC_Paragraph v' => w KParagraph v v'
  | _, _ => false
  end.
Definition peq_main (f g : MainF K) : bool :=
  peq_vec peq_mc (main_children f) (main_children g)
  && peq_opt Bool.eqb (main_extract f) (main_extract g).
(** /repo/src/suppl_provision.rs 140-148, 15-23. *)
Definition peq_sp (c c' : SupplContents K) : bool :=
  match c, c' with
  | SP_Chapter v, SP_Chapter v' => w KChapter v v'
  | SP_Article v, SP_Article v' => w KArticle v v'
  | SP_Paragraph v, SP_Paragraph v' => w KParagraph v v'
  | SP_Table v, SP_Table v' => w KSupplTable v v'
  | SP_Style v, SP_Style v' => w KSupplStyle v v'
  | SP_Appdx v, SP_Appdx v' => w KSupplAppdx v v'
  | _, _ => false
  end.
Definition peq_suppl (f g : SupplF K) : bool :=
  peq_text (sp_label f) (sp_label g)
  && peq_vec peq_sp (sp_children f) (sp_children g)
  && peq_opt peq_suppl_type (sp_type f) (sp_type g)
  && peq_opt String.eqb (sp_amend_law_num f) (sp_amend_law_num g)
  && peq_opt Bool.eqb (sp_extract f) (sp_extract g).
(** /repo/src/suppl_provision.rs 156-162, 230-236. *)
Definition peq_suppl_ts {C} (c : C -> C -> bool) (f g : SupplTSF K C) : bool :=
  peq_twm (sts_title f) (sts_title g)
  && peq_opt peq_text (sts_related f) (sts_related g)
  && peq_vec c (sts_children f) (sts_children g)
  && peq_opt String.eqb (sts_num f) (sts_num g).
(** /repo/src/suppl_provision.rs 304-310. *)
Definition peq_suppl_appdx (f g : SupplAppdxF K) : bool :=
  peq_opt peq_text (sa_arith_formula_num f) (sa_arith_formula_num g)
  && peq_opt peq_text (sa_related f) (sa_related g)
  && peq_vec peq_arith (sa_arith_formula f) (sa_arith_formula g)
  && peq_opt String.eqb (sa_num f) (sa_num g).
(** /repo/src/appdx.rs 15-22, 104-111, 199-206, 275-282. *)
Definition peq_appdx_t {C} (c : C -> C -> bool) (f g : AppdxTF K C) : bool :=
  peq_opt peq_twm (ax_title f) (ax_title g)
  && peq_opt peq_text (ax_related f) (ax_related g)
  && peq_vec c (ax_children f) (ax_children g)
  && peq_opt (w KRemarks) (ax_remarks f) (ax_remarks g)
  && peq_opt String.eqb (ax_num f) (ax_num g).
(** /repo/src/appdx.rs 98-102, 192-197, 489-493. *)
Definition peq_at (c c' : AppdxTableContents K) : bool :=
  match c, c' with
  | AT_TableStruct v, AT_TableStruct v' => w KTableStruct v v'
  | AT_Item v, AT_Item v' => w (KItem Item0) v v'
  | _, _ => false
  end.
Definition peq_an (c c' : AppdxNoteContents K) : bool :=
  match c, c' with
  | AN_NoteStruct v, AN_NoteStruct v' => w (KCStruct SNote) v v'
  | AN_FigStruct v, AN_FigStruct v' => w KFigStruct v v'
  | AN_TableStruct v, AN_TableStruct v' => w KTableStruct v v'
  | _, _ => false
  end.
Definition peq_af (c c' : AppdxFigContents K) : bool :=
  match c, c' with
  | AF_FigStruct v, AF_FigStruct v' => w KFigStruct v v'
  | AF_TableStruct v, AF_TableStruct v' => w KTableStruct v v'
  | _, _ => false
  end.
(** /repo/src/appdx.rs 350-356. *)
Definition peq_appdx (f g : AppdxF K) : bool :=
  peq_opt peq_text (ap_arith_formula_num f) (ap_arith_formula_num g)
  && peq_opt peq_text (ap_related f) (ap_related g)
  && peq_vec peq_arith (ap_arith_formula f) (ap_arith_formula g)
  && peq_opt (w KRemarks) (ap_remarks f) (ap_remarks g).
(** /repo/src/appdx.rs 417-423. *)
Definition peq_appdx_fig (f g : AppdxFigF K) : bool :=
  peq_opt peq_twm (af_title f) (af_title g)
  && peq_opt peq_text (af_related f) (af_related g)
  && peq_vec peq_af (af_children f) (af_children g)
  && peq_opt String.eqb (af_fnum f) (af_fnum g).
(** /repo/src/table_of_contents.rs 127-140, 203-216, 279-292, 373-386. *)
Definition peq_toc_head {C} (c : C -> C -> bool) (f g : TOCHeadF K C) : bool :=
  peq_text (th_title f) (th_title g)
  && peq_opt peq_text (th_range f) (th_range g)
  && peq_AN (th_num f) (th_num g)
  && Bool.eqb (th_delete f) (th_delete g)
  && peq_vec c (th_children f) (th_children g).
(** /repo/src/table_of_contents.rs 451-462. *)
Definition peq_toc_division (f g : TOCDivisionF K) : bool :=
  peq_text (th_title f) (th_title g)
  && peq_opt peq_text (th_range f) (th_range g)
  && peq_AN (th_num f) (th_num g)
  && Bool.eqb (th_delete f) (th_delete g).
(** /repo/src/table_of_contents.rs 364-371. *)
Definition peq_tsc (c c' : TOCSectionContents K) : bool :=
  match c, c' with
  | TSC_Subsection v, TSC_Subsection v' => w KTOCSubsection v v'
  | TSC_Division v, TSC_Division v' => w KTOCDivision v v'
  | _, _ => false
  end.
(** /repo/src/table_of_contents.rs 518-529. *)
Definition peq_toc_article (f g : TOCArticleF K) : bool :=
  peq_text (ta_title f) (ta_title g)
  && peq_caption (ta_caption f) (ta_caption g)
  && peq_AN (ta_num f) (ta_num g)
  && Bool.eqb (ta_delete f) (ta_delete g).
(** /repo/src/table_of_contents.rs 666-673, 590-599. *)
Definition peq_tsp (c c' : TOCSupplContents K) : bool :=
  match c, c' with
  | TSP_Article v, TSP_Article v' => w KTOCArticle v v'
  | TSP_Chapter v, TSP_Chapter v' => w KTOCChapter v v'
  | _, _ => false
  end.
Definition peq_toc_suppl (f g : TOCSupplF K) : bool :=
  peq_text (ts_label f) (ts_label g)
  && peq_opt peq_text (ts_range f) (ts_range g)
  && peq_vec peq_tsp (ts_children f) (ts_children g).
(** /repo/src/table_of_contents.rs 115-125, 12-25. *)
Definition peq_tm (c c' : TOCMainContents K) : bool :=
  match c, c' with
  | TM_Part v, TM_Part v' => w KTOCPart v v'
  | TM_Chapter v, TM_Chapter v' => w KTOCChapter v v'
  | TM_Section v, TM_Section v' => w KTOCSection v v'
  | TM_Article v, TM_Article v' => w KTOCArticle v v'
  | _, _ => false
  end.
Definition peq_toc (f g : TOCF K) : bool :=
  peq_opt peq_text (toc_label f) (toc_label g)
  && peq_opt peq_text (toc_preamble_label f) (toc_preamble_label g)
  && peq_vec peq_tm (toc_main f) (toc_main g)
  && peq_opt (w KTOCSuppl) (toc_suppl f) (toc_suppl g)
  && peq_vec peq_text (toc_appdx_table_label f) (toc_appdx_table_label g).
(** /repo/src/law.rs 303-332. *)
Definition peq_law_body (f g : LawBodyF K) : bool :=
  peq_opt (w KLawTitle) (lb_law_title f) (lb_law_title g)
  && peq_vec peq_text (lb_enact_statement f) (lb_enact_statement g)
  && peq_opt String.eqb (lb_subject f) (lb_subject g)
  && peq_opt (w KTOC) (lb_toc f) (lb_toc g)
  && peq_opt (w KPreamble) (lb_preamble f) (lb_preamble g)
  && w KMain (lb_main_provision f) (lb_main_provision g)
  && peq_vec (w KSuppl) (lb_suppl_provision f) (lb_suppl_provision g)
  && peq_vec (w KAppdxTable) (lb_appdx_table f) (lb_appdx_table g)
  && peq_vec (w KAppdxNote) (lb_appdx_note f) (lb_appdx_note g)
  && peq_vec (w KAppdxStyle) (lb_appdx_style f) (lb_appdx_style g)
  && peq_vec (w KAppdx) (lb_appdx f) (lb_appdx g)
  && peq_vec (w KAppdxFig) (lb_appdx_fig f) (lb_appdx_fig g)
  && peq_vec (w KAppdxFormat) (lb_appdx_format f) (lb_appdx_format g).
End PartialEq.

(** [T::eq] for every type [T] of the knot. *)
Fixpoint peq (k : kind) (x : Knot k) {struct x} : Knot k -> bool :=
  match x in Knot k return Knot k -> bool with
  | mkRuby f => fun y => peq_ruby peq f (un KRuby y)
  | mkLine f => fun y => peq_line peq f (un KLine y)
  | @mkCont c f => fun y => peq_cont peq c f (un (KCont c) y)
  | mkSentence f => fun y => peq_sentence peq f (un KSentence y)
  | mkColumn f => fun y => peq_column peq f (un KColumn y)
  | mkTable f => fun y => peq_table peq f (un KTable y)
  | mkTableRow f => fun y => peq_table_row peq f (un KTableRow y)
  | mkTableColumn f => fun y => peq_table_column peq f (un KTableColumn y)
  | mkRemarks f => fun y => peq_remarks peq f (un KRemarks y)
  | @mkCStruct s f => fun y => peq_cstruct peq s f (un (KCStruct s) y)
  | mkFigStruct f => fun y => peq_fig_struct peq f (un KFigStruct y)
  | mkTableStruct f => fun y => peq_table_struct peq f (un KTableStruct y)
  | @mkList l f => fun y => peq_list peq l f (un (KList l) y)
  | mkClass f => fun y => peq_class peq f (un KClass y)
  | @mkItem l f => fun y => peq_item peq l f (un (KItem l) y)
  | mkParagraph f => fun y => peq_paragraph peq f (un KParagraph y)
  | mkArticle f => fun y => peq_article peq f (un KArticle y)
  | mkPart f => fun y => peq_head peq (peq_pc peq) f (un KPart y)
  | mkChapter f => fun y => peq_head peq (peq_chc peq) f (un KChapter y)
  | mkSection f => fun y => peq_head peq (peq_sec peq) f (un KSection y)
  | mkSubsection f => fun y => peq_head peq (peq_suc peq) f (un KSubsection y)
  | mkDivision f => fun y => peq_head peq (peq KArticle) f (un KDivision y)
  | mkAmend f => fun y => peq_amend peq f (un KAmend y)
  | mkLawTitle f => fun y => peq_law_title peq f (un KLawTitle y)
  | mkPreamble f => fun y => peq_preamble peq f (un KPreamble y)
  | mkMain f => fun y => peq_main peq f (un KMain y)
  | mkSuppl f => fun y => peq_suppl peq f (un KSuppl y)
  | mkSupplTable f => fun y => peq_suppl_ts peq (peq KTableStruct) f (un KSupplTable y)
  | mkSupplStyle f => fun y => peq_suppl_ts peq (peq (KCStruct SStyle)) f (un KSupplStyle y)
  | mkSupplAppdx f => fun y => peq_suppl_appdx peq f (un KSupplAppdx y)
  | mkAppdxTable f => fun y => peq_appdx_t peq (peq_at peq) f (un KAppdxTable y)
  | mkAppdxNote f => fun y => peq_appdx_t peq (peq_an peq) f (un KAppdxNote y)
  | mkAppdxStyle f => fun y => peq_appdx_t peq (peq (KCStruct SStyle)) f (un KAppdxStyle y)
  | mkAppdxFormat f => fun y => peq_appdx_t peq (peq (KCStruct SFormat)) f (un KAppdxFormat y)
  | mkAppdx f => fun y => peq_appdx peq f (un KAppdx y)
  | mkAppdxFig f => fun y => peq_appdx_fig peq f (un KAppdxFig y)
  | mkTOC f => fun y => peq_toc peq f (un KTOC y)
  | mkTOCPart f => fun y => peq_toc_head peq (peq KTOCChapter) f (un KTOCPart y)
  | mkTOCChapter f => fun y => peq_toc_head peq (peq KTOCSection) f (un KTOCChapter y)
  | mkTOCSection f => fun y => peq_toc_head peq (peq_tsc peq) f (un KTOCSection y)
  | mkTOCSubsection f => fun y => peq_toc_head peq (peq KTOCDivision) f (un KTOCSubsection y)
  | mkTOCDivision f => fun y => peq_toc_division peq f (un KTOCDivision y)
  | mkTOCArticle f => fun y => peq_toc_article peq f (un KTOCArticle y)
  | mkTOCSuppl f => fun y => peq_toc_suppl peq f (un KTOCSuppl y)
  | mkLawBody f => fun y => peq_law_body peq f (un KLawBody y)
  end.

(** /repo/src/law.rs 24-46. *)
Definition peq_law (a b : Law) : bool :=
  peq_era (law_era a) (law_era b)
  && N.eqb (law_year a) (law_year b)
  && peq_opt peq_AN (law_no a) (law_no b)
  && peq_opt N.eqb (law_promulgate_month a) (law_promulgate_month b)
  && peq_opt N.eqb (law_promulgate_day a) (law_promulgate_day b)
  && peq_law_type (law_type a) (law_type b)
  && peq_lang (law_lang a) (law_lang b)
  && String.eqb (law_num a) (law_num b)
  && peq KLawBody (law_body a) (law_body b).

(** /repo/src/utils.rs 25-32, 916-924. *)
Definition peq_wna (a b : WithNumberArticle) : bool :=
  peq_opt peq_AN (wn_part a) (wn_part b)
  && peq_opt peq_AN (wn_chapter a) (wn_chapter b)
  && peq_opt peq_AN (wn_section a) (wn_section b)
  && peq_opt peq_AN (wn_subsection a) (wn_subsection b)
  && peq_opt peq_AN (wn_division a) (wn_division b)
  && peq KArticle (wn_article a) (wn_article b).
Definition peq_toc_row (a b : Toc) : bool :=
  peq_opt peq_AN (toc_part a) (toc_part b)
  && peq_opt peq_AN (toc_chapter a) (toc_chapter b)
  && peq_opt peq_AN (toc_section a) (toc_section b)
  && peq_opt peq_AN (toc_subsection a) (toc_subsection b)
  && peq_opt peq_AN (toc_division a) (toc_division b)
  && peq_opt peq_AN (toc_article a) (toc_article b)
  && peq_opt String.eqb (toc_title a) (toc_title b).

(** /repo/src/article_number.rs 319-330, with the code points of [str]; /repo/src/parse_from_text.rs 903-937
    ([LineContents]). *)
Definition peq_item_number_u (i j : ItemNumber) : bool :=
  ueqb (inum_str i) (inum_str j)
  && N.eqb (inum_base i) (inum_base j)
  && peq_vec N.eqb (inum_eda i) (inum_eda j)
  && peq_vec N.eqb (inum_range i) (inum_range j)
  && peq_pattern (inum_pattern i) (inum_pattern j).
Definition peq_plain_line (a b : line) : bool :=
  match a, b with
  | LCaption s, LCaption s' => ueqb s s'
  | LPart n t, LPart n' t' => peq_AN n n' && ueqb t t'
  | LChapter n t, LChapter n' t' => peq_AN n n' && ueqb t t'
  | LSection n t, LSection n' t' => peq_AN n n' && ueqb t t'
  | LSubsection n t, LSubsection n' t' => peq_AN n n' && ueqb t t'
  | LDivision n t, LDivision n' t' => peq_AN n n' && ueqb t t'
  | LArticle n t, LArticle n' t' => peq_AN n n' && ueqb t t'
  | LParagraph n t, LParagraph n' t' => peq_AN n n' && ueqb t t'
  | LItem i t, LItem j t' => peq_item_number_u i j && ueqb t t'
  | LSuppl o, LSuppl o' => peq_opt ueqb o o'
  | LText s, LText s' => ueqb s s'
  | _, _ => false
  end.

(** ** Hash *)

(** Calls of [write_isize], [write_usize], [write_u8] and [write]; [HUsizes] is [write] with the bytes of a slice of
    machine integers. *)
Inductive call := HIsize (n : nat) | HUsize (n : N) | HU8 (n : N) | HBytes (s : string) | HUsizes (l : list N).
Definition stream := list call.

(** The number of a variant is of type [isize]. *)
Definition hash_discriminant (n : nat) : stream := [HIsize n].
(** [impl Hash for usize, bool, str, Option<T>, Vec<T>]; [hash_slice] of integers is a single call. *)
Definition hash_usize (n : N) : stream := [HUsize n].
Definition hash_bool (b : bool) : stream := [HU8 (if b then 1 else 0)].
Definition hash_str (s : string) : stream := [HBytes s; HU8 255].
Definition hash_opt {A} (h : A -> stream) (o : option A) : stream :=
  match o with None => hash_discriminant 0 | Some a => hash_discriminant 1 ++ h a end.
Definition hash_vec {A} (h : A -> stream) (l : list A) : stream :=
  hash_usize (N.of_nat (length l)) ++ flat_map h l.
Definition hash_usizes (l : list N) : stream := hash_usize (N.of_nat (length l)) ++ [HUsizes l].

(** /repo/src/article_number.rs 11-19. *)
Definition hash_AN (a : ArticleNumber) : stream :=
  hash_usize (base_number a) ++ hash_usizes (eda_numbers a) ++ hash_usizes (range_end_numbers a).
(** /repo/src/text.rs 178-182. *)
Definition hash_mode (m : WritingMode) : stream :=
  match m with Vertical => hash_discriminant 0 | Horizontal => hash_discriminant 1 end.
(** /repo/src/line.rs 93-100. *)
Definition hash_linestyle (s : LineStyle) : stream :=
  match s with LDotted => hash_discriminant 0 | LDouble => hash_discriminant 1 | LSolid => hash_discriminant 2
  | LNone => hash_discriminant 3
  end.
(** /repo/src/class.rs 240-246. *)
Definition hash_align (a : Align) : stream :=
  match a with ALeft => hash_discriminant 0 | ACenter => hash_discriminant 1 | ARight => hash_discriminant 2
    | AJustify => hash_discriminant 3 end.
(** /repo/src/table.rs 375-380. *)
Definition hash_position (p : Position) : stream :=
  match p with PTop => hash_discriminant 0 | PMiddle => hash_discriminant 1 | PBottom => hash_discriminant 2 end.
(** /repo/src/sentence.rs 210-214. *)
Definition hash_function (f : SentenceFunction) : stream :=
  match f with FMain => hash_discriminant 0 | FProviso => hash_discriminant 1 end.
(** /repo/src/sentence.rs 216-230. *)
Definition hash_indent (i : SentenceIndent) : stream :=
  match i with IParagraph => hash_discriminant 0 | IItem l => hash_discriminant (1 + level_index l) end.
(** /repo/src/suppl_provision.rs 150-154. *)
Definition hash_suppl_type (t : SupplProvisionType) : stream :=
  match t with TNew => hash_discriminant 0 | TAmend => hash_discriminant 1 end.
(** /repo/src/law.rs 262-275. *)
Definition hash_era (e : Era) : stream :=
  match e with Meiji => hash_discriminant 0 | Taisho => hash_discriminant 1 | Showa => hash_discriminant 2
    | Heisei => hash_discriminant 3 | Reiwa => hash_discriminant 4 end.
(** /repo/src/law.rs 277-294. *)
Definition hash_law_type (t : LawType) : stream :=
  match t with Constitution => hash_discriminant 0 | Act => hash_discriminant 1
  | CabinetOrder => hash_discriminant 2 | ImperialOrder => hash_discriminant 3
  | MinisterialOrdinance => hash_discriminant 4 | Rule => hash_discriminant 5 | Misc => hash_discriminant 6
  end.
(** /repo/src/law.rs 296-301. *)
Definition hash_lang (l : Lang) : stream :=
  match l with Ja => hash_discriminant 0 | En => hash_discriminant 1 end.
(** /repo/src/text.rs 324-329, 359-364: [Sup], [Sub] (one field [text]); /repo/src/fig.rs 9-12: [Fig]. *)
Definition hash_sup (s : string) : stream :=
  hash_str s.
Definition hash_fig (s : string) : stream :=
  hash_str s.
(** /repo/src/utils.rs 329-336. *)
Definition hash_index (i : TextIndex) : stream :=
  hash_AN (ti_paragraph i) ++ hash_vec (hash_opt hash_AN) (ti_items i).
(** /repo/src/article_number.rs 332-366. *)
Definition hash_pattern (p : ItemPattern) : stream := hash_discriminant (pattern_index p).
(** /repo/src/article_number.rs 319-330. See [Serde.ItemNumberB]. *)
Definition hash_item_number (i : ItemNumberB) : stream :=
  hash_str (inb_str i) ++ hash_usize (inb_base i) ++ hash_usizes (inb_eda i) ++ hash_usizes (inb_range i)
  ++ hash_pattern (inb_pattern i).

Section Hash.
Context {K : kind -> Type} (w : forall k, K k -> stream).

(** /repo/src/text.rs 249-257. *)
Definition hash_te (t : TextElement K) : stream :=
  match t with
  | TE_Ruby r => hash_discriminant 0 ++ w KRuby r
  | TE_Line l => hash_discriminant 1 ++ w KLine l
  | TE_Sup s => hash_discriminant 2 ++ hash_sup s
  | TE_Sub s => hash_discriminant 3 ++ hash_sup s
  | TE_Text s => hash_discriminant 4 ++ hash_str s
  end.
(** /repo/src/text.rs 11-15. *)
Definition hash_text (t : Text K) : stream :=
  hash_vec hash_te t.
(** /repo/src/text.rs 184-189. *)
Definition hash_twm (t : TextWithWritingMode K) : stream :=
  hash_vec hash_te (twm_contents t) ++ hash_mode (twm_mode t).
(** /repo/src/text.rs 258-266. *)
Definition hash_ruby (f : RubyF K) : stream :=
  hash_text (ruby_text f) ++ hash_str (ruby_ruby f).
(** /repo/src/contents.rs 299-304. *)
Definition hash_arith (a : ArithFormula K) : stream :=
  hash_opt hash_usize (af_num a) ++ w (KCont CArith) (af_contents a).
(** /repo/src/line.rs 83-91. *)
Definition hash_lc (c : LineContents K) : stream :=
  match c with
  | LC_Quote v => hash_discriminant 0 ++ w (KCont CQuote) v
  | LC_Arith a => hash_discriminant 1 ++ hash_arith a
  | LC_Ruby v => hash_discriminant 2 ++ w KRuby v
  | LC_Sup s => hash_discriminant 3 ++ hash_sup s
  | LC_Sub s => hash_discriminant 4 ++ hash_sup s
  | LC_String s => hash_discriminant 5 ++ hash_str s
  end.
(** /repo/src/line.rs 12-16. *)
Definition hash_line (f : LineF K) : stream :=
  hash_vec hash_lc (line_contents f) ++ hash_linestyle (line_style f).
(** /repo/src/contents.rs 210-245. *)
Definition hash_ce (c : ContentsElement K) : stream :=
  match c with
  | CE_Table v => hash_discriminant 0 ++ w KTable v
  | CE_TableStruct v => hash_discriminant 1 ++ w KTableStruct v
  | CE_Fig s => hash_discriminant 2 ++ hash_fig s
  | CE_FigStruct v => hash_discriminant 3 ++ w KFigStruct v
  | CE_Quote v => hash_discriminant 4 ++ w (KCont CQuote) v
  | CE_NoteStruct v => hash_discriminant 5 ++ w (KCStruct SNote) v
  | CE_StyleStruct v => hash_discriminant 6 ++ w (KCStruct SStyle) v
  | CE_AppdxTable v => hash_discriminant 7 ++ w KAppdxTable v
  | CE_Ruby v => hash_discriminant 8 ++ w KRuby v
  | CE_Line v => hash_discriminant 9 ++ w KLine v
  | CE_Sup s => hash_discriminant 10 ++ hash_sup s
  | CE_Sub s => hash_discriminant 11 ++ hash_sup s
  | CE_String s => hash_discriminant 12 ++ hash_str s
  | CE_Paragraph v => hash_discriminant 13 ++ w KParagraph v
  | CE_Item l v => hash_discriminant (14 + level_index l) ++ w (KItem l) v
  | CE_List v => hash_discriminant 25 ++ w (KList List0) v
  | CE_Sentence v => hash_discriminant 26 ++ w KSentence v
  | CE_Arith a => hash_discriminant 27 ++ hash_arith a
  | CE_Remarks v => hash_discriminant 28 ++ w KRemarks v
  | CE_TOC v => hash_discriminant 29 ++ w KTOC v
  | CE_TOCSection v => hash_discriminant 30 ++ w KTOCSection v
  | CE_TableRow v => hash_discriminant 31 ++ w KTableRow v
  end.
(** /repo/src/contents.rs 20-25 ([Contents]); /repo/src/structs.rs 45-50, /repo/src/contents.rs 246-250,
    263-267, 281-285: the newtypes around it.  The contents of an [ArithFormula] are a plain [Contents]. *)
Definition hash_contents (f : ContentsF K) : stream :=
  hash_vec hash_ce f.
Definition hash_cont (c : cname) (f : ContentsF K) : stream := hash_contents f.
(** /repo/src/sentence.rs 198-208. *)
Definition hash_se (c : SentenceElement K) : stream :=
  match c with
  | SE_Line v => hash_discriminant 0 ++ w KLine v
  | SE_Quote v => hash_discriminant 1 ++ w (KCont CQuote) v
  | SE_Arith a => hash_discriminant 2 ++ hash_arith a
  | SE_Ruby v => hash_discriminant 3 ++ w KRuby v
  | SE_Sup s => hash_discriminant 4 ++ hash_sup s
  | SE_Sub s => hash_discriminant 5 ++ hash_sup s
  | SE_String s => hash_discriminant 6 ++ hash_str s
  end.
(** /repo/src/sentence.rs 12-19. *)
Definition hash_sentence (f : SentenceF K) : stream :=
  hash_vec hash_se (sen_contents f) ++ hash_opt hash_usize (sen_num f)
    ++ hash_opt hash_function (sen_function f) ++ hash_opt hash_indent (sen_indent f) ++ hash_mode (sen_mode f).
(** /repo/src/class.rs 189-195. *)
Definition hash_column (f : ColumnF K) : stream :=
  hash_vec (w KSentence) (col_sentence f) ++ hash_opt hash_usize (col_num f) ++ hash_bool (col_line_break f)
    ++ hash_opt hash_align (col_align f).
(** /repo/src/class.rs 85-90. *)
Definition hash_sct (s : SentenceOrColumnOrTable K) : stream :=
  match s with
  | SCT_Sentence l => hash_discriminant 0 ++ hash_vec (w KSentence) l
  | SCT_Column l => hash_discriminant 1 ++ hash_vec (w KColumn) l
  | SCT_Table t => hash_discriminant 2 ++ w KTable t
  end.
(** /repo/src/class.rs 154-158. *)
Definition hash_caption (c : Caption K) : stream :=
  hash_text (cap_text c) ++ hash_opt hash_bool (cap_common c).
(** /repo/src/class.rs 15-21. *)
Definition hash_class (f : ClassF K) : stream :=
  hash_opt hash_text (class_title f) ++ hash_sct (class_sentence f)
    ++ hash_vec (w (KItem Item0)) (class_children f) ++ hash_str (class_num f).
(** /repo/src/table.rs 77-80. *)
Definition hash_header (r : TableHeaderRow K) : stream :=
  hash_vec hash_text r.
(** /repo/src/table.rs 17-22. *)
Definition hash_table (f : TableF K) : stream :=
  hash_vec hash_header (tb_header f) ++ hash_vec (w KTableRow) (tb_row f) ++ hash_mode (tb_mode f).
(** /repo/src/table.rs 113-116. *)
Definition hash_table_row (f : TableRowF K) : stream :=
  hash_vec (w KTableColumn) f.
(** /repo/src/table.rs 348-373. *)
Definition hash_tc (c : TableColumnContents K) : stream :=
  match c with
  | TC_Part v => hash_discriminant 0 ++ w KPart v
  | TC_Chapter v => hash_discriminant 1 ++ w KChapter v
  | TC_Section v => hash_discriminant 2 ++ w KSection v
  | TC_Subsection v => hash_discriminant 3 ++ w KSubsection v
  | TC_Division v => hash_discriminant 4 ++ w KDivision v
  | TC_Article v => hash_discriminant 5 ++ w KArticle v
  | TC_Paragraph v => hash_discriminant 6 ++ w KParagraph v
  | TC_Item l v => hash_discriminant (7 + level_index l) ++ w (KItem l) v
  | TC_FigStruct v => hash_discriminant 18 ++ w KFigStruct v
  | TC_Remarks v => hash_discriminant 20 ++ w KRemarks v
  | TC_Sentence v => hash_discriminant 19 ++ w KSentence v
  | TC_Column v => hash_discriminant 21 ++ w KColumn v
  | TC_String s => hash_discriminant 22 ++ hash_str s
  end.
(** /repo/src/table.rs 149-160. *)
Definition hash_table_column (f : TableColumnF K) : stream :=
  hash_vec hash_tc (tc_contents f) ++ hash_linestyle (tc_border_top f)
    ++ hash_linestyle (tc_border_bottom f) ++ hash_linestyle (tc_border_left f)
    ++ hash_linestyle (tc_border_right f) ++ hash_opt hash_str (tc_rowspan f)
    ++ hash_opt hash_str (tc_colspan f) ++ hash_opt hash_align (tc_align f) ++ hash_opt hash_position (tc_valign f).
(** /repo/src/remarks.rs 73-77, 103-107, 13-17. *)
Definition hash_rlabel (r : RemarksLabel K) : stream :=
  hash_text (rl_text r) ++ hash_bool (rl_line_break r).
Definition hash_rc (c : RemarksContents K) : stream :=
  match c with
  | RC_Item v => hash_discriminant 0 ++ w (KItem Item0) v
  | RC_Sentence v => hash_discriminant 1 ++ w KSentence v
  end.
Definition hash_remarks (f : RemarksF K) : stream :=
  hash_rlabel (rem_label f) ++ hash_vec hash_rc (rem_children f).
(** /repo/src/structs.rs 64-70, 140-146, 216-222. *)
Definition hash_cstruct (s : sname) (f : CStructF K s) : stream :=
  hash_opt hash_text (st_title f) ++ hash_vec (w KRemarks) (st_title_remarks f) ++ w (KCont (body_of s)) (st_body f)
  ++ hash_vec (w KRemarks) (st_remarks f).
(** /repo/src/structs.rs 292-298. *)
Definition hash_fig_struct (f : FigStructF K) : stream :=
  hash_opt hash_text (st_title f) ++ hash_vec (w KRemarks) (st_title_remarks f) ++ hash_fig (st_body f)
    ++ hash_vec (w KRemarks) (st_remarks f).
(** /repo/src/structs.rs 367-373. *)
Definition hash_table_struct (f : TableStructF K) : stream :=
  hash_opt hash_twm (st_title f) ++ hash_vec (w KRemarks) (st_title_remarks f) ++ w KTable (st_body f)
    ++ hash_vec (w KRemarks) (st_remarks f).
(** /repo/src/structs.rs 15-21. *)
Definition hash_struct (s : Struct K) : stream :=
  match s with
  | Struct_Table v => hash_discriminant 0 ++ w KTableStruct v
  | Struct_Fig v => hash_discriminant 1 ++ w KFigStruct v
  | Struct_Style v => hash_discriminant 2 ++ w (KCStruct SStyle) v
  | Struct_List v => hash_discriminant 3 ++ w (KList List0) v
  end.
(** /repo/src/list.rs 90-94. *)
Definition hash_ls (s : ListSentence K) : stream :=
  match s with
  | LS_Sentence v => hash_discriminant 0 ++ w KSentence v
  | LS_Column v => hash_discriminant 1 ++ w KColumn v
  end.
(** /repo/src/list.rs 12-17, 96-101, 173-178, 250-253. *)
Definition hash_list (l : llvl) (f : ListF K l) : stream :=
  hash_vec hash_ls (list_sentence f) ++ (if list_nests l then hash_vec (w (sub_list l)) (list_children f) else []).
(** /repo/src/paragraph.rs 163-172 and the ten copies. *)
Definition hash_item (l : lvl) (f : ItemF K l) : stream :=
  hash_opt hash_text (it_title f) ++ hash_sct (it_sentence f)
  ++ (if item_nests l then hash_vec (w (sub_item l)) (it_children f) else [])
  ++ hash_vec hash_struct (it_struct_list f) ++ hash_opt hash_AN (it_num f) ++ hash_bool (it_delete f)
    ++ hash_bool (it_hide f).
(** /repo/src/paragraph.rs 17-30. *)
Definition hash_paragraph (f : ParagraphF K) : stream :=
  hash_opt hash_caption (par_caption f) ++ hash_text (par_paragraph_num f)
    ++ hash_vec (w KAmend) (par_amend_provision f) ++ hash_vec (w KClass) (par_class f)
    ++ hash_vec (w KSentence) (par_sentence f) ++ hash_vec hash_struct (par_struct_list f)
    ++ hash_vec (w (KItem Item0)) (par_children f) ++ hash_AN (par_num f) ++ hash_bool (par_old_style f)
    ++ hash_bool (par_old_num f) ++ hash_bool (par_hide f).
(** /repo/src/article.rs 600-610. *)
Definition hash_article (f : ArticleF K) : stream :=
  hash_opt hash_caption (art_caption f) ++ hash_text (art_title f)
    ++ hash_vec (w KParagraph) (art_paragraph f) ++ hash_opt hash_text (art_suppl_note f)
    ++ hash_AN (art_num f) ++ hash_bool (art_delete f) ++ hash_bool (art_hide f).
(** /repo/src/article.rs 15-22, 133-140, 251-258, 377-384, 497-504. *)
Definition hash_head {C} (c : C -> stream) (f : HeadF K C) : stream :=
  hash_text (hd_title f) ++ hash_vec c (hd_children f) ++ hash_AN (hd_num f) ++ hash_bool (hd_delete f)
    ++ hash_bool (hd_hide f).
(** /repo/src/article.rs 126-130, 244-248, 369-374, 490-494. *)
Definition hash_pc (c : PartContents K) : stream :=
  match c with
  | PC_Article v => hash_discriminant 0 ++ w KArticle v
  | PC_Chapter v => hash_discriminant 1 ++ w KChapter v
  end.
Definition hash_chc (c : ChapterContents K) : stream :=
  match c with
  | ChC_Article v => hash_discriminant 0 ++ w KArticle v
  | ChC_Section v => hash_discriminant 1 ++ w KSection v
  end.
Definition hash_sec (c : SectionContents K) : stream :=
  match c with
  | SeC_Article v => hash_discriminant 0 ++ w KArticle v
  | SeC_Subsection v => hash_discriminant 1 ++ w KSubsection v
  | SeC_Division v => hash_discriminant 2 ++ w KDivision v
  end.
Definition hash_suc (c : SubsectionContents K) : stream :=
  match c with
  | SuC_Article v => hash_discriminant 0 ++ w KArticle v
  | SuC_Division v => hash_discriminant 1 ++ w KDivision v
  end.
(** /repo/src/law.rs 970-1020. *)
Definition hash_np (c : NewProvision K) : stream :=
  match c with
  | NP_LawTitle v => hash_discriminant 0 ++ w KLawTitle v
  | NP_Preamble v => hash_discriminant 1 ++ w KPreamble v
  | NP_TOC v => hash_discriminant 2 ++ w KTOC v
  | NP_Part v => hash_discriminant 3 ++ w KPart v
  | NP_PartTitle t => hash_discriminant 4 ++ hash_text t
  | NP_Chapter v => hash_discriminant 5 ++ w KChapter v
  | NP_ChapterTitle t => hash_discriminant 6 ++ hash_text t
  | NP_Section v => hash_discriminant 7 ++ w KSection v
  | NP_SectionTitle t => hash_discriminant 8 ++ hash_text t
  | NP_Subsection v => hash_discriminant 9 ++ w KSubsection v
  | NP_SubsectionTitle t => hash_discriminant 10 ++ hash_text t
  | NP_Division v => hash_discriminant 11 ++ w KDivision v
  | NP_DivisionTitle t => hash_discriminant 12 ++ hash_text t
  | NP_Article v => hash_discriminant 13 ++ w KArticle v
  | NP_SupplNote t => hash_discriminant 14 ++ hash_text t
  | NP_Paragraph v => hash_discriminant 15 ++ w KParagraph v
  | NP_Item l v => hash_discriminant (16 + level_index l) ++ w (KItem l) v
  | NP_List v => hash_discriminant 27 ++ w (KList List0) v
  | NP_Sentence v => hash_discriminant 28 ++ w KSentence v
  | NP_Amend v => hash_discriminant 29 ++ w KAmend v
  | NP_AppdxTable v => hash_discriminant 30 ++ w KAppdxTable v
  | NP_AppdxNote v => hash_discriminant 31 ++ w KAppdxNote v
  | NP_AppdxStyle v => hash_discriminant 32 ++ w KAppdxStyle v
  | NP_Appdx v => hash_discriminant 33 ++ w KAppdx v
  | NP_AppdxFig v => hash_discriminant 34 ++ w KAppdxFig v
  | NP_AppdxFormat v => hash_discriminant 35 ++ w KAppdxFormat v
  | NP_SupplStyle v => hash_discriminant 36 ++ w KSupplStyle v
  | NP_SupplTable v => hash_discriminant 37 ++ w KSupplTable v
  | NP_SupplAppdx v => hash_discriminant 38 ++ w KSupplAppdx v
  | NP_TableStruct v => hash_discriminant 39 ++ w KTableStruct v
  | NP_TableRow v => hash_discriminant 40 ++ w KTableRow v
  | NP_TableColumn v => hash_discriminant 41 ++ w KTableColumn v
  | NP_FigStruct v => hash_discriminant 42 ++ w KFigStruct v
  | NP_CStruct s v => hash_discriminant (43 + struct_index s) ++ w (KCStruct s) v
  | NP_Remarks v => hash_discriminant 46 ++ w KRemarks v
  | NP_LawBody v => hash_discriminant 47 ++ w KLawBody v
  end.
(** /repo/src/law.rs 642-647. *)
Definition hash_amend (f : AmendF K) : stream :=
  hash_opt (w KSentence) (am_sentence f) ++ hash_vec hash_np (am_new f).
(** /repo/src/law.rs 475-486. *)
Definition hash_law_title (f : LawTitleF K) : stream :=
  hash_opt hash_str (lt_kana f) ++ hash_opt hash_str (lt_abbrev f) ++ hash_opt hash_str (lt_abbrev_kana f)
    ++ hash_text (lt_text f).
(** /repo/src/law.rs 524-528. *)
Definition hash_preamble (f : PreambleF K) : stream :=
  hash_vec (w KParagraph) f.
(** /repo/src/law.rs 626-640, 558-564. *)
Definition hash_mc (c : MainContents K) : stream :=
  match c with
  | MC_Part v => hash_discriminant 0 ++ w KPart v
  | MC_Chapter v => hash_discriminant 1 ++ w KChapter v
  | MC_Section v => hash_discriminant 2 ++ w KSection v
  | MC_Article v => hash_discriminant 3 ++ w KArticle v
  | MC_Paragraph v => hash_discriminant 4 ++ w KParagraph v
  end.
Definition hash_main (f : MainF K) : stream :=
  hash_vec hash_mc (main_children f) ++ hash_opt hash_bool (main_extract f).
(** /repo/src/suppl_provision.rs 140-148, 15-23. *)
Definition hash_sp (c : SupplContents K) : stream :=
  match c with
  | SP_Chapter v => hash_discriminant 0 ++ w KChapter v
  | SP_Article v => hash_discriminant 1 ++ w KArticle v
  | SP_Paragraph v => hash_discriminant 2 ++ w KParagraph v
  | SP_Table v => hash_discriminant 3 ++ w KSupplTable v
  | SP_Style v => hash_discriminant 4 ++ w KSupplStyle v
  | SP_Appdx v => hash_discriminant 5 ++ w KSupplAppdx v
  end.
Definition hash_suppl (f : SupplF K) : stream :=
  hash_text (sp_label f) ++ hash_vec hash_sp (sp_children f) ++ hash_opt hash_suppl_type (sp_type f)
    ++ hash_opt hash_str (sp_amend_law_num f) ++ hash_opt hash_bool (sp_extract f).
(** /repo/src/suppl_provision.rs 156-162, 230-236. *)
Definition hash_suppl_ts {C} (c : C -> stream) (f : SupplTSF K C) : stream :=
  hash_twm (sts_title f) ++ hash_opt hash_text (sts_related f) ++ hash_vec c (sts_children f)
    ++ hash_opt hash_str (sts_num f).
(** /repo/src/suppl_provision.rs 304-310. *)
Definition hash_suppl_appdx (f : SupplAppdxF K) : stream :=
  hash_opt hash_text (sa_arith_formula_num f) ++ hash_opt hash_text (sa_related f)
    ++ hash_vec hash_arith (sa_arith_formula f) ++ hash_opt hash_str (sa_num f).
(** /repo/src/appdx.rs 15-22, 104-111, 199-206, 275-282. *)
Definition hash_appdx_t {C} (c : C -> stream) (f : AppdxTF K C) : stream :=
  hash_opt hash_twm (ax_title f) ++ hash_opt hash_text (ax_related f) ++ hash_vec c (ax_children f)
    ++ hash_opt (w KRemarks) (ax_remarks f) ++ hash_opt hash_str (ax_num f).
(** /repo/src/appdx.rs 98-102, 192-197, 489-493. *)
Definition hash_at (c : AppdxTableContents K) : stream :=
  match c with
  | AT_TableStruct v => hash_discriminant 0 ++ w KTableStruct v
  | AT_Item v => hash_discriminant 1 ++ w (KItem Item0) v
  end.
Definition hash_an (c : AppdxNoteContents K) : stream :=
  match c with
  | AN_NoteStruct v => hash_discriminant 0 ++ w (KCStruct SNote) v
  | AN_FigStruct v => hash_discriminant 1 ++ w KFigStruct v
  | AN_TableStruct v => hash_discriminant 2 ++ w KTableStruct v
  end.
Definition hash_af (c : AppdxFigContents K) : stream :=
  match c with
  | AF_FigStruct v => hash_discriminant 0 ++ w KFigStruct v
  | AF_TableStruct v => hash_discriminant 1 ++ w KTableStruct v
  end.
(** /repo/src/appdx.rs 350-356. *)
Definition hash_appdx (f : AppdxF K) : stream :=
  hash_opt hash_text (ap_arith_formula_num f) ++ hash_opt hash_text (ap_related f)
    ++ hash_vec hash_arith (ap_arith_formula f) ++ hash_opt (w KRemarks) (ap_remarks f).
(** /repo/src/appdx.rs 417-423. *)
Definition hash_appdx_fig (f : AppdxFigF K) : stream :=
  hash_opt hash_twm (af_title f) ++ hash_opt hash_text (af_related f) ++ hash_vec hash_af (af_children f)
    ++ hash_opt hash_str (af_fnum f).
(** /repo/src/table_of_contents.rs 127-140, 203-216, 279-292, 373-386. *)
Definition hash_toc_head {C} (c : C -> stream) (f : TOCHeadF K C) : stream :=
  hash_text (th_title f) ++ hash_opt hash_text (th_range f) ++ hash_AN (th_num f) ++ hash_bool (th_delete f)
    ++ hash_vec c (th_children f).
(** /repo/src/table_of_contents.rs 451-462. *)
Definition hash_toc_division (f : TOCDivisionF K) : stream :=
  hash_text (th_title f) ++ hash_opt hash_text (th_range f) ++ hash_AN (th_num f) ++ hash_bool (th_delete f).
(** /repo/src/table_of_contents.rs 364-371. *)
Definition hash_tsc (c : TOCSectionContents K) : stream :=
  match c with
  | TSC_Subsection v => hash_discriminant 0 ++ w KTOCSubsection v
  | TSC_Division v => hash_discriminant 1 ++ w KTOCDivision v
  end.
(** /repo/src/table_of_contents.rs 518-529. *)
Definition hash_toc_article (f : TOCArticleF K) : stream :=
  hash_text (ta_title f) ++ hash_caption (ta_caption f) ++ hash_AN (ta_num f) ++ hash_bool (ta_delete f).
(** /repo/src/table_of_contents.rs 666-673, 590-599. *)
Definition hash_tsp (c : TOCSupplContents K) : stream :=
  match c with
  | TSP_Article v => hash_discriminant 0 ++ w KTOCArticle v
  | TSP_Chapter v => hash_discriminant 1 ++ w KTOCChapter v
  end.
Definition hash_toc_suppl (f : TOCSupplF K) : stream :=
  hash_text (ts_label f) ++ hash_opt hash_text (ts_range f) ++ hash_vec hash_tsp (ts_children f).
(** /repo/src/table_of_contents.rs 115-125, 12-25. *)
Definition hash_tm (c : TOCMainContents K) : stream :=
  match c with
  | TM_Part v => hash_discriminant 0 ++ w KTOCPart v
  | TM_Chapter v => hash_discriminant 1 ++ w KTOCChapter v
  | TM_Section v => hash_discriminant 2 ++ w KTOCSection v
  | TM_Article v => hash_discriminant 3 ++ w KTOCArticle v
  end.
Definition hash_toc (f : TOCF K) : stream :=
  hash_opt hash_text (toc_label f) ++ hash_opt hash_text (toc_preamble_label f)
    ++ hash_vec hash_tm (toc_main f) ++ hash_opt (w KTOCSuppl) (toc_suppl f)
    ++ hash_vec hash_text (toc_appdx_table_label f).
(** /repo/src/law.rs 303-332. *)
Definition hash_law_body (f : LawBodyF K) : stream :=
  hash_opt (w KLawTitle) (lb_law_title f) ++ hash_vec hash_text (lb_enact_statement f)
    ++ hash_opt hash_str (lb_subject f) ++ hash_opt (w KTOC) (lb_toc f)
    ++ hash_opt (w KPreamble) (lb_preamble f) ++ w KMain (lb_main_provision f)
    ++ hash_vec (w KSuppl) (lb_suppl_provision f) ++ hash_vec (w KAppdxTable) (lb_appdx_table f)
    ++ hash_vec (w KAppdxNote) (lb_appdx_note f) ++ hash_vec (w KAppdxStyle) (lb_appdx_style f)
    ++ hash_vec (w KAppdx) (lb_appdx f) ++ hash_vec (w KAppdxFig) (lb_appdx_fig f)
    ++ hash_vec (w KAppdxFormat) (lb_appdx_format f).
End Hash.

(** [T::hash] for every type [T] of the knot. *)
Fixpoint hash (k : kind) (x : Knot k) {struct x} : stream :=
  match x with
  | mkRuby f => hash_ruby hash f
  | mkLine f => hash_line hash f
  | @mkCont c f => hash_cont hash c f
  | mkSentence f => hash_sentence hash f
  | mkColumn f => hash_column hash f
  | mkTable f => hash_table hash f
  | mkTableRow f => hash_table_row hash f
  | mkTableColumn f => hash_table_column hash f
  | mkRemarks f => hash_remarks hash f
  | @mkCStruct s f => hash_cstruct hash s f
  | mkFigStruct f => hash_fig_struct hash f
  | mkTableStruct f => hash_table_struct hash f
  | @mkList l f => hash_list hash l f
  | mkClass f => hash_class hash f
  | @mkItem l f => hash_item hash l f
  | mkParagraph f => hash_paragraph hash f
  | mkArticle f => hash_article hash f
  | mkPart f => hash_head hash (hash_pc hash) f
  | mkChapter f => hash_head hash (hash_chc hash) f
  | mkSection f => hash_head hash (hash_sec hash) f
  | mkSubsection f => hash_head hash (hash_suc hash) f
  | mkDivision f => hash_head hash (hash KArticle) f
  | mkAmend f => hash_amend hash f
  | mkLawTitle f => hash_law_title hash f
  | mkPreamble f => hash_preamble hash f
  | mkMain f => hash_main hash f
  | mkSuppl f => hash_suppl hash f
  | mkSupplTable f => hash_suppl_ts hash (hash KTableStruct) f
  | mkSupplStyle f => hash_suppl_ts hash (hash (KCStruct SStyle)) f
  | mkSupplAppdx f => hash_suppl_appdx hash f
  | mkAppdxTable f => hash_appdx_t hash (hash_at hash) f
  | mkAppdxNote f => hash_appdx_t hash (hash_an hash) f
  | mkAppdxStyle f => hash_appdx_t hash (hash (KCStruct SStyle)) f
  | mkAppdxFormat f => hash_appdx_t hash (hash (KCStruct SFormat)) f
  | mkAppdx f => hash_appdx hash f
  | mkAppdxFig f => hash_appdx_fig hash f
  | mkTOC f => hash_toc hash f
  | mkTOCPart f => hash_toc_head hash (hash KTOCChapter) f
  | mkTOCChapter f => hash_toc_head hash (hash KTOCSection) f
  | mkTOCSection f => hash_toc_head hash (hash_tsc hash) f
  | mkTOCSubsection f => hash_toc_head hash (hash KTOCDivision) f
  | mkTOCDivision f => hash_toc_division hash f
  | mkTOCArticle f => hash_toc_article hash f
  | mkTOCSuppl f => hash_toc_suppl hash f
  | mkLawBody f => hash_law_body hash f
  end.

(** /repo/src/law.rs 24-46. *)
Definition hash_law (l : Law) : stream :=
  hash_era (law_era l) ++ hash_usize (law_year l) ++ hash_opt hash_AN (law_no l)
  ++ hash_opt hash_usize (law_promulgate_month l) ++ hash_opt hash_usize (law_promulgate_day l)
  ++ hash_law_type (law_type l) ++ hash_lang (law_lang l) ++ hash_str (law_num l) ++ hash KLawBody (law_body l).

(** /repo/src/utils.rs 25-32, 916-924. *)
Definition hash_wna (a : WithNumberArticle) : stream :=
  hash_opt hash_AN (wn_part a) ++ hash_opt hash_AN (wn_chapter a) ++ hash_opt hash_AN (wn_section a)
  ++ hash_opt hash_AN (wn_subsection a) ++ hash_opt hash_AN (wn_division a) ++ hash KArticle (wn_article a).
Definition hash_toc_row (a : Toc) : stream :=
  hash_opt hash_AN (toc_part a) ++ hash_opt hash_AN (toc_chapter a) ++ hash_opt hash_AN (toc_section a)
  ++ hash_opt hash_AN (toc_subsection a) ++ hash_opt hash_AN (toc_division a) ++ hash_opt hash_AN (toc_article a)
  ++ hash_opt hash_str (toc_title a).
