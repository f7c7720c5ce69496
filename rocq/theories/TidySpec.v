(** Specification of what writing a law as XML text and reading it back does to its texts.

    XML text has no way to tell two neighbouring pieces of text from one, nor to tell text made only
    of blanks from indentation.  [tidy] makes of a law the one that has the same XML text:
    neighbouring pieces of text are joined, and pieces that then hold only blanks are left
    out.  It is a table over the structure of a law and knows nothing of readers and writers. *)
From Coq Require Import String Ascii List NArith Bool.
From Verif Require Import Base NumStr Xml Ast.
Import ListNotations.
Open Scope string_scope.
Open Scope list_scope.

(** Blanks of XML: space, tab, line feed, carriage return. *)
Definition blank_char (c : ascii) : bool :=
  existsb (Ascii.eqb c) ["032"; "009"; "010"; "013"]%char.
Fixpoint blank (s : string) : bool :=
  match s with EmptyString => true | String c r => blank_char c && blank r end.
Definition strip (s : string) : string := if blank s then "" else s.

(** Joining the neighbouring texts of a list: [text_in x] is the text when [x] is a piece of text,
    [as_piece s] the piece of text [s], [acc] the text met so far. *)
Section Join.
Context {X : Type} (text_in : X -> option string) (as_piece : string -> X).
Definition flush (acc : string) : list X := if blank acc then [] else [as_piece acc].
Fixpoint join_from (acc : string) (l : list X) : list X :=
  match l with
  | [] => flush acc
  | x :: r =>
      match text_in x with
      | Some s => join_from (acc ++ s) r
      | None => flush acc ++ x :: join_from "" r
      end
  end.
Definition join (l : list X) : list X := join_from "" l.
End Join.

(** The tree that remains of an element tree in its XML text. *)
Definition node_text_in (x : XMLNode) : option string :=
  match x with NText s => Some s | _ => None end.
Fixpoint coalesce (e : Element) : Element :=
  let 'mkElement n a c := e in
  mkElement n a
    (join node_text_in NText
      (map (fun x => match x with NElement d => NElement (coalesce d) | y => y end) c)).

(** The same tree up to the order of the attributes. *)
Inductive same : Element -> Element -> Prop :=
| same_element n a a' c c' :
    (forall x, assoc x a = assoc x a') -> Forall2 same_node c c' ->
    same (mkElement n a c) (mkElement n a' c')
with same_node : XMLNode -> XMLNode -> Prop :=
| same_child e e' : same e e' -> same_node (NElement e) (NElement e')
| same_text s : same_node (NText s) (NText s)
| same_other s : same_node (NOther s) (NOther s).

(** ** The same on the structure of a law *)
Section Tidy.
Context {K : kind -> Type} (t : forall k, K k -> K k).

Definition te_in (x : TextElement K) : option string :=
  match x with TE_Text s => Some s | _ => None end.
Definition t_te (x : TextElement K) : TextElement K :=
  match x with
  | TE_Ruby r => TE_Ruby (t KRuby r)
  | TE_Line l => TE_Line (t KLine l)
  | TE_Sup s => TE_Sup (strip s)
  | TE_Sub s => TE_Sub (strip s)
  | TE_Text s => TE_Text s
  end.
Definition t_text (x : Text K) : Text K := join te_in (@TE_Text K) (map t_te x).
Definition t_twm (x : TextWithWritingMode K) : TextWithWritingMode K :=
  mkTWM (t_text (twm_contents x)) (twm_mode x).
Definition t_caption (c : Caption K) : Caption K := mkCaption (t_text (cap_text c)) (cap_common c).
Definition t_arith (a : ArithFormula K) : ArithFormula K :=
  mkArith (af_num a) (t (KCont CArith) (af_contents a)).

Definition lc_in (x : LineContents K) : option string :=
  match x with LC_String s => Some s | _ => None end.
Definition t_lc (c : LineContents K) : LineContents K :=
  match c with
  | LC_Quote v => LC_Quote (t (KCont CQuote) v)
  | LC_Arith a => LC_Arith (t_arith a)
  | LC_Ruby v => LC_Ruby (t KRuby v)
  | LC_Sup s => LC_Sup (strip s)
  | LC_Sub s => LC_Sub (strip s)
  | LC_String s => LC_String s
  end.

Definition ce_in (x : ContentsElement K) : option string :=
  match x with CE_String s => Some s | _ => None end.
Definition t_ce (c : ContentsElement K) : ContentsElement K :=
  match c with
  | CE_Table v => CE_Table (t KTable v)
  | CE_TableStruct v => CE_TableStruct (t KTableStruct v)
  | CE_Fig s => CE_Fig s
  | CE_FigStruct v => CE_FigStruct (t KFigStruct v)
  | CE_Quote v => CE_Quote (t (KCont CQuote) v)
  | CE_NoteStruct v => CE_NoteStruct (t (KCStruct SNote) v)
  | CE_StyleStruct v => CE_StyleStruct (t (KCStruct SStyle) v)
  | CE_AppdxTable v => CE_AppdxTable (t KAppdxTable v)
  | CE_Ruby v => CE_Ruby (t KRuby v)
  | CE_Line v => CE_Line (t KLine v)
  | CE_Sup s => CE_Sup (strip s)
  | CE_Sub s => CE_Sub (strip s)
  | CE_String s => CE_String s
  | CE_Paragraph v => CE_Paragraph (t KParagraph v)
  | CE_Item l v => CE_Item l (t (KItem l) v)
  | CE_List v => CE_List (t (KList List0) v)
  | CE_Sentence v => CE_Sentence (t KSentence v)
  | CE_Arith a => CE_Arith (t_arith a)
  | CE_Remarks v => CE_Remarks (t KRemarks v)
  | CE_TOC v => CE_TOC (t KTOC v)
  | CE_TOCSection v => CE_TOCSection (t KTOCSection v)
  | CE_TableRow v => CE_TableRow (t KTableRow v)
  end.

Definition se_in (x : SentenceElement K) : option string :=
  match x with SE_String s => Some s | _ => None end.
Definition t_se (c : SentenceElement K) : SentenceElement K :=
  match c with
  | SE_Line v => SE_Line (t KLine v)
  | SE_Quote v => SE_Quote (t (KCont CQuote) v)
  | SE_Arith a => SE_Arith (t_arith a)
  | SE_Ruby v => SE_Ruby (t KRuby v)
  | SE_Sup s => SE_Sup (strip s)
  | SE_Sub s => SE_Sub (strip s)
  | SE_String s => SE_String s
  end.

Definition t_sct (s : SentenceOrColumnOrTable K) : SentenceOrColumnOrTable K :=
  match s with
  | SCT_Sentence l => SCT_Sentence (map (t KSentence) l)
  | SCT_Column l => SCT_Column (map (t KColumn) l)
  | SCT_Table v => SCT_Table (t KTable v)
  end.

Definition tc_in (x : TableColumnContents K) : option string :=
  match x with TC_String s => Some s | _ => None end.
Definition t_tc (c : TableColumnContents K) : TableColumnContents K :=
  match c with
  | TC_Part v => TC_Part (t KPart v)
  | TC_Chapter v => TC_Chapter (t KChapter v)
  | TC_Section v => TC_Section (t KSection v)
  | TC_Subsection v => TC_Subsection (t KSubsection v)
  | TC_Division v => TC_Division (t KDivision v)
  | TC_Article v => TC_Article (t KArticle v)
  | TC_Paragraph v => TC_Paragraph (t KParagraph v)
  | TC_Item l v => TC_Item l (t (KItem l) v)
  | TC_FigStruct v => TC_FigStruct (t KFigStruct v)
  | TC_Remarks v => TC_Remarks (t KRemarks v)
  | TC_Sentence v => TC_Sentence (t KSentence v)
  | TC_Column v => TC_Column (t KColumn v)
  | TC_String s => TC_String s
  end.

Definition t_rc (c : RemarksContents K) : RemarksContents K :=
  match c with
  | RC_Item v => RC_Item (t (KItem Item0) v)
  | RC_Sentence v => RC_Sentence (t KSentence v)
  end.

Definition t_struct {T B} (tt : T -> T) (tb : B -> B) (s : StructF K T B) : StructF K T B :=
  mkStructF (option_map tt (st_title s)) (map (t KRemarks) (st_title_remarks s)) (tb (st_body s))
    (map (t KRemarks) (st_remarks s)).

Definition t_any_struct (s : Struct K) : Struct K :=
  match s with
  | Struct_Table v => Struct_Table (t KTableStruct v)
  | Struct_Fig v => Struct_Fig (t KFigStruct v)
  | Struct_Style v => Struct_Style (t (KCStruct SStyle) v)
  | Struct_List v => Struct_List (t (KList List0) v)
  end.

Definition t_ls (s : ListSentence K) : ListSentence K :=
  match s with
  | LS_Sentence v => LS_Sentence (t KSentence v)
  | LS_Column v => LS_Column (t KColumn v)
  end.

Definition t_head {C} (tc : C -> C) (h : HeadF K C) : HeadF K C :=
  mkHeadF (t_text (hd_title h)) (map tc (hd_children h)) (hd_num h) (hd_delete h) (hd_hide h).

Definition t_pc (c : PartContents K) : PartContents K :=
  match c with
  | PC_Article v => PC_Article (t KArticle v)
  | PC_Chapter v => PC_Chapter (t KChapter v)
  end.
Definition t_chc (c : ChapterContents K) : ChapterContents K :=
  match c with
  | ChC_Article v => ChC_Article (t KArticle v)
  | ChC_Section v => ChC_Section (t KSection v)
  end.
Definition t_sec (c : SectionContents K) : SectionContents K :=
  match c with
  | SeC_Article v => SeC_Article (t KArticle v)
  | SeC_Subsection v => SeC_Subsection (t KSubsection v)
  | SeC_Division v => SeC_Division (t KDivision v)
  end.
Definition t_suc (c : SubsectionContents K) : SubsectionContents K :=
  match c with
  | SuC_Article v => SuC_Article (t KArticle v)
  | SuC_Division v => SuC_Division (t KDivision v)
  end.

Definition t_np (c : NewProvision K) : NewProvision K :=
  match c with
  | NP_LawTitle v => NP_LawTitle (t KLawTitle v)
  | NP_Preamble v => NP_Preamble (t KPreamble v)
  | NP_TOC v => NP_TOC (t KTOC v)
  | NP_Part v => NP_Part (t KPart v)
  | NP_PartTitle x => NP_PartTitle (t_text x)
  | NP_Chapter v => NP_Chapter (t KChapter v)
  | NP_ChapterTitle x => NP_ChapterTitle (t_text x)
  | NP_Section v => NP_Section (t KSection v)
  | NP_SectionTitle x => NP_SectionTitle (t_text x)
  | NP_Subsection v => NP_Subsection (t KSubsection v)
  | NP_SubsectionTitle x => NP_SubsectionTitle (t_text x)
  | NP_Division v => NP_Division (t KDivision v)
  | NP_DivisionTitle x => NP_DivisionTitle (t_text x)
  | NP_Article v => NP_Article (t KArticle v)
  | NP_SupplNote x => NP_SupplNote (t_text x)
  | NP_Paragraph v => NP_Paragraph (t KParagraph v)
  | NP_Item l v => NP_Item l (t (KItem l) v)
  | NP_List v => NP_List (t (KList List0) v)
  | NP_Sentence v => NP_Sentence (t KSentence v)
  | NP_Amend v => NP_Amend (t KAmend v)
  | NP_AppdxTable v => NP_AppdxTable (t KAppdxTable v)
  | NP_AppdxNote v => NP_AppdxNote (t KAppdxNote v)
  | NP_AppdxStyle v => NP_AppdxStyle (t KAppdxStyle v)
  | NP_Appdx v => NP_Appdx (t KAppdx v)
  | NP_AppdxFig v => NP_AppdxFig (t KAppdxFig v)
  | NP_AppdxFormat v => NP_AppdxFormat (t KAppdxFormat v)
  | NP_SupplStyle v => NP_SupplStyle (t KSupplStyle v)
  | NP_SupplTable v => NP_SupplTable (t KSupplTable v)
  | NP_SupplAppdx v => NP_SupplAppdx (t KSupplAppdx v)
  | NP_TableStruct v => NP_TableStruct (t KTableStruct v)
  | NP_TableRow v => NP_TableRow (t KTableRow v)
  | NP_TableColumn v => NP_TableColumn (t KTableColumn v)
  | NP_FigStruct v => NP_FigStruct (t KFigStruct v)
  | NP_CStruct s v => NP_CStruct s (t (KCStruct s) v)
  | NP_Remarks v => NP_Remarks (t KRemarks v)
  | NP_LawBody v => NP_LawBody (t KLawBody v)
  end.

Definition t_mc (c : MainContents K) : MainContents K :=
  match c with
  | MC_Part v => MC_Part (t KPart v)
  | MC_Chapter v => MC_Chapter (t KChapter v)
  | MC_Section v => MC_Section (t KSection v)
  | MC_Article v => MC_Article (t KArticle v)
  | MC_Paragraph v => MC_Paragraph (t KParagraph v)
  end.

Definition t_sp (c : SupplContents K) : SupplContents K :=
  match c with
  | SP_Chapter v => SP_Chapter (t KChapter v)
  | SP_Article v => SP_Article (t KArticle v)
  | SP_Paragraph v => SP_Paragraph (t KParagraph v)
  | SP_Table v => SP_Table (t KSupplTable v)
  | SP_Style v => SP_Style (t KSupplStyle v)
  | SP_Appdx v => SP_Appdx (t KSupplAppdx v)
  end.

Definition t_sts {C} (tc : C -> C) (s : SupplTSF K C) : SupplTSF K C :=
  mkSupplTSF (t_twm (sts_title s)) (option_map t_text (sts_related s)) (map tc (sts_children s))
    (sts_num s).

Definition t_appdx_t {C} (tc : C -> C) (a : AppdxTF K C) : AppdxTF K C :=
  mkAppdxTF (option_map t_twm (ax_title a)) (option_map t_text (ax_related a))
    (map tc (ax_children a)) (option_map (t KRemarks) (ax_remarks a)) (ax_num a).

Definition t_at (c : AppdxTableContents K) : AppdxTableContents K :=
  match c with
  | AT_TableStruct v => AT_TableStruct (t KTableStruct v)
  | AT_Item v => AT_Item (t (KItem Item0) v)
  end.
Definition t_an (c : AppdxNoteContents K) : AppdxNoteContents K :=
  match c with
  | AN_NoteStruct v => AN_NoteStruct (t (KCStruct SNote) v)
  | AN_FigStruct v => AN_FigStruct (t KFigStruct v)
  | AN_TableStruct v => AN_TableStruct (t KTableStruct v)
  end.
Definition t_af (c : AppdxFigContents K) : AppdxFigContents K :=
  match c with
  | AF_FigStruct v => AF_FigStruct (t KFigStruct v)
  | AF_TableStruct v => AF_TableStruct (t KTableStruct v)
  end.

Definition t_toc_head {C} (tc : C -> C) (h : TOCHeadF K C) : TOCHeadF K C :=
  mkTOCHeadF (t_text (th_title h)) (option_map t_text (th_range h)) (th_num h) (th_delete h)
    (map tc (th_children h)).
Definition t_tsc (c : TOCSectionContents K) : TOCSectionContents K :=
  match c with
  | TSC_Subsection v => TSC_Subsection (t KTOCSubsection v)
  | TSC_Division v => TSC_Division (t KTOCDivision v)
  end.
Definition t_tsp (c : TOCSupplContents K) : TOCSupplContents K :=
  match c with
  | TSP_Article v => TSP_Article (t KTOCArticle v)
  | TSP_Chapter v => TSP_Chapter (t KTOCChapter v)
  end.
Definition t_tm (c : TOCMainContents K) : TOCMainContents K :=
  match c with
  | TM_Part v => TM_Part (t KTOCPart v)
  | TM_Chapter v => TM_Chapter (t KTOCChapter v)
  | TM_Section v => TM_Section (t KTOCSection v)
  | TM_Article v => TM_Article (t KTOCArticle v)
  end.

Definition tstep (k : kind) : F K k -> F K k :=
  match k return F K k -> F K k with
  | KVoid => fun f => f
  | KRuby => fun f => mkRubyF (t_text (ruby_text f)) (strip (ruby_ruby f))
  | KLine => fun f =>
      mkLineF (join lc_in (@LC_String K) (map t_lc (line_contents f))) (line_style f)
  | KCont _ => fun f => join ce_in (@CE_String K) (map t_ce f)
  | KSentence => fun f =>
      mkSentenceF (join se_in (@SE_String K) (map t_se (sen_contents f)))
        (sen_num f) (sen_function f) (sen_indent f) (sen_mode f)
  | KColumn => fun f =>
      mkColumnF (map (t KSentence) (col_sentence f)) (col_num f) (col_line_break f) (col_align f)
  | KTable => fun f =>
      mkTableF (map (map t_text) (tb_header f)) (map (t KTableRow) (tb_row f)) (tb_mode f)
  | KTableRow => fun f => map (t KTableColumn) f
  | KTableColumn => fun f =>
      mkTableColumnF (join tc_in (@TC_String K) (map t_tc (tc_contents f)))
        (tc_border_top f) (tc_border_bottom f) (tc_border_left f) (tc_border_right f)
        (tc_rowspan f) (tc_colspan f) (tc_align f) (tc_valign f)
  | KRemarks => fun f =>
      mkRemarksF (mkRemarksLabel (t_text (rl_text (rem_label f))) (rl_line_break (rem_label f)))
        (map t_rc (rem_children f))
  | KCStruct s => t_struct t_text (t (KCont (body_of s)))
  | KFigStruct => t_struct t_text (fun s => s)
  | KTableStruct => t_struct t_twm (t KTable)
  | KList l => fun f => mkListF (map t_ls (list_sentence f)) (map (t (sub_list l)) (list_children f))
  | KClass => fun f =>
      mkClassF (option_map t_text (class_title f)) (t_sct (class_sentence f))
        (map (t (KItem Item0)) (class_children f)) (class_num f)
  | KItem l => fun f =>
      mkItemF (option_map t_text (it_title f)) (t_sct (it_sentence f))
        (map (t (sub_item l)) (it_children f)) (map t_any_struct (it_struct_list f))
        (it_num f) (it_delete f) (it_hide f)
  | KParagraph => fun f =>
      mkParagraphF (option_map t_caption (par_caption f)) (t_text (par_paragraph_num f))
        (map (t KAmend) (par_amend_provision f)) (map (t KClass) (par_class f))
        (map (t KSentence) (par_sentence f)) (map t_any_struct (par_struct_list f))
        (map (t (KItem Item0)) (par_children f))
        (par_num f) (par_old_style f) (par_old_num f) (par_hide f)
  | KArticle => fun f =>
      mkArticleF (option_map t_caption (art_caption f)) (t_text (art_title f))
        (map (t KParagraph) (art_paragraph f)) (option_map t_text (art_suppl_note f))
        (art_num f) (art_delete f) (art_hide f)
  | KPart => t_head t_pc
  | KChapter => t_head t_chc
  | KSection => t_head t_sec
  | KSubsection => t_head t_suc
  | KDivision => t_head (t KArticle)
  | KAmend => fun f => mkAmendF (option_map (t KSentence) (am_sentence f)) (map t_np (am_new f))
  | KLawTitle => fun f =>
      mkLawTitleF (lt_kana f) (lt_abbrev f) (lt_abbrev_kana f) (t_text (lt_text f))
  | KPreamble => fun f => map (t KParagraph) f
  | KMain => fun f => mkMainF (map t_mc (main_children f)) (main_extract f)
  | KSuppl => fun f =>
      mkSupplF (t_text (sp_label f)) (map t_sp (sp_children f)) (sp_type f) (sp_amend_law_num f)
        (sp_extract f)
  | KSupplTable => t_sts (t KTableStruct)
  | KSupplStyle => t_sts (t (KCStruct SStyle))
  | KSupplAppdx => fun f =>
      mkSupplAppdxF (option_map t_text (sa_arith_formula_num f)) (option_map t_text (sa_related f))
        (map t_arith (sa_arith_formula f)) (sa_num f)
  | KAppdxTable => t_appdx_t t_at
  | KAppdxNote => t_appdx_t t_an
  | KAppdxStyle => t_appdx_t (t (KCStruct SStyle))
  | KAppdxFormat => t_appdx_t (t (KCStruct SFormat))
  | KAppdx => fun f =>
      mkAppdxF (option_map t_text (ap_arith_formula_num f)) (option_map t_text (ap_related f))
        (map t_arith (ap_arith_formula f)) (option_map (t KRemarks) (ap_remarks f))
  | KAppdxFig => fun f =>
      mkAppdxFigF (option_map t_twm (af_title f)) (option_map t_text (af_related f))
        (map t_af (af_children f)) (af_fnum f)
  | KTOC => fun f =>
      mkTOCF (option_map t_text (toc_label f)) (option_map t_text (toc_preamble_label f))
        (map t_tm (toc_main f)) (option_map (t KTOCSuppl) (toc_suppl f))
        (map t_text (toc_appdx_table_label f))
  | KTOCPart => t_toc_head (t KTOCChapter)
  | KTOCChapter => t_toc_head (t KTOCSection)
  | KTOCSection => t_toc_head t_tsc
  | KTOCSubsection => t_toc_head (t KTOCDivision)
  | KTOCDivision => t_toc_head (fun x => x)
  | KTOCArticle => fun f =>
      mkTOCArticleF (t_text (ta_title f)) (t_caption (ta_caption f)) (ta_num f) (ta_delete f)
  | KTOCSuppl => fun f =>
      mkTOCSupplF (t_text (ts_label f)) (option_map t_text (ts_range f)) (map t_tsp (ts_children f))
  | KLawBody => fun f =>
      mkLawBodyF (option_map (t KLawTitle) (lb_law_title f)) (map t_text (lb_enact_statement f))
        (lb_subject f) (option_map (t KTOC) (lb_toc f)) (option_map (t KPreamble) (lb_preamble f))
        (t KMain (lb_main_provision f)) (map (t KSuppl) (lb_suppl_provision f))
        (map (t KAppdxTable) (lb_appdx_table f)) (map (t KAppdxNote) (lb_appdx_note f))
        (map (t KAppdxStyle) (lb_appdx_style f)) (map (t KAppdx) (lb_appdx f))
        (map (t KAppdxFig) (lb_appdx_fig f)) (map (t KAppdxFormat) (lb_appdx_format f))
  end.
End Tidy.

(** The law with the same XML text. *)
Fixpoint tidy (k : kind) (x : Knot k) {struct x} : Knot k :=
  match x with
  | mkRuby f => mk KRuby (tstep tidy KRuby f)
  | mkLine f => mk KLine (tstep tidy KLine f)
  | @mkCont c f => mk (KCont c) (tstep tidy (KCont c) f)
  | mkSentence f => mk KSentence (tstep tidy KSentence f)
  | mkColumn f => mk KColumn (tstep tidy KColumn f)
  | mkTable f => mk KTable (tstep tidy KTable f)
  | mkTableRow f => mk KTableRow (tstep tidy KTableRow f)
  | mkTableColumn f => mk KTableColumn (tstep tidy KTableColumn f)
  | mkRemarks f => mk KRemarks (tstep tidy KRemarks f)
  | @mkCStruct s f => mk (KCStruct s) (tstep tidy (KCStruct s) f)
  | mkFigStruct f => mk KFigStruct (tstep tidy KFigStruct f)
  | mkTableStruct f => mk KTableStruct (tstep tidy KTableStruct f)
  | @mkList l f => mk (KList l) (tstep tidy (KList l) f)
  | mkClass f => mk KClass (tstep tidy KClass f)
  | @mkItem l f => mk (KItem l) (tstep tidy (KItem l) f)
  | mkParagraph f => mk KParagraph (tstep tidy KParagraph f)
  | mkArticle f => mk KArticle (tstep tidy KArticle f)
  | mkPart f => mk KPart (tstep tidy KPart f)
  | mkChapter f => mk KChapter (tstep tidy KChapter f)
  | mkSection f => mk KSection (tstep tidy KSection f)
  | mkSubsection f => mk KSubsection (tstep tidy KSubsection f)
  | mkDivision f => mk KDivision (tstep tidy KDivision f)
  | mkAmend f => mk KAmend (tstep tidy KAmend f)
  | mkLawTitle f => mk KLawTitle (tstep tidy KLawTitle f)
  | mkPreamble f => mk KPreamble (tstep tidy KPreamble f)
  | mkMain f => mk KMain (tstep tidy KMain f)
  | mkSuppl f => mk KSuppl (tstep tidy KSuppl f)
  | mkSupplTable f => mk KSupplTable (tstep tidy KSupplTable f)
  | mkSupplStyle f => mk KSupplStyle (tstep tidy KSupplStyle f)
  | mkSupplAppdx f => mk KSupplAppdx (tstep tidy KSupplAppdx f)
  | mkAppdxTable f => mk KAppdxTable (tstep tidy KAppdxTable f)
  | mkAppdxNote f => mk KAppdxNote (tstep tidy KAppdxNote f)
  | mkAppdxStyle f => mk KAppdxStyle (tstep tidy KAppdxStyle f)
  | mkAppdxFormat f => mk KAppdxFormat (tstep tidy KAppdxFormat f)
  | mkAppdx f => mk KAppdx (tstep tidy KAppdx f)
  | mkAppdxFig f => mk KAppdxFig (tstep tidy KAppdxFig f)
  | mkTOC f => mk KTOC (tstep tidy KTOC f)
  | mkTOCPart f => mk KTOCPart (tstep tidy KTOCPart f)
  | mkTOCChapter f => mk KTOCChapter (tstep tidy KTOCChapter f)
  | mkTOCSection f => mk KTOCSection (tstep tidy KTOCSection f)
  | mkTOCSubsection f => mk KTOCSubsection (tstep tidy KTOCSubsection f)
  | mkTOCDivision f => mk KTOCDivision (tstep tidy KTOCDivision f)
  | mkTOCArticle f => mk KTOCArticle (tstep tidy KTOCArticle f)
  | mkTOCSuppl f => mk KTOCSuppl (tstep tidy KTOCSuppl f)
  | mkLawBody f => mk KLawBody (tstep tidy KLawBody f)
  end.

Definition tidy_law (l : Law) : Law :=
  mkLaw (law_era l) (law_year l) (law_no l) (law_promulgate_month l) (law_promulgate_day l)
    (law_type l) (law_lang l) (strip (law_num l)) (tidy KLawBody (law_body l)).
