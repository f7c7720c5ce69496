(** Specification of the laws that survive being written and read back.

    Independent of the reader and the writer: it only talks about the structure of a law.
    A law survives when each of its parts satisfies the local condition [storable]; the
    theorems of [PropertiesXml.v] show that this is exact. *)
From Coq Require Import String List NArith Bool.
From Verif Require Import Base NumStr NumStrSpec Ast.
Import ListNotations.
Open Scope list_scope.

(** ** Direct parts of a structure *)
Section Collect.
Context {K : kind -> Type} {L : Type}.
Context (g : forall k, K k -> L).

Definition c_opt {X} (f : X -> list L) (o : option X) : list L :=
  match o with Some x => f x | None => [] end.

Definition c_te (t : TextElement K) : list L :=
  match t with
  | TE_Ruby r => [g KRuby r]
  | TE_Line l => [g KLine l]
  | TE_Sup _ | TE_Sub _ | TE_Text _ => []
  end.
Definition c_text (t : Text K) : list L := flat_map c_te t.
Definition c_twm (t : TextWithWritingMode K) : list L := flat_map c_te (twm_contents t).
Definition c_caption (c : Caption K) : list L := c_text (cap_text c).
Definition c_arith (a : ArithFormula K) : list L := [g (KCont CArith) (af_contents a)].

Definition c_line (c : LineContents K) : list L :=
  match c with
  | LC_Quote v => [g (KCont CQuote) v]
  | LC_Arith a => c_arith a
  | LC_Ruby v => [g KRuby v]
  | LC_Sup _ | LC_Sub _ | LC_String _ => []
  end.

Definition c_ce (c : ContentsElement K) : list L :=
  match c with
  | CE_Table v => [g KTable v]
  | CE_TableStruct v => [g KTableStruct v]
  | CE_Fig _ => []
  | CE_FigStruct v => [g KFigStruct v]
  | CE_Quote v => [g (KCont CQuote) v]
  | CE_NoteStruct v => [g (KCStruct SNote) v]
  | CE_StyleStruct v => [g (KCStruct SStyle) v]
  | CE_AppdxTable v => [g KAppdxTable v]
  | CE_Ruby v => [g KRuby v]
  | CE_Line v => [g KLine v]
  | CE_Sup _ | CE_Sub _ | CE_String _ => []
  | CE_Paragraph v => [g KParagraph v]
  | CE_Item l v => [g (KItem l) v]
  | CE_List v => [g (KList List0) v]
  | CE_Sentence v => [g KSentence v]
  | CE_Arith a => c_arith a
  | CE_Remarks v => [g KRemarks v]
  | CE_TOC v => [g KTOC v]
  | CE_TOCSection v => [g KTOCSection v]
  | CE_TableRow v => [g KTableRow v]
  end.

Definition c_se (c : SentenceElement K) : list L :=
  match c with
  | SE_Line v => [g KLine v]
  | SE_Quote v => [g (KCont CQuote) v]
  | SE_Arith a => c_arith a
  | SE_Ruby v => [g KRuby v]
  | SE_Sup _ | SE_Sub _ | SE_String _ => []
  end.

Definition c_sct (s : SentenceOrColumnOrTable K) : list L :=
  match s with
  | SCT_Sentence l => map (g KSentence) l
  | SCT_Column l => map (g KColumn) l
  | SCT_Table t => [g KTable t]
  end.

Definition c_tc (c : TableColumnContents K) : list L :=
  match c with
  | TC_Part v => [g KPart v]
  | TC_Chapter v => [g KChapter v]
  | TC_Section v => [g KSection v]
  | TC_Subsection v => [g KSubsection v]
  | TC_Division v => [g KDivision v]
  | TC_Article v => [g KArticle v]
  | TC_Paragraph v => [g KParagraph v]
  | TC_Item l v => [g (KItem l) v]
  | TC_FigStruct v => [g KFigStruct v]
  | TC_Remarks v => [g KRemarks v]
  | TC_Sentence v => [g KSentence v]
  | TC_Column v => [g KColumn v]
  | TC_String _ => []
  end.

Definition c_rc (c : RemarksContents K) : list L :=
  match c with RC_Item v => [g (KItem Item0) v] | RC_Sentence v => [g KSentence v] end.

Definition c_struct {T B} (ct : T -> list L) (cb : B -> list L) (s : StructF K T B) : list L :=
  c_opt ct (st_title s) ++ map (g KRemarks) (st_title_remarks s) ++ cb (st_body s)
  ++ map (g KRemarks) (st_remarks s).

Definition c_any_struct (s : Struct K) : list L :=
  match s with
  | Struct_Table v => [g KTableStruct v]
  | Struct_Fig v => [g KFigStruct v]
  | Struct_Style v => [g (KCStruct SStyle) v]
  | Struct_List v => [g (KList List0) v]
  end.

Definition c_ls (s : ListSentence K) : list L :=
  match s with LS_Sentence v => [g KSentence v] | LS_Column v => [g KColumn v] end.

Definition c_head {C} (cc : C -> list L) (h : HeadF K C) : list L :=
  c_text (hd_title h) ++ flat_map cc (hd_children h).

Definition c_pc (c : PartContents K) : list L :=
  match c with PC_Article v => [g KArticle v] | PC_Chapter v => [g KChapter v] end.
Definition c_chc (c : ChapterContents K) : list L :=
  match c with ChC_Article v => [g KArticle v] | ChC_Section v => [g KSection v] end.
Definition c_sec (c : SectionContents K) : list L :=
  match c with
  | SeC_Article v => [g KArticle v]
  | SeC_Subsection v => [g KSubsection v]
  | SeC_Division v => [g KDivision v]
  end.
Definition c_suc (c : SubsectionContents K) : list L :=
  match c with SuC_Article v => [g KArticle v] | SuC_Division v => [g KDivision v] end.

Definition c_np (c : NewProvision K) : list L :=
  match c with
  | NP_LawTitle v => [g KLawTitle v]
  | NP_Preamble v => [g KPreamble v]
  | NP_TOC v => [g KTOC v]
  | NP_Part v => [g KPart v]
  | NP_PartTitle t => c_text t
  | NP_Chapter v => [g KChapter v]
  | NP_ChapterTitle t => c_text t
  | NP_Section v => [g KSection v]
  | NP_SectionTitle t => c_text t
  | NP_Subsection v => [g KSubsection v]
  | NP_SubsectionTitle t => c_text t
  | NP_Division v => [g KDivision v]
  | NP_DivisionTitle t => c_text t
  | NP_Article v => [g KArticle v]
  | NP_SupplNote t => c_text t
  | NP_Paragraph v => [g KParagraph v]
  | NP_Item l v => [g (KItem l) v]
  | NP_List v => [g (KList List0) v]
  | NP_Sentence v => [g KSentence v]
  | NP_Amend v => [g KAmend v]
  | NP_AppdxTable v => [g KAppdxTable v]
  | NP_AppdxNote v => [g KAppdxNote v]
  | NP_AppdxStyle v => [g KAppdxStyle v]
  | NP_Appdx v => [g KAppdx v]
  | NP_AppdxFig v => [g KAppdxFig v]
  | NP_AppdxFormat v => [g KAppdxFormat v]
  | NP_SupplStyle v => [g KSupplStyle v]
  | NP_SupplTable v => [g KSupplTable v]
  | NP_SupplAppdx v => [g KSupplAppdx v]
  | NP_TableStruct v => [g KTableStruct v]
  | NP_TableRow v => [g KTableRow v]
  | NP_TableColumn v => [g KTableColumn v]
  | NP_FigStruct v => [g KFigStruct v]
  | NP_CStruct s v => [g (KCStruct s) v]
  | NP_Remarks v => [g KRemarks v]
  | NP_LawBody v => [g KLawBody v]
  end.

Definition c_mc (c : MainContents K) : list L :=
  match c with
  | MC_Part v => [g KPart v]
  | MC_Chapter v => [g KChapter v]
  | MC_Section v => [g KSection v]
  | MC_Article v => [g KArticle v]
  | MC_Paragraph v => [g KParagraph v]
  end.

Definition c_sp (c : SupplContents K) : list L :=
  match c with
  | SP_Chapter v => [g KChapter v]
  | SP_Article v => [g KArticle v]
  | SP_Paragraph v => [g KParagraph v]
  | SP_Table v => [g KSupplTable v]
  | SP_Style v => [g KSupplStyle v]
  | SP_Appdx v => [g KSupplAppdx v]
  end.

Definition c_sts {C} (cc : C -> list L) (s : SupplTSF K C) : list L :=
  c_twm (sts_title s) ++ c_opt c_text (sts_related s) ++ flat_map cc (sts_children s).

Definition c_appdx_t {C} (cc : C -> list L) (a : AppdxTF K C) : list L :=
  c_opt c_twm (ax_title a) ++ c_opt c_text (ax_related a) ++ flat_map cc (ax_children a)
  ++ c_opt (fun v => [g KRemarks v]) (ax_remarks a).

Definition c_at (c : AppdxTableContents K) : list L :=
  match c with AT_TableStruct v => [g KTableStruct v] | AT_Item v => [g (KItem Item0) v] end.
Definition c_an (c : AppdxNoteContents K) : list L :=
  match c with
  | AN_NoteStruct v => [g (KCStruct SNote) v]
  | AN_FigStruct v => [g KFigStruct v]
  | AN_TableStruct v => [g KTableStruct v]
  end.
Definition c_af (c : AppdxFigContents K) : list L :=
  match c with AF_FigStruct v => [g KFigStruct v] | AF_TableStruct v => [g KTableStruct v] end.

Definition c_toc_head {C} (cc : C -> list L) (h : TOCHeadF K C) : list L :=
  c_text (th_title h) ++ c_opt c_text (th_range h) ++ flat_map cc (th_children h).
Definition c_tsc (c : TOCSectionContents K) : list L :=
  match c with
  | TSC_Subsection v => [g KTOCSubsection v]
  | TSC_Division v => [g KTOCDivision v]
  end.
Definition c_tsp (c : TOCSupplContents K) : list L :=
  match c with TSP_Article v => [g KTOCArticle v] | TSP_Chapter v => [g KTOCChapter v] end.
Definition c_tm (c : TOCMainContents K) : list L :=
  match c with
  | TM_Part v => [g KTOCPart v]
  | TM_Chapter v => [g KTOCChapter v]
  | TM_Section v => [g KTOCSection v]
  | TM_Article v => [g KTOCArticle v]
  end.

(** [g] applied to every direct part of a structure, in the order of its fields. *)
Definition collect (k : kind) : F K k -> list L :=
  match k return F K k -> list L with
  | KVoid => fun _ => []
  | KRuby => fun f => c_text (ruby_text f)
  | KLine => fun f => flat_map c_line (line_contents f)
  | KCont _ => fun f => flat_map c_ce f
  | KSentence => fun f => flat_map c_se (sen_contents f)
  | KColumn => fun f => map (g KSentence) (col_sentence f)
  | KTable => fun f =>
      flat_map (fun r : TableHeaderRow K => flat_map c_text r) (tb_header f)
      ++ map (g KTableRow) (tb_row f)
  | KTableRow => fun f => map (g KTableColumn) f
  | KTableColumn => fun f => flat_map c_tc (tc_contents f)
  | KRemarks => fun f => c_text (rl_text (rem_label f)) ++ flat_map c_rc (rem_children f)
  | KCStruct s => c_struct c_text (fun b => [g (KCont (body_of s)) b])
  | KFigStruct => c_struct c_text (fun _ => [])
  | KTableStruct => c_struct c_twm (fun b => [g KTable b])
  | KList l => fun f =>
      flat_map c_ls (list_sentence f) ++ map (g (sub_list l)) (list_children f)
  | KClass => fun f =>
      c_opt c_text (class_title f) ++ c_sct (class_sentence f)
      ++ map (g (KItem Item0)) (class_children f)
  | KItem l => fun f =>
      c_opt c_text (it_title f) ++ c_sct (it_sentence f)
      ++ map (g (sub_item l)) (it_children f) ++ flat_map c_any_struct (it_struct_list f)
  | KParagraph => fun f =>
      c_opt c_caption (par_caption f) ++ c_text (par_paragraph_num f)
      ++ map (g KSentence) (par_sentence f) ++ map (g KAmend) (par_amend_provision f)
      ++ map (g KClass) (par_class f) ++ flat_map c_any_struct (par_struct_list f)
      ++ map (g (KItem Item0)) (par_children f)
  | KArticle => fun f =>
      c_opt c_caption (art_caption f) ++ c_text (art_title f)
      ++ map (g KParagraph) (art_paragraph f) ++ c_opt c_text (art_suppl_note f)
  | KPart => c_head c_pc
  | KChapter => c_head c_chc
  | KSection => c_head c_sec
  | KSubsection => c_head c_suc
  | KDivision => c_head (fun v => [g KArticle v])
  | KAmend => fun f =>
      c_opt (fun v => [g KSentence v]) (am_sentence f) ++ flat_map c_np (am_new f)
  | KLawTitle => fun f => c_text (lt_text f)
  | KPreamble => fun f => map (g KParagraph) f
  | KMain => fun f => flat_map c_mc (main_children f)
  | KSuppl => fun f => c_text (sp_label f) ++ flat_map c_sp (sp_children f)
  | KSupplTable => c_sts (fun v => [g KTableStruct v])
  | KSupplStyle => c_sts (fun v => [g (KCStruct SStyle) v])
  | KSupplAppdx => fun f =>
      c_opt c_text (sa_arith_formula_num f) ++ c_opt c_text (sa_related f)
      ++ flat_map c_arith (sa_arith_formula f)
  | KAppdxTable => c_appdx_t c_at
  | KAppdxNote => c_appdx_t c_an
  | KAppdxStyle => c_appdx_t (fun v => [g (KCStruct SStyle) v])
  | KAppdxFormat => c_appdx_t (fun v => [g (KCStruct SFormat) v])
  | KAppdx => fun f =>
      c_opt c_text (ap_arith_formula_num f) ++ c_opt c_text (ap_related f)
      ++ flat_map c_arith (ap_arith_formula f) ++ c_opt (fun v => [g KRemarks v]) (ap_remarks f)
  | KAppdxFig => fun f =>
      c_opt c_twm (af_title f) ++ c_opt c_text (af_related f) ++ flat_map c_af (af_children f)
  | KTOC => fun f =>
      c_opt c_text (toc_label f) ++ c_opt c_text (toc_preamble_label f)
      ++ flat_map c_tm (toc_main f) ++ c_opt (fun v => [g KTOCSuppl v]) (toc_suppl f)
      ++ flat_map c_text (toc_appdx_table_label f)
  | KTOCPart => c_toc_head (fun v => [g KTOCChapter v])
  | KTOCChapter => c_toc_head (fun v => [g KTOCSection v])
  | KTOCSection => c_toc_head c_tsc
  | KTOCSubsection => c_toc_head (fun v => [g KTOCDivision v])
  | KTOCDivision => c_toc_head (fun _ => [])
  | KTOCArticle => fun f => c_text (ta_title f) ++ c_caption (ta_caption f)
  | KTOCSuppl => fun f =>
      c_text (ts_label f) ++ c_opt c_text (ts_range f) ++ flat_map c_tsp (ts_children f)
  | KLawBody => fun f =>
      c_opt (fun v => [g KLawTitle v]) (lb_law_title f)
      ++ flat_map c_text (lb_enact_statement f)
      ++ c_opt (fun v => [g KTOC v]) (lb_toc f)
      ++ c_opt (fun v => [g KPreamble v]) (lb_preamble f)
      ++ [g KMain (lb_main_provision f)]
      ++ map (g KSuppl) (lb_suppl_provision f)
      ++ map (g KAppdxTable) (lb_appdx_table f)
      ++ map (g KAppdxNote) (lb_appdx_note f)
      ++ map (g KAppdxStyle) (lb_appdx_style f)
      ++ map (g KAppdx) (lb_appdx f)
      ++ map (g KAppdxFig) (lb_appdx_fig f)
      ++ map (g KAppdxFormat) (lb_appdx_format f)
  end.
End Collect.

(** A part of a law: a structure of some kind. *)
Definition Node := {k : kind & Knot k}.
Definition node (k : kind) (x : Knot k) : Node := existT Knot k x.

(** The direct parts of a structure. *)
Definition kids (k : kind) (f : F Knot k) : list Node := collect node k f.

(** [y] is the structure [x] itself or occurs somewhere inside it. *)
Inductive part_of (y : Node) : Node -> Prop :=
| part_self : part_of y y
| part_kid k (x : Knot k) z :
    In z (kids k (un k x)) -> part_of y z -> part_of y (node k x).

(** ** What can be stored *)
Section Storable.
Context {K : kind -> Type}.

(** A machine integer, when present. *)
Definition usize_opt (o : option N) : bool :=
  match o with Some n => is_usize n | None => true end.

Definition is_none {X} (o : option X) : bool := match o with None => true | Some _ => false end.
Definition is_nil {X} (l : list X) : bool := match l with [] => true | _ => false end.

Definition no_formula_num (a : ArithFormula K) : bool := is_none (af_num a).
Definition not_double (s : LineStyle) : bool := match s with LDouble => false | _ => true end.
Definition plain_text (t : TextElement K) : bool := match t with TE_Text _ => true | _ => false end.
Definition sct_full (s : SentenceOrColumnOrTable K) : bool :=
  match s with
  | SCT_Sentence l => negb (is_nil l)
  | SCT_Column l => negb (is_nil l)
  | SCT_Table _ => true
  end.

(** The condition on one structure, not looking into its parts. *)
Definition storable (k : kind) : F K k -> bool :=
  match k return F K k -> bool with
  | KVoid => fun _ => true
  (* the base text of a ruby holds no nested markup *)
  | KRuby => fun f => forallb plain_text (ruby_text f)
  (* no double underline; formulas without number *)
  | KLine => fun f =>
      not_double (line_style f)
      && forallb (fun c => match c with LC_Arith a => no_formula_num a | _ => true end)
           (line_contents f)
  | KCont _ => fun f =>
      forallb (fun c => match c with CE_Arith a => no_formula_num a | _ => true end) f
  | KSentence => fun f =>
      usize_opt (sen_num f)
      && forallb (fun c => match c with SE_Arith a => no_formula_num a | _ => true end)
           (sen_contents f)
  | KColumn => fun f => usize_opt (col_num f)
  (* table cells: no double border, no alignment *)
  | KTableColumn => fun f =>
      not_double (tc_border_top f) && not_double (tc_border_bottom f)
      && not_double (tc_border_left f) && not_double (tc_border_right f)
      && is_none (tc_align f) && is_none (tc_valign f)
  (* no remarks, and two of the appendices of a supplementary provision never *)
  | KRemarks => fun _ => false
  | KSupplTable => fun _ => false
  | KSupplAppdx => fun _ => false
  | KClass => fun f => sct_full (class_sentence f)
  (* items are numbered and have at least one sentence *)
  | KItem _ => fun f =>
      match it_num f with Some n => an_ok n | None => false end && sct_full (it_sentence f)
  | KParagraph => fun f => an_ok (par_num f)
  (* an article has at least one paragraph or a supplementary note *)
  | KArticle => fun f =>
      an_ok (art_num f)
      && negb (is_nil (art_paragraph f) && is_none (art_suppl_note f))
  | KPart => fun f => an_ok (hd_num f)
  | KChapter => fun f => an_ok (hd_num f)
  | KSection => fun f => an_ok (hd_num f)
  | KSubsection => fun f => an_ok (hd_num f)
  | KDivision => fun f => an_ok (hd_num f)
  (* no quoted new provisions *)
  | KAmend => fun f => is_nil (am_new f)
  | KAppdx => fun f =>
      is_none (ap_related f) && forallb no_formula_num (ap_arith_formula f)
  | KTOC => fun f => is_none (toc_preamble_label f)
  | KTOCPart => fun f => an_ok (th_num f)
  | KTOCChapter => fun f => an_ok (th_num f)
  | KTOCSection => fun f => an_ok (th_num f)
  | KTOCSubsection => fun f => an_ok (th_num f)
  | KTOCDivision => fun f => an_ok (th_num f)
  | KTOCArticle => fun f => an_ok (ta_num f)
  | _ => fun _ => true
  end.
End Storable.

(** Every part is storable. *)
Definition survives (k : kind) (x : Knot k) : Prop :=
  forall j (y : Knot j), part_of (node j y) (node k x) -> storable j (un j y) = true.

(** A law that survives: machine integers, a number, and a body that survives. *)
Definition law_survives (l : Law) : Prop :=
  is_usize (law_year l) = true /\
  (exists n, law_no l = Some n /\ an_ok n = true) /\
  usize_opt (law_promulgate_month l) = true /\
  usize_opt (law_promulgate_day l) = true /\
  survives KLawBody (law_body l).

(** The same for a piece of text: each ruby and line in it survives. *)
Definition text_survives (t : Text Knot) : Prop :=
  forall j (y : Knot j), In (node j y) (c_text node t) -> survives j y.
