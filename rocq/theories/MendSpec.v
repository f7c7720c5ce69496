(** Specification of the values that can be read from XML at all, and a writer without the slips of the crate's own.

    [legible] talks about the structure of a law only. [mend] is the writer of [XmlWrite.v]
    with its slips mended; it is not part of the crate. *)
From Coq Require Import String List NArith Bool.
From Verif Require Import Base NumStr NumStrSpec Xml Ast XmlWrite RoundTripSpec.
Import ListNotations.
Open Scope string_scope.

(** ** What can be read *)

(** Every component of a number is a machine integer. *)
Definition full_num (a : ArticleNumber) : bool :=
  is_usize (base_number a) && forallb is_usize (eda_numbers a) && forallb is_usize (range_end_numbers a).

Section Legible.
Context {K : kind -> Type}.

Definition small_formula (a : ArithFormula K) : bool := usize_opt (af_num a).

(** The condition on one structure, not looking into its parts. *)
Definition legible (k : kind) : F K k -> bool :=
  match k return F K k -> bool with
  (* the base text of a ruby holds no nested markup *)
  | KRuby => fun f => forallb plain_text (ruby_text f)
  (* no double line *)
  | KLine => fun f =>
      not_double (line_style f)
      && forallb (fun c => match c with LC_Arith a => small_formula a | _ => true end)
           (line_contents f)
  | KCont _ => fun f =>
      forallb (fun c => match c with CE_Arith a => small_formula a | _ => true end) f
  | KSentence => fun f =>
      usize_opt (sen_num f)
      && forallb (fun c => match c with SE_Arith a => small_formula a | _ => true end)
           (sen_contents f)
  | KColumn => fun f => usize_opt (col_num f)
  | KTableColumn => fun f =>
      not_double (tc_border_top f) && not_double (tc_border_bottom f)
      && not_double (tc_border_left f) && not_double (tc_border_right f)
  | KClass => fun f => sct_full (class_sentence f)
  | KItem _ => fun f =>
      match it_num f with Some n => full_num n | None => true end && sct_full (it_sentence f)
  | KParagraph => fun f => full_num (par_num f)
  (* an article has at least one paragraph or a supplementary note *)
  | KArticle => fun f =>
      full_num (art_num f)
      && negb (is_nil (art_paragraph f) && is_none (art_suppl_note f))
  | KPart => fun f => full_num (hd_num f)
  | KChapter => fun f => full_num (hd_num f)
  | KSection => fun f => full_num (hd_num f)
  | KSubsection => fun f => full_num (hd_num f)
  | KDivision => fun f => full_num (hd_num f)
  | KSupplAppdx => fun f => forallb small_formula (sa_arith_formula f)
  | KAppdx => fun f => forallb small_formula (ap_arith_formula f)
  | KTOCPart => fun f => full_num (th_num f)
  | KTOCChapter => fun f => full_num (th_num f)
  | KTOCSection => fun f => full_num (th_num f)
  | KTOCSubsection => fun f => full_num (th_num f)
  | KTOCDivision => fun f => full_num (th_num f)
  | KTOCArticle => fun f => full_num (ta_num f)
  | _ => fun _ => true
  end.
End Legible.

(** Every part is legible. *)
Definition can_be_read (k : kind) (x : Knot k) : Prop :=
  forall j (y : Knot j), part_of (node j y) (node k x) -> legible j (un j y) = true.

(** A law that can be read; its number may be missing. *)
Definition law_can_be_read (l : Law) : Prop :=
  is_usize (law_year l) = true /\
  (forall n, law_no l = Some n -> full_num n = true) /\
  usize_opt (law_promulgate_month l) = true /\
  usize_opt (law_promulgate_day l) = true /\
  can_be_read KLawBody (law_body l).

(** ** The writer with its slips mended *)

(** Numbers joined by underscores. *)
Definition nums_str (n : N) (l : list N) : string :=
  usize_to_string n ++ concat_strings (map (fun m => "_" ++ usize_to_string m) l).
(** The whole number: the range end, if there is one, after a colon. *)
Definition full_num_str (a : ArticleNumber) : string :=
  nums_str (base_number a) (eda_numbers a)
  ++ match range_end_numbers a with [] => "" | n :: l => ":" ++ nums_str n l end.

Section Mend.
Context {K : kind -> Type}.
Context (w : forall k, K k -> Element).

(** With the number of the formula. *)
Definition mend_arith (a : ArithFormula K) : Element :=
  let e := w (KCont CArith) (af_contents a) in
  mkElement (name e) (insert_opt "Num" (option_map usize_to_string (af_num a)) []) (children e).
Definition mend_line_node (c : LineContents K) : XMLNode :=
  match c with
  | LC_Quote v => NElement (w (KCont CQuote) v)
  | LC_Arith v => NElement (mend_arith v)
  | LC_Ruby v => NElement (w KRuby v)
  | LC_Sup s => NElement (write_sup s)
  | LC_Sub s => NElement (write_sub s)
  | LC_String s => NText s
  end.
Definition mend_line (l : LineF K) : Element :=
  mkElement "Line" (insert "Style" (linestyle_str (line_style l)) [])
    (map mend_line_node (line_contents l)).
Definition mend_contents_node (c : ContentsElement K) : XMLNode :=
  match c with
  | CE_Table v => NElement (w KTable v)
  | CE_TableStruct v => NElement (w KTableStruct v)
  | CE_Fig s => NElement (write_fig s)
  | CE_FigStruct v => NElement (w KFigStruct v)
  | CE_Quote v => NElement (w (KCont CQuote) v)
  | CE_NoteStruct v => NElement (w (KCStruct SNote) v)
  | CE_StyleStruct v => NElement (w (KCStruct SStyle) v)
  | CE_AppdxTable v => NElement (w KAppdxTable v)
  | CE_Ruby v => NElement (w KRuby v)
  | CE_Line v => NElement (w KLine v)
  | CE_Sup s => NElement (write_sup s)
  | CE_Sub s => NElement (write_sub s)
  | CE_String s => NText s
  | CE_Paragraph v => NElement (w KParagraph v)
  | CE_Item l v => NElement (w (KItem l) v)
  | CE_List v => NElement (w (KList List0) v)
  | CE_Sentence v => NElement (w KSentence v)
  | CE_Arith v => NElement (mend_arith v)
  | CE_Remarks v => NElement (w KRemarks v)
  | CE_TOC v => NElement (w KTOC v)
  | CE_TOCSection v => NElement (w KTOCSection v)
  | CE_TableRow v => NElement (w KTableRow v)
  end.
Definition mend_cont (c : cname) (l : ContentsF K) : Element :=
  mkElement (cont_tag c) [] (map mend_contents_node l).
Definition mend_sentence_node (c : SentenceElement K) : XMLNode :=
  match c with
  | SE_Line v => NElement (w KLine v)
  | SE_Quote v => NElement (w (KCont CQuote) v)
  | SE_Arith v => NElement (mend_arith v)
  | SE_Ruby v => NElement (w KRuby v)
  | SE_Sup s => NElement (write_sup s)
  | SE_Sub s => NElement (write_sub s)
  | SE_String s => NText s
  end.
Definition mend_sentence (s : SentenceF K) : Element :=
  mkElement "Sentence"
    (insert_opt "WritingMode" (mode_str (sen_mode s))
      (insert_opt "Indent" (option_map indent_str (sen_indent s))
        (insert_opt "Function" (option_map function_str (sen_function s))
          (insert_opt "Num" (option_map usize_to_string (sen_num s)) []))))
    (map mend_sentence_node (sen_contents s)).

(** The alignments under their own names. *)
Definition mend_table_column (c : TableColumnF K) : Element :=
  mkElement "TableColumn"
    (insert_opt "Valign" (option_map position_str (tc_valign c))
      (insert_opt "Align" (option_map align_str (tc_align c))
        (insert_opt "colspan" (tc_colspan c)
          (insert_opt "rowspan" (tc_rowspan c)
            (insert "BorderRight" (linestyle_str (tc_border_right c))
              (insert "BorderLeft" (linestyle_str (tc_border_left c))
                (insert "BorderBottom" (linestyle_str (tc_border_bottom c))
                  (insert "BorderTop" (linestyle_str (tc_border_top c)) []))))))))
    (map (write_cell_node w) (tc_contents c)).

(** With the label. *)
Definition mend_remarks (r : RemarksF K) : Element :=
  mkElement "Remarks" []
    ([NElement (mkElement "RemarksLabel" (insert_flag "LineBreak" (rl_line_break (rem_label r)) [])
                  (write_text_nodes w (rl_text (rem_label r))))]
     ++ els (write_remarks_node w) (rem_children r))%list.

(** A number that could not be read is written as an empty text, which cannot be read either. *)
Definition mend_item (l : lvl) (v : ItemF K l) : Element :=
  mkElement (item_tag l)
    (insert_flag "Hide" (it_hide v)
      (insert_flag "Delete" (it_delete v)
        (insert "Num" (match it_num v with Some n => full_num_str n | None => "" end) [])))
    (el_opt (write_text w (item_tag l ++ "Title")) (it_title v)
     ++ [NElement (write_sct w (item_tag l ++ "Sentence") (it_sentence v))]
     ++ els (w (sub_item l)) (it_children v)
     ++ els (write_struct_any w) (it_struct_list v))%list.

Definition mend_paragraph (v : ParagraphF K) : Element :=
  mkElement "Paragraph"
    (insert_flag "Hide" (par_hide v)
      (insert_flag "OldNum" (par_old_num v)
        (insert_flag "OldStyle" (par_old_style v)
          (insert "Num" (full_num_str (par_num v)) []))))
    (children (write_paragraph w v)).
Definition mend_article (v : ArticleF K) : Element :=
  mkElement "Article"
    (insert_flag "Hide" (art_hide v)
      (insert_flag "Delete" (art_delete v)
        (insert "Num" (full_num_str (art_num v)) [])))
    (children (write_article w v)).
Definition mend_head {C} (n : string) (wc : C -> Element) (v : HeadF K C) : Element :=
  mkElement n
    (insert_flag "Hide" (hd_hide v)
      (insert_flag "Delete" (hd_delete v)
        (insert "Num" (full_num_str (hd_num v)) [])))
    (children (write_head w n wc v)).

(** The new provisions in an element of their own. *)
Definition mend_amend (v : AmendF K) : Element :=
  mkElement "AmendProvision" []
    (el_opt (fun s => mkElement "AmendProvisionSentence" [] [NElement (w KSentence s)])
       (am_sentence v)
     ++ match am_new v with
        | [] => []
        | l => [NElement (mkElement "NewProvision" [] (els (write_new_provision w) l))]
        end)%list.

Definition mend_suppl_table (v : SupplTableF K) : Element :=
  write_suppl_ts w "SupplProvisionAppdxTable" "SupplProvisionAppdxTableTitle" (w KTableStruct) v.
Definition mend_suppl_appdx (v : SupplAppdxF K) : Element :=
  mkElement "SupplProvisionAppdx" (insert_opt "Num" (sa_num v) [])
    (el_opt (write_text w "ArithFormulaNum") (sa_arith_formula_num v)
     ++ el_opt (write_text w "RelatedArticleNum") (sa_related v)
     ++ els mend_arith (sa_arith_formula v))%list.
Definition mend_appdx (v : AppdxF K) : Element :=
  mkElement "Appdx" []
    (el_opt (write_text w "ArithFormulaNum") (ap_arith_formula_num v)
     ++ el_opt (write_text w "RelatedArticleNum") (ap_related v)
     ++ els mend_arith (ap_arith_formula v)
     ++ el_opt (w KRemarks) (ap_remarks v))%list.

Definition mend_toc_head {C} (n tn : string) (wc : C -> Element) (v : TOCHeadF K C) : Element :=
  mkElement n
    (insert_flag "Delete" (th_delete v) (insert "Num" (full_num_str (th_num v)) []))
    (children (write_toc_head w n tn wc v)).
Definition mend_toc_article (v : TOCArticleF K) : Element :=
  mkElement "TOCArticle"
    (insert_flag "Delete" (ta_delete v) (insert "Num" (full_num_str (ta_num v)) []))
    (children (write_toc_article w v)).
Definition mend_toc (v : TOCF K) : Element :=
  mkElement "TOC" []
    (el_opt (write_text w "TOCLabel") (toc_label v)
     ++ el_opt (write_text w "TOCPreambleLabel") (toc_preamble_label v)
     ++ els (write_toc_main_node w) (toc_main v)
     ++ el_opt (w KTOCSuppl) (toc_suppl v)
     ++ els (write_text w "TOCAppdxTableLabel") (toc_appdx_table_label v))%list.

(** The mended writer of each type; the types left out are written as before. *)
Definition mstep (k : kind) : F K k -> Element :=
  match k with
  | KLine => mend_line
  | KCont c => mend_cont c
  | KSentence => mend_sentence
  | KTableColumn => mend_table_column
  | KRemarks => mend_remarks
  | KItem l => mend_item l
  | KParagraph => mend_paragraph
  | KArticle => mend_article
  | KPart => mend_head "Part" (write_part_node w)
  | KChapter => mend_head "Chapter" (write_chapter_node w)
  | KSection => mend_head "Section" (write_section_node w)
  | KSubsection => mend_head "Subsection" (write_subsection_node w)
  | KDivision => mend_head "Division" (w KArticle)
  | KAmend => mend_amend
  | KSupplTable => mend_suppl_table
  | KSupplAppdx => mend_suppl_appdx
  | KAppdx => mend_appdx
  | KTOC => mend_toc
  | KTOCPart => mend_toc_head "TOCPart" "PartTitle" (w KTOCChapter)
  | KTOCChapter => mend_toc_head "TOCChapter" "ChapterTitle" (w KTOCSection)
  | KTOCSection => mend_toc_head "TOCSection" "SectionTitle" (write_toc_section_node w)
  | KTOCSubsection => mend_toc_head "TOCSubsection" "SubsectionTitle" (w KTOCDivision)
  | KTOCDivision =>
      mend_toc_head "TOCDivision" "DivisionTitle" (fun x : Empty_set => match x with end)
  | KTOCArticle => mend_toc_article
  | k => wstep w k
  end.
End Mend.

Fixpoint mend (k : kind) (x : Knot k) {struct x} : Element :=
  match x with
  | mkRuby f => write_ruby mend f
  | mkLine f => mend_line mend f
  | @mkCont c f => mend_cont mend c f
  | mkSentence f => mend_sentence mend f
  | mkColumn f => write_column mend f
  | mkTable f => write_table mend f
  | mkTableRow f => write_table_row mend f
  | mkTableColumn f => mend_table_column mend f
  | mkRemarks f => mend_remarks mend f
  | @mkCStruct s f => write_cstruct mend s f
  | mkFigStruct f => write_fig_struct mend f
  | mkTableStruct f => write_table_struct mend f
  | @mkList l f => write_list mend l f
  | mkClass f => write_class mend f
  | @mkItem l f => mend_item mend l f
  | mkParagraph f => mend_paragraph mend f
  | mkArticle f => mend_article mend f
  | mkPart f => mend_head mend "Part" (write_part_node mend) f
  | mkChapter f => mend_head mend "Chapter" (write_chapter_node mend) f
  | mkSection f => mend_head mend "Section" (write_section_node mend) f
  | mkSubsection f => mend_head mend "Subsection" (write_subsection_node mend) f
  | mkDivision f => mend_head mend "Division" (mend KArticle) f
  | mkAmend f => mend_amend mend f
  | mkLawTitle f => write_law_title mend f
  | mkPreamble f => write_preamble mend f
  | mkMain f => write_main mend f
  | mkSuppl f => write_suppl mend f
  | mkSupplTable f => mend_suppl_table mend f
  | mkSupplStyle f => write_suppl_style mend f
  | mkSupplAppdx f => mend_suppl_appdx mend f
  | mkAppdxTable f => write_appdx_t mend "AppdxTable" (write_appdx_table_node mend) f
  | mkAppdxNote f => write_appdx_t mend "AppdxNote" (write_appdx_note_node mend) f
  | mkAppdxStyle f => write_appdx_t mend "AppdxStyle" (mend (KCStruct SStyle)) f
  | mkAppdxFormat f => write_appdx_t mend "AppdxFormat" (mend (KCStruct SFormat)) f
  | mkAppdx f => mend_appdx mend f
  | mkAppdxFig f => write_appdx_fig mend f
  | mkTOC f => mend_toc mend f
  | mkTOCPart f => mend_toc_head mend "TOCPart" "PartTitle" (mend KTOCChapter) f
  | mkTOCChapter f => mend_toc_head mend "TOCChapter" "ChapterTitle" (mend KTOCSection) f
  | mkTOCSection f => mend_toc_head mend "TOCSection" "SectionTitle" (write_toc_section_node mend) f
  | mkTOCSubsection f => mend_toc_head mend "TOCSubsection" "SubsectionTitle" (mend KTOCDivision) f
  | mkTOCDivision f => mend_toc_head mend "TOCDivision" "DivisionTitle" (fun x : Empty_set => match x with end) f
  | mkTOCArticle f => mend_toc_article mend f
  | mkTOCSuppl f => write_toc_suppl mend f
  | mkLawBody f => write_law_body mend f
  end.

Definition mend_law (l : Law) : Element :=
  mkElement "Law"
    (insert "Lang" (lang_str (law_lang l))
      (insert "LawType" (law_type_str (law_type l))
        (insert_opt "PromulgateDay" (option_map usize_to_string (law_promulgate_day l))
          (insert_opt "PromulgateMonth" (option_map usize_to_string (law_promulgate_month l))
            (insert "Num" (match law_no l with Some n => full_num_str n | None => "" end)
              (insert "Year" (usize_to_string (law_year l))
                (insert "Era" (era_str (law_era l)) [])))))))
    [NElement (mkElement "LawNum" [] [NText (law_num l)]);
     NElement (mend KLawBody (law_body l))].
