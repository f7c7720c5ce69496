(** In which types the order of the child elements does not matter, and of which child elements the last one counts. *)
From Coq Require Import String List.
From Verif Require Import Base Xml Ast ReadSpec ReadingSpec.
Import ListNotations.
Open Scope string_scope.
Open Scope list_scope.

(** The sorts of child elements: the order counts within each sort only. *)
Definition toc_sorts (title : string) (ts : list string) : list (list string) := [[title]; ["ArticleRange"]; ts].
Definition appended_sorts (title : string) (ts : list string) : list (list string) :=
  [[title]; ["RelatedArticleNum"]; ["Remarks"]; ts].
Definition sorts (k : kind) : option (list (list string)) :=
  match k with
  | KTable => Some [["TableHeaderRow"]; ["TableRow"]]
  | KTableRow => Some [["TableColumn"]]
  | KRemarks => Some [["RemarksLabel"]; ["Item"; "Sentence"]]
  | KClass => Some [["ClassTitle"]; ["ClassSentence"]; ["Item"]]
  | KItem l => Some [[level_tag l ++ "Title"]; [level_tag l ++ "Sentence"]; struct_tags; sub_level_tags l]%string
  | KParagraph => Some [["ParagraphCaption"]; ["ParagraphNum"]; ["ParagraphSentence"]; ["AmendProvision"]; ["Class"];
                        ["Item"]; struct_tags]
  | KAmend => Some [["AmendProvisionSentence"]; ["NewProvision"]]
  | KPreamble => Some [["Paragraph"]]
  | KSuppl => Some [["SupplProvisionLabel"]; ["Chapter"; "Article"; "Paragraph"; "SupplProvisionAppdxTable";
                                             "SupplProvisionAppdxStyle"; "SupplProvisionAppdx"]]
  | KSupplTable => Some [["SupplProvisionAppdxTableTitle"]; ["RelatedArticleNum"]; ["TableStruct"]]
  | KSupplStyle => Some [["SupplProvisionAppdxStyleTitle"]; ["RelatedArticleNum"]; ["StyleStruct"]]
  | KSupplAppdx => Some [["ArithFormulaNum"]; ["RelatedArticleNum"]; ["ArithFormula"]]
  | KAppdxTable => Some (appended_sorts "AppdxTableTitle" ["TableStruct"; "Item"])
  | KAppdxNote => Some (appended_sorts "AppdxNoteTitle" ["NoteStruct"; "FigStruct"; "TableStruct"])
  | KAppdxStyle => Some (appended_sorts "AppdxStyleTitle" ["StyleStruct"])
  | KAppdxFormat => Some (appended_sorts "AppdxFormatTitle" ["FormatStruct"])
  | KAppdx => Some [["ArithFormulaNum"]; ["RelatedArticleNum"]; ["ArithFormula"]; ["Remarks"]]
  | KAppdxFig => Some [["AppdxFigTitle"]; ["RelatedArticleNum"]; ["FigStruct"; "TableStruct"]]
  | KTOC => Some [["TOCLabel"]; ["TOCPreambleLabel"]; ["TOCPart"; "TOCChapter"; "TOCSection"; "TOCArticle"];
                  ["TOCSupplProvision"]; ["TOCAppdxTableLabel"]]
  | KTOCPart => Some (toc_sorts "PartTitle" ["TOCChapter"])
  | KTOCChapter => Some (toc_sorts "ChapterTitle" ["TOCSection"])
  | KTOCSection => Some (toc_sorts "SectionTitle" ["TOCSubsection"; "TOCDivision"])
  | KTOCSubsection => Some (toc_sorts "SubsectionTitle" ["TOCDivision"])
  | KTOCDivision => Some (toc_sorts "DivisionTitle" [])
  | KTOCArticle => Some [["ArticleTitle"]; ["ArticleCaption"]]
  | KTOCSuppl => Some [["SupplProvisionLabel"]; ["ArticleRange"]; ["TOCArticle"; "TOCChapter"]]
  | KLawBody => Some [["LawTitle"]; ["EnactStatement"]; ["TOC"]; ["Preamble"]; ["MainProvision"]; ["SupplProvision"];
                      ["AppdxTable"]; ["AppdxNote"]; ["AppdxStyle"]; ["Appdx"]; ["AppdxFig"]; ["AppdxFormat"]]
  | _ => None
  end.

(** The same child elements, in the same order within each sort. *)
Definition regrouped (g : list (list string)) (l l' : list XMLNode) : Prop :=
  (forall c, In (NElement c) l <-> In (NElement c) l') /\ forall ts, In ts g -> with_tags ts l = with_tags ts l'.

(** Child elements of which a value has one only. *)
Definition toc_singles (title : string) : list string := [title; "ArticleRange"].
Definition appended_singles (title : string) : list string := [title; "RelatedArticleNum"; "Remarks"].
Definition singles (k : kind) : list string :=
  match k with
  | KRuby => ["Rt"]
  | KRemarks => ["RemarksLabel"]
  | KCStruct SNote => ["NoteStructTitle"]
  | KCStruct SStyle => ["StyleStructTitle"]
  | KCStruct SFormat => ["FormatStructTitle"]
  | KFigStruct => ["FigStructTitle"]
  | KTableStruct => ["TableStructTitle"]
  | KClass => ["ClassTitle"; "ClassSentence"]
  | KItem l => [level_tag l ++ "Title"; level_tag l ++ "Sentence"]%string
  | KParagraph => ["ParagraphCaption"; "ParagraphNum"]
  | KArticle => ["ArticleCaption"; "ArticleTitle"; "SupplNote"]
  | KAmend => ["AmendProvisionSentence"]
  | KSuppl => ["SupplProvisionLabel"]
  | KSupplTable => ["SupplProvisionAppdxTableTitle"; "RelatedArticleNum"]
  | KSupplStyle => ["SupplProvisionAppdxStyleTitle"; "RelatedArticleNum"]
  | KSupplAppdx => ["ArithFormulaNum"; "RelatedArticleNum"]
  | KAppdxTable => appended_singles "AppdxTableTitle"
  | KAppdxNote => appended_singles "AppdxNoteTitle"
  | KAppdxStyle => appended_singles "AppdxStyleTitle"
  | KAppdxFormat => appended_singles "AppdxFormatTitle"
  | KAppdx => ["ArithFormulaNum"; "RelatedArticleNum"; "Remarks"]
  | KAppdxFig => ["AppdxFigTitle"; "RelatedArticleNum"]
  | KTOC => ["TOCLabel"; "TOCPreambleLabel"; "TOCSupplProvision"]
  | KTOCPart => toc_singles "PartTitle"
  | KTOCChapter => toc_singles "ChapterTitle"
  | KTOCSection => toc_singles "SectionTitle"
  | KTOCSubsection => toc_singles "SubsectionTitle"
  | KTOCDivision => toc_singles "DivisionTitle"
  | KTOCArticle => ["ArticleTitle"; "ArticleCaption"]
  | KTOCSuppl => ["SupplProvisionLabel"; "ArticleRange"]
  | KLawBody => ["LawTitle"; "TOC"; "Preamble"; "MainProvision"]
  | _ => []
  end.

(** In an article caption and title stand before paragraphs and note, of which there is at least one. *)
Definition head_first (l : list XMLNode) : Prop :=
  exists h b, elements l = h ++ b /\ b <> [] /\
    (forall c, In c h -> In (name c) ["ArticleCaption"; "ArticleTitle"]) /\
    (forall c, In c b -> In (name c) ["Paragraph"; "SupplNote"]).
Definition article_sorts : list (list string) := [["ArticleCaption"]; ["ArticleTitle"]; ["Paragraph"]; ["SupplNote"]].
