(** The document grammar: which child elements each element may have.  Written from the
    match arms of the readers, one line for each tag, without reference to the model of
    the readers. *)
From Coq Require Import String List Bool.
From Verif Require Import Base Xml Ast.
Import ListNotations.
Open Scope string_scope.
Open Scope list_scope.

Definition item_tags : list string :=
  ["Item"; "Subitem1"; "Subitem2"; "Subitem3"; "Subitem4"; "Subitem5"; "Subitem6"; "Subitem7";
   "Subitem8"; "Subitem9"; "Subitem10"].

(** Rules of one tag: tag of the first child node if there must be one; tags of the further child
    elements that must themselves follow the grammar; tags of child elements that are accepted
    without looking at their own child elements (text, or dropped if unreadable). *)
Record tag_rules := rules { first : option string; nested : list string; plain : list string }.

Definition contents_rules : tag_rules :=
  rules None
    (["Table"; "TableStruct"; "FigStruct"; "QuoteStruct"; "NoteStruct"; "StyleStruct";
      "AppdxTable"; "Ruby"; "Line"; "Paragraph"; "List"; "Sentence"; "ArithFormula"; "TOC";
      "TOCSection"; "Remarks"; "TableRow"] ++ item_tags)
    ["Fig"; "Sup"; "Sub"].

Definition item_rules (n : string) (sub : list string) : tag_rules :=
  rules None
    ([n ++ "Sentence"; "TableStruct"; "FigStruct"; "StyleStruct"; "List"]%string ++ sub)
    [n ++ "Title"]%string.

Definition sentence_rules : tag_rules := rules None ["Sentence"; "Column"; "Table"] [].
Definition list_sentence_rules : tag_rules := rules None ["Sentence"; "Column"] [].

(** Tags not listed here hold text (or nothing): any child element is accepted. *)
Definition grammar : list (string * tag_rules) :=
  [("LawBody", rules None
      ["LawTitle"; "TOC"; "Preamble"; "MainProvision"; "SupplProvision"; "AppdxTable";
       "AppdxNote"; "AppdxStyle"; "Appdx"; "AppdxFig"; "AppdxFormat"] ["EnactStatement"]);
   ("MainProvision", rules None ["Part"; "Chapter"; "Section"; "Article"; "Paragraph"] []);
   ("Part", rules (Some "PartTitle") ["Chapter"; "Article"] []);
   ("Chapter", rules (Some "ChapterTitle") ["Section"; "Article"] []);
   ("Section", rules (Some "SectionTitle") ["Subsection"; "Division"; "Article"] []);
   ("Subsection", rules (Some "SubsectionTitle") ["Division"; "Article"] []);
   ("Division", rules (Some "DivisionTitle") ["Article"] []);
   ("Article", rules None ["Paragraph"] ["ArticleCaption"; "ArticleTitle"; "SupplNote"]);
   ("Paragraph", rules None
      ["ParagraphSentence"; "AmendProvision"; "Class"; "TableStruct"; "FigStruct"; "StyleStruct";
       "List"; "Item"] ["ParagraphCaption"; "ParagraphNum"]);
   ("ParagraphSentence", rules None ["Sentence"] []);
   ("Class", rules None ["ClassSentence"; "Item"] ["ClassTitle"]);
   ("ClassSentence", sentence_rules);
   ("Item", item_rules "Item" ["Subitem1"]);
   ("Subitem1", item_rules "Subitem1" ["Subitem2"]);
   ("Subitem2", item_rules "Subitem2" ["Subitem3"]);
   ("Subitem3", item_rules "Subitem3" ["Subitem4"]);
   ("Subitem4", item_rules "Subitem4" ["Subitem5"]);
   ("Subitem5", item_rules "Subitem5" ["Subitem6"]);
   ("Subitem6", item_rules "Subitem6" ["Subitem7"]);
   ("Subitem7", item_rules "Subitem7" ["Subitem8"]);
   ("Subitem8", item_rules "Subitem8" ["Subitem9"]);
   ("Subitem9", item_rules "Subitem9" ["Subitem10"]);
   ("Subitem10", item_rules "Subitem10" []);
   ("ItemSentence", sentence_rules);
   ("Subitem1Sentence", sentence_rules);
   ("Subitem2Sentence", sentence_rules);
   ("Subitem3Sentence", sentence_rules);
   ("Subitem4Sentence", sentence_rules);
   ("Subitem5Sentence", sentence_rules);
   ("Subitem6Sentence", sentence_rules);
   ("Subitem7Sentence", sentence_rules);
   ("Subitem8Sentence", sentence_rules);
   ("Subitem9Sentence", sentence_rules);
   ("Subitem10Sentence", sentence_rules);
   ("List", rules (Some "ListSentence") ["Sublist1"] []);
   ("Sublist1", rules (Some "Sublist1Sentence") ["Sublist2"] []);
   ("Sublist2", rules (Some "Sublist2Sentence") ["Sublist3"] []);
   ("ListSentence", list_sentence_rules);
   ("Sublist1Sentence", list_sentence_rules);
   ("Sublist2Sentence", list_sentence_rules);
   ("Sublist3Sentence", list_sentence_rules);
   ("Sentence", rules None ["Line"; "QuoteStruct"; "ArithFormula"; "Ruby"] ["Sup"; "Sub"]);
   ("Line", rules None ["QuoteStruct"; "ArithFormula"; "Ruby"] ["Sup"; "Sub"]);
   ("Column", rules None ["Sentence"] []);
   ("QuoteStruct", contents_rules);
   ("ArithFormula", contents_rules);
   ("Note", contents_rules);
   ("Style", contents_rules);
   ("Format", contents_rules);
   ("Table", rules None ["TableHeaderRow"; "TableRow"] []);
   ("TableColumn", rules None
      (["Part"; "Chapter"; "Section"; "Subsection"; "Division"; "Article"; "Paragraph";
        "FigStruct"; "Remarks"; "Sentence"; "Column"] ++ item_tags) []);
   ("Remarks", rules None ["Item"; "Sentence"] ["RemarksLabel"]);
   ("NoteStruct", rules None ["Note"] ["NoteStructTitle"; "Remarks"]);
   ("StyleStruct", rules None ["Style"] ["StyleStructTitle"; "Remarks"]);
   ("FormatStruct", rules None ["Format"] ["FormatStructTitle"; "Remarks"]);
   ("FigStruct", rules None ["Fig"] ["FigStructTitle"; "Remarks"]);
   ("TableStruct", rules None ["Table"] ["TableStructTitle"; "Remarks"]);
   ("AmendProvision", rules None ["AmendProvisionSentence"; "NewProvision"] []);
   ("NewProvision", rules None
      (["LawTitle"; "Preamble"; "TOC"; "Part"; "Chapter"; "Section"; "Subsection"; "Division";
        "Article"; "Paragraph"; "List"; "Sentence"; "AmendProvision"; "AppdxTable"; "AppdxNote";
        "AppdxStyle"; "Appdx"; "AppdxFig"; "AppdxFormat"; "SupplProvisionAppdxStyle";
        "SupplProvisionAppdxTable"; "SupplProvisionAppdx"; "TableStruct"; "TableRow";
        "TableColumn"; "FigStruct"; "NoteStruct"; "StyleStruct"; "FormatStruct"; "Remarks";
        "LawBody"] ++ item_tags)
      ["PartTitle"; "ChapterTitle"; "SectionTitle"; "SubsectionTitle"; "DivisionTitle";
       "SupplNote"]);
   ("SupplProvision", rules None
      ["Chapter"; "Article"; "Paragraph"; "SupplProvisionAppdxTable"; "SupplProvisionAppdxStyle";
       "SupplProvisionAppdx"] ["SupplProvisionLabel"]);
   ("SupplProvisionAppdxTable", rules None ["TableStruct"]
      ["SupplProvisionAppdxTableTitle"; "RelatedArticleNum"]);
   ("SupplProvisionAppdxStyle", rules None ["StyleStruct"]
      ["SupplProvisionAppdxStyleTitle"; "RelatedArticleNum"]);
   ("SupplProvisionAppdx", rules None ["ArithFormula"] ["ArithFormulaNum"; "RelatedArticleNum"]);
   ("AppdxTable", rules None ["TableStruct"; "Item"; "Remarks"]
      ["AppdxTableTitle"; "RelatedArticleNum"]);
   ("AppdxNote", rules None ["TableStruct"; "FigStruct"; "NoteStruct"; "Remarks"]
      ["AppdxNoteTitle"; "RelatedArticleNum"]);
   ("AppdxStyle", rules None ["StyleStruct"; "Remarks"] ["AppdxStyleTitle"; "RelatedArticleNum"]);
   ("AppdxFormat", rules None ["FormatStruct"; "Remarks"]
      ["AppdxFormatTitle"; "RelatedArticleNum"]);
   ("Appdx", rules None ["ArithFormula"; "Remarks"] ["ArithFormulaNum"; "RelatedArticleNum"]);
   ("AppdxFig", rules None ["TableStruct"; "FigStruct"] ["AppdxFigTitle"; "RelatedArticleNum"]);
   ("TOC", rules None
      ["TOCPart"; "TOCChapter"; "TOCSection"; "TOCArticle"; "TOCSupplProvision"]
      ["TOCLabel"; "TOCPreambleLabel"; "TOCAppdxTableLabel"]);
   ("TOCPart", rules None ["TOCChapter"] ["PartTitle"; "ArticleRange"]);
   ("TOCChapter", rules None ["TOCSection"] ["ChapterTitle"; "ArticleRange"]);
   ("TOCSection", rules None ["TOCSubsection"; "TOCDivision"] ["SectionTitle"; "ArticleRange"]);
   ("TOCSubsection", rules None ["TOCDivision"] ["SubsectionTitle"; "ArticleRange"]);
   ("TOCDivision", rules None [] ["DivisionTitle"; "ArticleRange"]);
   ("TOCArticle", rules None [] ["ArticleTitle"; "ArticleCaption"]);
   ("TOCSupplProvision", rules None ["TOCArticle"; "TOCChapter"]
      ["SupplProvisionLabel"; "ArticleRange"])].

(** Tags that hold elements but whose reader passes over child elements it does not know. *)
Definition tolerant : list (string * list string) :=
  [("Preamble", ["Paragraph"]); ("TableRow", ["TableColumn"])].

(** The child nodes to which [nested] and [plain] apply. *)
Definition further (r : tag_rules) (l : list XMLNode) : list XMLNode :=
  match first r with Some _ => tl l | None => l end.

(** [e] and the elements it is made of follow the grammar. *)
Inductive conforms (e : Element) : Prop :=
  conforms_intro
    (starts : forall r t, assoc (name e) grammar = Some r -> first r = Some t ->
       exists c l, children e = NElement c :: l /\ name c = t /\ conforms c)
    (continues : forall r c, assoc (name e) grammar = Some r ->
       In (NElement c) (further r (children e)) ->
       In (name c) (plain r) \/ (In (name c) (nested r) /\ conforms c))
    (tolerates : forall known c, assoc (name e) tolerant = Some known ->
       In (NElement c) (children e) -> In (name c) known -> conforms c).

(** The contents readers share one loop and take the tag from their caller. *)
Definition tagged (k : kind) (e : Element) : Prop :=
  match k with
  | KCont CQuote => name e = "QuoteStruct"
  | KCont CArith => name e = "ArithFormula"
  | KCont CNote => name e = "Note"
  | KCont CStyle => name e = "Style"
  | KCont CFormat => name e = "Format"
  | _ => True
  end.

(** An unknown element anywhere: [a] is reached from [e] through children that have to follow
    the grammar. *)
Inductive reached (a : Element) : Element -> Prop :=
| reached_here : reached a a
| reached_first e r t c l : assoc (name e) grammar = Some r -> first r = Some t ->
    children e = NElement c :: l -> reached a c -> reached a e
| reached_child e r c : assoc (name e) grammar = Some r ->
    In (NElement c) (further r (children e)) -> ~ In (name c) (plain r) ->
    reached a c -> reached a e
| reached_tolerant e known c : assoc (name e) tolerant = Some known ->
    In (NElement c) (children e) -> In (name c) known -> reached a c -> reached a e.
