(** How every reading ends: with a value, with which error, or with a panic.

    [rules k] lists, in the order in which they are made, the checks on an element that is read as
    kind [k]; [ends l e w] says that going through the checks [l] on the element [e] ends with
    [w].  The first check that fails decides.  The table names tags, attributes and texts; neither
    it nor the relation refers to the readers. *)
From Coq Require Import String Ascii List NArith Bool.
From Verif Require Import Base NumStr NumStrSpec Xml Ast XmlSpec GrammarSpec ErrorSpec ReadingSpec.
Import ListNotations.
Open Scope string_scope.
Open Scope list_scope.

(** ** Endings *)
Inductive ending := Fine | Fault (er : Error) | Crash.

Definition unless (P : Prop) (er : Error) (w : ending) : Prop := (P /\ w = Fine) \/ (~ P /\ w = Fault er).

(** ** Checks *)
Inductive check :=
| Is (t : string) (er : string -> Error)              (* the tag is [t] *)
| Present (a : string)                                (* the attribute is there *)
| Demanded (a : string)                               (* the same; without it there is a panic *)
| Legal (a : string) (v : value)                      (* it is absent or has a legal value *)
| OneOf (a u : string) (l : list string)              (* it is absent or has a listed value *)
| Chosen (a : string) (l : list string)               (* it has a listed value *)
| Number (a : string)                                 (* it is absent or an article number *)
| NumberOrBlank (a : string)                          (* the same, or empty *)
| IntegerOrBlank (a : string)                         (* absent, empty or an integer *)
| As (k : kind)                                       (* it can be read as kind [k] *)
| Tried (k : kind)                                    (* the same, but an error does not matter *)
| Each (i : nat) (rows : list (string * list check)) (o : others)
    (* the child elements, the first [i] nodes left out: those with a listed tag pass the checks
       listed with it, those without are treated as [o] says *)
| At (i : nat) (missing : Error) (l : list check)     (* node [i] is an element that passes [l] *)
| Opening (head rows : list (string * list check)) (o : others)
    (* the child elements up to the first one with a tag not in [head] pass the checks listed
       there, those from that one on are treated according to [rows] and [o]; if there is no such
       element there is a panic *)
| Needs (ts : list string) (u : string)               (* there is a child with one of these tags *)
with others :=
| Refused (er : string -> Error)                      (* an error *)
| Every (l : list check).                             (* the same checks whatever the tag *)

(** ** Numbers: the piece that is reported *)

(** What stands before the first piece that is not an integer: nothing, or integers up to a
    separator. *)
Definition sound_before (b : string) : Prop :=
  b = "" \/
  (exists x ns, nums_text x ns /\ (b = x ++ "_" \/ b = x ++ ":")%string) \/
  (exists x y ns ms, nums_text x ns /\ nums_text y ms /\ b = (x ++ ":" ++ y ++ "_")%string).
Definition first_bad (s w : string) : Prop :=
  exists b a, s = (b ++ w ++ a)%string /\ sound_before b /\
    (a = "" \/ exists c r, separator c /\ a = String c r) /\
    (forall c, separator c -> ~ In c (list_ascii_of_string w)) /\
    (forall n, ~ usize_text w n).
Definition number_ends (s : string) (w : ending) : Prop :=
  (w = Fine /\ exists b ed r, num_text s b ed r) \/
  (exists p, w = Fault (ParsingError "usize" p) /\ first_bad s p).

(** ** Checks on the element alone *)
Definition alone (c : check) (e : Element) (w : ending) : Prop :=
  match c with
  | Is t er => unless (name e = t) (er (name e)) w
  | Present a => unless (get e a <> None) (MissingRequiredAttribute (name e) a) w
  | Demanded a => match get e a with Some _ => w = Fine | None => w = Crash end
  | Legal a v => unless (forall s, get e a = Some s -> legal v s) (AttributeParseError (name e) a) w
  | OneOf a u l => unless (forall s, get e a = Some s -> In s l) (AttributeParseError u a) w
  | Chosen a l => unless (exists s, get e a = Some s /\ In s l) (AttributeParseError (name e) a) w
  | Number a => match get e a with Some s => number_ends s w | None => w = Fine end
  | NumberOrBlank a =>
      match get e a with
      | Some s => (s = "" /\ w = Fine) \/ (s <> "" /\ number_ends s w)
      | None => w = Fine
      end
  | IntegerOrBlank a =>
      match get e a with
      | Some s => unless (s = "" \/ exists n, usize_text s n) (ParsingError "usize" s) w
      | None => w = Fine
      end
  | Needs ts u =>
      unless (exists c, In (NElement c) (children e) /\ In (name c) ts) (MissingRequiredTag u) w
  | As _ | Tried _ | Each _ _ _ | At _ _ _ | Opening _ _ _ => False
  end.

(** Node [i] is an element. *)
Definition element_at (i : nat) (l : list XMLNode) (c : Element) : Prop :=
  nth_error l i = Some (NElement c).

(** ** The table *)
Definition is_tag (t : string) : check := Is t (fun n => WrongTagName n t).
Definition is_tag_called (t u : string) : check := Is t (fun n => WrongTagName n u).
Definition unexpected (t : string) : others := Refused (fun n => UnexpectedTag n t).
Definition ignored : others := Every [].

(** Text with inline elements. *)
Definition text : list check := [Each 0 [("Ruby", [Tried KRuby]); ("Line", [Tried KLine])] ignored].
Definition caption : list check := text ++ [Legal "CommonCaption" VBool].
Definition formula : list check := [Legal "Num" VInteger; As (KCont CArith)].
Definition figure : list check := [Present "src"].
Definition sentences : list check := [Each 0 [] (Every [As KSentence])].
Definition sentence_or_column_or_table (t : string) : list check :=
  [Each 0 [("Sentence", [As KSentence]); ("Column", [As KColumn]); ("Table", [As KTable])] (unexpected t);
   Needs ["Sentence"; "Column"; "Table"] "Sentence or Column or Table"].
Definition header_row : list check := [Each 0 [("TableHeaderColumn", text)] ignored].
Definition remarks_label : list check := Legal "LineBreak" VBool :: text.

Definition reads (t : string) (k : kind) : string * list check := (t, [As k]).
Definition items : list (string * list check) :=
  [reads "Item" (KItem Item0); reads "Subitem1" (KItem Sub1); reads "Subitem2" (KItem Sub2);
   reads "Subitem3" (KItem Sub3); reads "Subitem4" (KItem Sub4); reads "Subitem5" (KItem Sub5);
   reads "Subitem6" (KItem Sub6); reads "Subitem7" (KItem Sub7); reads "Subitem8" (KItem Sub8);
   reads "Subitem9" (KItem Sub9); reads "Subitem10" (KItem Sub10)].
Definition structs : list (string * list check) :=
  [reads "TableStruct" KTableStruct; reads "FigStruct" KFigStruct; reads "StyleStruct" (KCStruct SStyle);
   reads "List" (KList List0)].
Definition inline : list (string * list check) :=
  [reads "QuoteStruct" (KCont CQuote); ("ArithFormula", formula); reads "Ruby" KRuby; ("Sup", []); ("Sub", [])].

Definition contents : list (string * list check) :=
  [reads "Table" KTable; reads "TableStruct" KTableStruct; ("Fig", figure); reads "FigStruct" KFigStruct;
   reads "QuoteStruct" (KCont CQuote); reads "NoteStruct" (KCStruct SNote);
   reads "StyleStruct" (KCStruct SStyle); reads "AppdxTable" KAppdxTable; reads "Ruby" KRuby;
   reads "Line" KLine; ("Sup", []); ("Sub", []); reads "Paragraph" KParagraph]
  ++ items ++
  [reads "List" (KList List0); reads "Sentence" KSentence; ("ArithFormula", formula); reads "TOC" KTOC;
   reads "TOCSection" KTOCSection; reads "Remarks" KRemarks; reads "TableRow" KTableRow].

Definition cell : list (string * list check) :=
  [reads "Part" KPart; reads "Chapter" KChapter; reads "Section" KSection; reads "Subsection" KSubsection;
   reads "Division" KDivision; reads "Article" KArticle; reads "Paragraph" KParagraph]
  ++ items ++
  [reads "FigStruct" KFigStruct; reads "Remarks" KRemarks; reads "Sentence" KSentence;
   reads "Column" KColumn].

Definition new_provision : list (string * list check) :=
  [reads "LawTitle" KLawTitle; reads "Preamble" KPreamble; reads "TOC" KTOC; reads "Part" KPart;
   ("PartTitle", text); reads "Chapter" KChapter; ("ChapterTitle", text); reads "Section" KSection;
   ("SectionTitle", text); reads "Subsection" KSubsection; ("SubsectionTitle", text);
   reads "Division" KDivision; ("DivisionTitle", text); reads "Article" KArticle; ("SupplNote", text);
   reads "Paragraph" KParagraph]
  ++ items ++
  [reads "List" (KList List0); reads "Sentence" KSentence; reads "AmendProvision" KAmend;
   reads "AppdxTable" KAppdxTable; reads "AppdxNote" KAppdxNote; reads "AppdxStyle" KAppdxStyle;
   reads "Appdx" KAppdx; reads "AppdxFig" KAppdxFig; reads "AppdxFormat" KAppdxFormat;
   reads "SupplProvisionAppdxStyle" KSupplStyle; reads "SupplProvisionAppdxTable" KSupplTable;
   reads "SupplProvisionAppdx" KSupplAppdx; reads "TableStruct" KTableStruct;
   reads "TableRow" KTableRow; reads "TableColumn" KTableColumn; reads "FigStruct" KFigStruct;
   reads "NoteStruct" (KCStruct SNote); reads "StyleStruct" (KCStruct SStyle);
   reads "FormatStruct" (KCStruct SFormat); reads "Remarks" KRemarks; reads "LawBody" KLawBody].

(** A structure with its title and body. *)
Definition structure_rules (n b : string) (body : list check) : list check :=
  [is_tag n;
   Each 0 [((n ++ "Title")%string, text); ("Remarks", [Tried KRemarks]); (b, body)] (unexpected n);
   Needs [b] b].

(** A heading, with its number and title. *)
Definition numbered : list check := [Present "Num"; Number "Num"].
Definition heading_rules (n : string) (rows : list (string * list check)) : list check :=
  [is_tag n] ++ numbered ++
  [Legal "Delete" VBool; Legal "Hide" VBool;
   At 0 (MissingRequiredTag (n ++ "Title"))
     (Is (n ++ "Title") (fun m => UnexpectedTag m (n ++ "Title")) :: text);
   Each 1 rows (unexpected n)].

(** A list: its sentences come first, and what is wrong there is said of the list itself. *)
Definition list_rules (n expected : string) (rest : list check) : list check :=
  [is_tag n;
   At 0 (WrongTagName n expected)
     [Is (n ++ "Sentence") (fun _ => WrongTagName n expected);
      Each 0 [reads "Sentence" KSentence; reads "Column" KColumn] (unexpected n)]] ++ rest.

Definition appended_rules (n : string) (rows : list (string * list check)) : list check :=
  [is_tag n;
   Each 0 ([((n ++ "Title")%string, text); ("RelatedArticleNum", text)] ++ rows ++
           [reads "Remarks" KRemarks]) (unexpected n)].

Definition toc_rules (n t : string) (rows : list (string * list check)) : list check :=
  [is_tag n; Present "Num"; Legal "Num" VNumber; Legal "Delete" VBool;
   Each 0 ([(t, text); ("ArticleRange", text)] ++ rows) (unexpected n)].

Definition rules (k : kind) : list check :=
  match k with
  | KVoid => []
  | KRuby => [is_tag "Ruby"]
  | KLine => [is_tag "Line"; Chosen "Style" ["solid"; "none"; "dotted"; "double"];
      Each 0 inline (unexpected "Line")]
  | KCont CQuote => [Each 0 contents (unexpected "QuoteStruct")]
  | KCont CArith => [Each 0 contents (unexpected "ArithFormula")]
  | KCont CNote => [Each 0 contents (unexpected "Note")]
  | KCont CStyle => [Each 0 contents (unexpected "Style")]
  | KCont CFormat => [Each 0 contents (unexpected "Format")]
  | KSentence => [is_tag "Sentence"; Legal "Num" VInteger; OneOf "Function" "Sentence" ["main"; "proviso"];
      OneOf "Indent" "Sentence" ("Paragraph" :: item_tags);
      Each 0 (reads "Line" KLine :: inline) (unexpected "Sentence")]
  | KColumn => [is_tag "Column"; Legal "Num" VInteger; Legal "LineBreak" VBool] ++ sentences
  | KTable => [is_tag "Table";
      Each 0 [("TableHeaderRow", header_row); reads "TableRow" KTableRow] (unexpected "Table")]
  | KTableRow => [is_tag "TableRow"; Each 0 [reads "TableColumn" KTableColumn] ignored]
  | KTableColumn => [is_tag "TableColumn"; Each 0 cell (unexpected "TableColumn")]
  | KRemarks => [is_tag "Remarks";
      Each 0 [("RemarksLabel", remarks_label); reads "Item" (KItem Item0); reads "Sentence" KSentence]
        (unexpected "Remarks");
      Needs ["RemarksLabel"] "RemarksLabel"]
  | KCStruct SNote => structure_rules "NoteStruct" "Note" [As (KCont CNote)]
  | KCStruct SStyle => structure_rules "StyleStruct" "Style" [As (KCont CStyle)]
  | KCStruct SFormat => structure_rules "FormatStruct" "Format" [As (KCont CFormat)]
  | KFigStruct => structure_rules "FigStruct" "Fig" figure
  | KTableStruct => structure_rules "TableStruct" "Table" [As KTable]
  | KList List0 => list_rules "List" "LiseSentence" [Each 1 [] (Every [As (KList Sublist1)])]
  | KList Sublist1 => list_rules "Sublist1" "Sublist1Sentence" [Each 1 [] (Every [As (KList Sublist2)])]
  | KList Sublist2 => list_rules "Sublist2" "Sublist2Sentence" [Each 1 [] (Every [As (KList Sublist3)])]
  | KList Sublist3 => list_rules "Sublist3" "Sublist3Sentence" []
  | KClass => [is_tag "Class"; Present "Num";
      Each 0 [("ClassTitle", text); ("ClassSentence", sentence_or_column_or_table "ClassSentence");
              reads "Item" (KItem Item0)] (unexpected "Class");
      Needs ["ClassSentence"] "Sentence or Column"]
  | KItem l =>
      let t := level_tag l in
      [is_tag t; Present "Num"; Legal "Delete" VBool; Legal "Hide" VBool;
       Each 0 ([((t ++ "Title")%string, text);
                ((t ++ "Sentence")%string, sentence_or_column_or_table (t ++ "Sentence"))]
               ++ structs ++ map (fun s => reads s (sub_item l)) (sub_level_tags l)) (unexpected t);
       Needs [(t ++ "Sentence")%string] "Sentence or Column or Table"]
  | KParagraph => [is_tag "Paragraph"] ++ numbered ++
      [Legal "OldStyle" VBool; Legal "OldNum" VBool; Legal "Hide" VBool;
       Each 0 ([("ParagraphCaption", caption); ("ParagraphNum", text); ("ParagraphSentence", sentences);
                reads "AmendProvision" KAmend; reads "Class" KClass]
               ++ structs ++ [reads "Item" (KItem Item0)]) (unexpected "Paragraph")]
  | KArticle => [is_tag "Article"] ++ numbered ++
      [Legal "Delete" VBool; Legal "Hide" VBool;
       Opening [("ArticleCaption", caption); ("ArticleTitle", text)]
         [reads "Paragraph" KParagraph; ("SupplNote", text)] (unexpected "Article")]
  | KPart => heading_rules "Part" [reads "Chapter" KChapter; reads "Article" KArticle]
  | KChapter => heading_rules "Chapter" [reads "Section" KSection; reads "Article" KArticle]
  | KSection => heading_rules "Section"
      [reads "Subsection" KSubsection; reads "Article" KArticle; reads "Division" KDivision]
  | KSubsection => heading_rules "Subsection" [reads "Division" KDivision; reads "Article" KArticle]
  | KDivision => heading_rules "Division" [reads "Article" KArticle]
  | KAmend => [is_tag "AmendProvision";
      Each 0 [("AmendProvisionSentence", [At 0 (MissingRequiredTag "AmendProvision") [As KSentence]]);
              ("NewProvision", [Each 0 new_provision (unexpected "AmendProvision")])]
        (unexpected "AmendProvision")]
  | KLawTitle => is_tag "LawTitle" :: text
  | KPreamble => [is_tag "Preamble"; Each 0 [reads "Paragraph" KParagraph] ignored]
  | KMain => [is_tag "MainProvision"; Legal "Extract" VBool;
      Each 0 [reads "Part" KPart; reads "Chapter" KChapter; reads "Section" KSection;
              reads "Article" KArticle; reads "Paragraph" KParagraph] (unexpected "MainProvision")]
  | KSuppl => [is_tag_called "SupplProvision" "SupplProbision";
      OneOf "Type" "SupplProbision" ["New"; "Amend"]; Legal "Extract" VBool;
      Each 0 [("SupplProvisionLabel", text); reads "Chapter" KChapter; reads "Article" KArticle;
              reads "Paragraph" KParagraph; reads "SupplProvisionAppdxTable" KSupplTable;
              reads "SupplProvisionAppdxStyle" KSupplStyle; reads "SupplProvisionAppdx" KSupplAppdx]
        (unexpected "SupplProvision")]
  | KSupplTable => [is_tag_called "SupplProvisionAppdxTable" "SupplProbisionAppdxTable";
      Each 0 [("SupplProvisionAppdxTableTitle", text); ("RelatedArticleNum", text);
              reads "TableStruct" KTableStruct] (Refused (fun n => WrongTagName n n));
      Needs ["SupplProvisionAppdxTableTitle"] "SupplProbisionAddxTableTitle"]
  | KSupplStyle => [is_tag_called "SupplProvisionAppdxStyle" "SupplProbisionAppdxStyle";
      Each 0 [("SupplProvisionAppdxStyleTitle", text); ("RelatedArticleNum", text);
              reads "StyleStruct" (KCStruct SStyle)] (unexpected "SupplProvisionAppdxStyle");
      Needs ["SupplProvisionAppdxStyleTitle"] "SupplProbivionAppdxStyle"]
  | KSupplAppdx => [is_tag_called "SupplProvisionAppdx" "SupplProbisionAppdx";
      Each 0 [("ArithFormulaNum", text); ("RelatedArticleNum", text); ("ArithFormula", formula)]
        (unexpected "SupplProvisionAppdx")]
  | KAppdxTable => appended_rules "AppdxTable"
      [reads "TableStruct" KTableStruct; reads "Item" (KItem Item0)]
  | KAppdxNote => appended_rules "AppdxNote"
      [reads "TableStruct" KTableStruct; reads "FigStruct" KFigStruct; reads "NoteStruct" (KCStruct SNote)]
  | KAppdxStyle => appended_rules "AppdxStyle" [reads "StyleStruct" (KCStruct SStyle)]
  | KAppdxFormat => appended_rules "AppdxFormat" [reads "FormatStruct" (KCStruct SFormat)]
  | KAppdx => [is_tag "Appdx";
      Each 0 [("ArithFormulaNum", text); ("RelatedArticleNum", text); ("ArithFormula", formula);
              reads "Remarks" KRemarks] (unexpected "Appdx")]
  | KAppdxFig => [is_tag "AppdxFig";
      Each 0 [("AppdxFigTitle", text); ("RelatedArticleNum", text); reads "TableStruct" KTableStruct;
              reads "FigStruct" KFigStruct] (unexpected "AppdxFig")]
  | KTOC => [is_tag "TOC";
      Each 0 [("TOCLabel", text); ("TOCPreambleLabel", text); reads "TOCPart" KTOCPart;
              reads "TOCChapter" KTOCChapter; reads "TOCSection" KTOCSection;
              reads "TOCArticle" KTOCArticle; reads "TOCSupplProvision" KTOCSuppl;
              ("TOCAppdxTableLabel", text)] (unexpected "TOC")]
  | KTOCPart => toc_rules "TOCPart" "PartTitle" [reads "TOCChapter" KTOCChapter]
  | KTOCChapter => toc_rules "TOCChapter" "ChapterTitle" [reads "TOCSection" KTOCSection]
  | KTOCSection => toc_rules "TOCSection" "SectionTitle"
      [reads "TOCSubsection" KTOCSubsection; reads "TOCDivision" KTOCDivision]
  | KTOCSubsection => toc_rules "TOCSubsection" "SubsectionTitle" [reads "TOCDivision" KTOCDivision]
  | KTOCDivision => toc_rules "TOCDivision" "DivisionTitle" []
  | KTOCArticle => [is_tag "TOCArticle"; Present "Num"; Legal "Num" VNumber; Legal "Delete" VBool;
      Each 0 [("ArticleTitle", text); ("ArticleCaption", caption)] (unexpected "TOCArticle");
      Needs ["ArticleCaption"] "Caption"]
  | KTOCSuppl => [is_tag_called "TOCSupplProvision" "TOCSupplProbision";
      Each 0 [("SupplProvisionLabel", text); ("ArticleRange", text); reads "TOCArticle" KTOCArticle;
              reads "TOCChapter" KTOCChapter] (unexpected "TOCSupplProvision")]
  | KLawBody => [is_tag "LawBody";
      Each 0 [reads "LawTitle" KLawTitle; ("EnactStatement", text); reads "TOC" KTOC;
              reads "Preamble" KPreamble; reads "MainProvision" KMain; reads "SupplProvision" KSuppl;
              reads "AppdxTable" KAppdxTable; reads "AppdxNote" KAppdxNote;
              reads "AppdxStyle" KAppdxStyle; reads "Appdx" KAppdx; reads "AppdxFig" KAppdxFig;
              reads "AppdxFormat" KAppdxFormat] (unexpected "LawBody");
      Needs ["MainProvision"] "MainProvision"]
  end.

Definition law_rules : list check :=
  [is_tag "Law"; Chosen "Era" (map fst era_names); Present "Year"; Legal "Year" VInteger;
   Demanded "Num"; NumberOrBlank "Num"; IntegerOrBlank "PromulgateMonth"; IntegerOrBlank "PromulgateDay";
   Chosen "LawType" (map fst law_type_names); Chosen "Lang" (map fst lang_names);
   At 0 (MissingRequiredTag "LawNum") [Is "LawNum" (fun n => UnexpectedTag n "LawNum")];
   At 1 (MissingRequiredTag "LawBody") [As KLawBody]].

(** ** How going through the checks ends *)
Definition forgiven (w : ending) : ending := match w with Crash => Crash | _ => Fine end.

Inductive ends : list check -> Element -> ending -> Prop :=
| ends_fine e : ends [] e Fine
| ends_pass c l e w : passes c e Fine -> ends l e w -> ends (c :: l) e w
| ends_stop c l e w : passes c e w -> w <> Fine -> ends (c :: l) e w
with passes : check -> Element -> ending -> Prop :=
| pass_alone c e w : alone c e w -> passes c e w
| pass_as k e w : ends (rules k) e w -> passes (As k) e w
| pass_tried k e w : ends (rules k) e w -> passes (Tried k) e (forgiven w)
| pass_each i rows o e w : nodes_end rows o (skipn i (children e)) w -> passes (Each i rows o) e w
| pass_at i er l e c w : element_at i (children e) c -> ends l c w -> passes (At i er l) e w
| pass_not_at i er l e : (forall c, ~ element_at i (children e) c) -> passes (At i er l) e (Fault er)
| pass_opening head rows o e w : opening_ends head rows o (children e) w -> passes (Opening head rows o) e w
with nodes_end : list (string * list check) -> others -> list XMLNode -> ending -> Prop :=
| nodes_done rows o : nodes_end rows o [] Fine
| nodes_text rows o s l w : nodes_end rows o l w -> nodes_end rows o (NText s :: l) w
| nodes_other rows o s l w : nodes_end rows o l w -> nodes_end rows o (NOther s :: l) w
| nodes_pass rows o c l w : child_ends rows o c Fine -> nodes_end rows o l w ->
    nodes_end rows o (NElement c :: l) w
| nodes_stop rows o c l w : child_ends rows o c w -> w <> Fine -> nodes_end rows o (NElement c :: l) w
with child_ends : list (string * list check) -> others -> Element -> ending -> Prop :=
| child_listed rows o c l w : assoc (name c) rows = Some l -> ends l c w -> child_ends rows o c w
| child_refused rows er c : assoc (name c) rows = None -> child_ends rows (Refused er) c (Fault (er (name c)))
| child_every rows l c w : assoc (name c) rows = None -> ends l c w -> child_ends rows (Every l) c w
with opening_ends : list (string * list check) -> list (string * list check) -> others -> list XMLNode ->
    ending -> Prop :=
| opening_crash head rows o : opening_ends head rows o [] Crash
| opening_text head rows o s l w : opening_ends head rows o l w -> opening_ends head rows o (NText s :: l) w
| opening_other head rows o s l w : opening_ends head rows o l w -> opening_ends head rows o (NOther s :: l) w
| opening_pass head rows o c l k w : assoc (name c) head = Some k -> ends k c Fine ->
    opening_ends head rows o l w -> opening_ends head rows o (NElement c :: l) w
| opening_stop head rows o c l k w : assoc (name c) head = Some k -> ends k c w -> w <> Fine ->
    opening_ends head rows o (NElement c :: l) w
| opening_over head rows o c l w : assoc (name c) head = None ->
    nodes_end rows o (NElement c :: l) w -> opening_ends head rows o (NElement c :: l) w.

(** An element with further nodes after its children. *)
Definition extended (e : Element) (l : list XMLNode) : Element :=
  let 'mkElement n a c := e in mkElement n a (c ++ l).
