(** Which trees are written: a document type definition, with attributes.

    [body k] is the content of an element written for a value of kind [k] as a regular expression
    over texts and elements, [slots k] are its attributes, [tag k] is its tag.  An element is
    [written] if it and everything inside is as the table says.  Nothing here refers to the
    writers.  Where the table looks odd, so are the writers: remarks have no label, an appended
    formula of a supplementary provision is an [Appdx], a new provision is put into an element of
    its own called [AmendProvisionSentence], and the title of an appended table of a supplementary
    provision is misspelt. *)
From Coq Require Import String Ascii List NArith Bool.
From Verif Require Import Base NumStr NumStrSpec Xml Ast.
Import ListNotations.
Open Scope string_scope.
Open Scope list_scope.

(** ** Attribute values *)

(** A number in decimal, without superfluous zeros.  (Numbers of the model are unbounded; those of the
    code are below [2 ^ 64].) *)
Definition decimal (s : string) : Prop :=
  exists ds, Forall (fun d => d < 10)%N ds /\ (ds = [0%N] \/ exists d r, ds = d :: r /\ d <> 0%N) /\
    s = dec_text ds.
(** Decimals, each after an underscore. *)
Inductive branches : string -> Prop :=
| branches_none : branches ""
| branches_one s r : decimal s -> branches r -> branches ("_" ++ s ++ r)%string.
(** The same with a text after each. *)
Inductive branches_with (x : string) : string -> Prop :=
| with_none : branches_with x ""
| with_one s r : decimal s -> branches_with x r -> branches_with x ("_" ++ s ++ x ++ r)%string.
(** The end of a range. *)
Inductive range_end : string -> Prop :=
| range_none : range_end ""
| range_some s r : decimal s -> branches r -> range_end (":" ++ s ++ r)%string.
(** A number; the end of the range is repeated after each branch. *)
Definition numeral (s : string) : Prop :=
  exists b x r, decimal b /\ range_end x /\ branches_with x r /\ s = (b ++ r)%string.

Inductive value := Digits | Numeral | Yes | Truth | Any | Among (l : list string).
Definition allowed (v : value) (s : string) : Prop :=
  match v with
  | Digits => decimal s
  | Numeral => numeral s
  | Yes => s = "true"
  | Truth => s = "true" \/ s = "false"
  | Any => True
  | Among l => In s l
  end.

(** An attribute: its name, whether it is always there, its values. *)
Definition slot : Type := string * (bool * value).
Definition always (a : string) (v : value) : slot := (a, (true, v)).
Definition perhaps (a : string) (v : value) : slot := (a, (false, v)).
Definition filled (e : Element) (x : slot) : Prop :=
  match get e (fst x) with
  | Some s => allowed (snd (snd x)) s
  | None => fst (snd x) = false
  end.
Definition attributes (l : list slot) (e : Element) : Prop :=
  Forall (filled e) l /\ forall a, ~ In a (map fst l) -> get e a = None.

(** ** Content *)
Inductive model :=
| Chars                                              (* one text *)
| Of (k : kind)                                      (* one element for a value of kind [k] *)
| Leaf (t : string) (l : list slot) (m : model)      (* one element with this tag, attributes and content *)
| Empty
| Then (a b : model)
| Maybe (m : model)
| Many (m : model)
| Either (l : list model).

Inductive fits (W : kind -> Element -> Prop) : model -> list XMLNode -> Prop :=
| fits_chars s : fits W Chars [NText s]
| fits_of k e : W k e -> fits W (Of k) [NElement e]
| fits_leaf t l m e : name e = t -> attributes l e -> fits W m (children e) -> fits W (Leaf t l m) [NElement e]
| fits_empty : fits W Empty []
| fits_then a b l m : fits W a l -> fits W b m -> fits W (Then a b) (l ++ m)
| fits_absent m : fits W (Maybe m) []
| fits_present m l : fits W m l -> fits W (Maybe m) l
| fits_none m : fits W (Many m) []
| fits_more m l r : fits W m l -> fits W (Many m) r -> fits W (Many m) (l ++ r)
| fits_either l m n : In m l -> fits W m n -> fits W (Either l) n.

(** ** The table *)
Fixpoint in_order (l : list model) : model :=
  match l with
  | [] => Empty
  | [m] => m
  | m :: r => Then m (in_order r)
  end.
Definition sub : model := Leaf "Sub" [] Chars.
Definition sup : model := Leaf "Sup" [] Chars.
Definition formula : model := Of (KCont CArith).
Definition figure : model := Leaf "Fig" [always "src" Any] Empty.
Definition piece : model := Either [Chars; Of KRuby; Of KLine; sub; sup].
Definition words : model := Many piece.
Definition mode : slot := perhaps "WritingMode" (Among ["horizontal"]).
Definition title (t : string) : model := Leaf t [] words.
Definition title_with_mode (t : string) : model := Leaf t [mode] words.
Definition caption (t : string) : model := Leaf t [perhaps "CommonCaption" Truth] words.
Definition sentences (t : string) : model := Leaf t [] (Many (Of KSentence)).
Definition sentences_or_columns_or_table (t : string) : model :=
  Leaf t [] (Either [Many (Of KSentence); Many (Of KColumn); Of KTable]).
Definition inline : list model := [Of (KCont CQuote); formula; Of KRuby; sup; sub; Chars].
Definition items : list model :=
  map (fun l => Of (KItem l)) [Item0; Sub1; Sub2; Sub3; Sub4; Sub5; Sub6; Sub7; Sub8; Sub9; Sub10].
Definition contents : list model :=
  map Of [KTable; KTableStruct; KFigStruct; KCont CQuote; KCStruct SNote; KCStruct SStyle; KAppdxTable;
    KRuby; KLine; KParagraph; KList List0; KSentence; KRemarks; KTOC; KTOCSection; KTableRow]
  ++ [figure; sup; sub; Chars; formula] ++ items.
Definition cell : list model :=
  map Of [KPart; KChapter; KSection; KSubsection; KDivision; KArticle; KParagraph; KFigStruct; KRemarks;
    KSentence; KColumn] ++ [Chars] ++ items.
Definition provision : list model :=
  map Of [KLawTitle; KPreamble; KTOC; KPart; KChapter; KSection; KSubsection; KDivision; KArticle; KParagraph;
    KList List0; KSentence; KAmend; KAppdxTable; KAppdxNote; KAppdxStyle; KAppdx; KAppdxFig; KAppdxFormat;
    KSupplStyle; KSupplTable; KSupplAppdx; KTableStruct; KTableRow; KTableColumn; KFigStruct;
    KCStruct SNote; KCStruct SStyle; KCStruct SFormat; KRemarks; KLawBody]
  ++ map title ["PartTitle"; "ChapterTitle"; "SectionTitle"; "SubsectionTitle"; "DivisionTitle"; "SupplNote"]
  ++ items.
Definition structs : model :=
  Many (Either [Of KTableStruct; Of KFigStruct; Of (KCStruct SStyle); Of (KList List0)]).
Definition structure (t : model) (b : model) : model :=
  in_order [Maybe t; Many (Of KRemarks); b; Many (Of KRemarks)].
Definition heading (t : string) (l : list model) : model := in_order [title t; Many (Either l)].
Definition listing (t : string) (below : model) : model :=
  in_order [Leaf t [] (Many (Either [Of KSentence; Of KColumn])); below].
Definition item_content (t : string) (below : model) : model :=
  in_order [Maybe (title (t ++ "Title")); sentences_or_columns_or_table (t ++ "Sentence"); below; structs].
Definition appended (t : string) (l : list model) : model :=
  in_order [Maybe (title_with_mode t); Maybe (title "RelatedArticleNum"); Many (Either l); Maybe (Of KRemarks)].
Definition toc_entry (t : string) (below : model) : model :=
  in_order [title t; Maybe (title "ArticleRange"); below].

Definition numbered : list slot := [always "Num" Numeral; perhaps "Delete" Yes; perhaps "Hide" Yes].
Definition styles : value := Among ["dotted"; "double"; "solid"; "none"].

Definition tag (k : kind) : string :=
  match k with
  | KVoid => ""
  | KRuby => "Ruby" | KLine => "Line"
  | KCont CQuote => "QuoteStruct" | KCont CArith => "ArithFormula" | KCont CNote => "Note"
  | KCont CStyle => "Style" | KCont CFormat => "Format"
  | KSentence => "Sentence" | KColumn => "Column"
  | KTable => "Table" | KTableRow => "TableRow" | KTableColumn => "TableColumn" | KRemarks => "Remarks"
  | KCStruct SNote => "NoteStruct" | KCStruct SStyle => "StyleStruct" | KCStruct SFormat => "FormatStruct"
  | KFigStruct => "FigStruct" | KTableStruct => "TableStruct"
  | KList List0 => "List" | KList Sublist1 => "Sublist1" | KList Sublist2 => "Sublist2"
  | KList Sublist3 => "Sublist3"
  | KClass => "Class"
  | KItem Item0 => "Item" | KItem Sub1 => "Subitem1" | KItem Sub2 => "Subitem2" | KItem Sub3 => "Subitem3"
  | KItem Sub4 => "Subitem4" | KItem Sub5 => "Subitem5" | KItem Sub6 => "Subitem6" | KItem Sub7 => "Subitem7"
  | KItem Sub8 => "Subitem8" | KItem Sub9 => "Subitem9" | KItem Sub10 => "Subitem10"
  | KParagraph => "Paragraph" | KArticle => "Article"
  | KPart => "Part" | KChapter => "Chapter" | KSection => "Section" | KSubsection => "Subsection"
  | KDivision => "Division"
  | KAmend => "AmendProvision" | KLawTitle => "LawTitle" | KPreamble => "Preamble" | KMain => "MainProvision"
  | KSuppl => "SupplProvision" | KSupplTable => "SupplProvisionAppdxTable"
  | KSupplStyle => "SupplProvisionAppdxStyle" | KSupplAppdx => "Appdx"
  | KAppdxTable => "AppdxTable" | KAppdxNote => "AppdxNote" | KAppdxStyle => "AppdxStyle"
  | KAppdxFormat => "AppdxFormat" | KAppdx => "Appdx" | KAppdxFig => "AppdxFig"
  | KTOC => "TOC" | KTOCPart => "TOCPart" | KTOCChapter => "TOCChapter" | KTOCSection => "TOCSection"
  | KTOCSubsection => "TOCSubsection" | KTOCDivision => "TOCDivision" | KTOCArticle => "TOCArticle"
  | KTOCSuppl => "TOCSupplProvision"
  | KLawBody => "LawBody"
  end.

Definition slots (k : kind) : list slot :=
  match k with
  | KLine => [always "Style" styles]
  | KSentence => [perhaps "Num" Digits; perhaps "Function" (Among ["main"; "proviso"]);
      perhaps "Indent" (Among ["Paragraph"; "Item"; "Subitem1"; "Subitem2"; "Subitem3"; "Subitem4"; "Subitem5";
        "Subitem6"; "Subitem7"; "Subitem8"; "Subitem9"; "Subitem10"]); mode]
  | KColumn => [perhaps "Num" Digits; always "LineBreak" Truth;
      perhaps "Align" (Among ["left"; "center"; "right"; "justify"])]
  | KTable => [mode]
  | KTableColumn => [always "BorderTop" styles; always "BorderBottom" styles; always "BorderLeft" styles;
      always "BorderRight" styles; perhaps "rowspan" Any; perhaps "colspan" Any]
  | KClass => [always "Num" Any]
  | KItem _ => [perhaps "Num" Numeral; perhaps "Delete" Yes; perhaps "Hide" Yes]
  | KParagraph => [always "Num" Numeral; perhaps "OldStyle" Yes; perhaps "OldNum" Yes; perhaps "Hide" Yes]
  | KArticle | KPart | KChapter | KSection | KSubsection | KDivision => numbered
  | KLawTitle => [perhaps "Kana" Any; perhaps "Abbrev" Any; perhaps "AbbrevKana" Any]
  | KMain => [perhaps "Extract" Truth]
  | KSuppl => [perhaps "Type" (Among ["New"; "Amend"]); perhaps "AmendLawNum" Any; perhaps "Extract" Truth]
  | KSupplTable | KSupplStyle | KSupplAppdx => [perhaps "Num" Any]
  | KAppdxTable | KAppdxNote | KAppdxStyle | KAppdxFormat | KAppdxFig => [perhaps "Num" Any]
  | KTOCPart | KTOCChapter | KTOCSection | KTOCSubsection | KTOCDivision | KTOCArticle =>
      [always "Num" Numeral; perhaps "Delete" Yes]
  | KLawBody => [perhaps "Subject" Any]
  | _ => []
  end.

Definition body (k : kind) : model :=
  match k with
  | KVoid => Either []
  | KRuby => in_order [words; Leaf "Rt" [] Chars]
  | KLine => Many (Either inline)
  | KCont _ => Many (Either contents)
  | KSentence => Many (Either (Of KLine :: inline))
  | KColumn => Many (Of KSentence)
  | KTable => in_order [Many (Leaf "TableHeaderRow" [] (Many (title "TableHeaderColumn"))); Many (Of KTableRow)]
  | KTableRow => Many (Of KTableColumn)
  | KTableColumn => Many (Either cell)
  | KRemarks => Many (Either [Of (KItem Item0); Of KSentence])
  | KCStruct SNote => structure (title "NoteStructTitle") (Of (KCont CNote))
  | KCStruct SStyle => structure (title "StyleStructTitle") (Of (KCont CStyle))
  | KCStruct SFormat => structure (title "FormatStructTitle") (Of (KCont CFormat))
  | KFigStruct => structure (title "FigStructTitle") figure
  | KTableStruct => structure (title_with_mode "TableStructTitle") (Of KTable)
  | KList List0 => listing "ListSentence" (Many (Of (KList Sublist1)))
  | KList Sublist1 => listing "Sublist1Sentence" (Many (Of (KList Sublist2)))
  | KList Sublist2 => listing "Sublist2Sentence" (Many (Of (KList Sublist3)))
  | KList Sublist3 => listing "Sublist3Sentence" Empty
  | KClass => in_order [Maybe (title "ClassTitle"); sentences_or_columns_or_table "ClassSentence";
      Many (Of (KItem Item0))]
  | KItem Item0 => item_content "Item" (Many (Of (KItem Sub1)))
  | KItem Sub1 => item_content "Subitem1" (Many (Of (KItem Sub2)))
  | KItem Sub2 => item_content "Subitem2" (Many (Of (KItem Sub3)))
  | KItem Sub3 => item_content "Subitem3" (Many (Of (KItem Sub4)))
  | KItem Sub4 => item_content "Subitem4" (Many (Of (KItem Sub5)))
  | KItem Sub5 => item_content "Subitem5" (Many (Of (KItem Sub6)))
  | KItem Sub6 => item_content "Subitem6" (Many (Of (KItem Sub7)))
  | KItem Sub7 => item_content "Subitem7" (Many (Of (KItem Sub8)))
  | KItem Sub8 => item_content "Subitem8" (Many (Of (KItem Sub9)))
  | KItem Sub9 => item_content "Subitem9" (Many (Of (KItem Sub10)))
  | KItem Sub10 => item_content "Subitem10" Empty
  | KParagraph => in_order [Maybe (caption "ParagraphCaption"); title "ParagraphNum"; sentences "ParagraphSentence";
      Many (Of KAmend); Many (Of KClass); structs; Many (Of (KItem Item0))]
  | KArticle => in_order [Maybe (caption "ArticleCaption"); title "ArticleTitle"; Many (Of KParagraph);
      Maybe (title "SupplNote")]
  | KPart => heading "PartTitle" [Of KArticle; Of KChapter]
  | KChapter => heading "ChapterTitle" [Of KArticle; Of KSection]
  | KSection => heading "SectionTitle" [Of KArticle; Of KSubsection; Of KDivision]
  | KSubsection => heading "SubsectionTitle" [Of KArticle; Of KDivision]
  | KDivision => heading "DivisionTitle" [Of KArticle]
  | KAmend => in_order [Maybe (Leaf "AmendProvisionSentence" [] (Of KSentence));
      Many (Leaf "AmendProvisionSentence" [] (Either provision))]
  | KLawTitle => words
  | KPreamble => Many (Of KParagraph)
  | KMain => Many (Either [Of KPart; Of KChapter; Of KSection; Of KArticle; Of KParagraph])
  | KSuppl => in_order [Maybe (Leaf "SupplProvisionLabel" [] (Then piece words));
      Many (Either [Of KChapter; Of KArticle; Of KParagraph; Of KSupplTable; Of KSupplStyle; Of KSupplAppdx])]
  | KSupplTable => in_order [title_with_mode "SupplProvisionAppdxTableitle"; Maybe (title "RelatedArticleNum");
      Many (Of KTableStruct)]
  | KSupplStyle => in_order [title_with_mode "SupplProvisionAppdxStyleTitle"; Maybe (title "RelatedArticleNum");
      Many (Of (KCStruct SStyle))]
  | KSupplAppdx => in_order [Maybe (title "ArithFormulaNum"); Maybe (title "ArithFormulaNum"); Many formula]
  | KAppdxTable => appended "AppdxTableTitle" [Of KTableStruct; Of (KItem Item0)]
  | KAppdxNote => appended "AppdxNoteTitle" [Of (KCStruct SNote); Of KFigStruct; Of KTableStruct]
  | KAppdxStyle => appended "AppdxStyleTitle" [Of (KCStruct SStyle)]
  | KAppdxFormat => appended "AppdxFormatTitle" [Of (KCStruct SFormat)]
  | KAppdx => in_order [Maybe (title "ArithFormulaNum"); Maybe (title "ArithFormulaNum"); Many formula;
      Maybe (Of KRemarks)]
  | KAppdxFig => in_order [Maybe (title_with_mode "AppdxFigTitle"); Maybe (title "RelatedArticleNum");
      Many (Either [Of KFigStruct; Of KTableStruct])]
  | KTOC => in_order [Maybe (title "TOCLabel"); Maybe (title "TOCLabel");
      Many (Either [Of KTOCPart; Of KTOCChapter; Of KTOCSection; Of KTOCArticle]); Maybe (Of KTOCSuppl);
      Many (title "TOCAppdxTableLabel")]
  | KTOCPart => toc_entry "PartTitle" (Many (Of KTOCChapter))
  | KTOCChapter => toc_entry "ChapterTitle" (Many (Of KTOCSection))
  | KTOCSection => toc_entry "SectionTitle" (Many (Either [Of KTOCSubsection; Of KTOCDivision]))
  | KTOCSubsection => toc_entry "SubsectionTitle" (Many (Of KTOCDivision))
  | KTOCDivision => toc_entry "DivisionTitle" Empty
  | KTOCArticle => in_order [title "ArticleTitle"; caption "ArticleCaption"]
  | KTOCSuppl => in_order [title "SupplProvisionLabel"; Maybe (title "ArticleRange");
      Many (Either [Of KTOCArticle; Of KTOCChapter])]
  | KLawBody => in_order [Maybe (Of KLawTitle); Many (title "EnactStatement"); Maybe (Of KTOC);
      Maybe (Of KPreamble); Of KMain; Many (Of KSuppl); Many (Of KAppdxTable); Many (Of KAppdxNote);
      Many (Of KAppdxStyle); Many (Of KAppdx); Many (Of KAppdxFig); Many (Of KAppdxFormat)]
  end.

Inductive written : kind -> Element -> Prop :=
| written_element k e : name e = tag k -> attributes (slots k) e -> fits written (body k) (children e) ->
    written k e.

Definition law_slots : list slot :=
  [always "Era" (Among ["Meiji"; "Taisho"; "Showa"; "Heisei"; "Reiwa"]); always "Year" Digits;
   perhaps "Num" Numeral; perhaps "PromulgateMonth" Digits; perhaps "PromulgateDay" Digits;
   always "LawType" (Among ["Constitution"; "Act"; "CabinetOrder"; "ImperialOrder"; "MinisterialOrdinance";
     "Rule"; "Misc"]);
   always "Lang" (Among ["ja"; "en"])].
Definition law_written (e : Element) : Prop :=
  name e = "Law" /\ attributes law_slots e /\
  fits written (Then (Leaf "LawNum" [] Chars) (Of KLawBody)) (children e).

(** ** Trees that are the same

    Attributes are a map: their order does not matter. *)
Inductive alike : Element -> Element -> Prop :=
| alike_intro e f : name e = name f -> (forall a, get e a = get f a) ->
    Forall2 node_alike (children e) (children f) -> alike e f
with node_alike : XMLNode -> XMLNode -> Prop :=
| alike_element e f : alike e f -> node_alike (NElement e) (NElement f)
| alike_text s : node_alike (NText s) (NText s)
| alike_other s : node_alike (NOther s) (NOther s).
