(** What an error says about the document.

    [blamed c er] says that the error [er] describes something that is wrong with the element
    [c]: it names the tag, the attribute or the child that is at fault.  The rules below name
    tags, attributes and values; they do not refer to the readers. *)
From Coq Require Import String Ascii List NArith Bool.
From Verif Require Import Base NumStr NumStrSpec Xml Ast XmlSpec GrammarSpec.
Import ListNotations.
Open Scope string_scope.
Open Scope list_scope.

(** ** Attributes *)
Inductive value := VBool | VInteger | VNumber | VOneOf (l : list string).
Definition legal (v : value) (s : string) : Prop :=
  match v with
  | VBool => s = "true" \/ s = "false"
  | VInteger => exists n, usize_text s n
  | VNumber => exists b ed r, num_text s b ed r
  | VOneOf l => In s l
  end.

Definition heading_tags : list string := ["Part"; "Chapter"; "Section"; "Subsection"; "Division"].
Definition toc_tags : list string :=
  ["TOCPart"; "TOCChapter"; "TOCSection"; "TOCSubsection"; "TOCDivision"; "TOCArticle"].

(** Attributes that must be present. *)
Definition required : list (string * string) :=
  [("Fig", "src"); ("Class", "Num"); ("Paragraph", "Num"); ("Article", "Num"); ("Law", "Year")]
  ++ map (fun t => (t, "Num")) (heading_tags ++ toc_tags ++ item_tags).

(** Attributes whose value is checked where they are present. *)
Definition checked : list (string * (string * value)) :=
  [("Sentence", ("Num", VInteger));
   ("Sentence", ("Function", VOneOf ["main"; "proviso"]));
   ("Sentence", ("Indent", VOneOf ("Paragraph" :: item_tags)));
   ("Column", ("Num", VInteger)); ("Column", ("LineBreak", VBool));
   ("ArithFormula", ("Num", VInteger));
   ("RemarksLabel", ("LineBreak", VBool));
   ("ArticleCaption", ("CommonCaption", VBool)); ("ParagraphCaption", ("CommonCaption", VBool));
   ("Paragraph", ("OldStyle", VBool)); ("Paragraph", ("OldNum", VBool)); ("Paragraph", ("Hide", VBool));
   ("MainProvision", ("Extract", VBool)); ("SupplProvision", ("Extract", VBool));
   ("Law", ("Year", VInteger))]
  ++ map (fun t => (t, ("Delete", VBool))) ("Article" :: heading_tags ++ toc_tags ++ item_tags)
  ++ map (fun t => (t, ("Hide", VBool))) ("Article" :: heading_tags ++ item_tags)
  ++ map (fun t => (t, ("Num", VNumber))) toc_tags.

(** Attributes with a list of values of which one must be given: an absent one is reported like a
    wrong one. *)
Definition selected : list (string * (string * list string)) :=
  [("Line", ("Style", ["solid"; "none"; "dotted"; "double"]));
   ("Law", ("Era", ["Meiji"; "Taisho"; "Showa"; "Heisei"; "Reiwa"]));
   ("Law", ("LawType", ["Constitution"; "Act"; "CabinetOrder"; "ImperialOrder";
                        "MinisterialOrdinance"; "Rule"; "Misc"]));
   ("Law", ("Lang", ["ja"; "en"]))].

(** One of the pieces of a number: what stands between two separators, or between a separator and
    an end of the text. *)
Definition separator (c : Ascii.ascii) : Prop := c = "_"%char \/ c = ":"%char.
Definition piece (w s : string) : Prop :=
  exists before after, s = (before ++ w ++ after)%string /\
    (before = "" \/ exists b c, separator c /\ before = (b ++ String c "")%string) /\
    (after = "" \/ exists c a, separator c /\ after = String c a) /\
    forall c, separator c -> ~ In c (list_ascii_of_string w).

(** ** Children *)

(** The child [c] has no place among the children after the first one that are given a role. *)
Definition misplaced (t : string) (c : Element) : Prop :=
  exists r, assoc t grammar = Some r /\ ~ In (name c) (nested r) /\ ~ In (name c) (plain r).

(** Elements whose children may only be of one kind: the child is reported under its own name. *)
Definition uniform : list (string * string) :=
  [("Column", "Sentence"); ("ParagraphSentence", "Sentence"); ("List", "Sublist1");
   ("Sublist1", "Sublist2"); ("Sublist2", "Sublist3")].

(** Parts whose unknown children are reported against the element they belong to. *)
Definition part_of : list (string * string) :=
  [("List", "ListSentence"); ("Sublist1", "Sublist1Sentence"); ("Sublist2", "Sublist2Sentence");
   ("Sublist3", "Sublist3Sentence"); ("AmendProvision", "NewProvision")].

(** Elements whose unknown children are not reported against themselves: those above, and one
    more, whose reader reports the child's tag twice. *)
Definition reported_otherwise : list string :=
  map fst uniform ++ map snd part_of ++ ["Sublist3"; "SupplProvisionAppdxTable"].

(** How a list without its sentences is reported. *)
Definition list_names : list (string * (string * string)) :=
  [("List", ("ListSentence", "LiseSentence")); ("Sublist1", ("Sublist1Sentence", "Sublist1Sentence"));
   ("Sublist2", ("Sublist2Sentence", "Sublist2Sentence"));
   ("Sublist3", ("Sublist3Sentence", "Sublist3Sentence"))].

(** Children of which one must be present, and the name under which they are reported missing. *)
Definition needed : list (string * (list string * string)) :=
  [("Class", (["ClassSentence"], "Sentence or Column"));
   ("ClassSentence", (["Sentence"; "Column"; "Table"], "Sentence or Column or Table"));
   ("Remarks", (["RemarksLabel"], "RemarksLabel"));
   ("NoteStruct", (["Note"], "Note")); ("StyleStruct", (["Style"], "Style"));
   ("FormatStruct", (["Format"], "Format")); ("FigStruct", (["Fig"], "Fig"));
   ("TableStruct", (["Table"], "Table"));
   ("SupplProvisionAppdxTable", (["SupplProvisionAppdxTableTitle"], "SupplProbisionAddxTableTitle"));
   ("SupplProvisionAppdxStyle", (["SupplProvisionAppdxStyleTitle"], "SupplProbivionAppdxStyle"));
   ("TOCArticle", (["ArticleCaption"], "Caption"));
   ("LawBody", (["MainProvision"], "MainProvision"))]
  ++ map (fun t => (t, ([t ++ "Sentence"]%string, "Sentence or Column or Table"))) item_tags
  ++ map (fun t => ((t ++ "Sentence")%string,
            (["Sentence"; "Column"; "Table"], "Sentence or Column or Table"))) item_tags.

Definition is_element (n : XMLNode) : Prop := exists c, n = NElement c.

(** ** The rules *)
Inductive blamed (e : Element) : Error -> Prop :=
(* attributes *)
| absent_attribute a : In (name e, a) required -> get e a = None ->
    blamed e (MissingRequiredAttribute (name e) a)
| illegal_attribute a v s : In (name e, (a, v)) checked -> get e a = Some s -> ~ legal v s ->
    blamed e (AttributeParseError (name e) a)
| unselected_attribute a l : In (name e, (a, l)) selected -> (forall s, get e a = Some s -> ~ In s l) ->
    blamed e (AttributeParseError (name e) a)
| illegal_suppl_type s : name e = "SupplProvision" -> get e "Type" = Some s -> s <> "New" ->
    s <> "Amend" -> blamed e (AttributeParseError "SupplProbision" "Type")
| illegal_number s w : In (name e) (["Paragraph"; "Article"; "Law"] ++ heading_tags) ->
    get e "Num" = Some s -> (name e = "Law" -> s <> "") ->
    piece w s -> (forall n, ~ usize_text w n) ->
    blamed e (ParsingError "usize" w)
| illegal_date a s : name e = "Law" -> In a ["PromulgateMonth"; "PromulgateDay"] ->
    get e a = Some s -> s <> "" -> (forall n, ~ usize_text s n) ->
    blamed e (ParsingError "usize" s)
(* children that should not be there *)
| unknown_child r c : assoc (name e) grammar = Some r -> In (NElement c) (further r (children e)) ->
    misplaced (name e) c -> ~ In (name e) reported_otherwise ->
    blamed e (UnexpectedTag (name c) (name e))
| unknown_in_part p c : In (NElement p) (children e) -> In (name e, name p) part_of ->
    In (NElement c) (children p) -> misplaced (name p) c ->
    blamed e (UnexpectedTag (name c) (name e))
| late_title before b after c : name e = "Article" -> children e = before ++ NElement b :: after ->
    name b <> "ArticleCaption" -> name b <> "ArticleTitle" -> In (NElement c) after ->
    In (name c) ["ArticleCaption"; "ArticleTitle"] ->
    blamed e (UnexpectedTag (name c) "Article")
| other_than_uniform r c t : In (name e, t) uniform -> assoc (name e) grammar = Some r ->
    In (NElement c) (further r (children e)) -> name c <> t -> blamed e (WrongTagName (name c) t)
| unknown_in_suppl_table c : name e = "SupplProvisionAppdxTable" -> In (NElement c) (children e) ->
    misplaced (name e) c -> blamed e (WrongTagName (name c) (name c))
(* a first child that should be another one *)
| other_than_title c rest : In (name e) heading_tags -> children e = NElement c :: rest ->
    name c <> (name e ++ "Title")%string ->
    blamed e (UnexpectedTag (name c) (name e ++ "Title"))
| other_than_law_num c rest : name e = "Law" -> children e = NElement c :: rest ->
    name c <> "LawNum" -> blamed e (UnexpectedTag (name c) "LawNum")
| other_than_law_body n c rest : name e = "Law" -> children e = NElement n :: NElement c :: rest ->
    name c <> "LawBody" -> blamed e (WrongTagName (name c) "LawBody")
| other_than_sentence c rest : name e = "AmendProvisionSentence" -> children e = NElement c :: rest ->
    name c <> "Sentence" -> blamed e (WrongTagName (name c) "Sentence")
| no_list_sentence t u : In (name e, (t, u)) list_names ->
    (forall c rest, children e = NElement c :: rest -> name c <> t) ->
    blamed e (WrongTagName (name e) u)
(* children that are not there *)
| missing_child ts u : In (name e, (ts, u)) needed ->
    (forall c, In (NElement c) (children e) -> ~ In (name c) ts) ->
    blamed e (MissingRequiredTag u)
| missing_title : In (name e) heading_tags ->
    (forall n rest, children e = n :: rest -> ~ is_element n) ->
    blamed e (MissingRequiredTag (name e ++ "Title"))
| missing_amend_sentence : name e = "AmendProvisionSentence" ->
    (forall n rest, children e = n :: rest -> ~ is_element n) ->
    blamed e (MissingRequiredTag "AmendProvision")
| missing_law_num : name e = "Law" ->
    (forall n rest, children e = n :: rest -> ~ is_element n) ->
    blamed e (MissingRequiredTag "LawNum")
| missing_law_body n rest : name e = "Law" -> children e = NElement n :: rest -> name n = "LawNum" ->
    (forall b rest', rest = b :: rest' -> ~ is_element b) ->
    blamed e (MissingRequiredTag "LawBody").

(** The error is the fault of some element of the document. *)
Definition explained (e : Element) (er : Error) : Prop := exists c, inside c e /\ blamed c er.

(** ** The tag each reader expects, and how it spells it in its error. *)
Definition own_tag (k : kind) : option (string * string) :=
  let same s := Some (s, s) in
  match k with
  | KVoid | KCont _ => None
  | KRuby => same "Ruby" | KLine => same "Line" | KSentence => same "Sentence"
  | KColumn => same "Column" | KTable => same "Table" | KTableRow => same "TableRow"
  | KTableColumn => same "TableColumn" | KRemarks => same "Remarks"
  | KCStruct SNote => same "NoteStruct" | KCStruct SStyle => same "StyleStruct"
  | KCStruct SFormat => same "FormatStruct" | KFigStruct => same "FigStruct"
  | KTableStruct => same "TableStruct"
  | KList List0 => same "List" | KList Sublist1 => same "Sublist1"
  | KList Sublist2 => same "Sublist2" | KList Sublist3 => same "Sublist3"
  | KClass => same "Class"
  | KItem Item0 => same "Item" | KItem Sub1 => same "Subitem1" | KItem Sub2 => same "Subitem2"
  | KItem Sub3 => same "Subitem3" | KItem Sub4 => same "Subitem4" | KItem Sub5 => same "Subitem5"
  | KItem Sub6 => same "Subitem6" | KItem Sub7 => same "Subitem7" | KItem Sub8 => same "Subitem8"
  | KItem Sub9 => same "Subitem9" | KItem Sub10 => same "Subitem10"
  | KParagraph => same "Paragraph" | KArticle => same "Article" | KPart => same "Part"
  | KChapter => same "Chapter" | KSection => same "Section" | KSubsection => same "Subsection"
  | KDivision => same "Division" | KAmend => same "AmendProvision" | KLawTitle => same "LawTitle"
  | KPreamble => same "Preamble" | KMain => same "MainProvision"
  | KSuppl => Some ("SupplProvision", "SupplProbision")
  | KSupplTable => Some ("SupplProvisionAppdxTable", "SupplProbisionAppdxTable")
  | KSupplStyle => Some ("SupplProvisionAppdxStyle", "SupplProbisionAppdxStyle")
  | KSupplAppdx => Some ("SupplProvisionAppdx", "SupplProbisionAppdx")
  | KAppdxTable => same "AppdxTable" | KAppdxNote => same "AppdxNote"
  | KAppdxStyle => same "AppdxStyle" | KAppdxFormat => same "AppdxFormat" | KAppdx => same "Appdx"
  | KAppdxFig => same "AppdxFig" | KTOC => same "TOC" | KTOCPart => same "TOCPart"
  | KTOCChapter => same "TOCChapter" | KTOCSection => same "TOCSection"
  | KTOCSubsection => same "TOCSubsection" | KTOCDivision => same "TOCDivision"
  | KTOCArticle => same "TOCArticle" | KTOCSuppl => Some ("TOCSupplProvision", "TOCSupplProbision")
  | KLawBody => same "LawBody"
  end.

(** The element itself has another tag. *)
Definition misnamed (k : kind) (e : Element) (er : Error) : Prop :=
  exists t u, own_tag k = Some (t, u) /\ name e <> t /\ er = WrongTagName (name e) u.
