(** Specification of which parts of an XML tree matter to the reader. *)
From Coq Require Import String List NArith Bool.
From Verif Require Import Base Xml.
Import ListNotations.
Open Scope string_scope.

(** Tags of the elements that hold only other elements: text between their children (such as
    indentation) does not matter. *)
Definition structural_tags : list string :=
  ["Law"; "LawBody"; "Preamble"; "MainProvision"; "SupplProvision";
   "Part"; "Chapter"; "Section"; "Subsection"; "Division"; "Article"; "Paragraph";
   "ParagraphSentence"; "Class"; "ClassSentence";
   "Item"; "Subitem1"; "Subitem2"; "Subitem3"; "Subitem4"; "Subitem5"; "Subitem6"; "Subitem7";
   "Subitem8"; "Subitem9"; "Subitem10";
   "ItemSentence"; "Subitem1Sentence"; "Subitem2Sentence"; "Subitem3Sentence";
   "Subitem4Sentence"; "Subitem5Sentence"; "Subitem6Sentence"; "Subitem7Sentence";
   "Subitem8Sentence"; "Subitem9Sentence"; "Subitem10Sentence";
   "List"; "Sublist1"; "Sublist2"; "Sublist3";
   "ListSentence"; "Sublist1Sentence"; "Sublist2Sentence"; "Sublist3Sentence";
   "Column"; "Table"; "TableHeaderRow"; "TableRow"; "Remarks";
   "NoteStruct"; "StyleStruct"; "FormatStruct"; "FigStruct"; "TableStruct"; "Fig";
   "AmendProvision"; "AmendProvisionSentence"; "NewProvision";
   "SupplProvisionAppdxTable"; "SupplProvisionAppdxStyle"; "SupplProvisionAppdx";
   "AppdxTable"; "AppdxNote"; "AppdxStyle"; "AppdxFormat"; "Appdx"; "AppdxFig";
   "TOC"; "TOCPart"; "TOCChapter"; "TOCSection"; "TOCSubsection"; "TOCDivision"; "TOCArticle";
   "TOCSupplProvision"].

Definition structural (n : string) : bool := existsb (String.eqb n) structural_tags.

(** Elements whose first child nodes are looked at by position; for [Law] the first two.  Nothing
    may be put in front of these. *)
Definition leading (n : string) : nat :=
  if String.eqb n "Law" then 2
  else if existsb (String.eqb n)
       ["Part"; "Chapter"; "Section"; "Subsection"; "Division";
        "List"; "Sublist1"; "Sublist2"; "Sublist3"; "AmendProvisionSentence"; "Sup"; "Sub"]
  then 1 else 0.

(** The child nodes that matter in an element with tag [n]: never comments, text only in
    elements that may hold text. *)
Definition matters (n : string) (x : XMLNode) : bool :=
  match x with
  | NElement _ => true
  | NText _ => negb (structural n)
  | NOther _ => false
  end.

Inductive shape := ShElement | ShText | ShOther.
Definition shape_of (x : XMLNode) : shape :=
  match x with NElement _ => ShElement | NText _ => ShText | NOther _ => ShOther end.

(** Elements that hold one piece of text; an empty one need not be there. *)
Definition single_tags : list string := ["Sup"; "Sub"; "Rt"; "LawNum"].
Definition single (n : string) : bool := existsb (String.eqb n) single_tags.

(** Two trees that differ only in the order or repetition of attributes, in comments and
    other non-content nodes, in text inside structural elements, in empty text inside singles, and in
    an empty label in front of a supplementary provision. *)
Inductive sim : Element -> Element -> Prop :=
| sim_element n a a' c c' :
    (forall x, assoc x a = assoc x a') ->
    Forall2 sim_node (filter (matters n) c) (filter (matters n) c') ->
    firstn (leading n) (map shape_of c) = firstn (leading n) (map shape_of c') ->
    sim (mkElement n a c) (mkElement n a' c')
| sim_empty n a a' :
    single n = true -> (forall x, assoc x a = assoc x a') ->
    sim (mkElement n a []) (mkElement n a' [NText ""])
| sim_label a a' c c' :
    (forall x, assoc x a = assoc x a') ->
    Forall2 sim_node (filter (matters "SupplProvision") c) (filter (matters "SupplProvision") c') ->
    sim (mkElement "SupplProvision" a (NElement (mkElement "SupplProvisionLabel" [] []) :: c))
      (mkElement "SupplProvision" a' c')
with sim_node : XMLNode -> XMLNode -> Prop :=
| sim_child e e' : sim e e' -> sim_node (NElement e) (NElement e')
| sim_text s : sim_node (NText s) (NText s).

Definition only_elements (l : list XMLNode) : list XMLNode :=
  filter (fun x => match x with NElement _ => true | _ => false end) l.

(** [c] is [e] or an element anywhere below it. *)
Inductive inside : Element -> Element -> Prop :=
| inside_here e : inside e e
| inside_below c d e : In (NElement d) (children e) -> inside c d -> inside c e.

(** An [Article] element whose child elements are all captions and titles. *)
Definition bodyless (e : Element) : Prop :=
  name e = "Article" /\
  forall c, In (NElement c) (children e) -> name c = "ArticleCaption" \/ name c = "ArticleTitle".
