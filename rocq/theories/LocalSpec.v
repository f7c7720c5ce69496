(** Replacing one element of an XML tree: places, kinds of elements by their tag, and documents that differ in one
    place. *)
From Coq Require Import String List NArith Bool.
From Verif Require Import Base NumStr Xml Ast NumText Utils UtilsSpec DocListSpec Serde.
Import ListNotations.
Open Scope string_scope.
Open Scope list_scope.

(** A place in a tree: the elements around it, each with the nodes before and after. *)
Inductive place :=
| Here
| Under (n : string) (a : list (string * string)) (before : list XMLNode) (p : place) (behind : list XMLNode).

(** The tree with this element at the place. *)
Fixpoint put (p : place) (e : Element) : Element :=
  match p with
  | Here => e
  | Under n a before p behind => mkElement n a (before ++ NElement (put p e) :: behind)
  end.

(** The kind of value that an element with this tag is read as, where the readers give it a type of its own. *)
Definition kinds : list (string * kind) :=
  [("Ruby", KRuby); ("Line", KLine); ("QuoteStruct", KCont CQuote); ("ArithFormula", KCont CArith);
   ("Note", KCont CNote); ("Style", KCont CStyle); ("Format", KCont CFormat); ("Sentence", KSentence);
   ("Column", KColumn); ("Table", KTable); ("TableRow", KTableRow); ("TableColumn", KTableColumn);
   ("Remarks", KRemarks); ("NoteStruct", KCStruct SNote); ("StyleStruct", KCStruct SStyle);
   ("FormatStruct", KCStruct SFormat); ("FigStruct", KFigStruct); ("TableStruct", KTableStruct);
   ("List", KList List0); ("Sublist1", KList Sublist1); ("Sublist2", KList Sublist2);
   ("Sublist3", KList Sublist3); ("Class", KClass); ("Item", KItem Item0); ("Subitem1", KItem Sub1);
   ("Subitem2", KItem Sub2); ("Subitem3", KItem Sub3); ("Subitem4", KItem Sub4); ("Subitem5", KItem Sub5);
   ("Subitem6", KItem Sub6); ("Subitem7", KItem Sub7); ("Subitem8", KItem Sub8); ("Subitem9", KItem Sub9);
   ("Subitem10", KItem Sub10); ("Paragraph", KParagraph); ("Article", KArticle); ("Part", KPart);
   ("Chapter", KChapter); ("Section", KSection); ("Subsection", KSubsection); ("Division", KDivision);
   ("AmendProvision", KAmend); ("LawTitle", KLawTitle); ("Preamble", KPreamble); ("MainProvision", KMain);
   ("SupplProvision", KSuppl); ("SupplProvisionAppdxTable", KSupplTable);
   ("SupplProvisionAppdxStyle", KSupplStyle); ("SupplProvisionAppdx", KSupplAppdx); ("AppdxTable", KAppdxTable);
   ("AppdxNote", KAppdxNote); ("AppdxStyle", KAppdxStyle); ("AppdxFormat", KAppdxFormat); ("Appdx", KAppdx);
   ("AppdxFig", KAppdxFig); ("TOC", KTOC); ("TOCPart", KTOCPart); ("TOCChapter", KTOCChapter);
   ("TOCSection", KTOCSection); ("TOCSubsection", KTOCSubsection); ("TOCDivision", KTOCDivision);
   ("TOCArticle", KTOCArticle); ("TOCSupplProvision", KTOCSuppl); ("LawBody", KLawBody)].
Definition kind_of (e : Element) : option kind := Xml.assoc (name e) kinds.

(** Two elements that may stand in the same place: the same tag, of kind [k]; for a formula also the same number,
    which is read by the element around it. *)
Definition twins (k : kind) (c c' : Element) : Prop :=
  kind_of c = Some k /\ name c' = name c /\ (k = KCont CArith -> get c' "Num" = get c "Num").

(** The documents are the same but for one place, where the first has [d] and the second has [d']. *)
Inductive one_place (d d' : json) : json -> json -> Prop :=
| op_here : one_place d d' d d'
| op_array a x x' b : one_place d d' x x' -> one_place d d' (JArr (a ++ x :: b)) (JArr (a ++ x' :: b))
| op_object a k x x' b : one_place d d' x x' ->
    one_place d d' (JObj (a ++ (k, x) :: b)) (JObj (a ++ (k, x') :: b)).

(** The outcome of a second reading compared with that of a first one: the same error or panic, or a value with the
    same document but for at most one place. *)
Definition differs {A} (s : A -> json) (d d' : json) (x y : R A) : Prop :=
  match x, y with
  | Ok v, Ok v' => v = v' \/ one_place d d' (s v) (s v')
  | Err e, Err e' => e = e'
  | Panic, Panic => True
  | _, _ => False
  end.

(** The headings around the place below a provision, from the outermost one, if only headings are around it. *)
Fixpoint around (p : place) : option written_trail :=
  match p with
  | Here => Some []
  | Under n a _ p _ =>
      match heading_rank n, around p with
      | Some r, Some t => Some ((r, Xml.assoc "Num" a) :: t)
      | _, _ => None
      end
  end.
(** The articles at and below an element that stands under these headings. *)
Definition articles_at (t : written_trail) (c : Element) : list (written_trail * Element) :=
  map (fun x => (t ++ fst x, snd x)) (filter (fun x => is_article (snd x)) (places c)).
(** The listing says this of these articles. *)
Definition listed (l : list (written_trail * Element)) (ws : list WithNumberArticle) : Prop :=
  exists xs, Forall2 article_for l xs /\ Forall2 noted_as xs ws.
