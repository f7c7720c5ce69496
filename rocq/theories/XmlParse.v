(** The XML readers: every [Parser::parser] of /repo/src.

    Model file: definitions only.  [p] is the recursive call. *)
From Coq Require Import String List NArith Bool.
From Verif Require Import Base NumStr Xml Ast XmlWrite.
Import ListNotations.
Open Scope string_scope.

(** ** Attribute values read *)

(** /repo/src/line.rs 103-111: [double] is read as [Dotted]. *)
Definition linestyle_of (a : option string) : option LineStyle :=
  match a with
  | Some s =>
      assoc s [("solid", LSolid); ("none", LNone); ("dotted", LDotted); ("double", LDotted)]
  | None => None
  end.

(** /repo/src/class.rs 249-257. *)
Definition align_of (a : option string) : option Align :=
  match a with
  | Some s =>
      assoc s [("left", ALeft); ("center", ACenter); ("right", ARight); ("justify", AJustify)]
  | None => None
  end.

(** /repo/src/table.rs 383-390. *)
Definition position_of (a : option string) : option Position :=
  match a with
  | Some s => assoc s [("top", PTop); ("middle", PMiddle); ("bottom", PBottom)]
  | None => None
  end.

(** /repo/src/text.rs 193-209, /repo/src/sentence.rs 57-61, /repo/src/table.rs 27-31 (where
    [vertical] is misspelt, without effect). *)
Definition mode_of (a : option string) : WritingMode :=
  match a with
  | Some s => if String.eqb s "horizontal" then Horizontal else Vertical
  | None => Vertical
  end.

(** An attribute with an enumerated value, absent or listed, anything else being the error
    given: /repo/src/sentence.rs 25-56, /repo/src/suppl_provision.rs 28-38. *)
Definition enum_opt {T} (a : option string) (l : list (string * T)) (err : Error) : R (option T) :=
  match a with
  | None => Ok None
  | Some s => match assoc s l with Some v => Ok (Some v) | None => Err err end
  end.

(** An attribute with an enumerated value which must be present: /repo/src/law.rs 50-62 and 99-123. *)
Definition enum_req {T} (a : option string) (l : list (string * T)) (err : Error) : R T :=
  match a with
  | None => Err err
  | Some s => match assoc s l with Some v => Ok v | None => Err err end
  end.

Definition all_lvls : list lvl :=
  [Item0; Sub1; Sub2; Sub3; Sub4; Sub5; Sub6; Sub7; Sub8; Sub9; Sub10].

(** Tag of the children of an item level. *)
Definition sub_tag (k : kind) : option string :=
  match k with KItem l => Some (item_tag l) | _ => None end.

(** [XMLNode::Text] content of the first child, empty otherwise: /repo/src/text.rs 333-343. *)
Definition first_text (l : list XMLNode) : string :=
  match l with NText s :: _ => s | _ => "" end.

(** The leading [if element.name.as_str() == n]: otherwise [wrong_tag_name]. *)
Definition with_name {A} (e : Element) (n expected : string) (k : R A) : R A :=
  if String.eqb (name e) n then k else wrong_tag_name e expected.

Section Parse.
Context {K : kind -> Type}.
Context (p : forall k, Element -> R (K k)).

(** /repo/src/text.rs 330-349 and 365-384. *)
Definition parse_sup (e : Element) : R string :=
  with_name e "Sup" "Sup" (Ok (first_text (children e))).
Definition parse_sub (e : Element) : R string :=
  with_name e "Sub" "Sub" (Ok (first_text (children e))).

(** /repo/src/text.rs 26-58: children that cannot be read are dropped. ([impl Parser for
    Text], 134-161, is never called by the crate; see TextBuild.v.) *)
Definition text_table : list (string * handler (Text K)) :=
  [("Ruby", h_push_ok whole TE_Ruby (p KRuby));
   ("Line", h_push_ok whole TE_Line (p KLine));
   ("Sup", h_push_ok whole TE_Sup parse_sup);
   ("Sub", h_push_ok whole TE_Sub parse_sub)].
Definition from_children (l : list XMLNode) : R (Text K) :=
  run (fun s t => app t [TE_Text s]) skip text_table l [].

(** [Text::from_children(&e.children)]. *)
Definition p_text (e : Element) : R (Text K) := from_children (children e).

(** /repo/src/text.rs 191-210. *)
Definition parse_twm (e : Element) : R (TextWithWritingMode K) :=
  t <- from_children (children e);
  Ok (mkTWM t (mode_of (get e "WritingMode"))).

(** /repo/src/text.rs 277-309. *)
Definition parse_ruby (e : Element) : R (RubyF K) :=
  with_name e "Ruby" "Ruby"
    (st <- run (fun s => at0 (fun t => app t [TE_Text s])) skip
             [("Rt", h_put at1 (fun c => Ok (nodes_text (children c))))]
             (children e) ([], ("", tt));
     let '(t, (r, _)) := st in Ok (mkRubyF t r)).

(** /repo/src/contents.rs 306-311. *)
Definition parse_arith (e : Element) : R (ArithFormula K) :=
  n <- get_attribute_opt_with_parse parse_usize e "Num";
  c <- p (KCont CArith) e;
  Ok (mkArith n c).

(** /repo/src/line.rs 18-62. *)
Definition line_table : list (string * handler (list (LineContents K))) :=
  [("QuoteStruct", h_push whole LC_Quote (p (KCont CQuote)));
   ("ArithFormula", h_push whole LC_Arith parse_arith);
   ("Ruby", h_push whole LC_Ruby (p KRuby));
   ("Sup", h_push whole LC_Sup parse_sup);
   ("Sub", h_push whole LC_Sub parse_sub)].
Definition parse_line (e : Element) : R (LineF K) :=
  with_name e "Line" "Line"
    match linestyle_of (get e "Style") with
    | None => Err (AttributeParseError "Line" "Style")
    | Some st =>
        c <- run (fun s l => app l [LC_String s]) (reject e) line_table (children e) [];
        Ok (mkLineF c st)
    end.

(** /repo/src/fig.rs 14-26. *)
Definition parse_fig (e : Element) : R string :=
  match get e "src" with
  | Some s => Ok s
  | None => Err (MissingRequiredAttribute "Fig" "src")
  end.

(** The arms for the eleven item levels. *)
Definition item_rows {T} (inj : forall l, K (KItem l) -> T) : list (string * handler (list T)) :=
  map (fun l => (item_tag l, h_push whole (inj l) (p (KItem l)))) all_lvls.

(** /repo/src/contents.rs 27-165. The tag of the element is not checked; the newtypes
    (/repo/src/structs.rs 52-56, /repo/src/contents.rs 252-256, 269-273, 287-291) just call it. *)
Definition contents_table : list (string * handler (list (ContentsElement K))) :=
  ([("Table", h_push whole CE_Table (p KTable));
    ("TableStruct", h_push whole CE_TableStruct (p KTableStruct));
    ("Fig", h_push whole CE_Fig parse_fig);
    ("FigStruct", h_push whole CE_FigStruct (p KFigStruct));
    ("QuoteStruct", h_push whole CE_Quote (p (KCont CQuote)));
    ("NoteStruct", h_push whole CE_NoteStruct (p (KCStruct SNote)));
    ("StyleStruct", h_push whole CE_StyleStruct (p (KCStruct SStyle)));
    ("AppdxTable", h_push whole CE_AppdxTable (p KAppdxTable));
    ("Ruby", h_push whole CE_Ruby (p KRuby));
    ("Line", h_push whole CE_Line (p KLine));
    ("Sup", h_push whole CE_Sup parse_sup);
    ("Sub", h_push whole CE_Sub parse_sub);
    ("Paragraph", h_push whole CE_Paragraph (p KParagraph))]
   ++ item_rows CE_Item
   ++ [("List", h_push whole CE_List (p (KList List0)));
       ("Sentence", h_push whole CE_Sentence (p KSentence));
       ("ArithFormula", h_push whole CE_Arith parse_arith);
       ("TOC", h_push whole CE_TOC (p KTOC));
       ("TOCSection", h_push whole CE_TOCSection (p KTOCSection));
       ("Remarks", h_push whole CE_Remarks (p KRemarks));
       ("TableRow", h_push whole CE_TableRow (p KTableRow))])%list.
Definition parse_cont (e : Element) : R (ContentsF K) :=
  run (fun s l => app l [CE_String s]) (reject e) contents_table (children e) [].

(** /repo/src/sentence.rs 21-107. *)
Definition sentence_table : list (string * handler (list (SentenceElement K))) :=
  [("Line", h_push whole SE_Line (p KLine));
   ("QuoteStruct", h_push whole SE_Quote (p (KCont CQuote)));
   ("ArithFormula", h_push whole SE_Arith parse_arith);
   ("Ruby", h_push whole SE_Ruby (p KRuby));
   ("Sup", h_push whole SE_Sup parse_sup);
   ("Sub", h_push whole SE_Sub parse_sub)].
Definition functions : list (string * SentenceFunction) :=
  [("main", FMain); ("proviso", FProviso)].
Definition indents : list (string * SentenceIndent) :=
  ("Paragraph", IParagraph) :: map (fun l => (item_tag l, IItem l)) all_lvls.
Definition parse_sentence (e : Element) : R (SentenceF K) :=
  with_name e "Sentence" "Sentence"
    (num <- get_attribute_opt_with_parse parse_usize e "Num";
     fn <- enum_opt (get e "Function") functions (AttributeParseError (name e) "Function");
     ind <- enum_opt (get e "Indent") indents (AttributeParseError (name e) "Indent");
     c <- run (fun s l => app l [SE_String s]) (reject e) sentence_table (children e) [];
     Ok (mkSentenceF c num fn ind (mode_of (get e "WritingMode")))).

(** /repo/src/class.rs 197-220. *)
Definition parse_column (e : Element) : R (ColumnF K) :=
  with_name e "Column" "Column"
    (num <- get_attribute_opt_with_parse parse_usize e "Num";
     lb <- get_flag e "LineBreak";
     s <- parse_all (p KSentence) (children e);
     Ok (mkColumnF s num lb (align_of (get e "Align")))).

(** /repo/src/class.rs 115-151. *)
Definition parse_sct (e : Element) : R (SentenceOrColumnOrTable K) :=
  st <- run no_text (reject e)
          [("Sentence", h_push at0 (fun v => v) (p KSentence));
           ("Column", h_push at1 (fun v => v) (p KColumn));
           ("Table", h_some at2 (p KTable))]
          (children e) ([], ([], (None, tt)));
  let '(ss, (cs, (t, _))) := st in
  match cs, ss, t with
  | _ :: _, _, _ => Ok (SCT_Column cs)
  | [], _ :: _, _ => Ok (SCT_Sentence ss)
  | [], [], Some t => Ok (SCT_Table t)
  | [], [], None => missing_required_tag "Sentence or Column or Table"
  end.

(** /repo/src/class.rs 169-175. *)
Definition parse_caption (e : Element) : R (Caption K) :=
  t <- from_children (children e);
  c <- get_attribute_opt_with_parse parse_bool e "CommonCaption";
  Ok (mkCaption t c).

(** /repo/src/class.rs 23-62. *)
Definition parse_class (e : Element) : R (ClassF K) :=
  with_name e "Class" "Class"
    (num <- get_attribute e "Num";
     st <- run no_text (reject e)
             [("ClassTitle", h_some at0 p_text);
              ("ClassSentence", h_some at1 parse_sct);
              ("Item", h_push at2 (fun v => v) (p (KItem Item0)))]
             (children e) (None, (None, ([], tt)));
     let '(title, (sen, (items, _))) := st in
     match sen with
     | Some s => Ok (mkClassF title s items num)
     | None => missing_required_tag "Sentence or Column"
     end).

(** /repo/src/table.rs 82-99. *)
Definition parse_header_row (e : Element) : R (TableHeaderRow K) :=
  with_name e "TableHeaderRow" "TableHeaderRow"
    (run no_text skip [("TableHeaderColumn", h_push whole (fun v => v) p_text)] (children e) []).

(** /repo/src/table.rs 24-58. *)
Definition parse_table (e : Element) : R (TableF K) :=
  with_name e "Table" "Table"
    (st <- run no_text (reject e)
             [("TableHeaderRow", h_push at0 (fun v => v) parse_header_row);
              ("TableRow", h_push at1 (fun v => v) (p KTableRow))]
             (children e) ([], ([], tt));
     let '(h, (r, _)) := st in
     Ok (mkTableF h r (mode_of (get e "WritingMode")))).

(** /repo/src/table.rs 118-135. *)
Definition parse_table_row (e : Element) : R (TableRowF K) :=
  with_name e "TableRow" "TableRow"
    (run no_text skip [("TableColumn", h_push whole (fun v => v) (p KTableColumn))]
       (children e) []).

(** /repo/src/table.rs 162-290. *)
Definition cell_table : list (string * handler (list (TableColumnContents K))) :=
  ([("Part", h_push whole TC_Part (p KPart));
    ("Chapter", h_push whole TC_Chapter (p KChapter));
    ("Section", h_push whole TC_Section (p KSection));
    ("Subsection", h_push whole TC_Subsection (p KSubsection));
    ("Division", h_push whole TC_Division (p KDivision));
    ("Article", h_push whole TC_Article (p KArticle));
    ("Paragraph", h_push whole TC_Paragraph (p KParagraph))]
   ++ item_rows TC_Item
   ++ [("FigStruct", h_push whole TC_FigStruct (p KFigStruct));
       ("Remarks", h_push whole TC_Remarks (p KRemarks));
       ("Sentence", h_push whole TC_Sentence (p KSentence));
       ("Column", h_push whole TC_Column (p KColumn))])%list.
Definition border (e : Element) (n : string) : LineStyle :=
  match linestyle_of (get e n) with Some s => s | None => LSolid end.
Definition parse_table_column (e : Element) : R (TableColumnF K) :=
  with_name e "TableColumn" "TableColumn"
    (rowspan <- get_string_opt e "rowspan";
     colspan <- get_string_opt e "colspan";
     c <- run (fun s l => app l [TC_String s]) (reject e) cell_table (children e) [];
     Ok (mkTableColumnF c (border e "BorderTop") (border e "BorderBottom")
           (border e "BorderLeft") (border e "BorderRight") rowspan colspan
           (align_of (get e "Align")) (position_of (get e "Valign")))).

(** /repo/src/remarks.rs 79-89. *)
Definition parse_remarks_label (e : Element) : R (RemarksLabel K) :=
  with_name e "RemarksLabel" "RemarksLabel"
    (lb <- get_flag e "LineBreak";
     t <- from_children (children e);
     Ok (mkRemarksLabel t lb)).

(** /repo/src/remarks.rs 19-54. *)
Definition parse_remarks (e : Element) : R (RemarksF K) :=
  with_name e "Remarks" "Remarks"
    (st <- run no_text (reject e)
             [("RemarksLabel", h_some at0 parse_remarks_label);
              ("Item", h_push at1 RC_Item (p (KItem Item0)));
              ("Sentence", h_push at1 RC_Sentence (p KSentence))]
             (children e) (None, ([], tt));
     let '(label, (c, _)) := st in
     match label with
     | Some l => Ok (mkRemarksF l c)
     | None => missing_required_tag "RemarksLabel"
     end).

(** State of the loops of /repo/src/structs.rs: title, remarks before the body, body,
    remarks after the body. *)
Definition struct_state T B : Type :=
  option T * (list (K KRemarks) * (option B * (list (K KRemarks) * unit))).

(** [if let Ok(r) = Remarks::parser(e) { if body.is_none() { .. } else { .. } }]. *)
Definition h_struct_remarks {T B} : handler (struct_state T B) :=
  fun c =>
    o <- ok (p KRemarks c);
    Ok (match o with
        | Some r =>
            fun s : struct_state T B =>
              match fst (snd (snd s)) with
              | None => at1 (fun l => app l [r]) s
              | Some _ => at3 (fun l => app l [r]) s
              end
        | None => fun s => s
        end).

(** The common form of /repo/src/structs.rs 72-118, 148-194, 224-270, 300-346, 375-422. *)
Definition parse_struct {T B} (n tn bn : string) (pt : Element -> R T) (pb : Element -> R B)
    (e : Element) : R (StructF K T B) :=
  with_name e n n
    (st <- run no_text (reject e)
             [(tn, h_some at0 pt); ("Remarks", h_struct_remarks); (bn, h_some at2 pb)]
             (children e) (None, ([], (None, ([], tt))));
     let '(t, (tr, (b, (br, _)))) := st in
     match b with
     | Some b => Ok (mkStructF t tr b br)
     | None => missing_required_tag bn
     end).

Definition parse_cstruct (s : sname) (e : Element) : R (CStructF K s) :=
  parse_struct (struct_tag s) (struct_tag s ++ "Title") (cont_tag (body_of s))
    p_text (p (KCont (body_of s))) e.
Definition parse_fig_struct (e : Element) : R (FigStructF K) :=
  parse_struct "FigStruct" "FigStructTitle" "Fig" p_text parse_fig e.
Definition parse_table_struct (e : Element) : R (TableStructF K) :=
  parse_struct "TableStruct" "TableStructTitle" "Table" parse_twm (p KTable) e.

(** The sentences of a list, /repo/src/list.rs 38-52: an unexpected child is reported
    against the list element. *)
Definition parse_list_sentences (e s : Element) : R (list (ListSentence K)) :=
  run no_text (reject e)
    [("Sentence", h_push whole LS_Sentence (p KSentence));
     ("Column", h_push whole LS_Column (p KColumn))]
    (children s) [].

(** The name in the error of /repo/src/list.rs 55, 138, 215, 291. *)
Definition list_expected (l : llvl) : string :=
  match l with List0 => "LiseSentence" | _ => list_tag l ++ "Sentence" end.

(** /repo/src/list.rs 25-70, 108-153, 185-230, 261-299; the deepest level ignores further
    children. *)
Definition parse_list (l : llvl) (e : Element) : R (ListF K l) :=
  with_name e (list_tag l) (list_tag l)
    match children e with
    | NElement s :: rest =>
        if String.eqb (name s) (list_tag l ++ "Sentence") then
          ss <- parse_list_sentences e s;
          cs <- match l with
                | Sublist3 => Ok []
                | _ => parse_all (p (sub_list l)) rest
                end;
          Ok (mkListF ss cs)
        else wrong_tag_name e (list_expected l)
    | _ => wrong_tag_name e (list_expected l)
    end.

(** The arms for [Struct] values in items and paragraphs: /repo/src/paragraph.rs 72-87 and 217-232. *)
Definition struct_rows {S} (ix : (list (Struct K) -> list (Struct K)) -> S -> S) :
    list (string * handler S) :=
  [("TableStruct", h_push ix Struct_Table (p KTableStruct));
   ("FigStruct", h_push ix Struct_Fig (p KFigStruct));
   ("StyleStruct", h_push ix Struct_Style (p (KCStruct SStyle)));
   ("List", h_push ix Struct_List (p (KList List0)))].

(** /repo/src/paragraph.rs 196-260 and the same for the ten subitem levels: 340-404,
    484-548, 628-692, 772-836, 916-980, 1060-1124, 1204-1268, 1348-1412, 1492-1556, 1633-1691. *)
Definition item_state (l : lvl) : Type :=
  option (Text K) * (option (SentenceOrColumnOrTable K) *
    (list (Struct K) * (list (K (sub_item l)) * unit))).
Definition item_table (l : lvl) : list (string * handler (item_state l)) :=
  ([((item_tag l ++ "Title")%string, h_some at0 p_text);
    ((item_tag l ++ "Sentence")%string, h_some at1 parse_sct)]
   ++ struct_rows at2
   ++ match sub_tag (sub_item l) with
      | Some t => [(t, h_push at3 (fun v => v) (p (sub_item l)))]
      | None => []
      end)%list.
Definition parse_item (l : lvl) (e : Element) : R (ItemF K l) :=
  with_name e (item_tag l) (item_tag l)
    (n <- get_attribute e "Num";
     num <- ok (from_num_str n);
     delete <- get_flag e "Delete";
     hide <- get_flag e "Hide";
     st <- run no_text (reject e) (item_table l) (children e) (None, (None, ([], ([], tt))));
     let '(title, (sen, (structs, (subs, _)))) := st in
     match sen with
     | Some s => Ok (mkItemF title s subs structs num delete hide)
     | None => missing_required_tag "Sentence or Column or Table"
     end).

(** [for node in e.children { if let Element(e) { sentence.push(Sentence::parser(e)?) } }]. *)
Definition h_sentences {S} (ix : (list (K KSentence) -> list (K KSentence)) -> S -> S) : handler S :=
  fun c => vs <- parse_all (p KSentence) (children c); Ok (ix (fun l => app l vs)).

(** /repo/src/paragraph.rs 32-113. *)
Definition paragraph_state : Type :=
  option (Caption K) * (Text K * (list (K KSentence) * (list (K KAmend) * (list (K KClass) *
    (list (Struct K) * (list (K (KItem Item0)) * unit)))))).
Definition paragraph_table : list (string * handler paragraph_state) :=
  ([("ParagraphCaption", h_some at0 parse_caption);
    ("ParagraphNum", h_put at1 p_text);
    ("ParagraphSentence", h_sentences at2);
    ("AmendProvision", h_push at3 (fun v => v) (p KAmend));
    ("Class", h_push at4 (fun v => v) (p KClass))]
   ++ struct_rows at5
   ++ [("Item", h_push at6 (fun v => v) (p (KItem Item0)))])%list.
Definition parse_paragraph (e : Element) : R (ParagraphF K) :=
  with_name e "Paragraph" "Paragraph"
    (n <- get_attribute e "Num";
     num <- from_num_str n;
     old_style <- get_flag e "OldStyle";
     old_num <- get_flag e "OldNum";
     hide <- get_flag e "Hide";
     st <- run no_text (reject e) paragraph_table (children e)
             (None, ([], ([], ([], ([], ([], ([], tt)))))));
     let '(cap, (pn, (sen, (am, (cl, (structs, (items, _))))))) := st in
     Ok (mkParagraphF cap pn am cl sen structs items num old_style old_num hide)).

(** The first loop of /repo/src/article.rs 644-667, on the children left: captions and
    titles are read, text and other nodes skipped, until an element with another tag; running
    out of children panics ([children.next().unwrap()], line 648). *)
Fixpoint article_head (l : list XMLNode) (cap : option (Caption K)) (title : Text K) :
    R (option (Caption K) * (Text K * list XMLNode)) :=
  match l with
  | [] => Panic
  | NElement e :: r =>
      if String.eqb (name e) "ArticleCaption" then
        c <- parse_caption e; article_head r (Some c) title
      else if String.eqb (name e) "ArticleTitle" then
        t <- p_text e; article_head r cap t
      else Ok (cap, (title, l))
  | _ :: r => article_head r cap title
  end.

(** /repo/src/article.rs 637-690. *)
Definition parse_article (e : Element) : R (ArticleF K) :=
  with_name e "Article" "Article"
    (n <- get_attribute e "Num";
     num <- from_num_str n;
     delete <- get_flag e "Delete";
     hide <- get_flag e "Hide";
     h <- article_head (children e) None [];
     let '(cap, (title, rest)) := h in
     st <- run no_text (reject e)
             [("Paragraph", h_push at0 (fun v => v) (p KParagraph));
              ("SupplNote", h_some at1 p_text)]
             rest ([], (None, tt));
     let '(ps, (note, _)) := st in
     Ok (mkArticleF cap title ps note num delete hide)).

(** The common form of /repo/src/article.rs 46-94 (Part), 164-212 (Chapter), 282-334 (Section),
    408-456 (Subsection), 528-572 (Division): the first child node must be the title. *)
Definition parse_head {C} (n : string) (tbl : list (string * handler (list C))) (e : Element) :
    R (HeadF K C) :=
  with_name e n n
    (ns <- get_attribute e "Num";
     num <- from_num_str ns;
     delete <- get_flag e "Delete";
     hide <- get_flag e "Hide";
     match children e with
     | NElement t :: rest =>
         if String.eqb (name t) (n ++ "Title") then
           title <- p_text t;
           c <- run no_text (reject e) tbl rest [];
           Ok (mkHeadF title c num delete hide)
         else Err (UnexpectedTag (name t) (n ++ "Title"))
     | _ => missing_required_tag (n ++ "Title")
     end).

Definition part_table : list (string * handler (list (PartContents K))) :=
  [("Chapter", h_push whole PC_Chapter (p KChapter));
   ("Article", h_push whole PC_Article (p KArticle))].
Definition chapter_table : list (string * handler (list (ChapterContents K))) :=
  [("Section", h_push whole ChC_Section (p KSection));
   ("Article", h_push whole ChC_Article (p KArticle))].
Definition section_table : list (string * handler (list (SectionContents K))) :=
  [("Subsection", h_push whole SeC_Subsection (p KSubsection));
   ("Article", h_push whole SeC_Article (p KArticle));
   ("Division", h_push whole SeC_Division (p KDivision))].
Definition subsection_table : list (string * handler (list (SubsectionContents K))) :=
  [("Division", h_push whole SuC_Division (p KDivision));
   ("Article", h_push whole SuC_Article (p KArticle))].
Definition division_table : list (string * handler (list (K KArticle))) :=
  [("Article", h_push whole (fun v => v) (p KArticle))].

(** /repo/src/law.rs 674-868. *)
Definition new_provision_table : list (string * handler (list (NewProvision K))) :=
  ([("LawTitle", h_push whole NP_LawTitle (p KLawTitle));
    ("Preamble", h_push whole NP_Preamble (p KPreamble));
    ("TOC", h_push whole NP_TOC (p KTOC));
    ("Part", h_push whole NP_Part (p KPart));
    ("PartTitle", h_push whole NP_PartTitle p_text);
    ("Chapter", h_push whole NP_Chapter (p KChapter));
    ("ChapterTitle", h_push whole NP_ChapterTitle p_text);
    ("Section", h_push whole NP_Section (p KSection));
    ("SectionTitle", h_push whole NP_SectionTitle p_text);
    ("Subsection", h_push whole NP_Subsection (p KSubsection));
    ("SubsectionTitle", h_push whole NP_SubsectionTitle p_text);
    ("Division", h_push whole NP_Division (p KDivision));
    ("DivisionTitle", h_push whole NP_DivisionTitle p_text);
    ("Article", h_push whole NP_Article (p KArticle));
    ("SupplNote", h_push whole NP_SupplNote p_text);
    ("Paragraph", h_push whole NP_Paragraph (p KParagraph))]
   ++ item_rows NP_Item
   ++ [("List", h_push whole NP_List (p (KList List0)));
       ("Sentence", h_push whole NP_Sentence (p KSentence));
       ("AmendProvision", h_push whole NP_Amend (p KAmend));
       ("AppdxTable", h_push whole NP_AppdxTable (p KAppdxTable));
       ("AppdxNote", h_push whole NP_AppdxNote (p KAppdxNote));
       ("AppdxStyle", h_push whole NP_AppdxStyle (p KAppdxStyle));
       ("Appdx", h_push whole NP_Appdx (p KAppdx));
       ("AppdxFig", h_push whole NP_AppdxFig (p KAppdxFig));
       ("AppdxFormat", h_push whole NP_AppdxFormat (p KAppdxFormat));
       ("SupplProvisionAppdxStyle", h_push whole NP_SupplStyle (p KSupplStyle));
       ("SupplProvisionAppdxTable", h_push whole NP_SupplTable (p KSupplTable));
       ("SupplProvisionAppdx", h_push whole NP_SupplAppdx (p KSupplAppdx));
       ("TableStruct", h_push whole NP_TableStruct (p KTableStruct));
       ("TableRow", h_push whole NP_TableRow (p KTableRow));
       ("TableColumn", h_push whole NP_TableColumn (p KTableColumn));
       ("FigStruct", h_push whole NP_FigStruct (p KFigStruct));
       ("NoteStruct", h_push whole (NP_CStruct SNote) (p (KCStruct SNote)));
       ("StyleStruct", h_push whole (NP_CStruct SStyle) (p (KCStruct SStyle)));
       ("FormatStruct", h_push whole (NP_CStruct SFormat) (p (KCStruct SFormat)));
       ("Remarks", h_push whole NP_Remarks (p KRemarks));
       ("LawBody", h_push whole NP_LawBody (p KLawBody))])%list.

(** /repo/src/law.rs 656-670: the first child node must be an element. *)
Definition parse_amend_sentence (c : Element) : R (K KSentence) :=
  match children c with
  | NElement s :: _ => p KSentence s
  | _ => missing_required_tag "AmendProvision"
  end.

(** /repo/src/law.rs 648-884: an unexpected new provision is reported against the
    [AmendProvision]. *)
Definition parse_amend (e : Element) : R (AmendF K) :=
  with_name e "AmendProvision" "AmendProvision"
    (st <- run no_text (reject e)
             [("AmendProvisionSentence", h_some at0 parse_amend_sentence);
              ("NewProvision",
               fun c => vs <- run no_text (reject e) new_provision_table (children c) [];
                        Ok (at1 (fun l => app l vs)))]
             (children e) (None, ([], tt));
     let '(s, (n, _)) := st in Ok (mkAmendF s n)).

(** /repo/src/law.rs 487-504. *)
Definition parse_law_title (e : Element) : R (LawTitleF K) :=
  with_name e "LawTitle" "LawTitle"
    (kana <- get_string_opt e "Kana";
     abbrev <- get_string_opt e "Abbrev";
     abbrev_kana <- get_string_opt e "AbbrevKana";
     t <- from_children (children e);
     Ok (mkLawTitleF kana abbrev abbrev_kana t)).

(** /repo/src/law.rs 529-546: children other than paragraphs are ignored. *)
Definition parse_preamble (e : Element) : R (PreambleF K) :=
  with_name e "Preamble" "Preamble"
    (run no_text skip [("Paragraph", h_push whole (fun v => v) (p KParagraph))] (children e) []).

(** /repo/src/law.rs 566-603. *)
Definition main_table : list (string * handler (list (MainContents K))) :=
  [("Part", h_push whole MC_Part (p KPart));
   ("Chapter", h_push whole MC_Chapter (p KChapter));
   ("Section", h_push whole MC_Section (p KSection));
   ("Article", h_push whole MC_Article (p KArticle));
   ("Paragraph", h_push whole MC_Paragraph (p KParagraph))].
Definition parse_main (e : Element) : R (MainF K) :=
  with_name e "MainProvision" "MainProvision"
    (extract <- get_attribute_opt_with_parse parse_bool e "Extract";
     c <- run no_text (reject e) main_table (children e) [];
     Ok (mkMainF c extract)).

(** /repo/src/suppl_provision.rs 25-88. *)
Definition suppl_table : list (string * handler (Text K * (list (SupplContents K) * unit))) :=
  [("SupplProvisionLabel", h_put at0 p_text);
   ("Chapter", h_push at1 SP_Chapter (p KChapter));
   ("Article", h_push at1 SP_Article (p KArticle));
   ("Paragraph", h_push at1 SP_Paragraph (p KParagraph));
   ("SupplProvisionAppdxTable", h_push at1 SP_Table (p KSupplTable));
   ("SupplProvisionAppdxStyle", h_push at1 SP_Style (p KSupplStyle));
   ("SupplProvisionAppdx", h_push at1 SP_Appdx (p KSupplAppdx))].
Definition parse_suppl (e : Element) : R (SupplF K) :=
  with_name e "SupplProvision" "SupplProbision"
    (ty <- enum_opt (get e "Type") [("New", TNew); ("Amend", TAmend)]
             (AttributeParseError "SupplProbision" "Type");
     extract <- get_attribute_opt_with_parse parse_bool e "Extract";
     st <- run no_text (reject e) suppl_table (children e) ([], ([], tt));
     let '(label, (c, _)) := st in
     Ok (mkSupplF label c ty (get e "AmendLawNum") extract)).

(** /repo/src/suppl_provision.rs 164-205 and 238-279. *)
Definition parse_suppl_ts {C} (n expected tn missing cn : string)
    (dflt : handler (option (TextWithWritingMode K) * (option (Text K) * (list C * unit))))
    (pc : Element -> R C) (e : Element) : R (SupplTSF K C) :=
  with_name e n expected
    (num <- get_string_opt e "Num";
     st <- run no_text dflt
             [(tn, h_some at0 parse_twm);
              ("RelatedArticleNum", h_some at1 p_text);
              (cn, h_push at2 (fun v => v) pc)]
             (children e) (None, (None, ([], tt)));
     let '(title, (rel, (c, _))) := st in
     match title with
     | Some t => Ok (mkSupplTSF t rel c num)
     | None => missing_required_tag missing
     end).

Definition parse_suppl_table (e : Element) : R (SupplTableF K) :=
  parse_suppl_ts "SupplProvisionAppdxTable" "SupplProbisionAppdxTable"
    "SupplProvisionAppdxTableTitle" "SupplProbisionAddxTableTitle" "TableStruct"
    (fun c => wrong_tag_name c (name c)) (p KTableStruct) e.
Definition parse_suppl_style (e : Element) : R (SupplStyleF K) :=
  parse_suppl_ts "SupplProvisionAppdxStyle" "SupplProbisionAppdxStyle"
    "SupplProvisionAppdxStyleTitle" "SupplProbivionAppdxStyle" "StyleStruct"
    (reject e) (p (KCStruct SStyle)) e.

(** /repo/src/suppl_provision.rs 312-346. *)
Definition parse_suppl_appdx (e : Element) : R (SupplAppdxF K) :=
  with_name e "SupplProvisionAppdx" "SupplProbisionAppdx"
    (num <- get_string_opt e "Num";
     st <- run no_text (reject e)
             [("ArithFormulaNum", h_some at0 p_text);
              ("RelatedArticleNum", h_some at1 p_text);
              ("ArithFormula", h_push at2 (fun v => v) parse_arith)]
             (children e) (None, (None, ([], tt)));
     let '(fn, (rel, (c, _))) := st in
     Ok (mkSupplAppdxF fn rel c num)).

(** State of the loops of /repo/src/appdx.rs: title, related article number, children, remarks. *)
Definition appdx_state C : Type :=
  option (TextWithWritingMode K) * (option (Text K) * (list C * (option (K KRemarks) * unit))).

(** The common form of /repo/src/appdx.rs 24-67, 113-160, 208-247, 284-323. *)
Definition parse_appdx_t {C} (n : string) (rows : list (string * handler (appdx_state C)))
    (e : Element) : R (AppdxTF K C) :=
  with_name e n n
    (num <- get_string_opt e "Num";
     st <- run no_text (reject e)
             ([((n ++ "Title")%string, h_some at0 parse_twm);
               ("RelatedArticleNum", h_some at1 p_text)]
              ++ rows
              ++ [("Remarks", h_some at3 (p KRemarks))])%list
             (children e) (None, (None, ([], (None, tt))));
     let '(title, (rel, (c, (rem, _)))) := st in
     Ok (mkAppdxTF title rel c rem num)).

Definition appdx_table_rows : list (string * handler (appdx_state (AppdxTableContents K))) :=
  [("TableStruct", h_push at2 AT_TableStruct (p KTableStruct));
   ("Item", h_push at2 AT_Item (p (KItem Item0)))].
Definition appdx_note_rows : list (string * handler (appdx_state (AppdxNoteContents K))) :=
  [("TableStruct", h_push at2 AN_TableStruct (p KTableStruct));
   ("FigStruct", h_push at2 AN_FigStruct (p KFigStruct));
   ("NoteStruct", h_push at2 AN_NoteStruct (p (KCStruct SNote)))].
Definition appdx_style_rows : list (string * handler (appdx_state (K (KCStruct SStyle)))) :=
  [("StyleStruct", h_push at2 (fun v => v) (p (KCStruct SStyle)))].
Definition appdx_format_rows : list (string * handler (appdx_state (K (KCStruct SFormat)))) :=
  [("FormatStruct", h_push at2 (fun v => v) (p (KCStruct SFormat)))].

(** /repo/src/appdx.rs 358-392. *)
Definition parse_appdx (e : Element) : R (AppdxF K) :=
  with_name e "Appdx" "Appdx"
    (st <- run no_text (reject e)
             [("ArithFormulaNum", h_some at0 p_text);
              ("RelatedArticleNum", h_some at1 p_text);
              ("ArithFormula", h_push at2 (fun v => v) parse_arith);
              ("Remarks", h_some at3 (p KRemarks))]
             (children e) (None, (None, ([], (None, tt))));
     let '(fn, (rel, (c, (rem, _)))) := st in
     Ok (mkAppdxF fn rel c rem)).

(** /repo/src/appdx.rs 425-462. *)
Definition parse_appdx_fig (e : Element) : R (AppdxFigF K) :=
  with_name e "AppdxFig" "AppdxFig"
    (num <- get_string_opt e "Num";
     st <- run no_text (reject e)
             [("AppdxFigTitle", h_some at0 parse_twm);
              ("RelatedArticleNum", h_some at1 p_text);
              ("TableStruct", h_push at2 AF_TableStruct (p KTableStruct));
              ("FigStruct", h_push at2 AF_FigStruct (p KFigStruct))]
             (children e) (None, (None, ([], tt)));
     let '(title, (rel, (c, _))) := st in
     Ok (mkAppdxFigF title rel c num)).

(** State of the loops of the table of contents headings: title, range, children. *)
Definition toc_state C : Type := Text K * (option (Text K) * (list C * unit)).

(** The common form of /repo/src/table_of_contents.rs 142-178, 218-254, 294-334, 388-424, 464-494. *)
Definition parse_toc_head {C} (n tn : string) (rows : list (string * handler (toc_state C)))
    (e : Element) : R (TOCHeadF K C) :=
  with_name e n n
    (num <- get_attribute_with_parse parse_an e "Num";
     delete <- get_flag e "Delete";
     st <- run no_text (reject e)
             ([(tn, h_put at0 p_text); ("ArticleRange", h_some at1 p_text)] ++ rows)%list
             (children e) ([], (None, ([], tt)));
     let '(title, (range, (c, _))) := st in
     Ok (mkTOCHeadF title range num delete c)).

Definition toc_part_rows : list (string * handler (toc_state (K KTOCChapter))) :=
  [("TOCChapter", h_push at2 (fun v => v) (p KTOCChapter))].
Definition toc_chapter_rows : list (string * handler (toc_state (K KTOCSection))) :=
  [("TOCSection", h_push at2 (fun v => v) (p KTOCSection))].
Definition toc_section_rows : list (string * handler (toc_state (TOCSectionContents K))) :=
  [("TOCSubsection", h_push at2 TSC_Subsection (p KTOCSubsection));
   ("TOCDivision", h_push at2 TSC_Division (p KTOCDivision))].
Definition toc_subsection_rows : list (string * handler (toc_state (K KTOCDivision))) :=
  [("TOCDivision", h_push at2 (fun v => v) (p KTOCDivision))].

(** /repo/src/table_of_contents.rs 531-568. *)
Definition parse_toc_article (e : Element) : R (TOCArticleF K) :=
  with_name e "TOCArticle" "TOCArticle"
    (num <- get_attribute_with_parse parse_an e "Num";
     delete <- get_flag e "Delete";
     st <- run no_text (reject e)
             [("ArticleTitle", h_put at0 p_text);
              ("ArticleCaption", h_some at1 parse_caption)]
             (children e) ([], (None, tt));
     let '(title, (cap, _)) := st in
     match cap with
     | Some c => Ok (mkTOCArticleF title c num delete)
     | None => missing_required_tag "Caption"
     end).

(** /repo/src/table_of_contents.rs 601-637. *)
Definition parse_toc_suppl (e : Element) : R (TOCSupplF K) :=
  with_name e "TOCSupplProvision" "TOCSupplProbision"
    (st <- run no_text (reject e)
             [("SupplProvisionLabel", h_put at0 p_text);
              ("ArticleRange", h_some at1 p_text);
              ("TOCArticle", h_push at2 TSP_Article (p KTOCArticle));
              ("TOCChapter", h_push at2 TSP_Chapter (p KTOCChapter))]
             (children e) ([], (None, ([], tt)));
     let '(label, (range, (c, _))) := st in
     Ok (mkTOCSupplF label range c)).

(** /repo/src/table_of_contents.rs 27-82. *)
Definition parse_toc (e : Element) : R (TOCF K) :=
  with_name e "TOC" "TOC"
    (st <- run no_text (reject e)
             [("TOCLabel", h_some at0 p_text);
              ("TOCPreambleLabel", h_some at1 p_text);
              ("TOCPart", h_push at2 TM_Part (p KTOCPart));
              ("TOCChapter", h_push at2 TM_Chapter (p KTOCChapter));
              ("TOCSection", h_push at2 TM_Section (p KTOCSection));
              ("TOCArticle", h_push at2 TM_Article (p KTOCArticle));
              ("TOCSupplProvision", h_some at3 (p KTOCSuppl));
              ("TOCAppdxTableLabel", h_push at4 (fun v => v) p_text)]
             (children e) (None, (None, ([], (None, ([], tt)))));
     let '(l, (pl, (m, (s, (a, _))))) := st in
     Ok (mkTOCF l pl m s a)).

(** /repo/src/law.rs 334-425. *)
Definition law_body_state : Type :=
  option (K KLawTitle) * (list (Text K) * (option (K KTOC) * (option (K KPreamble) *
    (option (K KMain) * (list (K KSuppl) * (list (K KAppdxTable) * (list (K KAppdxNote) *
      (list (K KAppdxStyle) * (list (K KAppdx) * (list (K KAppdxFig) *
        (list (K KAppdxFormat) * unit))))))))))).
Definition law_body_table : list (string * handler law_body_state) :=
  [("LawTitle", h_some at0 (p KLawTitle));
   ("EnactStatement", h_push at1 (fun v => v) p_text);
   ("TOC", h_some at2 (p KTOC));
   ("Preamble", h_some at3 (p KPreamble));
   ("MainProvision", h_some at4 (p KMain));
   ("SupplProvision", h_push at5 (fun v => v) (p KSuppl));
   ("AppdxTable", h_push at6 (fun v => v) (p KAppdxTable));
   ("AppdxNote", h_push at7 (fun v => v) (p KAppdxNote));
   ("AppdxStyle", h_push at8 (fun v => v) (p KAppdxStyle));
   ("Appdx", h_push at9 (fun v => v) (p KAppdx));
   ("AppdxFig", h_push at10 (fun v => v) (p KAppdxFig));
   ("AppdxFormat", h_push at11 (fun v => v) (p KAppdxFormat))].
Definition parse_law_body (e : Element) : R (LawBodyF K) :=
  with_name e "LawBody" "LawBody"
    (subject <- get_string_opt e "Subject";
     st <- run no_text (reject e) law_body_table (children e)
             (None, ([], (None, (None, (None, ([], ([], ([], ([], ([], ([], ([], tt))))))))))));
     let '(title, (enact, (toc, (pre, (main, (sup, (at_, (an, (as_, (a, (af, (afm, _)))))))))))) :=
       st in
     match main with
     | Some m => Ok (mkLawBodyF title enact subject toc pre m sup at_ an as_ a af afm)
     | None => missing_required_tag "MainProvision"
     end).

(** The reader of each type. *)
Definition pstep (k : kind) : Element -> R (F K k) :=
  match k with
  | KVoid => fun _ => Panic
  | KRuby => parse_ruby
  | KLine => parse_line
  | KCont _ => parse_cont
  | KSentence => parse_sentence
  | KColumn => parse_column
  | KTable => parse_table
  | KTableRow => parse_table_row
  | KTableColumn => parse_table_column
  | KRemarks => parse_remarks
  | KCStruct s => parse_cstruct s
  | KFigStruct => parse_fig_struct
  | KTableStruct => parse_table_struct
  | KList l => parse_list l
  | KClass => parse_class
  | KItem l => parse_item l
  | KParagraph => parse_paragraph
  | KArticle => parse_article
  | KPart => parse_head "Part" part_table
  | KChapter => parse_head "Chapter" chapter_table
  | KSection => parse_head "Section" section_table
  | KSubsection => parse_head "Subsection" subsection_table
  | KDivision => parse_head "Division" division_table
  | KAmend => parse_amend
  | KLawTitle => parse_law_title
  | KPreamble => parse_preamble
  | KMain => parse_main
  | KSuppl => parse_suppl
  | KSupplTable => parse_suppl_table
  | KSupplStyle => parse_suppl_style
  | KSupplAppdx => parse_suppl_appdx
  | KAppdxTable => parse_appdx_t "AppdxTable" appdx_table_rows
  | KAppdxNote => parse_appdx_t "AppdxNote" appdx_note_rows
  | KAppdxStyle => parse_appdx_t "AppdxStyle" appdx_style_rows
  | KAppdxFormat => parse_appdx_t "AppdxFormat" appdx_format_rows
  | KAppdx => parse_appdx
  | KAppdxFig => parse_appdx_fig
  | KTOC => parse_toc
  | KTOCPart => parse_toc_head "TOCPart" "PartTitle" toc_part_rows
  | KTOCChapter => parse_toc_head "TOCChapter" "ChapterTitle" toc_chapter_rows
  | KTOCSection => parse_toc_head "TOCSection" "SectionTitle" toc_section_rows
  | KTOCSubsection => parse_toc_head "TOCSubsection" "SubsectionTitle" toc_subsection_rows
  | KTOCDivision => parse_toc_head "TOCDivision" "DivisionTitle" []
  | KTOCArticle => parse_toc_article
  | KTOCSuppl => parse_toc_suppl
  | KLawBody => parse_law_body
  end.
End Parse.

(** Height of an element tree: recursion depth that suffices to read it. *)
Fixpoint height (e : Element) : nat :=
  let 'mkElement _ _ c := e in
  S (fold_right (fun n m => Nat.max (match n with NElement e => height e | _ => O end) m) O c).

(** [T::parser] for every type [T] of the knot.  The recursion is on a bound which
    [parse] sets to the height of the tree; theorem [parse_unfold] shows that the bound
    is never reached, so the reader satisfies the recursion equation of the code. *)
Fixpoint parse_n (n : nat) (k : kind) (e : Element) : R (Knot k) :=
  match n with
  | O => Panic
  | S m => f <- pstep (parse_n m) k e; Ok (mk k f)
  end.
Definition parse (k : kind) (e : Element) : R (Knot k) := parse_n (height e) k e.

(** /repo/src/law.rs 47-180: [Law::parser]. *)
Definition eras : list (string * Era) :=
  [("Meiji", Meiji); ("Taisho", Taisho); ("Showa", Showa); ("Heisei", Heisei); ("Reiwa", Reiwa)].
Definition law_types : list (string * LawType) :=
  [("Constitution", Constitution); ("Act", Act); ("CabinetOrder", CabinetOrder);
   ("ImperialOrder", ImperialOrder); ("MinisterialOrdinance", MinisterialOrdinance);
   ("Rule", Rule); ("Misc", Misc)].
Definition langs : list (string * Lang) := [("ja", Ja); ("en", En)].

(** /repo/src/law.rs 70-97: an optional number attribute, empty counting as absent. *)
Definition parse_date_attr (a : option string) : R (option N) :=
  match a with
  | None => Ok None
  | Some s =>
      if String.eqb s "" then Ok None
      else match parse_usize s with
           | Some n => Ok (Some n)
           | None => Err (ParsingError "usize" s)
           end
  end.

Definition parse_law (e : Element) : R Law :=
  with_name e "Law" "Law"
    (era <- enum_req (get e "Era") eras (AttributeParseError (name e) "Era");
     year <- get_attribute_with_parse parse_usize e "Year";
     num_str <- unwrap (get e "Num");
     num <- (if String.eqb num_str "" then Ok None
             else n <- from_num_str num_str; Ok (Some n));
     month <- parse_date_attr (get e "PromulgateMonth");
     day <- parse_date_attr (get e "PromulgateDay");
     ty <- enum_req (get e "LawType") law_types (AttributeParseError (name e) "LawType");
     lang <- enum_req (get e "Lang") langs (AttributeParseError (name e) "Lang");
     match children e with
     | NElement ln :: rest =>
         if String.eqb (name ln) "LawNum" then
           match rest with
           | NElement b :: _ =>
               body <- parse KLawBody b;
               Ok (mkLaw era year num month day ty lang (nodes_text (children ln)) body)
           | _ => missing_required_tag "LawBody"
           end
         else Err (UnexpectedTag (name ln) "LawNum")
     | _ => missing_required_tag "LawNum"
     end).
