(** What [#[derive(Serialize, Deserialize)]] does for the types of /repo/src.

    Model file: definitions only.

    /repo/Cargo.toml 19 asks for the derive macros of crate serde, and 110 types of /repo/src carry
    [derive(.., Serialize, Deserialize, ..)] without any [#[serde(..)]] attribute.  The macros are
    modelled by the behaviour crate serde documents for them, on the document type of a
    self-describing format (JSON):
    - a struct is a map from its field names, in the order of the declaration; a variant without
      data is the string of its name, a variant with data is a map with that one key;
      [None] is null and [Some x] is [x]; [Vec] is an array, [Box] is transparent;
    - a struct is read from a map: keys that are not field names are ignored, a field name that
      occurs twice is an error, a missing field is an error unless its type is an [Option] (it is
      then [None]); or from an array of exactly its fields in the order of the declaration;
    - a variant without data is read from its name, or from a map with that key and null; a
      variant with data is read from a map with that one key.
    Simplifications: documents are trees (the text of a document belongs to the crate of the
    format, which this repository does not choose); which error is reported is not modelled
    ([None]); a format's limit on nesting is not modelled. *)
From Coq Require Import String List NArith Bool.
From Verif Require Import Base NumStr Ast NumText Utils.
Import ListNotations.
Open Scope string_scope.
Open Scope list_scope.

(** ** Documents *)

(** [JNum] is a number of type u64; [JOther] stands for every number that is negative or not an integer.
    The entries of an object are in the order of the document, possibly with equal keys. *)
Inductive json :=
| JNull
| JBool (b : bool)
| JNum (n : N)
| JOther
| JStr (s : string)
| JArr (l : list json)
| JObj (l : list (string * json)).

(** Nesting of a document. *)
Fixpoint depth (j : json) : nat :=
  match j with
  | JArr l => S (fold_right (fun x m => Nat.max (depth x) m) O l)
  | JObj l => S (fold_right (fun e m => Nat.max (depth (snd e)) m) O l)
  | _ => 1
  end.

(** ** The parts shared by all derived implementations *)

Definition obind {A B} (o : option A) (f : A -> option B) : option B :=
  match o with Some a => f a | None => None end.

Fixpoint all_some {A B} (f : A -> option B) (l : list A) : option (list B) :=
  match l with
  | [] => Some []
  | x :: r => obind (f x) (fun y => obind (all_some f r) (fun ys => Some (y :: ys)))
  end.

(** [impl Serialize for Option<T>, Vec<T>]. *)
Definition ser_opt {A} (s : A -> json) (o : option A) : json :=
  match o with Some a => s a | None => JNull end.
Definition ser_vec {A} (s : A -> json) (l : list A) : json := JArr (map s l).

(** [impl Deserialize for String, bool, usize, Option<T>, Vec<T>]. *)
Definition de_str (j : json) : option string := match j with JStr s => Some s | _ => None end.
Definition de_bool (j : json) : option bool := match j with JBool b => Some b | _ => None end.
Definition de_num (j : json) : option N := match j with JNum n => Some n | _ => None end.
Definition de_opt {A} (d : json -> option A) (j : json) : option (option A) :=
  match j with JNull => Some None | _ => option_map Some (d j) end.
Definition de_vec {A} (d : json -> option A) (j : json) : option (list A) :=
  match j with JArr l => all_some d l | _ => None end.

(** The entries of a document read as a struct with these fields: [visit_map], [visit_seq]. *)
Definition entries (names : list string) (j : json) : option (list (string * json)) :=
  match j with
  | JObj l => Some l
  | JArr l => if Nat.eqb (length l) (length names) then Some (combine names l) else None
  | _ => None
  end.

(** The values given for a field. *)
Definition given (l : list (string * json)) (n : string) : list json :=
  map snd (filter (fun e => String.eqb (fst e) n) l).

(** A field whose type is not an [Option], and one whose type is. *)
Definition req {A} (d : json -> option A) (l : list (string * json)) (n : string) : option A :=
  match given l n with [v] => d v | _ => None end.
Definition opt {A} (d : json -> option A) (l : list (string * json)) (n : string) :
  option (option A) :=
  match given l n with [] => Some None | [v] => de_opt d v | _ => None end.

Fixpoint assoc {A} (n : string) (l : list (string * A)) : option A :=
  match l with
  | [] => None
  | (m, a) :: r => if String.eqb n m then Some a else assoc n r
  end.

(** Enums all of whose variants are without data. *)
Definition de_units {A} (l : list (string * A)) (j : json) : option A :=
  match j with
  | JStr v => assoc v l
  | JObj [(v, JNull)] => assoc v l
  | _ => None
  end.
(** Enums all of whose variants have one datum. *)
Definition variant (n : string) (j : json) : json := JObj [(n, j)].
Definition de_variants {A} (l : list (string * (json -> option A))) (j : json) : option A :=
  match j with
  | JObj [(v, x)] => obind (assoc v l) (fun d => d x)
  | _ => None
  end.

Notation "x <~ e ; f" := (obind e (fun x => f)) (at level 61, e at next level, right associativity).

(** ** Types without parts of the knot *)

(** /repo/src/article_number.rs 11-19. *)
Definition ser_AN (a : ArticleNumber) : json :=
  JObj [("base_number", JNum (base_number a)); ("eda_numbers", ser_vec JNum (eda_numbers a));
        ("range_end_numbers", ser_vec JNum (range_end_numbers a))].
Definition de_AN (j : json) : option ArticleNumber :=
  l <~ entries ["base_number"; "eda_numbers"; "range_end_numbers"] j;
  a <~ req de_num l "base_number";
  b <~ req (de_vec de_num) l "eda_numbers";
  c <~ req (de_vec de_num) l "range_end_numbers";
  Some (mkAN a b c).

(** /repo/src/text.rs 178-182. *)
Definition ser_mode (m : WritingMode) : json :=
  match m with Vertical => JStr "Vertical" | Horizontal => JStr "Horizontal" end.
Definition de_mode : json -> option WritingMode :=
  de_units [("Vertical", Vertical); ("Horizontal", Horizontal)].

(** /repo/src/line.rs 93-100. *)
Definition ser_linestyle (s : LineStyle) : json :=
  match s with
  | LDotted => JStr "Dotted" | LDouble => JStr "Double" | LSolid => JStr "Solid" | LNone => JStr "None"
  end.
Definition de_linestyle : json -> option LineStyle :=
  de_units [("Dotted", LDotted); ("Double", LDouble); ("Solid", LSolid); ("None", LNone)].

(** /repo/src/class.rs 240-246. *)
Definition ser_align (a : Align) : json :=
  match a with
  | ALeft => JStr "Left" | ACenter => JStr "Center" | ARight => JStr "Right" | AJustify => JStr "Justify"
  end.
Definition de_align : json -> option Align :=
  de_units [("Left", ALeft); ("Center", ACenter); ("Right", ARight); ("Justify", AJustify)].

(** /repo/src/table.rs 375-380. *)
Definition ser_position (p : Position) : json :=
  match p with PTop => JStr "Top" | PMiddle => JStr "Middle" | PBottom => JStr "Bottom" end.
Definition de_position : json -> option Position :=
  de_units [("Top", PTop); ("Middle", PMiddle); ("Bottom", PBottom)].

(** /repo/src/sentence.rs 210-214. *)
Definition ser_function (f : SentenceFunction) : json :=
  match f with FMain => JStr "Main" | FProviso => JStr "Proviso" end.
Definition de_function : json -> option SentenceFunction :=
  de_units [("Main", FMain); ("Proviso", FProviso)].

(** The name of an item type as a variant: /repo/src/contents.rs 226-236, /repo/src/law.rs 989-999,
    /repo/src/table.rs 356-366, /repo/src/sentence.rs 218-229. *)
Definition level_name (l : lvl) : string :=
  match l with
  | Item0 => "Item" | Sub1 => "Subitem1" | Sub2 => "Subitem2" | Sub3 => "Subitem3"
  | Sub4 => "Subitem4" | Sub5 => "Subitem5" | Sub6 => "Subitem6" | Sub7 => "Subitem7"
  | Sub8 => "Subitem8" | Sub9 => "Subitem9" | Sub10 => "Subitem10"
  end.
Definition levels : list lvl :=
  [Item0; Sub1; Sub2; Sub3; Sub4; Sub5; Sub6; Sub7; Sub8; Sub9; Sub10].

(** /repo/src/sentence.rs 216-230. *)
Definition ser_indent (i : SentenceIndent) : json :=
  match i with IParagraph => JStr "Paragraph" | IItem l => JStr (level_name l) end.
Definition de_indent : json -> option SentenceIndent :=
  de_units (("Paragraph", IParagraph) :: map (fun l => (level_name l, IItem l)) levels).

(** /repo/src/suppl_provision.rs 150-154. *)
Definition ser_suppl_type (t : SupplProvisionType) : json :=
  match t with TNew => JStr "New" | TAmend => JStr "Amend" end.
Definition de_suppl_type : json -> option SupplProvisionType :=
  de_units [("New", TNew); ("Amend", TAmend)].

(** /repo/src/law.rs 262-275. *)
Definition ser_era (e : Era) : json :=
  match e with
  | Meiji => JStr "Meiji" | Taisho => JStr "Taisho" | Showa => JStr "Showa"
  | Heisei => JStr "Heisei" | Reiwa => JStr "Reiwa"
  end.
Definition de_era : json -> option Era :=
  de_units [("Meiji", Meiji); ("Taisho", Taisho); ("Showa", Showa); ("Heisei", Heisei); ("Reiwa", Reiwa)].

(** /repo/src/law.rs 277-294. *)
Definition ser_law_type (t : LawType) : json :=
  match t with
  | Constitution => JStr "Constitution" | Act => JStr "Act" | CabinetOrder => JStr "CabinetOrder"
  | ImperialOrder => JStr "ImperialOrder" | MinisterialOrdinance => JStr "MinisterialOrdinance"
  | Rule => JStr "Rule" | Misc => JStr "Misc"
  end.
Definition de_law_type : json -> option LawType :=
  de_units [("Constitution", Constitution); ("Act", Act); ("CabinetOrder", CabinetOrder);
            ("ImperialOrder", ImperialOrder); ("MinisterialOrdinance", MinisterialOrdinance);
            ("Rule", Rule); ("Misc", Misc)].

(** /repo/src/law.rs 296-301. *)
Definition ser_lang (l : Lang) : json := match l with Ja => JStr "Ja" | En => JStr "En" end.
Definition de_lang : json -> option Lang := de_units [("Ja", Ja); ("En", En)].

(** /repo/src/text.rs 324-329, 359-364: [Sup], [Sub] (one field [text]); /repo/src/fig.rs 9-12: [Fig]. *)
Definition ser_sup (s : string) : json := JObj [("text", JStr s)].
Definition de_sup (j : json) : option string := l <~ entries ["text"] j; req de_str l "text".
Definition ser_fig (s : string) : json := JObj [("src", JStr s)].
Definition de_fig (j : json) : option string := l <~ entries ["src"] j; req de_str l "src".

(** /repo/src/utils.rs 329-336. *)
Definition ser_index (i : TextIndex) : json :=
  JObj [("paragraph", ser_AN (ti_paragraph i)); ("items", ser_vec (ser_opt ser_AN) (ti_items i))].
Definition de_index (j : json) : option TextIndex :=
  l <~ entries ["paragraph"; "items"] j;
  a <~ req de_AN l "paragraph";
  b <~ req (de_vec (de_opt de_AN)) l "items";
  Some (mkTI a b).

(** /repo/src/article_number.rs 332-366. *)
Definition pattern_name (p : ItemPattern) : string :=
  match p with
  | NoParenKansuji => "NoParenKansuji" | NoParenIrohaKatakana => "NoParenIrohaKatakana"
  | NoParenIrohaHiragana => "NoParenIrohaHiragana" | NoParenZenkakuNum => "NoParenZenkakuNum"
  | NoParenZenkakuRomanUpper => "NoParenZenkakuRomanUpper" | NoParenZenkakuRomanLower => "NoParenZenkakuRomanLower"
  | NoParenZenkakuUpper => "NoParenZenkakuUpper" | NoParenZenkakuLower => "NoParenZenkakuLower"
  | ParenKansuji => "ParenKansuji" | ParenIrohaKatakana => "ParenIrohaKatakana"
  | ParenIrohaHiragana => "ParenIrohaHiragana" | ParenZenkakuNum => "ParenZenkakuNum"
  | ParenZenkakuRomanUpper => "ParenZenkakuRomanUpper" | ParenZenkakuRomanLower => "ParenZenkakuRomanLower"
  | ParenZenkakuUpper => "ParenZenkakuUpper" | ParenZenkakuLower => "ParenZenkakuLower"
  end.
Definition ser_pattern (p : ItemPattern) : json := JStr (pattern_name p).
Definition de_pattern : json -> option ItemPattern :=
  de_units (map (fun p => (pattern_name p, p))
    [NoParenKansuji; NoParenIrohaKatakana; NoParenIrohaHiragana; NoParenZenkakuNum; NoParenZenkakuRomanUpper;
     NoParenZenkakuRomanLower; NoParenZenkakuUpper; NoParenZenkakuLower; ParenKansuji; ParenIrohaKatakana;
     ParenIrohaHiragana; ParenZenkakuNum; ParenZenkakuRomanUpper; ParenZenkakuRomanLower; ParenZenkakuUpper;
     ParenZenkakuLower]).

(** /repo/src/article_number.rs 319-330.  [NumText.ItemNumber] has the code points of the field [str]; here the field
    is its bytes, as all other strings of a document. *)
Record ItemNumberB := mkINB {
  inb_str : string;
  inb_base : N;
  inb_eda : list N;
  inb_range : list N;
  inb_pattern : ItemPattern
}.
Definition ser_item_number (i : ItemNumberB) : json :=
  JObj [("str", JStr (inb_str i)); ("base_number", JNum (inb_base i)); ("eda_numbers", ser_vec JNum (inb_eda i));
        ("range_end_numbers", ser_vec JNum (inb_range i)); ("pattern", ser_pattern (inb_pattern i))].
Definition de_item_number (j : json) : option ItemNumberB :=
  l <~ entries ["str"; "base_number"; "eda_numbers"; "range_end_numbers"; "pattern"] j;
  a <~ req de_str l "str";
  b <~ req de_num l "base_number";
  c <~ req (de_vec de_num) l "eda_numbers";
  d <~ req (de_vec de_num) l "range_end_numbers";
  e <~ req de_pattern l "pattern";
  Some (mkINB a b c d e).

(** The names in which the kinds merged in [Ast] differ. *)
(** /repo/src/structs.rs 68-69, 144-145, 220-221: [note], [note_remarks], .. *)
Definition body_field (s : sname) : string :=
  match s with SNote => "note" | SStyle => "style" | SFormat => "format" end.
Definition body_remarks_field (s : sname) : string :=
  match s with SNote => "note_remarks" | SStyle => "style_remarks" | SFormat => "format_remarks" end.

(** Whether items of a level, lists of a level, have the field [children]:
    /repo/src/paragraph.rs 1603-1611, /repo/src/list.rs 250-253. *)
Definition item_nests (l : lvl) : bool := match l with Sub10 => false | _ => true end.
Definition list_nests (l : llvl) : bool := match l with Sublist3 => false | _ => true end.

(** ** Serialize *)
Section Ser.
Context {K : kind -> Type} (w : forall k, K k -> json).

(** /repo/src/text.rs 249-257. *)
Definition ser_te (t : TextElement K) : json :=
  match t with
  | TE_Ruby r => variant "Ruby" (w KRuby r)
  | TE_Line l => variant "Line" (w KLine l)
  | TE_Sup s => variant "Sup" (ser_sup s)
  | TE_Sub s => variant "Sub" (ser_sup s)
  | TE_Text s => variant "Text" (JStr s)
  end.
(** /repo/src/text.rs 11-15. *)
Definition ser_text (t : Text K) : json := JObj [("contents", ser_vec ser_te t)].
(** /repo/src/text.rs 184-189. *)
Definition ser_twm (t : TextWithWritingMode K) : json :=
  JObj [("contents", ser_vec ser_te (twm_contents t)); ("writing_mode", ser_mode (twm_mode t))].
(** /repo/src/text.rs 258-266. *)
Definition ser_ruby (f : RubyF K) : json :=
  JObj [("text", ser_text (ruby_text f)); ("ruby", JStr (ruby_ruby f))].
(** /repo/src/contents.rs 299-304. *)
Definition ser_arith (a : ArithFormula K) : json :=
  JObj [("num", ser_opt JNum (af_num a)); ("contentes", w (KCont CArith) (af_contents a))].
(** /repo/src/line.rs 83-91. *)
Definition ser_lc (c : LineContents K) : json :=
  match c with
  | LC_Quote v => variant "QuoteStruct" (w (KCont CQuote) v)
  | LC_Arith a => variant "ArithFormula" (ser_arith a)
  | LC_Ruby v => variant "Ruby" (w KRuby v)
  | LC_Sup s => variant "Sup" (ser_sup s)
  | LC_Sub s => variant "Sub" (ser_sup s)
  | LC_String s => variant "String" (JStr s)
  end.
(** /repo/src/line.rs 12-16. *)
Definition ser_line (f : LineF K) : json :=
  JObj [("contents", ser_vec ser_lc (line_contents f)); ("style", ser_linestyle (line_style f))].

(** /repo/src/contents.rs 210-245. *)
Definition ser_ce (c : ContentsElement K) : json :=
  match c with
  | CE_Table v => variant "Table" (w KTable v)
  | CE_TableStruct v => variant "TableStruct" (w KTableStruct v)
  | CE_Fig s => variant "Fig" (ser_fig s)
  | CE_FigStruct v => variant "FigStruct" (w KFigStruct v)
  | CE_Quote v => variant "QuoteStruct" (w (KCont CQuote) v)
  | CE_NoteStruct v => variant "NoteStruct" (w (KCStruct SNote) v)
  | CE_StyleStruct v => variant "StyleStruct" (w (KCStruct SStyle) v)
  | CE_AppdxTable v => variant "AppdxTable" (w KAppdxTable v)
  | CE_Ruby v => variant "Ruby" (w KRuby v)
  | CE_Line v => variant "Line" (w KLine v)
  | CE_Sup s => variant "Sup" (ser_sup s)
  | CE_Sub s => variant "Sub" (ser_sup s)
  | CE_String s => variant "String" (JStr s)
  | CE_Paragraph v => variant "Paragraph" (w KParagraph v)
  | CE_Item l v => variant (level_name l) (w (KItem l) v)
  | CE_List v => variant "List" (w (KList List0) v)
  | CE_Sentence v => variant "Sentence" (w KSentence v)
  | CE_Arith a => variant "ArithFormula" (ser_arith a)
  | CE_Remarks v => variant "Remarks" (w KRemarks v)
  | CE_TOC v => variant "TOC" (w KTOC v)
  | CE_TOCSection v => variant "TOCSection" (w KTOCSection v)
  | CE_TableRow v => variant "TableRow" (w KTableRow v)
  end.
(** /repo/src/contents.rs 20-25 ([Contents]); /repo/src/structs.rs 45-50, /repo/src/contents.rs 246-250,
    263-267, 281-285: the newtypes around it.  The contents of an [ArithFormula] are a plain [Contents]. *)
Definition ser_contents (f : ContentsF K) : json := JObj [("contents", ser_vec ser_ce f)].
Definition ser_cont (c : cname) (f : ContentsF K) : json :=
  match c with
  | CArith => ser_contents f
  | _ => JObj [("contentes", ser_contents f)]
  end.

(** /repo/src/sentence.rs 198-208. *)
Definition ser_se (c : SentenceElement K) : json :=
  match c with
  | SE_Line v => variant "Line" (w KLine v)
  | SE_Quote v => variant "QuoteStruct" (w (KCont CQuote) v)
  | SE_Arith a => variant "ArithFormula" (ser_arith a)
  | SE_Ruby v => variant "Ruby" (w KRuby v)
  | SE_Sup s => variant "Sup" (ser_sup s)
  | SE_Sub s => variant "Sub" (ser_sup s)
  | SE_String s => variant "String" (JStr s)
  end.
(** /repo/src/sentence.rs 12-19. *)
Definition ser_sentence (f : SentenceF K) : json :=
  JObj [("contents", ser_vec ser_se (sen_contents f)); ("num", ser_opt JNum (sen_num f));
        ("function", ser_opt ser_function (sen_function f));
        ("indent", ser_opt ser_indent (sen_indent f)); ("writing_mode", ser_mode (sen_mode f))].
(** /repo/src/class.rs 189-195. *)
Definition ser_column (f : ColumnF K) : json :=
  JObj [("sentence", ser_vec (w KSentence) (col_sentence f)); ("num", ser_opt JNum (col_num f));
        ("line_break", JBool (col_line_break f)); ("align", ser_opt ser_align (col_align f))].
(** /repo/src/class.rs 85-90. *)
Definition ser_sct (s : SentenceOrColumnOrTable K) : json :=
  match s with
  | SCT_Sentence l => variant "Sentence" (ser_vec (w KSentence) l)
  | SCT_Column l => variant "Column" (ser_vec (w KColumn) l)
  | SCT_Table t => variant "Table" (w KTable t)
  end.
(** /repo/src/class.rs 154-158. *)
Definition ser_caption (c : Caption K) : json :=
  JObj [("text", ser_text (cap_text c)); ("common_caption", ser_opt JBool (cap_common c))].
(** /repo/src/class.rs 15-21. *)
Definition ser_class (f : ClassF K) : json :=
  JObj [("class_title", ser_opt ser_text (class_title f)); ("class_sentence", ser_sct (class_sentence f));
        ("children", ser_vec (w (KItem Item0)) (class_children f)); ("num", JStr (class_num f))].
(** /repo/src/table.rs 77-80. *)
Definition ser_header (r : TableHeaderRow K) : json := JObj [("columns", ser_vec ser_text r)].
(** /repo/src/table.rs 17-22. *)
Definition ser_table (f : TableF K) : json :=
  JObj [("table_header_row", ser_vec ser_header (tb_header f));
        ("table_row", ser_vec (w KTableRow) (tb_row f)); ("writing_mode", ser_mode (tb_mode f))].
(** /repo/src/table.rs 113-116. *)
Definition ser_table_row (f : TableRowF K) : json := JObj [("columns", ser_vec (w KTableColumn) f)].
(** /repo/src/table.rs 348-373. *)
Definition ser_tc (c : TableColumnContents K) : json :=
  match c with
  | TC_Part v => variant "Part" (w KPart v)
  | TC_Chapter v => variant "Chapter" (w KChapter v)
  | TC_Section v => variant "Section" (w KSection v)
  | TC_Subsection v => variant "Subsection" (w KSubsection v)
  | TC_Division v => variant "Division" (w KDivision v)
  | TC_Article v => variant "Article" (w KArticle v)
  | TC_Paragraph v => variant "Paragraph" (w KParagraph v)
  | TC_Item l v => variant (level_name l) (w (KItem l) v)
  | TC_FigStruct v => variant "FigStruct" (w KFigStruct v)
  | TC_Remarks v => variant "Remarks" (w KRemarks v)
  | TC_Sentence v => variant "Sentence" (w KSentence v)
  | TC_Column v => variant "Column" (w KColumn v)
  | TC_String s => variant "String" (JStr s)
  end.
(** /repo/src/table.rs 149-160. *)
Definition ser_table_column (f : TableColumnF K) : json :=
  JObj [("contents", ser_vec ser_tc (tc_contents f)); ("border_top", ser_linestyle (tc_border_top f));
        ("border_bottom", ser_linestyle (tc_border_bottom f)); ("border_left", ser_linestyle (tc_border_left f));
        ("border_right", ser_linestyle (tc_border_right f)); ("rowspan", ser_opt JStr (tc_rowspan f));
        ("colspan", ser_opt JStr (tc_colspan f)); ("align", ser_opt ser_align (tc_align f));
        ("valign", ser_opt ser_position (tc_valign f))].

(** /repo/src/remarks.rs 73-77, 103-107, 13-17. *)
Definition ser_rlabel (r : RemarksLabel K) : json :=
  JObj [("text", ser_text (rl_text r)); ("line_break", JBool (rl_line_break r))].
Definition ser_rc (c : RemarksContents K) : json :=
  match c with
  | RC_Item v => variant "Item" (w (KItem Item0) v)
  | RC_Sentence v => variant "Sentence" (w KSentence v)
  end.
Definition ser_remarks (f : RemarksF K) : json :=
  JObj [("label", ser_rlabel (rem_label f)); ("children", ser_vec ser_rc (rem_children f))].

(** /repo/src/structs.rs 64-70, 140-146, 216-222. *)
Definition ser_cstruct (s : sname) (f : CStructF K s) : json :=
  JObj [("title", ser_opt ser_text (st_title f)); ("title_remarks", ser_vec (w KRemarks) (st_title_remarks f));
        (body_field s, w (KCont (body_of s)) (st_body f));
        (body_remarks_field s, ser_vec (w KRemarks) (st_remarks f))].
(** /repo/src/structs.rs 292-298. *)
Definition ser_fig_struct (f : FigStructF K) : json :=
  JObj [("title", ser_opt ser_text (st_title f)); ("title_remarks", ser_vec (w KRemarks) (st_title_remarks f));
        ("fig", ser_fig (st_body f)); ("fig_remarks", ser_vec (w KRemarks) (st_remarks f))].
(** /repo/src/structs.rs 367-373. *)
Definition ser_table_struct (f : TableStructF K) : json :=
  JObj [("title", ser_opt ser_twm (st_title f)); ("title_remarks", ser_vec (w KRemarks) (st_title_remarks f));
        ("table", w KTable (st_body f)); ("table_remarks", ser_vec (w KRemarks) (st_remarks f))].
(** /repo/src/structs.rs 15-21. *)
Definition ser_struct (s : Struct K) : json :=
  match s with
  | Struct_Table v => variant "TableStruct" (w KTableStruct v)
  | Struct_Fig v => variant "FigStruct" (w KFigStruct v)
  | Struct_Style v => variant "StyleStruct" (w (KCStruct SStyle) v)
  | Struct_List v => variant "List" (w (KList List0) v)
  end.

(** /repo/src/list.rs 90-94. *)
Definition ser_ls (s : ListSentence K) : json :=
  match s with
  | LS_Sentence v => variant "Sentence" (w KSentence v)
  | LS_Column v => variant "Column" (w KColumn v)
  end.
(** /repo/src/list.rs 12-17, 96-101, 173-178, 250-253. *)
Definition ser_list (l : llvl) (f : ListF K l) : json :=
  JObj (("sentence", ser_vec ser_ls (list_sentence f))
        :: (if list_nests l then [("children", ser_vec (w (sub_list l)) (list_children f))] else [])).

(** /repo/src/paragraph.rs 163-172 and the ten copies. *)
Definition ser_item (l : lvl) (f : ItemF K l) : json :=
  JObj (("title", ser_opt ser_text (it_title f)) :: ("sentence", ser_sct (it_sentence f))
        :: (if item_nests l then [("children", ser_vec (w (sub_item l)) (it_children f))] else [])
        ++ [("struct_list", ser_vec ser_struct (it_struct_list f)); ("num", ser_opt ser_AN (it_num f));
            ("delete", JBool (it_delete f)); ("hide", JBool (it_hide f))]).
(** /repo/src/paragraph.rs 17-30. *)
Definition ser_paragraph (f : ParagraphF K) : json :=
  JObj [("caption", ser_opt ser_caption (par_caption f)); ("paragraph_num", ser_text (par_paragraph_num f));
        ("amend_provision", ser_vec (w KAmend) (par_amend_provision f));
        ("class", ser_vec (w KClass) (par_class f)); ("sentence", ser_vec (w KSentence) (par_sentence f));
        ("struct_list", ser_vec ser_struct (par_struct_list f));
        ("children", ser_vec (w (KItem Item0)) (par_children f)); ("num", ser_AN (par_num f));
        ("old_style", JBool (par_old_style f)); ("old_num", JBool (par_old_num f));
        ("hide", JBool (par_hide f))].
(** /repo/src/article.rs 600-610. *)
Definition ser_article (f : ArticleF K) : json :=
  JObj [("caption", ser_opt ser_caption (art_caption f)); ("title", ser_text (art_title f));
        ("paragraph", ser_vec (w KParagraph) (art_paragraph f));
        ("suppl_note", ser_opt ser_text (art_suppl_note f)); ("num", ser_AN (art_num f));
        ("delete", JBool (art_delete f)); ("hide", JBool (art_hide f))].
(** /repo/src/article.rs 15-22, 133-140, 251-258, 377-384, 497-504; [t] is the name of the title field. *)
Definition ser_head {C} (t : string) (c : C -> json) (f : HeadF K C) : json :=
  JObj [(t, ser_text (hd_title f)); ("children", ser_vec c (hd_children f)); ("num", ser_AN (hd_num f));
        ("delete", JBool (hd_delete f)); ("hide", JBool (hd_hide f))].
(** /repo/src/article.rs 126-130, 244-248, 369-374, 490-494. *)
Definition ser_pc (c : PartContents K) : json :=
  match c with
  | PC_Article v => variant "Article" (w KArticle v)
  | PC_Chapter v => variant "Chapter" (w KChapter v)
  end.
Definition ser_chc (c : ChapterContents K) : json :=
  match c with
  | ChC_Article v => variant "Article" (w KArticle v)
  | ChC_Section v => variant "Section" (w KSection v)
  end.
Definition ser_sec (c : SectionContents K) : json :=
  match c with
  | SeC_Article v => variant "Article" (w KArticle v)
  | SeC_Subsection v => variant "Subsection" (w KSubsection v)
  | SeC_Division v => variant "Division" (w KDivision v)
  end.
Definition ser_suc (c : SubsectionContents K) : json :=
  match c with
  | SuC_Article v => variant "Article" (w KArticle v)
  | SuC_Division v => variant "Division" (w KDivision v)
  end.

(** The name of the variant of a contents structure: /repo/src/law.rs 1014-1016. *)
Definition struct_name (s : sname) : string :=
  match s with SNote => "NoteStruct" | SStyle => "StyleStruct" | SFormat => "FormatStruct" end.
(** /repo/src/law.rs 970-1020. *)
Definition ser_np (c : NewProvision K) : json :=
  match c with
  | NP_LawTitle v => variant "LawTitle" (w KLawTitle v)
  | NP_Preamble v => variant "Preamble" (w KPreamble v)
  | NP_TOC v => variant "TOC" (w KTOC v)
  | NP_Part v => variant "Part" (w KPart v)
  | NP_PartTitle t => variant "PartTitle" (ser_text t)
  | NP_Chapter v => variant "Chapter" (w KChapter v)
  | NP_ChapterTitle t => variant "ChapterTitle" (ser_text t)
  | NP_Section v => variant "Section" (w KSection v)
  | NP_SectionTitle t => variant "SectionTitle" (ser_text t)
  | NP_Subsection v => variant "Subsection" (w KSubsection v)
  | NP_SubsectionTitle t => variant "SubsectionTitle" (ser_text t)
  | NP_Division v => variant "Division" (w KDivision v)
  | NP_DivisionTitle t => variant "DivisionTitle" (ser_text t)
  | NP_Article v => variant "Article" (w KArticle v)
  | NP_SupplNote t => variant "SupplNote" (ser_text t)
  | NP_Paragraph v => variant "Paragraph" (w KParagraph v)
  | NP_Item l v => variant (level_name l) (w (KItem l) v)
  | NP_List v => variant "List" (w (KList List0) v)
  | NP_Sentence v => variant "Sentence" (w KSentence v)
  | NP_Amend v => variant "AmendProvision" (w KAmend v)
  | NP_AppdxTable v => variant "AppdxTable" (w KAppdxTable v)
  | NP_AppdxNote v => variant "AppdxNote" (w KAppdxNote v)
  | NP_AppdxStyle v => variant "AppdxStyle" (w KAppdxStyle v)
  | NP_Appdx v => variant "Appdx" (w KAppdx v)
  | NP_AppdxFig v => variant "AppdxFig" (w KAppdxFig v)
  | NP_AppdxFormat v => variant "AppdxFormat" (w KAppdxFormat v)
  | NP_SupplStyle v => variant "SupplProvisionAppdxStyle" (w KSupplStyle v)
  | NP_SupplTable v => variant "SupplProvisionAppdxTable" (w KSupplTable v)
  | NP_SupplAppdx v => variant "SupplProvisionAppdx" (w KSupplAppdx v)
  | NP_TableStruct v => variant "TableStruct" (w KTableStruct v)
  | NP_TableRow v => variant "TableRow" (w KTableRow v)
  | NP_TableColumn v => variant "TableColumn" (w KTableColumn v)
  | NP_FigStruct v => variant "FigStruct" (w KFigStruct v)
  | NP_CStruct s v => variant (struct_name s) (w (KCStruct s) v)
  | NP_Remarks v => variant "Remarks" (w KRemarks v)
  | NP_LawBody v => variant "LawBody" (w KLawBody v)
  end.
(** /repo/src/law.rs 642-647. *)
Definition ser_amend (f : AmendF K) : json :=
  JObj [("sentence", ser_opt (w KSentence) (am_sentence f)); ("new_provision", ser_vec ser_np (am_new f))].
(** /repo/src/law.rs 475-486. *)
Definition ser_law_title (f : LawTitleF K) : json :=
  JObj [("kana", ser_opt JStr (lt_kana f)); ("abbrev", ser_opt JStr (lt_abbrev f));
        ("abbrev_kana", ser_opt JStr (lt_abbrev_kana f)); ("text", ser_text (lt_text f))].
(** /repo/src/law.rs 524-528. *)
Definition ser_preamble (f : PreambleF K) : json := JObj [("children", ser_vec (w KParagraph) f)].
(** /repo/src/law.rs 626-640, 558-564. *)
Definition ser_mc (c : MainContents K) : json :=
  match c with
  | MC_Part v => variant "Part" (w KPart v)
  | MC_Chapter v => variant "Chapter" (w KChapter v)
  | MC_Section v => variant "Section" (w KSection v)
  | MC_Article v => variant "Article" (w KArticle v)
  | MC_Paragraph v => variant "Paragraph" (w KParagraph v)
  end.
Definition ser_main (f : MainF K) : json :=
  JObj [("children", ser_vec ser_mc (main_children f)); ("extract", ser_opt JBool (main_extract f))].
(** /repo/src/suppl_provision.rs 140-148, 15-23. *)
Definition ser_sp (c : SupplContents K) : json :=
  match c with
  | SP_Chapter v => variant "Chapter" (w KChapter v)
  | SP_Article v => variant "Article" (w KArticle v)
  | SP_Paragraph v => variant "Paragraph" (w KParagraph v)
  | SP_Table v => variant "SupplProvisionAppdxTable" (w KSupplTable v)
  | SP_Style v => variant "SupplProvisionAppdxStyle" (w KSupplStyle v)
  | SP_Appdx v => variant "SupplProvisionAppdx" (w KSupplAppdx v)
  end.
Definition ser_suppl (f : SupplF K) : json :=
  JObj [("label", ser_text (sp_label f)); ("children", ser_vec ser_sp (sp_children f));
        ("suppl_provision_type", ser_opt ser_suppl_type (sp_type f));
        ("amend_law_num", ser_opt JStr (sp_amend_law_num f)); ("extract", ser_opt JBool (sp_extract f))].
(** /repo/src/suppl_provision.rs 156-162, 230-236; [n] is the name of the field of the children. *)
Definition ser_suppl_ts {C} (n : string) (c : C -> json) (f : SupplTSF K C) : json :=
  JObj [("title", ser_twm (sts_title f)); ("related_article_num", ser_opt ser_text (sts_related f));
        (n, ser_vec c (sts_children f)); ("num", ser_opt JStr (sts_num f))].
(** /repo/src/suppl_provision.rs 304-310. *)
Definition ser_suppl_appdx (f : SupplAppdxF K) : json :=
  JObj [("arith_formula_num", ser_opt ser_text (sa_arith_formula_num f));
        ("related_article_num", ser_opt ser_text (sa_related f));
        ("arith_formula", ser_vec ser_arith (sa_arith_formula f)); ("num", ser_opt JStr (sa_num f))].

(** /repo/src/appdx.rs 15-22, 104-111, 199-206, 275-282. *)
Definition ser_appdx_t {C} (c : C -> json) (f : AppdxTF K C) : json :=
  JObj [("title", ser_opt ser_twm (ax_title f)); ("related_article_num", ser_opt ser_text (ax_related f));
        ("children", ser_vec c (ax_children f)); ("remarks", ser_opt (w KRemarks) (ax_remarks f));
        ("num", ser_opt JStr (ax_num f))].
(** /repo/src/appdx.rs 98-102, 192-197, 489-493. *)
Definition ser_at (c : AppdxTableContents K) : json :=
  match c with
  | AT_TableStruct v => variant "TableStruct" (w KTableStruct v)
  | AT_Item v => variant "Item" (w (KItem Item0) v)
  end.
Definition ser_an (c : AppdxNoteContents K) : json :=
  match c with
  | AN_NoteStruct v => variant "NoteStruct" (w (KCStruct SNote) v)
  | AN_FigStruct v => variant "FigStruct" (w KFigStruct v)
  | AN_TableStruct v => variant "TableStruct" (w KTableStruct v)
  end.
Definition ser_af (c : AppdxFigContents K) : json :=
  match c with
  | AF_FigStruct v => variant "FigStruct" (w KFigStruct v)
  | AF_TableStruct v => variant "TableStruct" (w KTableStruct v)
  end.
(** /repo/src/appdx.rs 350-356. *)
Definition ser_appdx (f : AppdxF K) : json :=
  JObj [("arith_formula_num", ser_opt ser_text (ap_arith_formula_num f));
        ("related_article_num", ser_opt ser_text (ap_related f));
        ("arith_formula", ser_vec ser_arith (ap_arith_formula f));
        ("remarks", ser_opt (w KRemarks) (ap_remarks f))].
(** /repo/src/appdx.rs 417-423. *)
Definition ser_appdx_fig (f : AppdxFigF K) : json :=
  JObj [("title", ser_opt ser_twm (af_title f)); ("related_article_num", ser_opt ser_text (af_related f));
        ("children", ser_vec ser_af (af_children f)); ("num", ser_opt JStr (af_fnum f))].

(** /repo/src/table_of_contents.rs 127-140, 203-216, 279-292, 373-386; [t] is the name of the title field. *)
Definition ser_toc_head {C} (t : string) (c : C -> json) (f : TOCHeadF K C) : json :=
  JObj [(t, ser_text (th_title f)); ("article_range", ser_opt ser_text (th_range f));
        ("num", ser_AN (th_num f)); ("delete", JBool (th_delete f)); ("children", ser_vec c (th_children f))].
(** /repo/src/table_of_contents.rs 451-462. *)
Definition ser_toc_division (f : TOCDivisionF K) : json :=
  JObj [("division_title", ser_text (th_title f)); ("article_range", ser_opt ser_text (th_range f));
        ("num", ser_AN (th_num f)); ("delete", JBool (th_delete f))].
(** /repo/src/table_of_contents.rs 364-371. *)
Definition ser_tsc (c : TOCSectionContents K) : json :=
  match c with
  | TSC_Subsection v => variant "TOCSubsection" (w KTOCSubsection v)
  | TSC_Division v => variant "TOCDivision" (w KTOCDivision v)
  end.
(** /repo/src/table_of_contents.rs 518-529. *)
Definition ser_toc_article (f : TOCArticleF K) : json :=
  JObj [("article_title", ser_text (ta_title f)); ("article_caption", ser_caption (ta_caption f));
        ("num", ser_AN (ta_num f)); ("delete", JBool (ta_delete f))].
(** /repo/src/table_of_contents.rs 666-673, 590-599. *)
Definition ser_tsp (c : TOCSupplContents K) : json :=
  match c with
  | TSP_Article v => variant "TOCArticle" (w KTOCArticle v)
  | TSP_Chapter v => variant "TOCChapter" (w KTOCChapter v)
  end.
Definition ser_toc_suppl (f : TOCSupplF K) : json :=
  JObj [("suppl_provision_label", ser_text (ts_label f)); ("article_range", ser_opt ser_text (ts_range f));
        ("children", ser_vec ser_tsp (ts_children f))].
(** /repo/src/table_of_contents.rs 115-125, 12-25. *)
Definition ser_tm (c : TOCMainContents K) : json :=
  match c with
  | TM_Part v => variant "TOCPart" (w KTOCPart v)
  | TM_Chapter v => variant "TOCChapter" (w KTOCChapter v)
  | TM_Section v => variant "TOCSection" (w KTOCSection v)
  | TM_Article v => variant "TOCArticle" (w KTOCArticle v)
  end.
Definition ser_toc (f : TOCF K) : json :=
  JObj [("toc_label", ser_opt ser_text (toc_label f));
        ("toc_preamble_label", ser_opt ser_text (toc_preamble_label f));
        ("toc_main_contents", ser_vec ser_tm (toc_main f));
        ("toc_suppl_provision", ser_opt (w KTOCSuppl) (toc_suppl f));
        ("toc_appdx_table_label", ser_vec ser_text (toc_appdx_table_label f))].

(** /repo/src/law.rs 303-332. *)
Definition ser_law_body (f : LawBodyF K) : json :=
  JObj [("law_title", ser_opt (w KLawTitle) (lb_law_title f));
        ("enact_statement", ser_vec ser_text (lb_enact_statement f));
        ("subject", ser_opt JStr (lb_subject f)); ("toc", ser_opt (w KTOC) (lb_toc f));
        ("preamble", ser_opt (w KPreamble) (lb_preamble f)); ("main_provision", w KMain (lb_main_provision f));
        ("suppl_provision", ser_vec (w KSuppl) (lb_suppl_provision f));
        ("appdx_table", ser_vec (w KAppdxTable) (lb_appdx_table f));
        ("appdx_note", ser_vec (w KAppdxNote) (lb_appdx_note f));
        ("appdx_style", ser_vec (w KAppdxStyle) (lb_appdx_style f));
        ("appdx", ser_vec (w KAppdx) (lb_appdx f)); ("appdx_fig", ser_vec (w KAppdxFig) (lb_appdx_fig f));
        ("appdx_format", ser_vec (w KAppdxFormat) (lb_appdx_format f))].
End Ser.

(** [T::serialize] for every type [T] of the knot. *)
Fixpoint ser (k : kind) (x : Knot k) {struct x} : json :=
  match x with
  | mkRuby f => ser_ruby ser f
  | mkLine f => ser_line ser f
  | @mkCont c f => ser_cont ser c f
  | mkSentence f => ser_sentence ser f
  | mkColumn f => ser_column ser f
  | mkTable f => ser_table ser f
  | mkTableRow f => ser_table_row ser f
  | mkTableColumn f => ser_table_column ser f
  | mkRemarks f => ser_remarks ser f
  | @mkCStruct s f => ser_cstruct ser s f
  | mkFigStruct f => ser_fig_struct ser f
  | mkTableStruct f => ser_table_struct ser f
  | @mkList l f => ser_list ser l f
  | mkClass f => ser_class ser f
  | @mkItem l f => ser_item ser l f
  | mkParagraph f => ser_paragraph ser f
  | mkArticle f => ser_article ser f
  | mkPart f => ser_head ser "part_title" (ser_pc ser) f
  | mkChapter f => ser_head ser "chapter_title" (ser_chc ser) f
  | mkSection f => ser_head ser "section_title" (ser_sec ser) f
  | mkSubsection f => ser_head ser "subsection_title" (ser_suc ser) f
  | mkDivision f => ser_head ser "division_title" (ser KArticle) f
  | mkAmend f => ser_amend ser f
  | mkLawTitle f => ser_law_title ser f
  | mkPreamble f => ser_preamble ser f
  | mkMain f => ser_main ser f
  | mkSuppl f => ser_suppl ser f
  | mkSupplTable f => ser_suppl_ts ser "table_struct" (ser KTableStruct) f
  | mkSupplStyle f => ser_suppl_ts ser "style_struct" (ser (KCStruct SStyle)) f
  | mkSupplAppdx f => ser_suppl_appdx ser f
  | mkAppdxTable f => ser_appdx_t ser (ser_at ser) f
  | mkAppdxNote f => ser_appdx_t ser (ser_an ser) f
  | mkAppdxStyle f => ser_appdx_t ser (ser (KCStruct SStyle)) f
  | mkAppdxFormat f => ser_appdx_t ser (ser (KCStruct SFormat)) f
  | mkAppdx f => ser_appdx ser f
  | mkAppdxFig f => ser_appdx_fig ser f
  | mkTOC f => ser_toc ser f
  | mkTOCPart f => ser_toc_head ser "part_title" (ser KTOCChapter) f
  | mkTOCChapter f => ser_toc_head ser "chapter_title" (ser KTOCSection) f
  | mkTOCSection f => ser_toc_head ser "section_title" (ser_tsc ser) f
  | mkTOCSubsection f => ser_toc_head ser "subsection_title" (ser KTOCDivision) f
  | mkTOCDivision f => ser_toc_division ser f
  | mkTOCArticle f => ser_toc_article ser f
  | mkTOCSuppl f => ser_toc_suppl ser f
  | mkLawBody f => ser_law_body ser f
  end.

(** /repo/src/law.rs 24-46. *)
Definition ser_law (l : Law) : json :=
  JObj [("era", ser_era (law_era l)); ("year", JNum (law_year l)); ("num", ser_opt ser_AN (law_no l));
        ("promulgate_month", ser_opt JNum (law_promulgate_month l));
        ("promulgate_day", ser_opt JNum (law_promulgate_day l)); ("law_type", ser_law_type (law_type l));
        ("lang", ser_lang (law_lang l)); ("law_num", JStr (law_num l));
        ("law_body", ser KLawBody (law_body l))].

(** ** Deserialize *)
Section De.
Context {K : kind -> Type} (p : forall k, json -> option (K k)).

(** A variant: its name and the reader of its datum. *)
Definition vari {A B} (n : string) (c : A -> B) (d : json -> option A) : string * (json -> option B) :=
  (n, fun j => option_map c (d j)).
(** The variants named after the item types. *)
Definition level_variants {B} (c : forall l, K (KItem l) -> B) : list (string * (json -> option B)) :=
  map (fun l => vari (level_name l) (c l) (p (KItem l))) levels.

(** /repo/src/text.rs 249-257. *)
Definition de_te : json -> option (TextElement K) :=
  de_variants [vari "Ruby" (@TE_Ruby K) (p KRuby); vari "Line" (@TE_Line K) (p KLine);
               vari "Sup" (@TE_Sup K) de_sup; vari "Sub" (@TE_Sub K) de_sup; vari "Text" (@TE_Text K) de_str].
(** /repo/src/text.rs 11-15. *)
Definition de_text (j : json) : option (Text K) :=
  l <~ entries ["contents"] j; req (de_vec de_te) l "contents".
(** /repo/src/text.rs 184-189. *)
Definition de_twm (j : json) : option (TextWithWritingMode K) :=
  l <~ entries ["contents"; "writing_mode"] j;
  a <~ req (de_vec de_te) l "contents";
  b <~ req de_mode l "writing_mode";
  Some (mkTWM a b).
(** /repo/src/text.rs 258-266. *)
Definition de_ruby (j : json) : option (RubyF K) :=
  l <~ entries ["text"; "ruby"] j;
  a <~ req de_text l "text";
  b <~ req de_str l "ruby";
  Some (mkRubyF a b).
(** /repo/src/contents.rs 299-304. *)
Definition de_arith (j : json) : option (ArithFormula K) :=
  l <~ entries ["num"; "contentes"] j;
  a <~ opt de_num l "num";
  b <~ req (p (KCont CArith)) l "contentes";
  Some (mkArith a b).
(** /repo/src/line.rs 83-91. *)
Definition de_lc : json -> option (LineContents K) :=
  de_variants [vari "QuoteStruct" (@LC_Quote K) (p (KCont CQuote)); vari "ArithFormula" (@LC_Arith K) de_arith;
               vari "Ruby" (@LC_Ruby K) (p KRuby); vari "Sup" (@LC_Sup K) de_sup;
               vari "Sub" (@LC_Sub K) de_sup; vari "String" (@LC_String K) de_str].
(** /repo/src/line.rs 12-16. *)
Definition de_line (j : json) : option (LineF K) :=
  l <~ entries ["contents"; "style"] j;
  a <~ req (de_vec de_lc) l "contents";
  b <~ req de_linestyle l "style";
  Some (mkLineF a b).

(** /repo/src/contents.rs 210-245. *)
Definition de_ce : json -> option (ContentsElement K) :=
  de_variants
    ([vari "Table" (@CE_Table K) (p KTable); vari "TableStruct" (@CE_TableStruct K) (p KTableStruct);
      vari "Fig" (@CE_Fig K) de_fig; vari "FigStruct" (@CE_FigStruct K) (p KFigStruct);
      vari "QuoteStruct" (@CE_Quote K) (p (KCont CQuote));
      vari "NoteStruct" (@CE_NoteStruct K) (p (KCStruct SNote));
      vari "StyleStruct" (@CE_StyleStruct K) (p (KCStruct SStyle));
      vari "AppdxTable" (@CE_AppdxTable K) (p KAppdxTable); vari "Ruby" (@CE_Ruby K) (p KRuby);
      vari "Line" (@CE_Line K) (p KLine); vari "Sup" (@CE_Sup K) de_sup; vari "Sub" (@CE_Sub K) de_sup;
      vari "String" (@CE_String K) de_str; vari "Paragraph" (@CE_Paragraph K) (p KParagraph)]
     ++ level_variants (@CE_Item K)
     ++ [vari "List" (@CE_List K) (p (KList List0)); vari "Sentence" (@CE_Sentence K) (p KSentence);
         vari "ArithFormula" (@CE_Arith K) de_arith; vari "Remarks" (@CE_Remarks K) (p KRemarks);
         vari "TOC" (@CE_TOC K) (p KTOC); vari "TOCSection" (@CE_TOCSection K) (p KTOCSection);
         vari "TableRow" (@CE_TableRow K) (p KTableRow)]).
(** /repo/src/contents.rs 20-25; /repo/src/structs.rs 45-50, /repo/src/contents.rs 246-250, 263-267, 281-285. *)
Definition de_contents (j : json) : option (ContentsF K) :=
  l <~ entries ["contents"] j; req (de_vec de_ce) l "contents".
Definition de_cont (c : cname) (j : json) : option (ContentsF K) :=
  match c with
  | CArith => de_contents j
  | _ => l <~ entries ["contentes"] j; req de_contents l "contentes"
  end.

(** /repo/src/sentence.rs 198-208. *)
Definition de_se : json -> option (SentenceElement K) :=
  de_variants [vari "Line" (@SE_Line K) (p KLine); vari "QuoteStruct" (@SE_Quote K) (p (KCont CQuote));
               vari "ArithFormula" (@SE_Arith K) de_arith; vari "Ruby" (@SE_Ruby K) (p KRuby);
               vari "Sup" (@SE_Sup K) de_sup; vari "Sub" (@SE_Sub K) de_sup; vari "String" (@SE_String K) de_str].
(** /repo/src/sentence.rs 12-19. *)
Definition de_sentence (j : json) : option (SentenceF K) :=
  l <~ entries ["contents"; "num"; "function"; "indent"; "writing_mode"] j;
  a <~ req (de_vec de_se) l "contents";
  b <~ opt de_num l "num";
  c <~ opt de_function l "function";
  d <~ opt de_indent l "indent";
  e <~ req de_mode l "writing_mode";
  Some (mkSentenceF a b c d e).
(** /repo/src/class.rs 189-195. *)
Definition de_column (j : json) : option (ColumnF K) :=
  l <~ entries ["sentence"; "num"; "line_break"; "align"] j;
  a <~ req (de_vec (p KSentence)) l "sentence";
  b <~ opt de_num l "num";
  c <~ req de_bool l "line_break";
  d <~ opt de_align l "align";
  Some (mkColumnF a b c d).
(** /repo/src/class.rs 85-90. *)
Definition de_sct : json -> option (SentenceOrColumnOrTable K) :=
  de_variants [vari "Sentence" (@SCT_Sentence K) (de_vec (p KSentence));
               vari "Column" (@SCT_Column K) (de_vec (p KColumn)); vari "Table" (@SCT_Table K) (p KTable)].
(** /repo/src/class.rs 154-158. *)
Definition de_caption (j : json) : option (Caption K) :=
  l <~ entries ["text"; "common_caption"] j;
  a <~ req de_text l "text";
  b <~ opt de_bool l "common_caption";
  Some (mkCaption a b).
(** /repo/src/class.rs 15-21. *)
Definition de_class (j : json) : option (ClassF K) :=
  l <~ entries ["class_title"; "class_sentence"; "children"; "num"] j;
  a <~ opt de_text l "class_title";
  b <~ req de_sct l "class_sentence";
  c <~ req (de_vec (p (KItem Item0))) l "children";
  d <~ req de_str l "num";
  Some (mkClassF a b c d).
(** /repo/src/table.rs 77-80. *)
Definition de_header (j : json) : option (TableHeaderRow K) :=
  l <~ entries ["columns"] j; req (de_vec de_text) l "columns".
(** /repo/src/table.rs 17-22. *)
Definition de_table (j : json) : option (TableF K) :=
  l <~ entries ["table_header_row"; "table_row"; "writing_mode"] j;
  a <~ req (de_vec de_header) l "table_header_row";
  b <~ req (de_vec (p KTableRow)) l "table_row";
  c <~ req de_mode l "writing_mode";
  Some (mkTableF a b c).
(** /repo/src/table.rs 113-116. *)
Definition de_table_row (j : json) : option (TableRowF K) :=
  l <~ entries ["columns"] j; req (de_vec (p KTableColumn)) l "columns".
(** /repo/src/table.rs 348-373. *)
Definition de_tc : json -> option (TableColumnContents K) :=
  de_variants
    ([vari "Part" (@TC_Part K) (p KPart); vari "Chapter" (@TC_Chapter K) (p KChapter);
      vari "Section" (@TC_Section K) (p KSection); vari "Subsection" (@TC_Subsection K) (p KSubsection);
      vari "Division" (@TC_Division K) (p KDivision); vari "Article" (@TC_Article K) (p KArticle);
      vari "Paragraph" (@TC_Paragraph K) (p KParagraph)]
     ++ level_variants (@TC_Item K)
     ++ [vari "FigStruct" (@TC_FigStruct K) (p KFigStruct); vari "Sentence" (@TC_Sentence K) (p KSentence);
         vari "Remarks" (@TC_Remarks K) (p KRemarks); vari "Column" (@TC_Column K) (p KColumn);
         vari "String" (@TC_String K) de_str]).
(** /repo/src/table.rs 149-160. *)
Definition de_table_column (j : json) : option (TableColumnF K) :=
  l <~ entries ["contents"; "border_top"; "border_bottom"; "border_left"; "border_right"; "rowspan";
                "colspan"; "align"; "valign"] j;
  a <~ req (de_vec de_tc) l "contents";
  b <~ req de_linestyle l "border_top";
  c <~ req de_linestyle l "border_bottom";
  d <~ req de_linestyle l "border_left";
  e <~ req de_linestyle l "border_right";
  f <~ opt de_str l "rowspan";
  g <~ opt de_str l "colspan";
  h <~ opt de_align l "align";
  i <~ opt de_position l "valign";
  Some (mkTableColumnF a b c d e f g h i).

(** /repo/src/remarks.rs 73-77, 103-107, 13-17. *)
Definition de_rlabel (j : json) : option (RemarksLabel K) :=
  l <~ entries ["text"; "line_break"] j;
  a <~ req de_text l "text";
  b <~ req de_bool l "line_break";
  Some (mkRemarksLabel a b).
Definition de_rc : json -> option (RemarksContents K) :=
  de_variants [vari "Item" (@RC_Item K) (p (KItem Item0)); vari "Sentence" (@RC_Sentence K) (p KSentence)].
Definition de_remarks (j : json) : option (RemarksF K) :=
  l <~ entries ["label"; "children"] j;
  a <~ req de_rlabel l "label";
  b <~ req (de_vec de_rc) l "children";
  Some (mkRemarksF a b).

(** /repo/src/structs.rs 64-70, 140-146, 216-222. *)
Definition de_cstruct (s : sname) (j : json) : option (CStructF K s) :=
  l <~ entries ["title"; "title_remarks"; body_field s; body_remarks_field s] j;
  a <~ opt de_text l "title";
  b <~ req (de_vec (p KRemarks)) l "title_remarks";
  c <~ req (p (KCont (body_of s))) l (body_field s);
  d <~ req (de_vec (p KRemarks)) l (body_remarks_field s);
  Some (mkStructF a b c d).
(** /repo/src/structs.rs 292-298. *)
Definition de_fig_struct (j : json) : option (FigStructF K) :=
  l <~ entries ["title"; "title_remarks"; "fig"; "fig_remarks"] j;
  a <~ opt de_text l "title";
  b <~ req (de_vec (p KRemarks)) l "title_remarks";
  c <~ req de_fig l "fig";
  d <~ req (de_vec (p KRemarks)) l "fig_remarks";
  Some (mkStructF a b c d).
(** /repo/src/structs.rs 367-373. *)
Definition de_table_struct (j : json) : option (TableStructF K) :=
  l <~ entries ["title"; "title_remarks"; "table"; "table_remarks"] j;
  a <~ opt de_twm l "title";
  b <~ req (de_vec (p KRemarks)) l "title_remarks";
  c <~ req (p KTable) l "table";
  d <~ req (de_vec (p KRemarks)) l "table_remarks";
  Some (mkStructF a b c d).
(** /repo/src/structs.rs 15-21. *)
Definition de_struct : json -> option (Struct K) :=
  de_variants [vari "TableStruct" (@Struct_Table K) (p KTableStruct);
               vari "FigStruct" (@Struct_Fig K) (p KFigStruct);
               vari "StyleStruct" (@Struct_Style K) (p (KCStruct SStyle));
               vari "List" (@Struct_List K) (p (KList List0))].

(** /repo/src/list.rs 90-94. *)
Definition de_ls : json -> option (ListSentence K) :=
  de_variants [vari "Sentence" (@LS_Sentence K) (p KSentence); vari "Column" (@LS_Column K) (p KColumn)].
(** /repo/src/list.rs 12-17, 96-101, 173-178, 250-253. *)
Definition de_list (v : llvl) (j : json) : option (ListF K v) :=
  l <~ entries ("sentence" :: if list_nests v then ["children"] else []) j;
  a <~ req (de_vec de_ls) l "sentence";
  b <~ (if list_nests v then req (de_vec (p (sub_list v))) l "children" else Some []);
  Some (mkListF a b).

(** /repo/src/paragraph.rs 163-172 and the ten copies. *)
Definition de_item (v : lvl) (j : json) : option (ItemF K v) :=
  l <~ entries ("title" :: "sentence" :: (if item_nests v then ["children"] else [])
                ++ ["struct_list"; "num"; "delete"; "hide"]) j;
  a <~ opt de_text l "title";
  b <~ req de_sct l "sentence";
  c <~ (if item_nests v then req (de_vec (p (sub_item v))) l "children" else Some []);
  d <~ req (de_vec de_struct) l "struct_list";
  e <~ opt de_AN l "num";
  f <~ req de_bool l "delete";
  g <~ req de_bool l "hide";
  Some (mkItemF a b c d e f g).
(** /repo/src/paragraph.rs 17-30. *)
Definition de_paragraph (j : json) : option (ParagraphF K) :=
  l <~ entries ["caption"; "paragraph_num"; "amend_provision"; "class"; "sentence"; "struct_list";
                "children"; "num"; "old_style"; "old_num"; "hide"] j;
  a <~ opt de_caption l "caption";
  b <~ req de_text l "paragraph_num";
  c <~ req (de_vec (p KAmend)) l "amend_provision";
  d <~ req (de_vec (p KClass)) l "class";
  e <~ req (de_vec (p KSentence)) l "sentence";
  f <~ req (de_vec de_struct) l "struct_list";
  g <~ req (de_vec (p (KItem Item0))) l "children";
  h <~ req de_AN l "num";
  i <~ req de_bool l "old_style";
  k <~ req de_bool l "old_num";
  m <~ req de_bool l "hide";
  Some (mkParagraphF a b c d e f g h i k m).
(** /repo/src/article.rs 600-610. *)
Definition de_article (j : json) : option (ArticleF K) :=
  l <~ entries ["caption"; "title"; "paragraph"; "suppl_note"; "num"; "delete"; "hide"] j;
  a <~ opt de_caption l "caption";
  b <~ req de_text l "title";
  c <~ req (de_vec (p KParagraph)) l "paragraph";
  d <~ opt de_text l "suppl_note";
  e <~ req de_AN l "num";
  f <~ req de_bool l "delete";
  g <~ req de_bool l "hide";
  Some (mkArticleF a b c d e f g).
(** /repo/src/article.rs 15-22, 133-140, 251-258, 377-384, 497-504. *)
Definition de_head {C} (t : string) (ch : json -> option C) (j : json) : option (HeadF K C) :=
  l <~ entries [t; "children"; "num"; "delete"; "hide"] j;
  a <~ req de_text l t;
  b <~ req (de_vec ch) l "children";
  c <~ req de_AN l "num";
  d <~ req de_bool l "delete";
  e <~ req de_bool l "hide";
  Some (mkHeadF a b c d e).
(** /repo/src/article.rs 126-130, 244-248, 369-374, 490-494. *)
Definition de_pc : json -> option (PartContents K) :=
  de_variants [vari "Article" (@PC_Article K) (p KArticle); vari "Chapter" (@PC_Chapter K) (p KChapter)].
Definition de_chc : json -> option (ChapterContents K) :=
  de_variants [vari "Article" (@ChC_Article K) (p KArticle); vari "Section" (@ChC_Section K) (p KSection)].
Definition de_sec : json -> option (SectionContents K) :=
  de_variants [vari "Article" (@SeC_Article K) (p KArticle); vari "Subsection" (@SeC_Subsection K) (p KSubsection);
               vari "Division" (@SeC_Division K) (p KDivision)].
Definition de_suc : json -> option (SubsectionContents K) :=
  de_variants [vari "Article" (@SuC_Article K) (p KArticle); vari "Division" (@SuC_Division K) (p KDivision)].

(** /repo/src/law.rs 970-1020. *)
Definition de_np : json -> option (NewProvision K) :=
  de_variants
    ([vari "LawTitle" (@NP_LawTitle K) (p KLawTitle); vari "Preamble" (@NP_Preamble K) (p KPreamble);
      vari "TOC" (@NP_TOC K) (p KTOC); vari "Part" (@NP_Part K) (p KPart);
      vari "PartTitle" (@NP_PartTitle K) de_text; vari "Chapter" (@NP_Chapter K) (p KChapter);
      vari "ChapterTitle" (@NP_ChapterTitle K) de_text; vari "Section" (@NP_Section K) (p KSection);
      vari "SectionTitle" (@NP_SectionTitle K) de_text; vari "Subsection" (@NP_Subsection K) (p KSubsection);
      vari "SubsectionTitle" (@NP_SubsectionTitle K) de_text; vari "Division" (@NP_Division K) (p KDivision);
      vari "DivisionTitle" (@NP_DivisionTitle K) de_text; vari "Article" (@NP_Article K) (p KArticle);
      vari "SupplNote" (@NP_SupplNote K) de_text; vari "Paragraph" (@NP_Paragraph K) (p KParagraph)]
     ++ level_variants (@NP_Item K)
     ++ [vari "List" (@NP_List K) (p (KList List0)); vari "Sentence" (@NP_Sentence K) (p KSentence);
         vari "AmendProvision" (@NP_Amend K) (p KAmend); vari "AppdxTable" (@NP_AppdxTable K) (p KAppdxTable);
         vari "AppdxNote" (@NP_AppdxNote K) (p KAppdxNote); vari "AppdxStyle" (@NP_AppdxStyle K) (p KAppdxStyle);
         vari "Appdx" (@NP_Appdx K) (p KAppdx); vari "AppdxFig" (@NP_AppdxFig K) (p KAppdxFig);
         vari "AppdxFormat" (@NP_AppdxFormat K) (p KAppdxFormat);
         vari "SupplProvisionAppdxStyle" (@NP_SupplStyle K) (p KSupplStyle);
         vari "SupplProvisionAppdxTable" (@NP_SupplTable K) (p KSupplTable);
         vari "SupplProvisionAppdx" (@NP_SupplAppdx K) (p KSupplAppdx);
         vari "TableStruct" (@NP_TableStruct K) (p KTableStruct); vari "TableRow" (@NP_TableRow K) (p KTableRow);
         vari "TableColumn" (@NP_TableColumn K) (p KTableColumn); vari "FigStruct" (@NP_FigStruct K) (p KFigStruct);
         vari "NoteStruct" (@NP_CStruct K SNote) (p (KCStruct SNote));
         vari "StyleStruct" (@NP_CStruct K SStyle) (p (KCStruct SStyle));
         vari "FormatStruct" (@NP_CStruct K SFormat) (p (KCStruct SFormat));
         vari "Remarks" (@NP_Remarks K) (p KRemarks); vari "LawBody" (@NP_LawBody K) (p KLawBody)]).
(** /repo/src/law.rs 642-647. *)
Definition de_amend (j : json) : option (AmendF K) :=
  l <~ entries ["sentence"; "new_provision"] j;
  a <~ opt (p KSentence) l "sentence";
  b <~ req (de_vec de_np) l "new_provision";
  Some (mkAmendF a b).
(** /repo/src/law.rs 475-486. *)
Definition de_law_title (j : json) : option (LawTitleF K) :=
  l <~ entries ["kana"; "abbrev"; "abbrev_kana"; "text"] j;
  a <~ opt de_str l "kana";
  b <~ opt de_str l "abbrev";
  c <~ opt de_str l "abbrev_kana";
  d <~ req de_text l "text";
  Some (mkLawTitleF a b c d).
(** /repo/src/law.rs 524-528. *)
Definition de_preamble (j : json) : option (PreambleF K) :=
  l <~ entries ["children"] j; req (de_vec (p KParagraph)) l "children".
(** /repo/src/law.rs 626-640, 558-564. *)
Definition de_mc : json -> option (MainContents K) :=
  de_variants [vari "Part" (@MC_Part K) (p KPart); vari "Chapter" (@MC_Chapter K) (p KChapter);
               vari "Section" (@MC_Section K) (p KSection); vari "Article" (@MC_Article K) (p KArticle);
               vari "Paragraph" (@MC_Paragraph K) (p KParagraph)].
Definition de_main (j : json) : option (MainF K) :=
  l <~ entries ["children"; "extract"] j;
  a <~ req (de_vec de_mc) l "children";
  b <~ opt de_bool l "extract";
  Some (mkMainF a b).
(** /repo/src/suppl_provision.rs 140-148, 15-23. *)
Definition de_sp : json -> option (SupplContents K) :=
  de_variants [vari "Chapter" (@SP_Chapter K) (p KChapter); vari "Article" (@SP_Article K) (p KArticle);
               vari "Paragraph" (@SP_Paragraph K) (p KParagraph);
               vari "SupplProvisionAppdxTable" (@SP_Table K) (p KSupplTable);
               vari "SupplProvisionAppdxStyle" (@SP_Style K) (p KSupplStyle);
               vari "SupplProvisionAppdx" (@SP_Appdx K) (p KSupplAppdx)].
Definition de_suppl (j : json) : option (SupplF K) :=
  l <~ entries ["label"; "children"; "suppl_provision_type"; "amend_law_num"; "extract"] j;
  a <~ req de_text l "label";
  b <~ req (de_vec de_sp) l "children";
  c <~ opt de_suppl_type l "suppl_provision_type";
  d <~ opt de_str l "amend_law_num";
  e <~ opt de_bool l "extract";
  Some (mkSupplF a b c d e).
(** /repo/src/suppl_provision.rs 156-162, 230-236. *)
Definition de_suppl_ts {C} (n : string) (ch : json -> option C) (j : json) : option (SupplTSF K C) :=
  l <~ entries ["title"; "related_article_num"; n; "num"] j;
  a <~ req de_twm l "title";
  b <~ opt de_text l "related_article_num";
  c <~ req (de_vec ch) l n;
  d <~ opt de_str l "num";
  Some (mkSupplTSF a b c d).
(** /repo/src/suppl_provision.rs 304-310. *)
Definition de_suppl_appdx (j : json) : option (SupplAppdxF K) :=
  l <~ entries ["arith_formula_num"; "related_article_num"; "arith_formula"; "num"] j;
  a <~ opt de_text l "arith_formula_num";
  b <~ opt de_text l "related_article_num";
  c <~ req (de_vec de_arith) l "arith_formula";
  d <~ opt de_str l "num";
  Some (mkSupplAppdxF a b c d).

(** /repo/src/appdx.rs 15-22, 104-111, 199-206, 275-282. *)
Definition de_appdx_t {C} (ch : json -> option C) (j : json) : option (AppdxTF K C) :=
  l <~ entries ["title"; "related_article_num"; "children"; "remarks"; "num"] j;
  a <~ opt de_twm l "title";
  b <~ opt de_text l "related_article_num";
  c <~ req (de_vec ch) l "children";
  d <~ opt (p KRemarks) l "remarks";
  e <~ opt de_str l "num";
  Some (mkAppdxTF a b c d e).
(** /repo/src/appdx.rs 98-102, 192-197, 489-493. *)
Definition de_at : json -> option (AppdxTableContents K) :=
  de_variants [vari "TableStruct" (@AT_TableStruct K) (p KTableStruct); vari "Item" (@AT_Item K) (p (KItem Item0))].
Definition de_an : json -> option (AppdxNoteContents K) :=
  de_variants [vari "NoteStruct" (@AN_NoteStruct K) (p (KCStruct SNote));
               vari "FigStruct" (@AN_FigStruct K) (p KFigStruct);
               vari "TableStruct" (@AN_TableStruct K) (p KTableStruct)].
Definition de_af : json -> option (AppdxFigContents K) :=
  de_variants [vari "FigStruct" (@AF_FigStruct K) (p KFigStruct);
               vari "TableStruct" (@AF_TableStruct K) (p KTableStruct)].
(** /repo/src/appdx.rs 350-356. *)
Definition de_appdx (j : json) : option (AppdxF K) :=
  l <~ entries ["arith_formula_num"; "related_article_num"; "arith_formula"; "remarks"] j;
  a <~ opt de_text l "arith_formula_num";
  b <~ opt de_text l "related_article_num";
  c <~ req (de_vec de_arith) l "arith_formula";
  d <~ opt (p KRemarks) l "remarks";
  Some (mkAppdxF a b c d).
(** /repo/src/appdx.rs 417-423. *)
Definition de_appdx_fig (j : json) : option (AppdxFigF K) :=
  l <~ entries ["title"; "related_article_num"; "children"; "num"] j;
  a <~ opt de_twm l "title";
  b <~ opt de_text l "related_article_num";
  c <~ req (de_vec de_af) l "children";
  d <~ opt de_str l "num";
  Some (mkAppdxFigF a b c d).

(** /repo/src/table_of_contents.rs 127-140, 203-216, 279-292, 373-386. *)
Definition de_toc_head {C} (t : string) (ch : json -> option C) (j : json) : option (TOCHeadF K C) :=
  l <~ entries [t; "article_range"; "num"; "delete"; "children"] j;
  a <~ req de_text l t;
  b <~ opt de_text l "article_range";
  c <~ req de_AN l "num";
  d <~ req de_bool l "delete";
  e <~ req (de_vec ch) l "children";
  Some (mkTOCHeadF a b c d e).
(** /repo/src/table_of_contents.rs 451-462. *)
Definition de_toc_division (j : json) : option (TOCDivisionF K) :=
  l <~ entries ["division_title"; "article_range"; "num"; "delete"] j;
  a <~ req de_text l "division_title";
  b <~ opt de_text l "article_range";
  c <~ req de_AN l "num";
  d <~ req de_bool l "delete";
  Some (mkTOCHeadF a b c d []).
(** /repo/src/table_of_contents.rs 364-371. *)
Definition de_tsc : json -> option (TOCSectionContents K) :=
  de_variants [vari "TOCSubsection" (@TSC_Subsection K) (p KTOCSubsection);
               vari "TOCDivision" (@TSC_Division K) (p KTOCDivision)].
(** /repo/src/table_of_contents.rs 518-529. *)
Definition de_toc_article (j : json) : option (TOCArticleF K) :=
  l <~ entries ["article_title"; "article_caption"; "num"; "delete"] j;
  a <~ req de_text l "article_title";
  b <~ req de_caption l "article_caption";
  c <~ req de_AN l "num";
  d <~ req de_bool l "delete";
  Some (mkTOCArticleF a b c d).
(** /repo/src/table_of_contents.rs 666-673, 590-599. *)
Definition de_tsp : json -> option (TOCSupplContents K) :=
  de_variants [vari "TOCArticle" (@TSP_Article K) (p KTOCArticle); vari "TOCChapter" (@TSP_Chapter K) (p KTOCChapter)].
Definition de_toc_suppl (j : json) : option (TOCSupplF K) :=
  l <~ entries ["suppl_provision_label"; "article_range"; "children"] j;
  a <~ req de_text l "suppl_provision_label";
  b <~ opt de_text l "article_range";
  c <~ req (de_vec de_tsp) l "children";
  Some (mkTOCSupplF a b c).
(** /repo/src/table_of_contents.rs 115-125, 12-25. *)
Definition de_tm : json -> option (TOCMainContents K) :=
  de_variants [vari "TOCPart" (@TM_Part K) (p KTOCPart); vari "TOCChapter" (@TM_Chapter K) (p KTOCChapter);
               vari "TOCSection" (@TM_Section K) (p KTOCSection); vari "TOCArticle" (@TM_Article K) (p KTOCArticle)].
Definition de_toc (j : json) : option (TOCF K) :=
  l <~ entries ["toc_label"; "toc_preamble_label"; "toc_main_contents"; "toc_suppl_provision";
                "toc_appdx_table_label"] j;
  a <~ opt de_text l "toc_label";
  b <~ opt de_text l "toc_preamble_label";
  c <~ req (de_vec de_tm) l "toc_main_contents";
  d <~ opt (p KTOCSuppl) l "toc_suppl_provision";
  e <~ req (de_vec de_text) l "toc_appdx_table_label";
  Some (mkTOCF a b c d e).

(** /repo/src/law.rs 303-332. *)
Definition de_law_body (j : json) : option (LawBodyF K) :=
  l <~ entries ["law_title"; "enact_statement"; "subject"; "toc"; "preamble"; "main_provision";
                "suppl_provision"; "appdx_table"; "appdx_note"; "appdx_style"; "appdx"; "appdx_fig";
                "appdx_format"] j;
  a <~ opt (p KLawTitle) l "law_title";
  b <~ req (de_vec de_text) l "enact_statement";
  c <~ opt de_str l "subject";
  d <~ opt (p KTOC) l "toc";
  e <~ opt (p KPreamble) l "preamble";
  f <~ req (p KMain) l "main_provision";
  g <~ req (de_vec (p KSuppl)) l "suppl_provision";
  h <~ req (de_vec (p KAppdxTable)) l "appdx_table";
  i <~ req (de_vec (p KAppdxNote)) l "appdx_note";
  k <~ req (de_vec (p KAppdxStyle)) l "appdx_style";
  m <~ req (de_vec (p KAppdx)) l "appdx";
  n <~ req (de_vec (p KAppdxFig)) l "appdx_fig";
  o <~ req (de_vec (p KAppdxFormat)) l "appdx_format";
  Some (mkLawBodyF a b c d e f g h i k m n o).

(** One level of the knot. *)
Definition dstep (k : kind) : json -> option (F K k) :=
  match k return json -> option (F K k) with
  | KVoid => fun _ => None
  | KRuby => de_ruby
  | KLine => de_line
  | KCont c => de_cont c
  | KSentence => de_sentence
  | KColumn => de_column
  | KTable => de_table
  | KTableRow => de_table_row
  | KTableColumn => de_table_column
  | KRemarks => de_remarks
  | KCStruct s => de_cstruct s
  | KFigStruct => de_fig_struct
  | KTableStruct => de_table_struct
  | KList l => de_list l
  | KClass => de_class
  | KItem l => de_item l
  | KParagraph => de_paragraph
  | KArticle => de_article
  | KPart => de_head "part_title" de_pc
  | KChapter => de_head "chapter_title" de_chc
  | KSection => de_head "section_title" de_sec
  | KSubsection => de_head "subsection_title" de_suc
  | KDivision => de_head "division_title" (p KArticle)
  | KAmend => de_amend
  | KLawTitle => de_law_title
  | KPreamble => de_preamble
  | KMain => de_main
  | KSuppl => de_suppl
  | KSupplTable => de_suppl_ts "table_struct" (p KTableStruct)
  | KSupplStyle => de_suppl_ts "style_struct" (p (KCStruct SStyle))
  | KSupplAppdx => de_suppl_appdx
  | KAppdxTable => de_appdx_t de_at
  | KAppdxNote => de_appdx_t de_an
  | KAppdxStyle => de_appdx_t (p (KCStruct SStyle))
  | KAppdxFormat => de_appdx_t (p (KCStruct SFormat))
  | KAppdx => de_appdx
  | KAppdxFig => de_appdx_fig
  | KTOC => de_toc
  | KTOCPart => de_toc_head "part_title" (p KTOCChapter)
  | KTOCChapter => de_toc_head "chapter_title" (p KTOCSection)
  | KTOCSection => de_toc_head "section_title" de_tsc
  | KTOCSubsection => de_toc_head "subsection_title" (p KTOCDivision)
  | KTOCDivision => de_toc_division
  | KTOCArticle => de_toc_article
  | KTOCSuppl => de_toc_suppl
  | KLawBody => de_law_body
  end.
End De.

(** [T::deserialize] for every type [T] of the knot.  The recursion is on a bound which [de] sets to
    the nesting of the document; theorem [de_unfold] shows that the bound is never reached. *)
Fixpoint de_n (n : nat) (k : kind) (j : json) : option (Knot k) :=
  match n with
  | O => None
  | S m => option_map (mk k) (dstep (de_n m) k j)
  end.
Definition de (k : kind) (j : json) : option (Knot k) := de_n (depth j) k j.

(** /repo/src/law.rs 24-46. *)
Definition de_law (j : json) : option Law :=
  l <~ entries ["era"; "year"; "num"; "promulgate_month"; "promulgate_day"; "law_type"; "lang"; "law_num";
                "law_body"] j;
  a <~ req de_era l "era";
  b <~ req de_num l "year";
  c <~ opt de_AN l "num";
  d <~ opt de_num l "promulgate_month";
  e <~ opt de_num l "promulgate_day";
  f <~ req de_law_type l "law_type";
  g <~ req de_lang l "lang";
  h <~ req de_str l "law_num";
  i <~ req (de KLawBody) l "law_body";
  Some (mkLaw a b c d e f g h i).
