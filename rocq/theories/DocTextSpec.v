(** The text of paragraphs and articles as it stands in the XML tree. *)
From Coq Require Import String List NArith Bool.
From Verif Require Import Base NumStr Xml Ast ReadSpec Utils UtilsSpec ReadingSpec.
Import ListNotations.
Open Scope string_scope.
Open Scope list_scope.

(** A sentence; the text of a title or header. *)
Definition sentence_text (s : Element) : string := concat_strings (map sentence_node_text (children s)).
Definition title_text (c : Element) : string := concat_strings (map (inline_text (fun s => s) (fun s => s)) (children c)).

(** A cell of a table: its text, sentences, and the sentences of its columns. *)
Definition cell_node_text (n : XMLNode) : string :=
  match n with
  | NText s => s
  | NElement c =>
      if String.eqb (name c) "Sentence" then sentence_text c
      else if String.eqb (name c) "Column" then concat_strings (map sentence_text (elements (children c)))
      else ""
  | NOther _ => ""
  end.
Definition cell_text (c : Element) : string := concat_strings (map cell_node_text (children c)).
(** Cells are separated by blanks, rows by line feeds.  Header rows come first, separated by
    blanks, the cells of each without a separator. *)
Definition line_feed : string := String (Ascii.Ascii false true false true false false false false) "".
Definition row_text (r : Element) : string := join " " (map cell_text (with_tag "TableColumn" (children r))).
Definition header_text (r : Element) : string := concat_strings (map title_text (with_tag "TableHeaderColumn" (children r))).
Definition table_text (t : Element) : string :=
  (join " " (map header_text (with_tag "TableHeaderRow" (children t))) ++ line_feed ++
   join line_feed (map row_text (with_tag "TableRow" (children t))))%string.

(** The sentences of an item: if there are columns then the sentences in them, separated by
    blanks; if not, the sentences; if there are none either, the last table. *)
Definition item_sentence_text (table : Element -> string) (c : Element) : string :=
  match with_tag "Column" (children c), with_tag "Sentence" (children c), rev (with_tag "Table" (children c)) with
  | (_ :: _) as cs, _, _ => join " " (map sentence_text (flat_map (fun d => elements (children d)) cs))
  | [], (_ :: _) as ss, _ => concat_strings (map sentence_text ss)
  | [], [], t :: _ => table t
  | [], [], [] => ""
  end.
(** The last sentence element of an item counts; tables in sixth subitems have no text. *)
Definition item_element_text (tag : string) (e : Element) : string :=
  match rev (with_tag (tag ++ "Sentence")%string (children e)) with
  | s :: _ => item_sentence_text (if String.eqb tag "Subitem6" then fun _ => "" else table_text) s
  | [] => ""
  end.

(** A line of the listing: the numbers of the paragraph and of the items as written, and the text. *)
Record line := mkTextLine { ln_paragraph : option string; ln_items : list (option string); ln_text : string }.

(** The lines of an item, and of the items below it: an item before those below it. *)
Fixpoint item_lines (tag : string) (below : list string) (e : Element) : list (list (option string) * string) :=
  ([get e "Num"], item_element_text tag e) ::
  match below with
  | [] => []
  | t :: r => map (fun x => (get e "Num" :: fst x, snd x)) (flat_map (item_lines t r) (with_tag t (children e)))
  end.
Definition subitem_tags : list string :=
  ["Subitem1"; "Subitem2"; "Subitem3"; "Subitem4"; "Subitem5"; "Subitem6"; "Subitem7"; "Subitem8"; "Subitem9"; "Subitem10"].
Definition paragraph_lines (e : Element) : list line :=
  mkTextLine (get e "Num") []
    (concat_strings (map sentence_text
      (flat_map (fun c => elements (children c)) (with_tag "ParagraphSentence" (children e))))) ::
  map (fun x => mkTextLine (get e "Num") (fst x) (snd x))
    (flat_map (item_lines "Item" subitem_tags) (with_tag "Item" (children e))).
Definition article_lines (e : Element) : list line := flat_map paragraph_lines (with_tag "Paragraph" (children e)).

(** An entry of the listing has the text of the line and the numbers written there. *)
Definition lists (x : line) (y : TextIndex * string) : Prop :=
  number (ln_paragraph x) (ti_paragraph (fst y)) /\ Forall2 item_number (ln_items x) (ti_items (fst y)) /\ ln_text x = snd y.

(** The whole text. *)
Definition article_text (e : Element) : string := join line_feed (map ln_text (article_lines e)).
