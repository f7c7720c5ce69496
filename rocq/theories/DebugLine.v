(** [derive(Debug)] of the private enum of lines, /repo/src/parse_from_text.rs 902-937, in the manner of [Debug.v]: variants
    with one or two data, printed with [debug_tuple]. *)
From Coq Require Import String Ascii List NArith Bool.
From Verif Require Import Base NumStr Ast Regex NumText TextParse Serde SerdeSpec Debug.
Import ListNotations.
Open Scope string_scope.
Open Scope list_scope.

(** [debug_tuple] with two data. *)
Definition debug_pair (st : style) (name a b : string) : string :=
  (name ++ "(" ++ opening st "" ++ listed st [a; b] ++ closing st "" ++ ")")%string.
(** /repo/src/article_number.rs 319-330. *)
Definition debug_item_number (shown : N -> bool) (st : style) (i : ItemNumber) : string :=
  debug shown (ser_item_number (mkINB (enc (inum_str i)) (inum_base i) (inum_eda i) (inum_range i) (inum_pattern i)))
    (TRef "ItemNumber") st.
Definition debug_line (shown : N -> bool) (st : style) (l : line) : string :=
  let str t := debug_str shown (enc t) in
  let numbered name n t := debug_pair st name (debug_AN shown (deeper st) n) (str t) in
  match l with
  | LCaption s => debug_tuple st "Caption" (str s)
  | LPart n t => numbered "Part" n t
  | LChapter n t => numbered "Chapter" n t
  | LSection n t => numbered "Section" n t
  | LSubsection n t => numbered "Subsection" n t
  | LDivision n t => numbered "Division" n t
  | LArticle n t => numbered "Article" n t
  | LParagraph n t => numbered "Paragraph" n t
  | LItem i t => debug_pair st "Item" (debug_item_number shown (deeper st) i) (str t)
  | LSuppl o =>
      debug_tuple st "SupplProvision"
        (match o with Some s => debug_tuple (deeper st) "Some" (str s) | None => "None" end)
  | LText s => debug_tuple st "Text" (str s)
  end.
