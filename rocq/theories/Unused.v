(** Implementations of /repo/src that no other code of /repo calls.

    Model file: definitions only.  ([text_parser] of TextBuild.v is one as well.)  [trait Parser] is private to
    the crate and [ToXmlElement] too, so that these cannot be called from outside either. *)
From Coq Require Import String List.
From Verif Require Import Base Xml Ast XmlParse XmlWrite.
Import ListNotations.
Open Scope string_scope.
Open Scope list_scope.

(** [Result::map]. *)
Definition map_ok {A B} (f : A -> B) (r : R A) : R B := x <- r; Ok (f x).

(** [impl Parser for Struct], /repo/src/structs.rs 23-33. *)
Definition struct_parser (e : Element) : R (Struct Knot) :=
  if String.eqb (name e) "TableStruct" then map_ok Struct_Table (parse KTableStruct e)
  else if String.eqb (name e) "FigStruct" then map_ok Struct_Fig (parse KFigStruct e)
  else if String.eqb (name e) "StyleStruct" then map_ok Struct_Style (parse (KCStruct SStyle) e)
  else if String.eqb (name e) "List" then map_ok Struct_List (parse (KList List0) e)
  else missing_required_tag "Struct".

(** [impl ToXmlElement for RemarksLabel], /repo/src/remarks.rs 91-101: the writer of remarks
    (56-71) does not call it. *)
Definition write_remarks_label (r : RemarksLabel Knot) : Element :=
  mkElement "RemarksLabel" (insert_flag "LineBreak" (rl_line_break r) []) (write_text_nodes write (rl_text r)).
