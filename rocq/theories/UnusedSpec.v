(** What the implementations of Unused.v should do. *)
From Coq Require Import String List.
From Verif Require Import Base Xml Ast XmlParse XmlWrite RoundTripSpec Unused.
Import ListNotations.
Open Scope string_scope.

(** A structure survives writing and reading if the value in it does. *)
Definition struct_survives (s : Struct Knot) : Prop :=
  match s with
  | Struct_Table v => survives KTableStruct v
  | Struct_Fig v => survives KFigStruct v
  | Struct_Style v => survives (KCStruct SStyle) v
  | Struct_List v => survives (KList List0) v
  end.

Definition remark_survives (c : RemarksContents Knot) : Prop :=
  match c with RC_Item v => survives (KItem Item0) v | RC_Sentence v => survives KSentence v end.

(** What the writer of remarks would give with a call of the writer of the label. *)
Definition labelled (r : Knot KRemarks) : Element :=
  let e := write KRemarks r in
  mkElement (name e) (attrs e) (NElement (write_remarks_label (rem_label (un KRemarks r))) :: children e).
