(** Property C88: the implementations that nothing calls. *)
From Coq Require Import String List Bool.
From Verif Require Import Base NumStr Xml Ast XmlParse XmlWrite KnotFacts ReadSpec ReadingSpec RoundTripSpec RoundTripFacts
  Unused UnusedSpec UnusedFacts.
Import ListNotations.
Open Scope string_scope.
Open Scope list_scope.

(** C88.  The reader of structures reads exactly what the rule for the structures of items and paragraphs says, so that
    it agrees with the readers of both; any other tag is the error of a missing structure. *)
Theorem C88_struct : forall e s, struct_parser e = Ok s <-> struct_reads reads e s.
Proof. exact struct_exact. Qed.
Print Assumptions C88_struct.
Theorem C88_struct_other : forall e, ~ In (name e) ["TableStruct"; "FigStruct"; "StyleStruct"; "List"] ->
  struct_parser e = Err (MissingRequiredTag "Struct").
Proof. exact struct_other. Qed.
Print Assumptions C88_struct_other.
Theorem C88_in_item : forall l e v, parse (KItem l) e = Ok v ->
  Forall2 (fun c s => struct_parser c = Ok s) (with_tags ["TableStruct"; "FigStruct"; "StyleStruct"; "List"] (children e))
    (it_struct_list (un (KItem l) v)).
Proof. exact item_structs. Qed.
Print Assumptions C88_in_item.
Theorem C88_in_paragraph : forall e v, parse KParagraph e = Ok v ->
  Forall2 (fun c s => struct_parser c = Ok s) (with_tags ["TableStruct"; "FigStruct"; "StyleStruct"; "List"] (children e))
    (par_struct_list (un KParagraph v)).
Proof. exact paragraph_structs. Qed.
Print Assumptions C88_in_paragraph.

(** A structure comes back exactly if the value in it does. *)
Theorem C88_struct_back : forall s, struct_parser (write_struct_any write s) = Ok s <-> struct_survives s.
Proof. exact struct_back. Qed.
Print Assumptions C88_struct_back.

(** The label of remarks would come back exactly if its text does, and one call of its writer is all that the writer
    of remarks lacks: with it the remarks come back exactly if their label and their contents do. *)
Theorem C88_label_back : forall r, parse_remarks_label parse (write_remarks_label r) = Ok r <-> text_survives (rl_text r).
Proof. exact label_back. Qed.
Print Assumptions C88_label_back.
Theorem C88_labelled : forall r, parse KRemarks (labelled r) = Ok r <->
  text_survives (rl_text (rem_label (un KRemarks r))) /\ Forall remark_survives (rem_children (un KRemarks r)).
Proof. exact labelled_back. Qed.
Print Assumptions C88_labelled.

(** Remarks with a label that breaks the line and a sentence; a figure in an item. *)
Definition u_sentence : Knot KSentence := mkSentence (mkSentenceF [SE_String "適用しない。"] None None None Vertical).
Definition u_remarks : Knot KRemarks := mkRemarks (mkRemarksF (mkRemarksLabel [TE_Text "備考"] true) [RC_Sentence u_sentence]).
Definition u_fig : Knot KFigStruct := mkFigStruct (mkStructF None [] "fig.jpg" []).
Definition u_item : Element := mkElement "Item" [("Num", "1")]
  [NElement (mkElement "ItemSentence" [] [NElement (write KSentence u_sentence)]); NElement (write KFigStruct u_fig)].
Example C88_case :
  parse KRemarks (labelled u_remarks) = Ok u_remarks /\
  parse KRemarks (write KRemarks u_remarks) = Err (MissingRequiredTag "RemarksLabel") /\
  struct_parser (write KFigStruct u_fig) = Ok (Struct_Fig u_fig) /\ struct_survives (Struct_Fig u_fig) /\
  struct_parser (write KSentence u_sentence) = Err (MissingRequiredTag "Struct") /\
  exists v, parse (KItem Item0) u_item = Ok v /\ it_struct_list (un (KItem Item0) v) = [Struct_Fig u_fig].
Proof.
  split; [vm_compute; reflexivity|]. split; [vm_compute; reflexivity|]. split; [vm_compute; reflexivity|].
  split; [|split; [vm_compute; reflexivity|]].
  - change (survives KFigStruct u_fig). apply (proj1 (read_write_iff KFigStruct u_fig)). vm_compute. reflexivity.
  - eexists. split; vm_compute; reflexivity.
Qed.
