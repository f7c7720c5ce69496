(** Property C83: when the index of a text in a listing belongs to that text alone. *)
From Coq Require Import String List NArith Bool.
From Verif Require Import Base NumStr Xml Ast XmlParse Samples Utils UtilsSpec IndexSpec IndexFacts.
Import ListNotations.
Open Scope string_scope.
Open Scope list_scope.

(** C83.  No index occurs twice in the listing of the texts of paragraphs exactly if the numbers of the
    paragraphs differ and, at every depth, so do those of the items next to each other. *)
Theorem C83_unique : forall ps, NoDup (map fst (text_info_list_from_paragraph ps)) <->
  NoDup (map (fun p => par_num (un KParagraph p)) ps) /\ Forall items_apart ps.
Proof. exact index_unique. Qed.
Print Assumptions C83_unique.

(** Then there is one text for an index. *)
Theorem C83_one_text : forall ps i s t,
  NoDup (map (fun p => par_num (un KParagraph p)) ps) -> Forall items_apart ps ->
  In (i, s) (text_info_list_from_paragraph ps) -> In (i, t) (text_info_list_from_paragraph ps) -> s = t.
Proof. exact index_one_text. Qed.
Print Assumptions C83_one_text.

(** Reading does not see to it: two items with the same number are accepted, and have the same index. *)
Theorem C83_read_refuted : exists e v, parse KParagraph e = Ok v /\
  ~ NoDup (map fst (text_info_list_from_paragraph [v])).
Proof.
  pose (i := NElement (mkElement "Item" [("Num", "1")] [NElement (mkElement "ItemSentence" [] [NElement (mkElement "Sentence" [] [NText "甲"])])])).
  exists (mkElement "Paragraph" [("Num", "1")]
    [NElement (mkElement "ParagraphNum" [] []);
     NElement (mkElement "ParagraphSentence" [] [NElement (mkElement "Sentence" [] [NText "次のとおり"])]); i; i]).
  eexists. split; [vm_compute; reflexivity|].
  intros H. apply C83_unique in H as [_ H]. apply Forall_inv in H as [H _]. vm_compute in H.
  apply NoDup_cons_iff in H as [H _]. apply H. left. reflexivity.
Qed.
Print Assumptions C83_read_refuted.

(** A paragraph with items at two levels, all with numbers of their own; and one where two items below another
    have the same number. *)
Definition t_numbered (n m : N) : Knot KParagraph :=
  let sub n := mkItem (mkItemF (l := Sub1) None (SCT_Sentence [s_plain "細分"]) [] [] (Some (num1 n)) false false) in
  mkParagraph (mkParagraphF None [] [] [] [s_plain "柱書"] []
    [mkItem (mkItemF (l := Item0) None (SCT_Sentence [s_plain "号"]) [sub 1%N; sub n] [] (Some (num1 1)) false false);
     mkItem (mkItemF (l := Item0) None (SCT_Sentence [s_plain "次の号"]) [sub 1%N; sub 2%N] [] (Some (num1 2)) false false)]
    (num1 m) false false false).
Ltac apart_by_computation :=
  repeat first
    [ apply Forall_nil | apply Forall_cons | apply NoDup_nil
    | apply NoDup_cons; [vm_compute; intuition discriminate|]
    | match goal with |- items_apart _ => split end
    | match goal with |- apart (KItem ?l) ?x => change x with (mk (KItem l) (un (KItem l) x)); apply apart_item end
    | progress cbn ].
Example C83_case : NoDup (map fst (text_info_list_from_paragraph [t_numbered 2 1; t_numbered 3 2])) /\
  length (text_info_list_from_paragraph [t_numbered 2 1; t_numbered 3 2]) = 14.
Proof. split; [|vm_compute; reflexivity]. apply C83_unique. split; apart_by_computation. Qed.
Example C83_case_not : ~ NoDup (map fst (text_info_list_from_paragraph [t_numbered 1 1])).
Proof.
  intros H. vm_compute in H. apply NoDup_cons_iff in H as [_ H]. apply NoDup_cons_iff in H as [_ H].
  apply NoDup_cons_iff in H as [H _]. apply H. left. reflexivity.
Qed.
