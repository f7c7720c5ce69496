(** Properties C29 and C30: what the reader does not look at. *)
From Coq Require Import String List NArith Bool.
From Verif Require Import Base NumStr Xml Ast XmlWrite XmlParse XmlSpec XmlSim Samples.
Import ListNotations.
Open Scope string_scope.
Open Scope list_scope.

(** C29.  Trees that differ only in comments and other non-content nodes, in text between
    the children of structural elements, in empty text where one text is expected, in an empty label of a
    supplementary provision and in the arrangement of attributes are read alike: same law, same error, or
    panic in both cases. *)
Theorem C29_law_noise : forall e e', sim e e' -> parse_law e = parse_law e'.
Proof. exact parse_law_sim. Qed.
Print Assumptions C29_law_noise.

Theorem C29_noise : forall k e e', well_tagged k e -> sim e e' -> parse k e = parse k e'.
Proof. exact parse_sim. Qed.
Print Assumptions C29_noise.

(** Deleting all nodes that are not elements from a structural element, provided that the
    positions looked at directly hold elements. *)
Theorem C29_delete : forall k n a c,
  well_tagged k (mkElement n a c) -> structural n = true ->
  Forall (fun x => shape_of x = ShElement) (firstn (leading n) c) ->
  leading n <= List.length (firstn (leading n) c) ->
  parse k (mkElement n a c) = parse k (mkElement n a (only_elements c)).
Proof. exact delete_sim. Qed.
Print Assumptions C29_delete.

Example C29_delete_case :
  let title := NElement (mkElement "ChapterTitle" [] [NText "t"]) in
  let c := [title; NText "  "; NOther "comment"] in
  structural "Chapter" = true /\ leading "Chapter" <= List.length (firstn (leading "Chapter") c) /\
  Forall (fun x => shape_of x = ShElement) (firstn (leading "Chapter") c) /\
  only_elements c = [title].
Proof. vm_compute. repeat constructor. Qed.

(** An empty label, and an empty superscript. *)
Example C29_empty_case :
  let a := mkElement "Article" [("Num", "1")]
             [NElement (mkElement "ArticleTitle" [] []);
              NElement (mkElement "Paragraph" [("Num", "1")] [NElement (mkElement "ParagraphNum" [] []);
                NElement (mkElement "ParagraphSentence" [] [NElement (mkElement "Sentence" [] [NText "t"])])])] in
  let e := mkElement "SupplProvision" [] [NElement (mkElement "SupplProvisionLabel" [] []); NElement a] in
  let e' := mkElement "SupplProvision" [] [NElement a] in
  sim e e' /\ (exists v, parse KSuppl e = Ok v) /\ sim (mkElement "Sup" [] []) (mkElement "Sup" [] [NText ""]).
Proof.
  cbv zeta. split; [|split].
  - apply sim_label; [reflexivity|]. cbn. constructor; [|constructor]. constructor. apply sim_refl.
  - eexists; vm_compute; reflexivity.
  - apply sim_empty; reflexivity.
Qed.

(** Indentation, a comment and a different order of attributes. *)
Example C29_case :
  let t := mkElement "Sentence" [] [NText " text "] in
  let e := mkElement "Paragraph" [("Num", "1"); ("Hide", "true")]
             [NElement (mkElement "ParagraphNum" [] []);
              NElement (mkElement "ParagraphSentence" [] [NElement t])] in
  let e' := mkElement "Paragraph" [("Hide", "true"); ("Num", "1")]
             [NText "
  "; NElement (mkElement "ParagraphNum" [] []); NOther "comment";
              NElement (mkElement "ParagraphSentence" [] [NText "   "; NElement t; NText "
  "])] in
  sim e e' /\ exists v, parse KParagraph e = Ok v.
Proof.
  cbv zeta. split; [|eexists; vm_compute; reflexivity].
  assert (S : forall n a, sim (mkElement n a []) (mkElement n a [])).
  { intros. constructor; [reflexivity|constructor|reflexivity]. }
  constructor.
  - intros x. cbn [assoc]. destruct (String.eqb_spec x "Num") as [->|]; [reflexivity|].
    destruct (String.eqb x "Hide"); reflexivity.
  - cbn. constructor; [constructor; apply S|]. constructor; [|constructor].
    constructor. constructor; [reflexivity| |reflexivity].
    cbn. constructor; [|constructor]. constructor. constructor; [reflexivity| |reflexivity].
    cbn. repeat constructor.
  - reflexivity.
Qed.

(** C30.  Only the attribute values looked up by name matter. *)
Theorem C30_attributes : forall n a a' c,
  (forall x, assoc x a = assoc x a') ->
  parse_law (mkElement n a c) = parse_law (mkElement n a' c) /\
  forall k, well_tagged k (mkElement n a c) ->
    parse k (mkElement n a c) = parse k (mkElement n a' c).
Proof. exact attributes_sim. Qed.
Print Assumptions C30_attributes.

Example C30_case : forall x,
  assoc x [("Num", "1"); ("Delete", "true"); ("Num", "2")] = assoc x [("Delete", "true"); ("Num", "1")].
Proof.
  intros x. cbn [assoc]. destruct (String.eqb_spec x "Num") as [->|]; [reflexivity|].
  destruct (String.eqb x "Delete"); reflexivity.
Qed.
