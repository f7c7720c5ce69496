(** Property C75: the message of an error says which error it is. *)
From Coq Require Import String Ascii List Bool.
From Verif Require Import Base Xml XmlSpec Ast XmlParse ErrorSpec GrammarSpec ErrorFacts ErrorFacts2 ErrorText ErrorTextSpec ErrorTextFacts Api PropError.
Import ListNotations.
Open Scope string_scope.
Open Scope list_scope.

(** C75.  Two errors with the same message are the same error, if the name that is mentioned first is
    without a space. *)
Theorem C75_message : forall e e', sharp e -> sharp e' -> message e = message e' -> e = e'.
Proof. exact message_sharp. Qed.
Print Assumptions C75_message.

(** The errors for a document are of this sort, as no tag of an XML document has a space. *)
Theorem C75_law : forall e e' er er', spaceless_tags e -> spaceless_tags e' ->
  parse_law e = Err er -> parse_law e' = Err er' -> message er = message er' -> er = er'.
Proof.
  intros e e' er er' S S' H H'. apply message_sharp.
  - exact (law_error_sharp e er S H).
  - exact (law_error_sharp e' er' S' H').
Qed.
Print Assumptions C75_law.

(** The same for the reader of every other type. *)
Theorem C75_readers : forall k k' e e' er er', k <> KVoid -> k' <> KVoid -> tagged k e -> tagged k' e' ->
  spaceless_tags e -> spaceless_tags e' ->
  parse k e = Err er -> parse k' e' = Err er' -> message er = message er' -> er = er'.
Proof.
  intros k k' e e' er er' N N' T T' S S' H H'. apply message_sharp.
  - exact (error_sharp k e er N T S H).
  - exact (error_sharp k' e' er' N' T' S' H').
Qed.
Print Assumptions C75_readers.

(** From XML text: the three outcomes that are errors have different messages as well. *)
Theorem C75_xml : forall x s s' er er', (forall e, xml_read x s = Some e -> spaceless_tags e) ->
  (forall e, xml_read x s' = Some e -> spaceless_tags e) ->
  parse_xml x s = Err er -> parse_xml x s' = Err er' -> message er = message er' -> er = er'.
Proof.
  assert (Z : forall x s er, (forall e, xml_read x s = Some e -> spaceless_tags e) -> parse_xml x s = Err er -> sharp er).
  { intros x s er S H. unfold parse_xml in H. destruct (xml_read x s) as [e|].
    - exact (law_error_sharp e er (S e eq_refl) H).
    - injection H as <-. intros t E. discriminate E. }
  intros x s s' er er' S S' H H'. exact (message_sharp er er' (Z x s er S H) (Z x s' er' S' H')).
Qed.
Print Assumptions C75_xml.

Example C75_case : spaceless_tags x_number /\ parse KPart x_number = Err (ParsingError "usize" "x") /\
  message (ParsingError "usize" "x") = "usize parsing error: x" /\
  message (UnexpectedTag "b" "Sentence") = "Unexpected b tag at Sentence" /\
  sharp (MissingRequiredTag "Sentence or Column or Table") /\ sharp (UnexpectedTag "Sentence" "Class or Item").
Proof.
  split.
  { intros c H. apply spaceless_check.
    unfold x_number, x_el in H. cbn [map] in H.
    repeat match goal with
    | H : inside _ _ |- _ => inversion H; clear H; subst; [reflexivity|]
    | H : In _ (children _) |- _ => cbn in H
    | H : _ \/ _ |- _ => destruct H
    | H : NElement _ = NElement _ |- _ => injection H as <-
    | H : NText _ = NElement _ |- _ => discriminate H
    | H : False |- _ => destruct H
    end. }
  split; [vm_compute; reflexivity|]. split; [reflexivity|]. split; [reflexivity|].
  split; [intros s E; discriminate E|]. intros s E. injection E as <-. apply spaceless_check. reflexivity.
Qed.

(** The wording. *)
Example C75_words : map message [MissingRequiredAttribute "t" "a"; MissingRequiredTag "t"; AttributeParseError "t" "a";
    WrongTagName "w" "x"; UnexpectedTag "w" "t"; XMLParsing; ParsingError "w" "s"; Io] =
  ["Missing required attribute of a at t tag"; "Missing required tag of t tag"; "Attribure parse error of a at t tag";
   "Tag name is w but expected x"; "Unexpected w tag at t"; "xml parsing error"; "w parsing error: s"; "write error"].
Proof. reflexivity. Qed.

(** Without the condition a message can stand for two errors. *)
Theorem C75_any_refuted : exists e e', e <> e' /\ message e = message e'.
Proof. exists (UnexpectedTag "a tag at b" "c"), (UnexpectedTag "a" "b tag at c"). split; [discriminate|reflexivity]. Qed.
Print Assumptions C75_any_refuted.
