(** Property C71: a law file that is read, written and read again. *)
From Coq Require Import String Ascii List Arith NArith Bool Lia.
From Verif Require Import Base NumStr NumStrFacts Xml Ast XmlWrite XmlParse XmlSpec GrammarSpec PlainSpec PlainCheck KeptFacts RoundTripSpec
  Api TidySpec ApiSpec ApiFacts SampleXml SampleFacts NeatSpec NeatFacts PropStable.
Import ListNotations.
Open Scope string_scope.
Open Scope list_scope.

(** C71.  What is read of a neat document is tidy: no two pieces of text side by side, none of blanks only. *)
Theorem C71_neat_tidy : forall e k v, neat_document e -> tagged k e -> parse k e = Ok v -> tidy k v = v.
Proof. exact neat_tidy. Qed.
Print Assumptions C71_neat_tidy.

Theorem C71_neat_law_tidy : forall e l, neat_document e -> parse_law e = Ok l -> tidy_law l = l.
Proof. exact neat_law_tidy. Qed.
Print Assumptions C71_neat_law_tidy.

(** A law read from the text of a plain and neat document is written as a text that is read as the same law. *)
Theorem C71_same_law : forall x s e l, xml_read x s = Some e -> parse_xml x s = Ok l ->
  plain_document e -> plain_law_num e -> neat_document e -> keeps x (write_law l) ->
  exists s', to_xml x l = Ok s' /\ parse_xml x s' = Ok l.
Proof. exact neat_text. Qed.
Print Assumptions C71_same_law.

(** From a plain document that is not neat, it is read as its tidy form. *)
Theorem C71_tidy_law : forall x s e l, xml_read x s = Some e -> parse_xml x s = Ok l ->
  plain_document e -> plain_law_num e -> keeps x (write_law l) ->
  exists s', to_xml x l = Ok s' /\ parse_xml x s' = Ok (tidy_law l).
Proof. exact plain_tidy_text. Qed.
Print Assumptions C71_tidy_law.

(** A law file, indented in another way than it is written: attributes in another order, a ruby in the sentence,
    a superscript in the title. *)
Definition n_text : string :=
"<?xml version=""1.0"" encoding=""UTF-8""?>
<Law Num=""12"" Lang=""ja"" Era=""Reiwa"" LawType=""Act"" Year=""3""><LawNum>令和三年法律第十二号</LawNum><LawBody>
 <MainProvision><Article Num=""1_2""><ArticleTitle>第一条の二<Sup>注</Sup></ArticleTitle>
  <Paragraph Num=""1""><ParagraphNum />
   <ParagraphSentence><Sentence>これを<Ruby>附<Rt>ふ</Rt></Ruby>す。</Sentence></ParagraphSentence>
   <Item Num=""1""><ItemTitle>一</ItemTitle><ItemSentence><Sentence>Ａ&lt;Ｂ</Sentence></ItemSentence></Item>
  </Paragraph></Article></MainProvision></LawBody></Law>".
Example C71_case : exists e l, xml_read sample_xml n_text = Some e /\ parse_xml sample_xml n_text = Ok l /\
  plain_document e /\ plain_law_num e /\ neat_document e /\
  to_xml sample_xml l <> Ok n_text /\ bind (to_xml sample_xml l) (parse_xml sample_xml) = Ok l.
Proof.
  eexists. eexists. split; [vm_compute; reflexivity|]. split; [vm_compute; reflexivity|].
  split; [apply plain_b_ok; vm_compute; reflexivity|]. split.
  - intros s Hs. injection Hs as <-. split; [discriminate|]. intros b ed r H. apply NumStrFacts.from_num_str_C03 in H.
    vm_compute in H. injection H as _ _ <-. left. reflexivity.
  - split; [apply neat_b_ok; vm_compute; reflexivity|]. split; [vm_compute; discriminate|vm_compute; reflexivity].
Qed.

(** Each condition is needed: a comment inside a text, an element that is passed over in a title, a line of
    unknown style, a piece of blanks. *)
Example C71_needed_case :
  (exists v, parse KSentence (mkElement "Sentence" [] [NText "a"; NOther "c"; NText "b"]) = Ok v /\ tidy _ v <> v) /\
  (exists v, parse KLawTitle (mkElement "LawTitle" [] [NText "a"; NElement (mkElement "B" [] []); NText "b"]) = Ok v /\ tidy _ v <> v) /\
  (exists v, parse KLawTitle (mkElement "LawTitle" [] [NText "a"; NElement (mkElement "Line" [("Style", "x")] []); NText "b"]) = Ok v /\
     tidy _ v <> v) /\
  (exists v, parse KSentence (mkElement "Sentence" [] [NText " "; NElement (d_text "Sub" "1")]) = Ok v /\ tidy _ v <> v).
Proof. repeat split; (eexists; split; [vm_compute; reflexivity|vm_compute; discriminate]). Qed.
