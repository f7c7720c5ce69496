(** Properties C35, C61 and C62: reading, writing and reading again; what is read comes from the document. *)
From Coq Require Import String List NArith Bool.
From Verif Require Import Base NumStr NumStrSpec Xml Ast XmlWrite XmlParse XmlSpec RoundTripSpec GrammarSpec KnotFacts
  PlainSpec PlainCheck PartsFacts KeptFacts Samples.
Import ListNotations.
Open Scope string_scope.
Open Scope list_scope.

(** C35.  If what was read can be written and read again, the result does not change any more. *)
Theorem C35_law_stable : forall e l m, parse_law e = Ok l -> parse_law (write_law l) = Ok m -> parse_law (write_law m) = Ok m.
Proof. exact read_law_stable. Qed.
Print Assumptions C35_law_stable.

Theorem C35_stable : forall k e v w, tagged k e -> parse k e = Ok v -> parse k (write k v) = Ok w -> parse k (write k w) = Ok w.
Proof. exact read_stable. Qed.
Print Assumptions C35_stable.

(** The same for any structure of machine integers, read or not. *)
Theorem C35_written_law_stable : forall l m, item_nums KLawBody (law_body l) ->
  parse_law (write_law l) = Ok m -> parse_law (write_law m) = Ok m.
Proof. exact written_law_stable. Qed.
Print Assumptions C35_written_law_stable.

Theorem C35_written_stable : forall k x v, item_nums k x -> parse k (write k x) = Ok v -> parse k (write k v) = Ok v.
Proof. exact written_stable. Qed.
Print Assumptions C35_written_stable.

(** An amendment with a new provision, and a table cell with an alignment: both are lost in the first round. *)
Definition d_text (n t : string) : Element := mkElement n [] [NText t].
Definition d_amending : Element :=
  mkElement "Law" [("Era", "Reiwa"); ("Year", "3"); ("Num", "12"); ("LawType", "Act"); ("Lang", "ja")]
    [NElement (d_text "LawNum" "令和三年法律第十二号");
     NElement (mkElement "LawBody" [] [NElement (mkElement "MainProvision" [] [NElement
       (mkElement "Paragraph" [("Num", "1")] [NElement (d_text "ParagraphNum" "");
         NElement (mkElement "ParagraphSentence" [] [NElement (d_text "Sentence" "次のように改正する。")]);
         NElement (mkElement "AmendProvision" []
           [NElement (mkElement "AmendProvisionSentence" [] [NElement (d_text "Sentence" "次の一条を加える。")]);
            NElement (mkElement "NewProvision" [] [NElement (d_text "Sentence" "第二条")])])])])])].

Example C35_case : exists l m, parse_law d_amending = Ok l /\ parse_law (write_law l) = Ok m /\ m <> l /\ parse_law (write_law m) = Ok m.
Proof.
  eexists. eexists. split; [vm_compute; reflexivity|]. split; [vm_compute; reflexivity|]. split; [discriminate|vm_compute; reflexivity].
Qed.

(** Being read is needed only for the first round: what was read may well be unreadable once written. *)
Example C35_remarks_case : let e := mkElement "Remarks" [] [NElement (d_text "RemarksLabel" "備考")] in
  exists v, parse KRemarks e = Ok v /\ forall w, parse KRemarks (write KRemarks v) <> Ok w.
Proof. eexists. split; [vm_compute; reflexivity|]. vm_compute. discriminate. Qed.

(** C61.  A document without the markup that the writer drops or changes is read to something that is kept. *)
Theorem C61_plain_law_kept : forall e l, plain_document e -> plain_law_num e -> parse_law e = Ok l -> parse_law (write_law l) = Ok l.
Proof. exact plain_law_roundtrip. Qed.
Print Assumptions C61_plain_law_kept.

Theorem C61_plain_kept : forall k e v, plain_document e -> tagged k e -> parse k e = Ok v -> parse k (write k v) = Ok v.
Proof. exact plain_roundtrip. Qed.
Print Assumptions C61_plain_kept.

(** Attributes in another order, comments, a ruby, a branch number: read, and kept. *)
Definition d_plain : Element :=
  mkElement "Law" [("Num", "12"); ("Lang", "ja"); ("Era", "Reiwa"); ("LawType", "Act"); ("Year", "3")]
    [NElement (d_text "LawNum" "令和三年法律第十二号");
     NElement (mkElement "LawBody" [] [NOther "c"; NElement (mkElement "MainProvision" [] [NText " "; NElement
       (mkElement "Article" [("Num", "1_2")] [NElement (d_text "ArticleTitle" "第一条の二"); NElement
         (mkElement "Paragraph" [("Num", "1"); ("Unknown", "x")] [NElement (d_text "ParagraphNum" "");
           NElement (mkElement "ParagraphSentence" [] [NElement (mkElement "Sentence" [] [NText "これを";
             NElement (mkElement "Ruby" [] [NText "附"; NElement (d_text "Rt" "ふ")]); NText "す。"])]);
           NElement (mkElement "Item" [("Num", "1")] [NElement (d_text "ItemTitle" "一");
             NElement (mkElement "ItemSentence" [] [NElement (d_text "Sentence" "号")])])])])])])].

Example C61_case : exists l, plain_document d_plain /\ plain_law_num d_plain /\ parse_law d_plain = Ok l /\
  write_law l <> d_plain /\ parse_law (write_law l) = Ok l.
Proof.
  eexists. split; [apply plain_b_ok; vm_compute; reflexivity|]. split.
  - intros s Hs. injection Hs as <-. split; [discriminate|]. intros b ed r H. apply NumStrFacts.from_num_str_C03 in H.
    vm_compute in H. injection H as _ _ <-. left. reflexivity.
  - split; [vm_compute; reflexivity|]. split; [vm_compute; discriminate|vm_compute; reflexivity].
Qed.

(** An element of each forbidden sort is not kept, so the conditions cannot be dropped. *)
Example C61_needed_case :
  (exists v, parse KAmend (mkElement "AmendProvision" [] [NElement (mkElement "NewProvision" [] [NElement (d_text "Sentence" "x")])]) = Ok v /\
     parse KAmend (write KAmend v) <> Ok v) /\
  (exists v, parse KTableColumn (mkElement "TableColumn" [("Align", "center")] []) = Ok v /\
     parse KTableColumn (write KTableColumn v) <> Ok v) /\
  (exists v, parse KAppdx (mkElement "Appdx" [] [NElement (d_text "RelatedArticleNum" "x")]) = Ok v /\
     parse KAppdx (write KAppdx v) <> Ok v) /\
  (exists v, parse KTOC (mkElement "TOC" [] [NElement (d_text "TOCPreambleLabel" "x")]) = Ok v /\
     parse KTOC (write KTOC v) <> Ok v) /\
  (exists v, parse KSentence (mkElement "Sentence" [] [NElement (mkElement "ArithFormula" [("Num", "1")] [])]) = Ok v /\
     parse KSentence (write KSentence v) <> Ok v) /\
  (exists v, parse (KItem Item0) (mkElement "Item" [("Num", "x")] [NElement (d_text "ItemTitle" "一");
       NElement (mkElement "ItemSentence" [] [NElement (d_text "Sentence" "号")])]) = Ok v /\
     parse (KItem Item0) (write (KItem Item0) v) <> Ok v) /\
  (exists v, parse KChapter (mkElement "Chapter" [("Num", "1:2")] [NElement (d_text "ChapterTitle" "一")]) = Ok v /\
     parse KChapter (write KChapter v) <> Ok v).
Proof. repeat split; (eexists; split; [vm_compute; reflexivity|vm_compute; discriminate]). Qed.

(** C62.  Nothing is invented: every part of what was read, at any depth, is the reading of an element of the document. *)
Theorem C62_parts_read : forall e k v, tagged k e -> parse k e = Ok v ->
  forall j y, part_of (node j y) (node k v) -> exists c, inside c e /\ tagged j c /\ parse j c = Ok y.
Proof. exact parts_read. Qed.
Print Assumptions C62_parts_read.

Theorem C62_law_parts_read : forall e l, parse_law e = Ok l ->
  forall j y, part_of (node j y) (node KLawBody (law_body l)) -> exists c, inside c e /\ tagged j c /\ parse j c = Ok y.
Proof. exact law_parts_read. Qed.
Print Assumptions C62_law_parts_read.

(** The ruby in the sentence of a paragraph of an article of a law. *)
Example C62_case : exists l, parse_law d_plain = Ok l /\
  part_of (node KRuby (mkRuby (mkRubyF (plain "附") "ふ"))) (node KLawBody (law_body l)).
Proof.
  eexists. split; [vm_compute; reflexivity|]. cbn [law_body].
  do 5 (eapply part_kid; [vm_compute; left; reflexivity|]). constructor.
Qed.
