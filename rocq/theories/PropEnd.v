(** Properties C80 and C81: how every reading ends, and that what follows a fault does not matter. *)
From Coq Require Import String Ascii List NArith Bool.
From Verif Require Import Base NumStr NumStrSpec BaseFacts NumStrFacts Xml Ast XmlParse XmlSpec GrammarSpec ErrorSpec ReadingSpec
  EndSpec EndFacts EndFacts2 EndFacts3.
Import ListNotations.
Open Scope string_scope.
Open Scope list_scope.

(** C80.  A document is refused with an error exactly if the first of the checks of [law_rules] that
    it does not pass fails with that error; and it is read, or there is a panic, exactly if the
    checks say so. *)
Theorem C80_law_error : forall e er, parse_law e = Err er <-> ends law_rules e (Fault er).
Proof. intros e er. rewrite parse_law_ends_iff. symmetry. apply eo_fault. Qed.
Print Assumptions C80_law_error.
Theorem C80_law_value : forall e, (exists l, parse_law e = Ok l) <-> ends law_rules e Fine.
Proof. intros e. rewrite parse_law_ends_iff. symmetry. apply eo_fine. Qed.
Print Assumptions C80_law_value.
Theorem C80_law_panic : forall e, parse_law e = Panic <-> ends law_rules e Crash.
Proof. intros e. rewrite parse_law_ends_iff. symmetry. apply eo_crash. Qed.
Print Assumptions C80_law_panic.

(** The same for the reader of every other type. *)
Theorem C80_error : forall k e er, k <> KVoid -> tagged k e ->
  (parse k e = Err er <-> ends (rules k) e (Fault er)).
Proof. intros k e er Hk Ht. rewrite parse_ends_iff by assumption. symmetry. apply eo_fault. Qed.
Print Assumptions C80_error.
Theorem C80_value : forall k e, k <> KVoid -> tagged k e ->
  ((exists v, parse k e = Ok v) <-> ends (rules k) e Fine).
Proof. intros k e Hk Ht. rewrite parse_ends_iff by assumption. symmetry. apply eo_fine. Qed.
Print Assumptions C80_value.
Theorem C80_panic : forall k e, k <> KVoid -> tagged k e ->
  (parse k e = Panic <-> ends (rules k) e Crash).
Proof. intros k e Hk Ht. rewrite parse_ends_iff by assumption. symmetry. apply eo_crash. Qed.
Print Assumptions C80_panic.

(** Going through any checks ends in at most one way. *)
Theorem C80_one_ending : forall l e v w, ends l e v -> ends l e w -> v = w.
Proof. exact ends_det. Qed.
Print Assumptions C80_one_ending.

(** The elements that are dropped from text and from structures, in terms of the checks. *)
Theorem C80_refused : forall k c, k <> KVoid -> tagged k c ->
  (refused k c <-> exists er, ends (rules k) c (Fault er)).
Proof.
  intros k c Hk Ht. unfold refused. split; intros [er H]; exists er; apply C80_error; assumption.
Qed.
Print Assumptions C80_refused.

(** A paragraph with three faults: a number whose second piece is not an integer, an illegal flag
    and an unknown child. *)
Definition x_el (n : string) (a : list (string * string)) (l : list Element) : Element :=
  mkElement n a (map NElement l).
Definition x_three : Element :=
  x_el "Paragraph" [("Num", "2_x:y"); ("Hide", "yes")] [mkElement "b" [] []].
Example C80_three : ends (rules KParagraph) x_three (Fault (ParsingError "usize" "x")).
Proof. apply C80_error; [discriminate|exact I|]. vm_compute. reflexivity. Qed.
(** The same from the rules. *)
Example C80_three_direct : ends (rules KParagraph) x_three (Fault (ParsingError "usize" "x")).
Proof.
  cbn [rules]. unfold numbered, is_tag. cbn [app].
  apply ends_pass; [apply pass_alone; left; split; reflexivity|].
  apply ends_pass; [apply pass_alone; left; split; [discriminate|reflexivity]|].
  apply ends_stop; [|discriminate]. apply pass_alone. cbn. right. exists "x". split; [reflexivity|].
  exists "2_", ":y". split; [reflexivity|]. split; [|split; [|split]].
  - right. left. exists "2", [2%N]. split; [|left; reflexivity]. apply nums_one, parse_usize_spec. reflexivity.
  - right. exists ":"%char, "y". split; [right; reflexivity|reflexivity].
  - intros c [-> | ->] [H|[]]; discriminate.
  - intros n H. apply parse_usize_spec in H. discriminate.
Qed.

(** With a legal number the flag is reported, and with a legal flag the child. *)
Example C80_two : ends (rules KParagraph) (x_el "Paragraph" [("Num", "2_3:4"); ("Hide", "yes")] [mkElement "b" [] []])
  (Fault (AttributeParseError "Paragraph" "Hide")).
Proof. apply C80_error; [discriminate|exact I|]. vm_compute. reflexivity. Qed.
Example C80_one : ends (rules KParagraph) (x_el "Paragraph" [("Num", "2_3:4"); ("Hide", "false")] [mkElement "b" [] []])
  (Fault (UnexpectedTag "b" "Paragraph")).
Proof. apply C80_error; [discriminate|exact I|]. vm_compute. reflexivity. Qed.

(** An article without a paragraph; an item whose title has a line without a style, which is left
    out; and an item with two faults below it. *)
Definition x_bodyless : Element := x_el "Article" [("Num", "1")] [mkElement "ArticleTitle" [] [NText "第一条"]].
Example C80_bodyless : ends (rules KArticle) x_bodyless Crash.
Proof. apply C80_panic; [discriminate|exact I|]. vm_compute. reflexivity. Qed.
Definition x_sentences (t : string) : Element := x_el t [] [mkElement "Sentence" [] [NText "文"]].
Definition x_line : Element :=
  x_el "Item" [("Num", "1")] [x_el "ItemTitle" [] [mkElement "Line" [] [NText "線"]]; x_sentences "ItemSentence"].
Example C80_line : ends (rules (KItem Item0)) x_line Fine.
Proof. apply C80_value; [discriminate|exact I|]. eexists. vm_compute. reflexivity. Qed.
Example C80_line_refused : refused KLine (mkElement "Line" [] [NText "線"]).
Proof.
  apply C80_refused; [discriminate|exact I|]. exists (AttributeParseError "Line" "Style").
  apply ends_pass; [apply pass_alone; left; split; reflexivity|]. apply ends_stop; [|discriminate].
  apply pass_alone. right. split; [|reflexivity]. intros (s & H & _). discriminate.
Qed.
Definition x_item : Element :=
  x_el "Item" [("Num", "1")]
    [x_sentences "ItemSentence"; x_el "Subitem1" [("Num", "1")] []; mkElement "b" [] []].
Example C80_item : ends (rules (KItem Item0)) x_item (Fault (MissingRequiredTag "Sentence or Column or Table")).
Proof. apply C80_error; [discriminate|exact I|]. vm_compute. reflexivity. Qed.

(** A law whose month and language are wrong. *)
Definition x_law : Element :=
  x_el "Law" [("Era", "Heisei"); ("Year", "3"); ("Num", ""); ("PromulgateMonth", "may"); ("LawType", "Act"); ("Lang", "fr")]
    [mkElement "LawNum" [] []; x_el "LawBody" [] [x_el "MainProvision" [] []]].
Example C80_law : ends law_rules x_law (Fault (ParsingError "usize" "may")).
Proof. apply C80_law_error. vm_compute. reflexivity. Qed.
Definition x_good : Element :=
  x_el "Law" [("Era", "Heisei"); ("Year", "3"); ("Num", ""); ("PromulgateMonth", ""); ("LawType", "Act"); ("Lang", "ja")]
    [mkElement "LawNum" [] []; x_el "LawBody" [] [x_el "MainProvision" [] []]].
Example C80_good : ends law_rules x_good Fine.
Proof. apply C80_law_value. eexists. vm_compute. reflexivity. Qed.
Definition x_numberless : Element :=
  x_el "Law" [("Era", "Heisei"); ("Year", "3"); ("LawType", "Act"); ("Lang", "fr")] [].
Example C80_numberless : ends law_rules x_numberless Crash.
Proof. apply C80_law_panic. vm_compute. reflexivity. Qed.

(** C81.  An error other than that of a missing tag stays the same whatever nodes are put after the
    children of the element. *)
Theorem C81_law_error_stays : forall e l er, parse_law e = Err er -> (forall u, er <> MissingRequiredTag u) ->
  parse_law (extended e l) = Err er.
Proof. exact parse_law_extended. Qed.
Print Assumptions C81_law_error_stays.
Theorem C81_error_stays : forall k e l er, k <> KVoid -> tagged k e -> children e <> [] ->
  parse k e = Err er -> (forall u, er <> MissingRequiredTag u) ->
  parse k (extended e l) = Err er.
Proof. exact parse_extended. Qed.
Print Assumptions C81_error_stays.

(** Of a missing tag this cannot be said, nor of a panic, nor of a list that is empty. *)
Theorem C81_missing_refuted : exists k e l er, k <> KVoid /\ tagged k e /\ children e <> [] /\
  parse k e = Err er /\ exists v, parse k (extended e l) = Ok v.
Proof.
  exists (KItem Item0), (x_el "Item" [("Num", "1")] [mkElement "ItemTitle" [] []]), [NElement (x_sentences "ItemSentence")],
    (MissingRequiredTag "Sentence or Column or Table").
  split; [discriminate|]. split; [exact I|]. split; [discriminate|]. split; [vm_compute; reflexivity|].
  eexists. vm_compute. reflexivity.
Qed.
Print Assumptions C81_missing_refuted.
Theorem C81_panic_refuted : exists k e l, k <> KVoid /\ tagged k e /\
  parse k e = Panic /\ exists v, parse k (extended e l) = Ok v.
Proof.
  exists KArticle, x_bodyless, [NElement (x_el "Paragraph" [("Num", "1")] [])].
  split; [discriminate|]. split; [exact I|]. split; [vm_compute; reflexivity|]. eexists. vm_compute. reflexivity.
Qed.
Print Assumptions C81_panic_refuted.
Theorem C81_empty_refuted : exists k e l er, k <> KVoid /\ tagged k e /\ (forall u, er <> MissingRequiredTag u) /\
  parse k e = Err er /\ exists v, parse k (extended e l) = Ok v.
Proof.
  exists (KList List0), (mkElement "List" [] []), [NElement (x_sentences "ListSentence")], (WrongTagName "List" "LiseSentence").
  split; [discriminate|]. split; [exact I|]. split; [discriminate|]. split; [vm_compute; reflexivity|].
  eexists. vm_compute. reflexivity.
Qed.
Print Assumptions C81_empty_refuted.

Example C81_three : parse KParagraph (extended x_three [NElement x_item; NText "文"]) = Err (ParsingError "usize" "x").
Proof.
  apply C81_error_stays; [discriminate|exact I|discriminate|vm_compute; reflexivity|discriminate].
Qed.
Example C81_law : parse_law (extended x_law [NText "文"]) = Err (ParsingError "usize" "may").
Proof. apply C81_law_error_stays; [vm_compute; reflexivity|discriminate]. Qed.
