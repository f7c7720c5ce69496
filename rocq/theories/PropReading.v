(** Property C63: every element is read to exactly what the rules say. *)
From Coq Require Import String List NArith Bool.
From Verif Require Import Base NumStr NumStrSpec Xml Ast XmlParse XmlSpec KnotFacts GrammarSpec ReadSpec PanicFacts ReadingSpec
  ReadingExact.
Import ListNotations.
Open Scope string_scope.
Open Scope list_scope.

(** C63.  The reader returns a value if and only if the rules give it. *)
Theorem C63_law_exact : forall e l, parse_law e = Ok l <-> law_reading e l.
Proof. exact law_exact. Qed.
Print Assumptions C63_law_exact.

Theorem C63_exact : forall k e v, tagged k e -> parse k e = Ok v <-> read_by_rules k e v.
Proof. exact read_exact. Qed.
Print Assumptions C63_exact.

(** The readers satisfy the rules, and nothing else does. *)
Theorem C63_rules : follows_rules (fun k e v => parse k e = Ok v).
Proof. exact parse_follows. Qed.
Print Assumptions C63_rules.

Theorem C63_unique : forall R S, follows_rules R -> follows_rules S ->
  forall e k v, tagged k e -> R k e v <-> S k e v.
Proof. exact rules_unique. Qed.
Print Assumptions C63_unique.

(** Without an article that makes the reader panic, what the rules give no value to is an error. *)
Theorem C63_refused : forall k e, k <> KVoid -> tagged k e -> ~ (exists a, inside a e /\ bodyless a) ->
  refused k e <-> forall v, ~ read_by_rules k e v.
Proof. exact refused_exact. Qed.
Print Assumptions C63_refused.

Theorem C63_law_refused : forall e, get e "Num" <> None -> ~ (exists a, inside a e /\ bodyless a) ->
  (exists er, parse_law e = Err er) <-> forall l, ~ law_reading e l.
Proof. exact law_refused_exact. Qed.
Print Assumptions C63_law_refused.

(** The rules at work, without the reader: a ruby with two pieces of text, a comment and two
    readings, of which the last counts. *)
Definition r_text (n t : string) : Element := mkElement n [] [NText t].
Definition r_ruby : Element :=
  mkElement "Ruby" [("x", "y")]
    [NText "附"; NElement (r_text "Rt" "つ"); NOther "comment"; NElement (r_text "Rt" "ふ"); NText "則"].
Example C63_ruby_case : read_by_rules KRuby r_ruby (mk KRuby (mkRubyF [TE_Text "附"; TE_Text "則"] "ふ")).
Proof.
  exists 1. cbn [reads_in reading]. rewrite un_mk. split; [reflexivity|]. split; [reflexivity|].
  exists ["つ"; "ふ"]. split; [repeat constructor|reflexivity].
Qed.

(** A paragraph with a caption, sentences in two elements, an item and a list. *)
Definition r_paragraph : Element :=
  mkElement "Paragraph" [("Num", "3_2"); ("Hide", "true")]
    [NElement (mkElement "ParagraphCaption" [("CommonCaption", "false")] [NText "（定義）"]);
     NElement (r_text "ParagraphNum" "３の２");
     NElement (mkElement "ParagraphSentence" [] [NElement (mkElement "Sentence" [("Function", "main")]
       [NText "この"; NElement r_ruby; NElement (r_text "Sup" "2")])]);
     NElement (mkElement "Item" [("Num", "1")] [NElement (r_text "ItemTitle" "一");
       NElement (mkElement "ItemSentence" [] [NElement (r_text "Sentence" "甲")])]);
     NText " ";
     NElement (mkElement "ParagraphSentence" [] [NElement (r_text "Sentence" "ただし。")]);
     NElement (mkElement "List" [] [NElement (mkElement "ListSentence" [] [NElement (r_text "Sentence" "表")])])].
Example C63_case : exists v, parse KParagraph r_paragraph = Ok v /\ read_by_rules KParagraph r_paragraph v /\
  reading (fun k e v => parse k e = Ok v) KParagraph r_paragraph (un KParagraph v) /\
  length (par_sentence (un KParagraph v)) = 2 /\ length (par_children (un KParagraph v)) = 1 /\
  length (par_struct_list (un KParagraph v)) = 1.
Proof.
  assert (H : exists v, parse KParagraph r_paragraph = Ok v /\ length (par_sentence (un KParagraph v)) = 2 /\
    length (par_children (un KParagraph v)) = 1 /\ length (par_struct_list (un KParagraph v)) = 1).
  { eexists. split; [vm_compute; reflexivity|vm_compute; repeat split; reflexivity]. }
  destruct H as (v & H & Hv). exists v. split; [exact H|]. split; [apply C63_exact; [exact I|exact H]|].
  split; [apply C63_rules; [exact I|exact H]|exact Hv].
Qed.

(** A sentence with an unknown function is refused, and the rules indeed give it no value. *)
Definition r_bad : Element := mkElement "Sentence" [("Function", "other")] [NText "甲"].
Example C63_refused_case : refused KSentence r_bad /\ (forall v, ~ read_by_rules KSentence r_bad v) /\
  ~ (exists a, inside a r_bad /\ bodyless a).
Proof.
  assert (Hb : ~ (exists a, inside a r_bad /\ bodyless a)).
  { intros [a [H [Hn _]]]. inversion H; subst; [discriminate Hn|].
    match goal with X : In _ _ |- _ => destruct X as [X|[]]; discriminate X end. }
  assert (Hr : refused KSentence r_bad) by (eexists; vm_compute; reflexivity).
  split; [exact Hr|]. split; [|exact Hb]. apply (C63_refused KSentence r_bad ltac:(discriminate) I Hb), Hr.
Qed.

(** A law. *)
Definition r_law : Element :=
  mkElement "Law" [("Era", "Showa"); ("Year", "22"); ("Num", "67_2"); ("PromulgateDay", ""); ("LawType", "Act"); ("Lang", "ja")]
    [NElement (r_text "LawNum" "昭和二十二年法律第六十七号の二");
     NElement (mkElement "LawBody" [("Subject", "例")] [NElement (mkElement "MainProvision" [] [NElement r_paragraph])])].
Example C63_law_case : exists l, parse_law r_law = Ok l /\ law_reading r_law l /\
  law_year l = 22%N /\ law_no l = Some (mkAN 67 [2] [])%N /\ law_promulgate_day l = None.
Proof.
  assert (H : exists l, parse_law r_law = Ok l /\ law_year l = 22%N /\ law_no l = Some (mkAN 67 [2] [])%N /\ law_promulgate_day l = None).
  { eexists. split; [vm_compute; reflexivity|repeat split; reflexivity]. }
  destruct H as (l & H & Hl). exists l. split; [exact H|]. split; [apply C63_law_exact, H|exact Hl].
Qed.

(** A law without a type: nothing is read. *)
Definition r_untyped : Element := mkElement "Law" [("Era", "Showa"); ("Year", "22"); ("Num", "67"); ("Lang", "ja")] [].
Example C63_law_refused_case : (exists er, parse_law r_untyped = Err er) /\ (forall l, ~ law_reading r_untyped l).
Proof.
  assert (Hb : ~ (exists a, inside a r_untyped /\ bodyless a)).
  { intros [a [H [Hn _]]]. inversion H; subst; [discriminate Hn|]. match goal with X : In _ _ |- _ => destruct X end. }
  assert (Hr : exists er, parse_law r_untyped = Err er) by (eexists; vm_compute; reflexivity).
  split; [exact Hr|]. apply (C63_law_refused r_untyped ltac:(discriminate) Hb), Hr.
Qed.
