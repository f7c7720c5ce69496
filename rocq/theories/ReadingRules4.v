(** Exact rules: paragraphs and amendments. *)
From Coq Require Import String List Arith NArith Bool Lia.
From Verif Require Import Base NumStr NumStrSpec BaseFacts NumStrFacts Xml Ast XmlWrite XmlParse XmlSim
  KnotFacts GrammarSpec GrammarFacts ReadSpec ReadFacts ReadingSpec ReadingLib ReadingFacts.
Import ListNotations.
Open Scope string_scope.
Open Scope list_scope.

(** ** Paragraphs *)
Ltac conv H ::=
  first [ exact H | apply text_of_iff, H | apply caption_iff, H | apply amend_sentence_iff, H
        | apply parse_all_iff, H ].
Ltac back Hx ::=
  first [ exact Hx | apply text_of_iff, Hx | apply caption_iff, Hx | apply amend_sentence_iff, Hx
        | apply parse_all_iff, Hx ].
Lemma paragraph_rule : forall e f, parse_paragraph parse e = Ok f <-> reading KParagraph e f.
Proof. apply exact_from; unfold parse_paragraph, paragraph_table, struct_rows; cbn [app]; [forward|accepts rel_fun|unique rel_fun]. Qed.

(** ** Amendments *)
Lemma new_provision_accept : forall e c x, new_provision_reads c x ->
  exists u, lookup (reject e) (new_provision_table parse) c = Ok u /\ u [] = [x].
Proof.
  intros e. unfold new_provision_table, item_rows, all_lvls. cbn [map app item_tag]. choice_accept.
Qed.
Lemma new_provision_fun : functional new_provision_reads.
Proof. eapply accepted_fun. apply (new_provision_accept (mkElement "" [] [])). Qed.
Lemma new_provisions_iff : forall e l vs,
  run no_text (reject e) (new_provision_table parse) l [] = Ok vs <-> Forall2 new_provision_reads (elements l) vs.
Proof.
  intros e. apply run_elements_iff; [|apply new_provision_accept].
  unfold new_provision_table, item_rows, all_lvls. cbn [map app item_tag]. choice_rows.
Qed.
Ltac conv H ::= first [ exact H | apply amend_sentence_iff, H | eapply new_provisions_iff, H ].
Ltac back Hx ::= first [ exact Hx | apply amend_sentence_iff, Hx | apply new_provisions_iff, Hx ].
Ltac rel4 := first [apply new_provision_fun | rel_fun].
Lemma amend_rule : forall e f, parse_amend parse e = Ok f <-> reading KAmend e f.
Proof. apply exact_from; unfold parse_amend; [forward|accepts rel4|unique rel4]. Qed.
