(** Exact rules: the other kinds whose children are collected by tag. *)
From Coq Require Import String List Arith NArith Bool Lia.
From Verif Require Import Base NumStr NumStrSpec BaseFacts NumStrFacts Xml Ast XmlWrite XmlParse XmlSim
  KnotFacts GrammarSpec GrammarFacts ReadSpec ReadFacts ReadingSpec ReadingLib ReadingFacts.
Import ListNotations.
Open Scope string_scope.
Open Scope list_scope.

Lemma appdx_table_rule : forall e f, parse_appdx_t parse "AppdxTable" (appdx_table_rows parse) e = Ok f <-> reading KAppdxTable e f.
Proof. apply exact_from; unfold parse_appdx_t, appdx_table_rows; [forward|accepts rel_fun|unique rel_fun]. Qed.
Lemma appdx_note_rule : forall e f, parse_appdx_t parse "AppdxNote" (appdx_note_rows parse) e = Ok f <-> reading KAppdxNote e f.
Proof. apply exact_from; unfold parse_appdx_t, appdx_note_rows; [forward|accepts rel_fun|unique rel_fun]. Qed.
Lemma appdx_style_rule : forall e f, parse_appdx_t parse "AppdxStyle" (appdx_style_rows parse) e = Ok f <-> reading KAppdxStyle e f.
Proof. apply exact_from; unfold parse_appdx_t, appdx_style_rows; [forward|accepts rel_fun|unique rel_fun]. Qed.
Lemma appdx_format_rule : forall e f, parse_appdx_t parse "AppdxFormat" (appdx_format_rows parse) e = Ok f <-> reading KAppdxFormat e f.
Proof. apply exact_from; unfold parse_appdx_t, appdx_format_rows; [forward|accepts rel_fun|unique rel_fun]. Qed.
Lemma suppl_style_rule : forall e f, parse_suppl_style parse e = Ok f <-> reading KSupplStyle e f.
Proof. apply exact_from; unfold parse_suppl_style, parse_suppl_ts; [forward|accepts rel_fun|unique rel_fun]. Qed.
Lemma suppl_rule : forall e f, parse_suppl parse e = Ok f <-> reading KSuppl e f.
Proof. apply exact_from; unfold parse_suppl, suppl_table; [forward|accepts rel_fun|unique rel_fun]. Qed.
Lemma remarks_rule : forall e f, parse_remarks parse e = Ok f <-> reading KRemarks e f.
Proof. apply exact_from; unfold parse_remarks; [forward|accepts rel_fun|unique rel_fun]. Qed.
Lemma suppl_table_rule : forall e f, parse_suppl_table parse e = Ok f <-> reading KSupplTable e f.
Proof. apply exact_from; unfold parse_suppl_table, parse_suppl_ts; [forward|accepts rel_fun|unique rel_fun]. Qed.
Lemma table_rule : forall e f, parse_table parse e = Ok f <-> reading KTable e f.
Proof. apply exact_from; unfold parse_table; [forward|accepts rel_fun|unique rel_fun]. Qed.
Lemma table_row_rule : forall e f, parse_table_row parse e = Ok f <-> reading KTableRow e f.
Proof.
  intros e f. unfold parse_table_row. cbn [reading]. rewrite with_name_iff, (skip_run0_iff _ _ _ (reads KTableColumn)); reflexivity.
Qed.
Lemma preamble_rule : forall e f, parse_preamble parse e = Ok f <-> reading KPreamble e f.
Proof.
  intros e f. unfold parse_preamble. cbn [reading]. rewrite with_name_iff, (skip_run0_iff _ _ _ (reads KParagraph)); reflexivity.
Qed.
