(** Exact rules: tables of contents, appended matter, the body of a law. *)
From Coq Require Import String List Arith NArith Bool Lia.
From Verif Require Import Base NumStr NumStrSpec BaseFacts NumStrFacts Xml Ast XmlWrite XmlParse XmlSim
  KnotFacts GrammarSpec GrammarFacts ReadSpec ReadFacts ReadingSpec ReadingLib ReadingFacts.
Import ListNotations.
Open Scope string_scope.
Open Scope list_scope.

Lemma suppl_appdx_rule : forall e f, parse_suppl_appdx parse e = Ok f <-> reading KSupplAppdx e f.
Proof. apply exact_from; unfold parse_suppl_appdx; [forward|accepts rel_fun|unique rel_fun]. Qed.
Lemma appdx_rule : forall e f, parse_appdx parse e = Ok f <-> reading KAppdx e f.
Proof. apply exact_from; unfold parse_appdx; [forward|accepts rel_fun|unique rel_fun]. Qed.
Lemma appdx_fig_rule : forall e f, parse_appdx_fig parse e = Ok f <-> reading KAppdxFig e f.
Proof. apply exact_from; unfold parse_appdx_fig; [forward|accepts rel_fun|unique rel_fun]. Qed.

Lemma toc_rule : forall e f, parse_toc parse e = Ok f <-> reading KTOC e f.
Proof. apply exact_from; unfold parse_toc; [forward|accepts rel_fun|unique rel_fun]. Qed.
Lemma toc_suppl_rule : forall e f, parse_toc_suppl parse e = Ok f <-> reading KTOCSuppl e f.
Proof. apply exact_from; unfold parse_toc_suppl; [forward|accepts rel_fun|unique rel_fun]. Qed.
Lemma toc_article_rule : forall e f, parse_toc_article parse e = Ok f <-> reading KTOCArticle e f.
Proof. apply exact_from; unfold parse_toc_article; [forward|accepts rel_fun|unique rel_fun]. Qed.
Lemma toc_part_rule : forall e f, parse_toc_head parse "TOCPart" "PartTitle" (toc_part_rows parse) e = Ok f <-> reading KTOCPart e f.
Proof. apply exact_from; unfold parse_toc_head, toc_part_rows; [forward|accepts rel_fun|unique rel_fun]. Qed.
Lemma toc_chapter_rule : forall e f, parse_toc_head parse "TOCChapter" "ChapterTitle" (toc_chapter_rows parse) e = Ok f <-> reading KTOCChapter e f.
Proof. apply exact_from; unfold parse_toc_head, toc_chapter_rows; [forward|accepts rel_fun|unique rel_fun]. Qed.
Lemma toc_section_rule : forall e f, parse_toc_head parse "TOCSection" "SectionTitle" (toc_section_rows parse) e = Ok f <-> reading KTOCSection e f.
Proof. apply exact_from; unfold parse_toc_head, toc_section_rows; [forward|accepts rel_fun|unique rel_fun]. Qed.
Lemma toc_subsection_rule : forall e f, parse_toc_head parse "TOCSubsection" "SubsectionTitle" (toc_subsection_rows parse) e = Ok f <-> reading KTOCSubsection e f.
Proof. apply exact_from; unfold parse_toc_head, toc_subsection_rows; [forward|accepts rel_fun|unique rel_fun]. Qed.
Lemma toc_division_rule : forall e f, parse_toc_head parse "TOCDivision" "DivisionTitle" [] e = Ok f <-> reading KTOCDivision e f.
Proof. apply exact_from; unfold parse_toc_head; [forward|accepts rel_fun|unique rel_fun]. Qed.
Lemma law_body_rule : forall e f, parse_law_body parse e = Ok f <-> reading KLawBody e f.
Proof. apply exact_from; unfold parse_law_body, law_body_table; [forward|accepts rel_fun|unique rel_fun]. Qed.
