(** Properties C27, C28 and C31 to C33: when reading panics, which documents are accepted,
    how attributes are read and that the order of the document is kept. *)
From Coq Require Import String List NArith Bool.
From Verif Require Import Base NumStr NumStrSpec Xml Ast XmlWrite XmlParse XmlSpec Samples
  GrammarSpec ReadSpec PanicFacts GrammarFacts ReadFacts.
Import ListNotations.
Open Scope string_scope.
Open Scope list_scope.

(** C27.  Reading panics only if the root has no number or there is an article without
    anything but captions and titles. *)
Theorem C27_law_panic : forall e, parse_law e = Panic ->
  get e "Num" = None \/ exists a, inside a e /\ bodyless a.
Proof. exact parse_law_panic. Qed.
Print Assumptions C27_law_panic.

Theorem C27_panic : forall k e, k <> KVoid -> parse k e = Panic ->
  exists a, inside a e /\ bodyless a.
Proof. exact parse_panic. Qed.
Print Assumptions C27_panic.

(** Such an article is never read. *)
Theorem C27_bodyless_unread : forall e v, bodyless e -> parse KArticle e <> Ok v.
Proof. exact bodyless_unread. Qed.
Print Assumptions C27_bodyless_unread.

Example C27_case :
  let a := mkElement "Article" [("Num", "3")] [NElement (mkElement "ArticleTitle" [] [])] in
  let e := mkElement "MainProvision" [] [NText " "; NElement a] in
  parse KMain e = Panic /\ inside a e /\ bodyless a.
Proof.
  cbv zeta. split; [vm_compute; reflexivity|]. split.
  - eapply inside_below; [right; left; reflexivity|apply inside_here].
  - split; [reflexivity|]. intros c [H|[]]. injection H as <-. right. reflexivity.
Qed.

Example C27_law_case :
  let e := mkElement "Law" [("Era", "Reiwa"); ("Year", "1"); ("LawType", "Act"); ("Lang", "ja")] [] in
  parse_law e = Panic /\ get e "Num" = None /\ ~ exists a, inside a e /\ bodyless a.
Proof.
  cbv zeta. split; [vm_compute; reflexivity|]. split; [reflexivity|].
  intros [a [H [Hn _]]]. inversion H; subst; [discriminate Hn|].
  match goal with X : In _ _ |- _ => destruct X end.
Qed.

(** C28.  What is read follows the document grammar, at every depth. *)
Theorem C28_conforms : forall k e v, k <> KVoid -> tagged k e -> parse k e = Ok v -> conforms e.
Proof. exact parse_conforms. Qed.
Print Assumptions C28_conforms.

Theorem C28_law_conforms : forall e v, parse_law e = Ok v ->
  exists n b rest,
    children e = NElement n :: NElement b :: rest /\ name n = "LawNum" /\ name b = "LawBody" /\
    conforms b.
Proof. exact parse_law_conforms. Qed.
Print Assumptions C28_law_conforms.

(** A child with an unknown tag makes the read fail, wherever it is. *)
Theorem C28_unknown_rejected : forall k e a r c v,
  k <> KVoid -> tagged k e -> reached a e ->
  assoc (name a) grammar = Some r -> In (NElement c) (further r (children a)) ->
  ~ In (name c) (nested r) -> ~ In (name c) (GrammarSpec.plain r) -> parse k e <> Ok v.
Proof. exact unknown_inside. Qed.
Print Assumptions C28_unknown_rejected.

Example C28_case :
  let c := mkElement "Footnote" [] [] in
  let a := mkElement "Chapter" [("Num", "1")]
             [NElement (mkElement "ChapterTitle" [] []); NElement c] in
  let e := mkElement "MainProvision" [] [NElement a] in
  reached a e /\ exists r, assoc (name a) grammar = Some r /\
    In (NElement c) (further r (children a)) /\ ~ In (name c) (nested r) /\
    ~ In (name c) (GrammarSpec.plain r) /\
    parse KMain e <> parse KMain (mkElement "MainProvision" []
      [NElement (mkElement "Chapter" [("Num", "1")] [NElement (mkElement "ChapterTitle" [] [])])]).
Proof.
  cbv zeta. split.
  - eapply reached_child; [reflexivity|left; reflexivity|vm_compute; tauto|apply reached_here].
  - eexists. split; [reflexivity|]. split; [left; reflexivity|].
    split; [|split]; try (vm_compute; intuition discriminate).
Qed.

(** In contrast, two elements drop what they do not know. *)
Theorem C28_preamble_drops : forall a l c r, name c <> "Paragraph" ->
  parse KPreamble (mkElement "Preamble" a (l ++ NElement c :: r)) =
  parse KPreamble (mkElement "Preamble" a (l ++ r)).
Proof. exact preamble_drops. Qed.
Print Assumptions C28_preamble_drops.

Theorem C28_table_row_drops : forall a l c r, name c <> "TableColumn" ->
  parse KTableRow (mkElement "TableRow" a (l ++ NElement c :: r)) =
  parse KTableRow (mkElement "TableRow" a (l ++ r)).
Proof. exact table_row_drops. Qed.
Print Assumptions C28_table_row_drops.

(** C31.  Numbers. *)
Theorem C31_missing : forall k t f e, numbered k = Some (t, f) -> name e = t ->
  get e "Num" = None -> parse k e = Err (MissingRequiredAttribute t "Num").
Proof. exact num_missing. Qed.
Print Assumptions C31_missing.

Theorem C31_malformed : forall k t f e s, numbered k = Some (t, f) -> get e "Num" = Some s ->
  no_number s -> exists x, parse k e = Err x.
Proof. exact num_malformed. Qed.
Print Assumptions C31_malformed.

Theorem C31_read : forall k t f e v, numbered k = Some (t, f) -> parse k e = Ok v ->
  exists s b ed r, get e "Num" = Some s /\ num_text s b ed r /\ f v = mkAN b ed r.
Proof. exact num_read. Qed.
Print Assumptions C31_read.

(** Items must have the attribute, but a malformed number is dropped. *)
Theorem C31_item_missing : forall l e, name e = item_tag l -> get e "Num" = None ->
  parse (KItem l) e = Err (MissingRequiredAttribute (item_tag l) "Num").
Proof. exact item_num_missing. Qed.
Print Assumptions C31_item_missing.

Theorem C31_item_read : forall l e v, parse (KItem l) e = Ok v ->
  exists s, get e "Num" = Some s /\
    forall b ed r, it_num (un (KItem l) v) = Some (mkAN b ed r) <-> num_text s b ed r.
Proof. exact item_num_read. Qed.
Print Assumptions C31_item_read.

Example C31_malformed_case : no_number "1_x" /\ no_number "" /\ no_number "18446744073709551616".
Proof.
  assert (X : forall s, (match from_num_str s with Err _ => true | _ => false end) = true -> no_number s).
  { intros s H b ed r N. apply NumStrFacts.from_num_str_C03 in N. rewrite N in H. discriminate. }
  repeat apply conj; apply X; vm_compute; reflexivity.
Qed.

(** A malformed article number is refused; the same number in an item is dropped. *)
Example C31_item_case :
  let i := mkElement "Item" [("Num", "x")] [NElement (mkElement "ItemSentence" []
             [NElement (mkElement "Sentence" [] [])])] in
  (exists v, parse (KItem Item0) i = Ok v /\ it_num (un (KItem Item0) v) = None) /\
  exists x, parse KArticle (mkElement "Article" [("Num", "x")]
    [NElement (mkElement "ArticleTitle" [] []); NElement (mkElement "SupplNote" [] [])]) = Err x.
Proof. split; eexists; vm_compute; [split|]; reflexivity. Qed.

(** C32.  Flags. *)
Theorem C32_read : forall k n f e v, In (n, f) (flags k) -> parse k e = Ok v ->
  (f v = true <-> get e n = Some "true") /\
  (get e n = None \/ get e n = Some "true" \/ get e n = Some "false").
Proof. exact flag_read. Qed.
Print Assumptions C32_read.

Theorem C32_malformed : forall k n f e s, In (n, f) (flags k) -> get e n = Some s ->
  s <> "true" -> s <> "false" -> exists x, parse k e = Err x.
Proof. exact flag_malformed. Qed.
Print Assumptions C32_malformed.

Theorem C32_optional_read : forall k n f e v, In (n, f) (optional_flags k) -> parse k e = Ok v ->
  (f v = None /\ get e n = None) \/
  exists b : bool, f v = Some b /\ get e n = Some (if b then "true" else "false").
Proof. exact opt_flag_read. Qed.
Print Assumptions C32_optional_read.

Theorem C32_optional_malformed : forall k n f e s, In (n, f) (optional_flags k) ->
  get e n = Some s -> s <> "true" -> s <> "false" -> exists x, parse k e = Err x.
Proof. exact opt_flag_malformed. Qed.
Print Assumptions C32_optional_malformed.

Example C32_case :
  let a d := mkElement "Article" [("Num", "3"); ("Delete", d)] [NElement (mkElement "SupplNote" [] [])] in
  (exists v, parse KArticle (a "true") = Ok v /\ art_delete (un KArticle v) = true /\
    art_hide (un KArticle v) = false) /\
  exists x, parse KArticle (a "True") = Err x.
Proof. split; eexists; vm_compute; [repeat split|]; reflexivity. Qed.

(** C33.  The order of the document is kept, one value for each element. *)
Theorem C33_articles : forall e v, parse KMain e = Ok v ->
  Forall2 (reads KArticle) (articles_in e) (main_articles v).
Proof. exact main_art. Qed.
Print Assumptions C33_articles.

Theorem C33_main : forall e v, parse KMain e = Ok v ->
  Forall2 main_reads (elements (children e)) (main_children (un KMain v)).
Proof. exact main_order. Qed.
Print Assumptions C33_main.

Theorem C33_part : forall e v, parse KPart e = Ok v ->
  Forall2 part_reads (elements (tl (children e))) (hd_children (un KPart v)).
Proof. exact part_order. Qed.
Print Assumptions C33_part.

Theorem C33_chapter : forall e v, parse KChapter e = Ok v ->
  Forall2 chapter_reads (elements (tl (children e))) (hd_children (un KChapter v)).
Proof. exact chapter_order. Qed.
Print Assumptions C33_chapter.

Theorem C33_section : forall e v, parse KSection e = Ok v ->
  Forall2 section_reads (elements (tl (children e))) (hd_children (un KSection v)).
Proof. exact section_order. Qed.
Print Assumptions C33_section.

Theorem C33_subsection : forall e v, parse KSubsection e = Ok v ->
  Forall2 subsection_reads (elements (tl (children e))) (hd_children (un KSubsection v)).
Proof. exact subsection_order. Qed.
Print Assumptions C33_subsection.

Theorem C33_division : forall e v, parse KDivision e = Ok v ->
  Forall2 division_reads (elements (tl (children e))) (hd_children (un KDivision v)).
Proof. exact division_order. Qed.
Print Assumptions C33_division.

Theorem C33_suppl : forall e v, parse KSuppl e = Ok v ->
  Forall2 suppl_reads
    (filter (fun c => negb (String.eqb (name c) "SupplProvisionLabel")) (elements (children e)))
    (sp_children (un KSuppl v)).
Proof. exact suppl_order. Qed.
Print Assumptions C33_suppl.

Theorem C33_paragraphs : forall e v, parse KArticle e = Ok v ->
  Forall2 (reads KParagraph) (with_tag "Paragraph" (children e)) (art_paragraph (un KArticle v)).
Proof. exact article_order. Qed.
Print Assumptions C33_paragraphs.

Theorem C33_items : forall e v, parse KParagraph e = Ok v ->
  Forall2 (reads (KItem Item0)) (with_tag "Item" (children e)) (par_children (un KParagraph v)).
Proof. exact paragraph_items_order. Qed.
Print Assumptions C33_items.

Theorem C33_subitems : forall l e v, l <> Sub10 -> parse (KItem l) e = Ok v ->
  Forall2 (reads (sub_item l)) (with_tag (item_child_tag l) (children e))
    (it_children (un (KItem l) v)).
Proof. exact item_order. Qed.
Print Assumptions C33_subitems.

Theorem C33_paragraph_sentences : forall e v, parse KParagraph e = Ok v ->
  Forall2 (reads KSentence)
    (flat_map (fun c => elements (children c)) (with_tag "ParagraphSentence" (children e)))
    (par_sentence (un KParagraph v)).
Proof. exact paragraph_sentences_order. Qed.
Print Assumptions C33_paragraph_sentences.

Theorem C33_columns : forall e v, parse KColumn e = Ok v ->
  Forall2 (reads KSentence) (elements (children e)) (col_sentence (un KColumn v)).
Proof. exact column_order. Qed.
Print Assumptions C33_columns.

(** Text and markup inside a sentence. *)
Theorem C33_sentence : forall e v, parse KSentence e = Ok v ->
  Forall2 sentence_reads (filter not_other (children e)) (sen_contents (un KSentence v)).
Proof. exact sentence_order. Qed.
Print Assumptions C33_sentence.

Example C33_case :
  let e := write KMain (lb_main_provision (un KLawBody s_body)) in
  (exists v, parse KMain e = Ok v) /\ List.length (articles_in e) > 2.
Proof. split; [eexists; vm_compute; reflexivity|vm_compute; repeat constructor]. Qed.
