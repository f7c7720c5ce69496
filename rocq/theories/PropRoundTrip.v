(** Properties C15-C26 and C34: writing a law and reading it back. *)
From Coq Require Import String List NArith Bool.
From Verif Require Import Base NumStr NumStrSpec Xml Ast XmlWrite XmlParse RoundTripSpec KnotFacts
  RoundTripFacts LossFacts Samples.
Import ListNotations.
Open Scope string_scope.
Open Scope list_scope.

(** C15.  A law all of whose parts are storable is read back from its element tree. *)
Theorem C15_law_roundtrip : forall l, law_survives l -> parse_law (write_law l) = Ok l.
Proof. exact law_roundtrip. Qed.
Print Assumptions C15_law_roundtrip.

Example C15_case : law_survives s_law /\ parse_law (write_law s_law) = Ok s_law.
Proof.
  split; [|vm_compute; reflexivity].
  split; [reflexivity|]. split; [exists (num1 54); split; reflexivity|].
  split; [reflexivity|]. split; [reflexivity|]. apply survives_b_iff. vm_compute. reflexivity.
Qed.

(** C16.  No other law is. *)
Theorem C16_law_roundtrip_iff : forall l, parse_law (write_law l) = Ok l <-> law_survives l.
Proof. exact law_read_write_iff. Qed.
Print Assumptions C16_law_roundtrip_iff.

Example C16_case :
  let l := mkLaw Reiwa 3 (Some (num1 1)) None None Act Ja "" (mkLawBody (mkLawBodyF None [] None
    (Some s_toc_preamble) None (mkMain (mkMainF [] None)) [] [] [] [] [] [] [])) in
  ~ law_survives l /\ exists m, parse_law (write_law l) = Ok m /\ m <> l.
Proof.
  cbv zeta. split.
  - intros (_ & _ & _ & _ & H). apply survives_b_iff in H. vm_compute in H. discriminate.
  - eexists. split; [vm_compute; reflexivity|]. discriminate.
Qed.

(** The same for every other structure, on its own. *)
Theorem C16_roundtrip_iff : forall k (x : Knot k), parse k (write k x) = Ok x <-> survives k x.
Proof. exact read_write_iff. Qed.
Print Assumptions C16_roundtrip_iff.

(** C17.  Articles, paragraphs and items of all levels. *)
Theorem C17_article_roundtrip : forall x,
  parse KArticle (write KArticle x) = Ok x <-> survives KArticle x.
Proof. exact (read_write_iff KArticle). Qed.
Print Assumptions C17_article_roundtrip.

Theorem C17_paragraph_roundtrip : forall x,
  parse KParagraph (write KParagraph x) = Ok x <-> survives KParagraph x.
Proof. exact (read_write_iff KParagraph). Qed.
Print Assumptions C17_paragraph_roundtrip.

Theorem C17_item_roundtrip : forall l x,
  parse (KItem l) (write (KItem l) x) = Ok x <-> survives (KItem l) x.
Proof. exact (fun l => read_write_iff (KItem l)). Qed.
Print Assumptions C17_item_roundtrip.

Example C17_case :
  survives KArticle s_article /\ survives (KItem Item0) s_item /\
  ~ survives (KItem Sub3) (mkItem (mkItemF (l := Sub3) None (SCT_Sentence [s_plain "x"]) [] [] None
      false false)).
Proof.
  split; [apply survives_b_iff; vm_compute; reflexivity|].
  split; [apply survives_b_iff; vm_compute; reflexivity|].
  intros H. apply survives_b_iff in H. vm_compute in H. discriminate.
Qed.

(** C18.  Inline text and tables. *)
Theorem C18_sentence_roundtrip : forall x,
  parse KSentence (write KSentence x) = Ok x <-> survives KSentence x.
Proof. exact (read_write_iff KSentence). Qed.
Print Assumptions C18_sentence_roundtrip.

Theorem C18_line_roundtrip : forall x, parse KLine (write KLine x) = Ok x <-> survives KLine x.
Proof. exact (read_write_iff KLine). Qed.
Print Assumptions C18_line_roundtrip.

Theorem C18_ruby_roundtrip : forall x, parse KRuby (write KRuby x) = Ok x <-> survives KRuby x.
Proof. exact (read_write_iff KRuby). Qed.
Print Assumptions C18_ruby_roundtrip.

Theorem C18_column_roundtrip : forall x, parse KColumn (write KColumn x) = Ok x <-> survives KColumn x.
Proof. exact (read_write_iff KColumn). Qed.
Print Assumptions C18_column_roundtrip.

Theorem C18_table_roundtrip : forall x, parse KTable (write KTable x) = Ok x <-> survives KTable x.
Proof. exact (read_write_iff KTable). Qed.
Print Assumptions C18_table_roundtrip.

Example C18_case :
  survives KSentence (s_sentence "本文" (Some 1%N)) /\ survives KTable s_table /\
  ~ survives KRuby (mkRuby (mkRubyF [TE_Sup "x"] "y")).
Proof.
  split; [apply survives_b_iff; vm_compute; reflexivity|].
  split; [apply survives_b_iff; vm_compute; reflexivity|].
  intros H. apply survives_b_iff in H. vm_compute in H. discriminate.
Qed.

(** C19.  No written remarks can be read; inside a structure they disappear. *)
Theorem C19_remarks_unreadable : forall r v, parse KRemarks (write KRemarks r) <> Ok v.
Proof. exact remarks_unreadable. Qed.
Print Assumptions C19_remarks_unreadable.

Theorem C19_remarks_lost : forall s (x : Knot (KCStruct s)) v,
  parse (KCStruct s) (write (KCStruct s) x) = Ok v ->
  st_title_remarks (un (KCStruct s) v) = [] /\ st_remarks (un (KCStruct s) v) = [].
Proof. exact cstruct_remarks_lost. Qed.
Print Assumptions C19_remarks_lost.

Theorem C19_fig_remarks_lost : forall (x : Knot KFigStruct) v,
  parse KFigStruct (write KFigStruct x) = Ok v ->
  st_title_remarks (un KFigStruct v) = [] /\ st_remarks (un KFigStruct v) = [].
Proof. exact fig_struct_remarks_lost. Qed.
Print Assumptions C19_fig_remarks_lost.

Theorem C19_table_remarks_lost : forall (x : Knot KTableStruct) v,
  parse KTableStruct (write KTableStruct x) = Ok v ->
  st_title_remarks (un KTableStruct v) = [] /\ st_remarks (un KTableStruct v) = [].
Proof. exact table_struct_remarks_lost. Qed.
Print Assumptions C19_table_remarks_lost.

Example C19_case :
  parse (KCStruct SNote) (write (KCStruct SNote) s_note_struct) =
  Ok (mkCStruct (s := SNote) (mkStructF (Some (plain "記")) [] (mkCont (c := CNote) [CE_String "本"]) [])).
Proof. vm_compute. reflexivity. Qed.

(** C20.  The new provisions of an amendment are lost. *)
Theorem C20_new_provisions_lost : forall (x : Knot KAmend) v,
  parse KAmend (write KAmend x) = Ok v -> am_new (un KAmend v) = [].
Proof. exact amend_new_lost. Qed.
Print Assumptions C20_new_provisions_lost.

Example C20_case :
  am_new (un KAmend s_amend) <> [] /\
  parse KAmend (write KAmend s_amend) = Ok (mkAmend (mkAmendF (Some (s_plain "第二条")) [])).
Proof. split; [discriminate|vm_compute; reflexivity]. Qed.

(** C21, C22.  The attributes of a table cell after a round trip. *)
Definition vertical_word (p : Position) : string :=
  match p with PTop => "top" | PMiddle => "middle" | PBottom => "bottom" end.
Definition horizontal_word (a : Align) : string :=
  match a with ALeft => "left" | ACenter => "center" | ARight => "right" | AJustify => "justify" end.
Theorem C21_cell_attributes : forall (x : Knot KTableColumn) v,
  parse KTableColumn (write KTableColumn x) = Ok v ->
  let c := un KTableColumn x in let d := un KTableColumn v in
  tc_align d = None /\ tc_valign d = None /\
  tc_rowspan d = match tc_valign c, tc_align c with
                 | Some p, _ => Some (vertical_word p)
                 | None, Some a => Some (horizontal_word a)
                 | None, None => tc_rowspan c
                 end /\
  tc_colspan d = tc_colspan c /\
  tc_border_top d = undouble (tc_border_top c) /\
  tc_border_bottom d = undouble (tc_border_bottom c) /\
  tc_border_left d = undouble (tc_border_left c) /\
  tc_border_right d = undouble (tc_border_right c).
Proof. exact cell_read. Qed.
Print Assumptions C21_cell_attributes.

Example C21_case :
  exists v, parse KTableColumn (write KTableColumn s_aligned_cell) = Ok v /\
    tc_rowspan (un KTableColumn v) = Some "top" /\ tc_border_top (un KTableColumn v) = LDotted.
Proof. eexists. split; [vm_compute; reflexivity|]. split; reflexivity. Qed.

Theorem C22_line_style : forall (x : Knot KLine) v,
  parse KLine (write KLine x) = Ok v -> line_style (un KLine v) = undouble (line_style (un KLine x)).
Proof. exact line_read_style. Qed.
Print Assumptions C22_line_style.

Example C22_case :
  parse KLine (write KLine (mkLine (mkLineF [LC_String "x"] LDouble))) =
  Ok (mkLine (mkLineF [LC_String "x"] LDotted)).
Proof. vm_compute. reflexivity. Qed.

(** C23.  Formula numbers, the preamble label of the table of contents and the related article
    number of an appendix are lost; the last two replace another field. *)
Theorem C23_sentence_formula_numbers : forall (x : Knot KSentence) v,
  parse KSentence (write KSentence x) = Ok v ->
  forall a, In (SE_Arith a) (sen_contents (un KSentence v)) -> af_num a = None.
Proof. exact sentence_formula_nums_lost. Qed.
Print Assumptions C23_sentence_formula_numbers.

Theorem C23_line_formula_numbers : forall (x : Knot KLine) v,
  parse KLine (write KLine x) = Ok v ->
  forall a, In (LC_Arith a) (line_contents (un KLine v)) -> af_num a = None.
Proof. exact line_formula_nums_lost. Qed.
Print Assumptions C23_line_formula_numbers.

Theorem C23_contents_formula_numbers : forall n (x : Knot (KCont n)) v,
  parse (KCont n) (write (KCont n) x) = Ok v ->
  forall a, In (CE_Arith a) (un (KCont n) v) -> af_num a = None.
Proof. exact contents_formula_nums_lost. Qed.
Print Assumptions C23_contents_formula_numbers.

Theorem C23_toc_preamble_label : forall (x : Knot KTOC) v,
  parse KTOC (write KTOC x) = Ok v ->
  toc_preamble_label (un KTOC v) = None /\
  forall t, toc_preamble_label (un KTOC x) = Some t -> text_survives t ->
    toc_label (un KTOC v) = Some t.
Proof. exact toc_preamble_label_lost. Qed.
Print Assumptions C23_toc_preamble_label.

Theorem C23_appdx_related_number : forall (x : Knot KAppdx) v,
  parse KAppdx (write KAppdx x) = Ok v ->
  ap_related (un KAppdx v) = None /\
  forall t, ap_related (un KAppdx x) = Some t -> text_survives t ->
    ap_arith_formula_num (un KAppdx v) = Some t.
Proof. exact appdx_related_lost. Qed.
Print Assumptions C23_appdx_related_number.

Example C23_case :
  parse KSentence (write KSentence s_formula_sentence) =
    Ok (mkSentence (mkSentenceF [SE_Arith (mkArith None (mkCont (c := CArith) [CE_String "a+b"]))]
      None None None Vertical)) /\
  parse KTOC (write KTOC s_toc_preamble) = Ok (mkTOC (mkTOCF (Some (plain "前文")) None [] None [])) /\
  parse KAppdx (write KAppdx s_appdx_related) =
    Ok (mkAppdx (mkAppdxF (Some (plain "第三条関係")) None [] None)) /\
  text_survives (plain "前文").
Proof.
  split; [vm_compute; reflexivity|]. split; [vm_compute; reflexivity|].
  split; [vm_compute; reflexivity|]. intros j y [].
Qed.

(** C24.  Two of the appendices of a supplementary provision cannot be read once written. *)
Theorem C24_suppl_table_unreadable : forall (x : Knot KSupplTable),
  parse KSupplTable (write KSupplTable x) =
  Err (WrongTagName "SupplProvisionAppdxTableitle" "SupplProvisionAppdxTableitle").
Proof. exact suppl_table_unreadable. Qed.
Print Assumptions C24_suppl_table_unreadable.

Theorem C24_suppl_appdx_unreadable : forall (x : Knot KSupplAppdx),
  parse KSupplAppdx (write KSupplAppdx x) = Err (WrongTagName "Appdx" "SupplProbisionAppdx").
Proof. exact suppl_appdx_unreadable. Qed.
Print Assumptions C24_suppl_appdx_unreadable.

Example C24_case :
  write KSupplAppdx s_suppl_appdx =
    mkElement "Appdx" [] [NElement (mkElement "ArithFormulaNum" [] [NText "式"])] /\
  name (write KSupplTable s_suppl_table) = "SupplProvisionAppdxTable".
Proof. split; vm_compute; reflexivity. Qed.

(** C25.  A law without number crashes the reader. *)
Theorem C25_law_without_number : forall l, (law_year l < 2 ^ 64)%N -> law_no l = None ->
  parse_law (write_law l) = Panic.
Proof. exact law_without_number_panics. Qed.
Print Assumptions C25_law_without_number.

Example C25_case :
  let l := mkLaw Meiji 22 None (Some 2%N) (Some 11%N) Constitution Ja "大日本帝国憲法" s_body in
  (law_year l < 2 ^ 64)%N /\ law_no l = None.
Proof. split; reflexivity. Qed.

(** C26.  An article without body crashes the reader. *)
Theorem C26_article_without_body : forall (x : Knot KArticle),
  an_usize (art_num (un KArticle x)) ->
  art_paragraph (un KArticle x) = [] -> art_suppl_note (un KArticle x) = None ->
  parse KArticle (write KArticle x) = Panic.
Proof. exact article_bodyless_panics. Qed.
Print Assumptions C26_article_without_body.

Example C26_case :
  an_usize (art_num (un KArticle s_bodyless_article)) /\
  art_paragraph (un KArticle s_bodyless_article) = [] /\
  parse KArticle (write KArticle s_bodyless_article) = Panic.
Proof. split; [repeat split; constructor|]. split; [reflexivity|]. vm_compute. reflexivity. Qed.

(** C34.  Different laws that survive have different element trees. *)
Theorem C34_write_law_injective : forall a b,
  law_survives a -> law_survives b -> write_law a = write_law b -> a = b.
Proof. exact write_law_inj. Qed.
Print Assumptions C34_write_law_injective.

Theorem C34_write_injective : forall k (a b : Knot k),
  survives k a -> survives k b -> write k a = write k b -> a = b.
Proof. exact write_inj. Qed.
Print Assumptions C34_write_injective.

(** The condition is needed. *)
Example C34_case :
  write KRemarks (mkRemarks (mkRemarksF (mkRemarksLabel (plain "a") false) [])) =
  write KRemarks (mkRemarks (mkRemarksF (mkRemarksLabel (plain "b") false) [])).
Proof. reflexivity. Qed.
