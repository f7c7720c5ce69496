(** The writer of every kind writes exactly what the table says. *)
From Coq Require Import String Ascii List NArith Bool Lia Arith.
From Verif Require Import Base BaseFacts NumStr NumStrSpec NumStrFacts Xml Ast XmlWrite WrittenSpec XmlParse XmlSpec XmlSim
  KnotFacts WrittenFacts WrittenFacts2.
Import ListNotations.
Open Scope string_scope.
Open Scope list_scope.

Ltac vals := first [exact v_flag | exact v_mode | exact v_any | exact v_must
  | exact (v_perhaps _ Digits _ decimal_iff) | exact (v_always _ Digits _ decimal_iff)
  | exact (v_perhaps _ Numeral _ numeral_iff) | exact (v_always _ Numeral _ numeral_iff)
  | exact (v_perhaps _ _ _ v_truth) | exact (v_always _ _ _ v_truth) | exact (v_always _ _ _ v_style)
  | exact (v_perhaps _ _ _ v_function) | exact (v_perhaps _ _ _ v_indent) | exact (v_perhaps _ _ _ v_align)
  | exact (v_perhaps _ _ _ v_type) | exact (v_always _ _ _ v_era) | exact (v_always _ _ _ v_law_type)
  | exact (v_always _ _ _ v_lang)].
Ltac ats := apply ai_rev; unfold slots, numbered, mode, always, perhaps; cbn [rev app];
  repeat (eapply ai_cons; [vals|cbn; intuition discriminate|]); exact ai_nil.
Ltac each := intros a b;
  repeat match goal with p : (_ * _)%type |- _ => destruct p | u : unit |- _ => destruct u | x : bool |- _ => destruct x end;
  reflexivity.

Section Kinds.
Context (h : nat) (W : kind -> Element -> Prop).
Context (HW : forall k c, height c < h -> (W k c <-> exists v, alike c (write k v))).
Notation sh t sl m el := (shape h W t sl m el).
Notation im m g := (img h W m g).

Lemma img_structs : im structs (els (write_struct_any write)).
Proof. apply img_els. exact (img_struct_any h W HW). Qed.
Lemma img_formulas : im (Many formula) (els (write_arith write)).
Proof. apply img_els. exact (img_formula h W HW). Qed.
Lemma img_header : im (Leaf "TableHeaderRow" [] (Many (title "TableHeaderColumn"))) (fun r => [NElement (write_header_row write r)]).
Proof. apply img_leaf. eapply shape_plain; [apply img_els; exact (img_title h W HW _)|]. reflexivity. Qed.
Lemma img_rt : im (Leaf "Rt" [] Chars) (fun s => [NElement (mkElement "Rt" [] [NText s])]).
Proof. apply img_leaf. eapply shape_plain; [exact (img_chars h W)|]. reflexivity. Qed.
Lemma img_label : im (Maybe (Leaf "SupplProvisionLabel" [] (Then piece words)))
  (fun l : Text Knot => match l with [] => [] | _ => [NElement (write_text write "SupplProvisionLabel" l)] end).
Proof.
  eapply img_surj.
  - apply (img_maybe h W _ _ (fun p : TextElement Knot * Text Knot =>
      write_text write "SupplProvisionLabel" (fst p :: snd p))).
    apply img_leaf. eapply shape_plain.
    + eapply img_then; [exact (img_piece h W HW)|exact (img_words h W HW)].
    + intros [x r]. reflexivity.
  - intros [|x r]; [exists None|exists (Some (x, r))]; reflexivity.
  - intros [[x r]|]; [exists (x :: r)|exists []]; reflexivity.
Qed.

Ltac con := lazymatch goal with
  | |- img _ _ (Then _ _) _ => eapply img_then; [con|con]
  | |- img _ _ words _ => exact (img_words h W HW)
  | |- img _ _ structs _ => exact img_structs
  | |- img _ _ (Many formula) _ => exact img_formulas
  | |- img _ _ (Maybe _) _ => eapply img_maybe; con
  | |- img _ _ (Many (Either inline)) _ => apply img_many; exact (img_inline h W HW)
  | |- img _ _ (Many (Either (Of KLine :: inline))) _ => apply img_many; exact (img_line_inline h W HW)
  | |- img _ _ (Many (Either contents)) _ => apply img_many; exact (img_contents h W HW)
  | |- img _ _ (Many (Either cell)) _ => apply img_many; exact (img_cell h W HW)
  | |- img _ _ (Many _) _ => eapply img_els; con
  | |- img _ _ (Of _) _ => exact (img_of h W HW _)
  | |- img _ _ (title _) _ => exact (img_title h W HW _)
  | |- img _ _ (title_with_mode _) _ => exact (img_title_with_mode h W HW _)
  | |- img _ _ (caption _) _ => exact (img_caption h W HW _)
  | |- img _ _ (sentences _) _ => exact (img_sentences h W HW _)
  | |- img _ _ (sentences_or_columns_or_table _) _ => exact (img_sct h W HW _)
  | |- img _ _ figure _ => exact (img_figure h W)
  | |- img _ _ (Leaf "TableHeaderRow" _ _) _ => exact img_header
  | |- img _ _ (Leaf "Rt" _ _) _ => exact img_rt
  | |- img _ _ (Either _) _ => first
      [exact (img_remarks_node h W HW) | exact (img_list_sentence h W HW) | exact (img_part_node h W HW)
      | exact (img_chapter_node h W HW) | exact (img_section_node h W HW) | exact (img_subsection_node h W HW)
      | exact (img_main_node h W HW) | exact (img_suppl_node h W HW) | exact (img_appdx_table_node h W HW)
      | exact (img_appdx_note_node h W HW) | exact (img_appdx_fig_node h W HW) | exact (img_toc_section_node h W HW)
      | exact (img_toc_suppl_node h W HW) | exact (img_toc_main_node h W HW) | exact (img_provision h W HW)]
  | |- _ => eassumption
  end.
Ltac body := cbn [in_order body]; con.
Ltac kind_of f := eapply (shape_mk h W _ _ _ _ _ _ _ f); [ats|body|each|].

Lemma shape_ruby : sh "Ruby" [] (body KRuby) (write_ruby write).
Proof.
  kind_of (fun (_ : unit) (b : Text Knot * string) => mkRubyF (fst b) (snd b)). intros []. eexists tt, (_, _). reflexivity.
Qed.
Lemma shape_line : sh "Line" (slots KLine) (body KLine) (write_line write).
Proof. kind_of (fun (a : LineStyle * unit) (b : list (LineContents Knot)) => mkLineF b (fst a)). intros []. eexists (_, tt), _. reflexivity. Qed.
Lemma shape_cont : forall c, sh (cont_tag c) [] (Many (Either contents)) (write_cont write c).
Proof. intros c. eapply shape_plain; [body|]. reflexivity. Qed.
Lemma shape_sentence : sh "Sentence" (slots KSentence) (body KSentence) (write_sentence write).
Proof.
  kind_of (fun (a : WritingMode * (option SentenceIndent * (option SentenceFunction * (option N * unit)))) (b : list (SentenceElement Knot)) =>
    let '(m, (i, (f, (n, _)))) := a in mkSentenceF b n f i m).
  intros []. eexists (_, (_, (_, (_, tt)))), _. reflexivity.
Qed.
Lemma shape_column : sh "Column" (slots KColumn) (body KColumn) (write_column write).
Proof.
  kind_of (fun (a : option Align * (bool * (option N * unit))) (b : list (Knot KSentence)) =>
    let '(m, (i, (n, _))) := a in mkColumnF b n i m).
  intros []. eexists (_, (_, (_, tt))), _. reflexivity.
Qed.
Lemma shape_table : sh "Table" (slots KTable) (body KTable) (write_table write).
Proof.
  kind_of (fun (a : WritingMode * unit) (b : list (TableHeaderRow Knot) * list (Knot KTableRow)) =>
    mkTableF (fst b) (snd b) (fst a)).
  intros []. eexists (_, tt), (_, _). reflexivity.
Qed.
Lemma shape_table_row : sh "TableRow" [] (body KTableRow) (write_table_row write).
Proof. eapply shape_plain; [body|]. reflexivity. Qed.
Lemma shape_table_column : sh "TableColumn" (slots KTableColumn) (body KTableColumn) (write_table_column write).
Proof.
  eapply (shape_gen h W _ _ _ _ _ _ _ (fun
    (a : option string * (option string * (LineStyle * (LineStyle * (LineStyle * (LineStyle * unit)))))) (b : list (TableColumnContents Knot)) =>
    let '(c, (r, (br, (bl, (bb, (bt, _)))))) := a in mkTableColumnF b bt bb bl br r c None None)); [ats|body| |].
  - each.
  - intros [c bt bb bl br r cs al va].
    exists (cs, (match va with Some p => Some (position_str p) | None => match al with Some x => Some (align_str x) | None => r end end,
      (br, (bl, (bb, (bt, tt)))))), c.
    split; [reflexivity|]. split; [|reflexivity]. intros n. unfold get, write_table_column. cbn [attrs fst snd
      tc_contents tc_border_top tc_border_bottom tc_border_left tc_border_right tc_rowspan tc_colspan tc_align tc_valign insert_opt].
    destruct va, al, r, cs; cbn [option_map insert_opt]; rewrite ?assoc_insert;
    destruct (String.eqb_spec n "rowspan") as [E|E]; try rewrite E; try reflexivity;
    destruct (String.eqb_spec n "colspan") as [E'|E']; try rewrite E'; try reflexivity; congruence.
Qed.
Lemma shape_remarks : sh "Remarks" [] (body KRemarks) (write_remarks write).
Proof.
  kind_of (fun (_ : unit) (b : list (RemarksContents Knot)) => mkRemarksF (mkRemarksLabel [] false) b).
  intros []. eexists tt, _. reflexivity.
Qed.
Lemma shape_struct : forall T B t mt mb (wt : T -> Element) (wb : B -> Element),
  im mt (fun x => [NElement (wt x)]) -> im mb (fun x => [NElement (wb x)]) ->
  sh t [] (structure mt mb) (write_struct write t wt wb).
Proof.
  intros T B t mt mb wt wb Ht Hb. unfold structure.
  kind_of (fun (_ : unit) (b : option T * (list (Knot KRemarks) * (B * list (Knot KRemarks)))) =>
    let '(x, (r, (y, s))) := b in mkStructF x r y s).
  intros []. eexists tt, (_, (_, (_, _))). reflexivity.
Qed.
Lemma shape_class : sh "Class" (slots KClass) (body KClass) (write_class write).
Proof.
  kind_of (fun (a : string * unit) (b : option (Text Knot) * (SentenceOrColumnOrTable Knot * list (Knot (KItem Item0)))) =>
    let '(x, (r, y)) := b in mkClassF x r y (fst a)).
  intros []. eexists (_, tt), (_, (_, _)). reflexivity.
Qed.
Lemma shape_list : forall l below, im below (els (write (sub_list l))) ->
  sh (list_tag l) [] (listing (list_tag l ++ "Sentence")%string below) (write_list write l).
Proof.
  intros l below Hb. unfold listing.
  assert (Hs : im (Leaf (list_tag l ++ "Sentence")%string [] (Many (Either [Of KSentence; Of KColumn])))
    (fun x => [NElement (mkElement (list_tag l ++ "Sentence")%string [] (els (write_list_sentence write) x))])).
  { apply img_leaf. eapply shape_plain; [body|]. reflexivity. }
  cbn [in_order].
  eapply (shape_mk h W _ _ _ _ _ _ _ (fun (_ : unit) (b : list (ListSentence Knot) * list (Knot (sub_list l))) => mkListF (fst b) (snd b)));
    [ats|eapply img_then; [exact Hs|exact Hb]|each|].
  intros []. eexists tt, (_, _). reflexivity.
Qed.
Lemma shape_item : forall l below, im below (els (write (sub_item l))) ->
  sh (item_tag l) (slots (KItem l)) (item_content (item_tag l) below) (write_item write l).
Proof.
  intros l below Hb. unfold item_content. cbn [slots].
  kind_of (fun (a : bool * (bool * (option ArticleNumber * unit)))
    (b : option (Text Knot) * (SentenceOrColumnOrTable Knot * (list (Knot (sub_item l)) * list (Struct Knot)))) =>
    let '(t, (s, (c, st))) := b in let '(hi, (de, (n, _))) := a in mkItemF t s c st n de hi).
  intros [t s c st n de hi]. eexists (hi, (de, (n, tt))), (t, (s, (c, st))). reflexivity.
Qed.
Lemma shape_paragraph : sh "Paragraph" (slots KParagraph) (body KParagraph) (write_paragraph write).
Proof.
  kind_of (fun (a : bool * (bool * (bool * (ArticleNumber * unit))))
    (b : option (Caption Knot) * (Text Knot * (list (Knot KSentence) * (list (Knot KAmend) * (list (Knot KClass) * (list (Struct Knot) *
      list (Knot (KItem Item0)))))))) =>
    let '(x1, (x2, (x3, (x4, (x5, (x6, x7)))))) := b in let '(hi, (on, (os, (n, _)))) := a in
    mkParagraphF x1 x2 x4 x5 x3 x6 x7 n os on hi).
  intros []. eexists (_, (_, (_, (_, tt)))), (_, (_, (_, (_, (_, (_, _)))))). reflexivity.
Qed.
Lemma shape_article : sh "Article" (slots KArticle) (body KArticle) (write_article write).
Proof.
  kind_of (fun (a : bool * (bool * (ArticleNumber * unit)))
    (b : option (Caption Knot) * (Text Knot * (list (Knot KParagraph) * option (Text Knot)))) =>
    let '(x1, (x2, (x3, x4))) := b in let '(hi, (de, (n, _))) := a in mkArticleF x1 x2 x3 x4 n de hi).
  intros []. eexists (_, (_, (_, tt))), (_, (_, (_, _))). reflexivity.
Qed.
Lemma shape_head : forall C n l (wc : C -> Element), im (Either l) (fun c => [NElement (wc c)]) ->
  sh n numbered (heading (n ++ "Title")%string l) (write_head write n wc).
Proof.
  intros C n l wc Hc. unfold heading. cbn [in_order].
  eapply (shape_mk h W _ _ _ _ _ _ _ (fun (a : bool * (bool * (ArticleNumber * unit))) (b : Text Knot * list C) =>
    let '(hi, (de, (n, _))) := a in mkHeadF (fst b) (snd b) n de hi));
    [ats|eapply img_then; [exact (img_title h W HW _)|apply img_els; exact Hc]|each|].
  intros []. eexists (_, (_, (_, tt))), (_, _). reflexivity.
Qed.
Lemma shape_amend : sh "AmendProvision" [] (body KAmend) (write_amend write).
Proof.
  assert (H1 : im (Leaf "AmendProvisionSentence" [] (Of KSentence))
    (fun s => [NElement (mkElement "AmendProvisionSentence" [] [NElement (write KSentence s)])])).
  { apply img_leaf. eapply shape_plain; [con|]. reflexivity. }
  assert (H2 : im (Leaf "AmendProvisionSentence" [] (Either provision))
    (fun s => [NElement (mkElement "AmendProvisionSentence" [] [NElement (write_new_provision write s)])])).
  { apply img_leaf. eapply shape_plain; [con|]. reflexivity. }
  cbn [body in_order].
  eapply (shape_mk h W _ _ _ _ _ _ _ (fun (_ : unit) (b : option (Knot KSentence) * list (NewProvision Knot)) => mkAmendF (fst b) (snd b)));
    [ats|eapply img_then; [apply img_maybe; exact H1|apply img_els; exact H2]|each|].
  intros []. eexists tt, (_, _). reflexivity.
Qed.
Lemma shape_law_title : sh "LawTitle" (slots KLawTitle) (body KLawTitle) (write_law_title write).
Proof.
  kind_of (fun (a : option string * (option string * (option string * unit))) (b : Text Knot) =>
    let '(x, (y, (z, _))) := a in mkLawTitleF z y x b).
  intros []. eexists (_, (_, (_, tt))), _. reflexivity.
Qed.
Lemma shape_preamble : sh "Preamble" [] (body KPreamble) (write_preamble write).
Proof. eapply shape_plain; [body|]. reflexivity. Qed.
Lemma shape_main : sh "MainProvision" (slots KMain) (body KMain) (write_main write).
Proof.
  kind_of (fun (a : option bool * unit) (b : list (MainContents Knot)) => mkMainF b (fst a)).
  intros []. eexists (_, tt), _. reflexivity.
Qed.
Lemma shape_suppl : sh "SupplProvision" (slots KSuppl) (body KSuppl) (write_suppl write).
Proof.
  cbn [body in_order].
  eapply (shape_mk h W _ _ _ _ _ _ _ (fun (a : option bool * (option string * (option SupplProvisionType * unit)))
    (b : Text Knot * list (SupplContents Knot)) => let '(x, (y, (z, _))) := a in mkSupplF (fst b) (snd b) z y x));
    [ats|eapply img_then; [exact img_label|con]|each|].
  intros []. eexists (_, (_, (_, tt))), (_, _). reflexivity.
Qed.
Lemma shape_suppl_ts : forall C n tn m (wc : C -> Element), im m (fun c => [NElement (wc c)]) ->
  sh n [perhaps "Num" Any] (in_order [title_with_mode tn; Maybe (title "RelatedArticleNum"); Many m]) (write_suppl_ts write n tn wc).
Proof.
  intros C n tn m wc Hc. cbn [in_order].
  eapply (shape_mk h W _ _ _ _ _ _ _ (fun (a : option string * unit) (b : TextWithWritingMode Knot * (option (Text Knot) * list C)) =>
    let '(x, (y, z)) := b in mkSupplTSF x y z (fst a)));
    [ats|eapply img_then; [con|eapply img_then; [con|apply img_els; exact Hc]]|each|].
  intros []. eexists (_, tt), (_, (_, _)). reflexivity.
Qed.
Lemma shape_suppl_appdx : sh "Appdx" (slots KSupplAppdx) (body KSupplAppdx) (write_suppl_appdx write).
Proof.
  kind_of (fun (a : option string * unit) (b : option (Text Knot) * (option (Text Knot) * list (ArithFormula Knot))) =>
    let '(x, (y, z)) := b in mkSupplAppdxF x y z (fst a)).
  intros []. eexists (_, tt), (_, (_, _)). reflexivity.
Qed.
Lemma shape_appdx_t : forall C n l (wc : C -> Element), im (Either l) (fun c => [NElement (wc c)]) ->
  sh n [perhaps "Num" Any] (appended (n ++ "Title")%string l) (write_appdx_t write n wc).
Proof.
  intros C n l wc Hc. unfold appended. cbn [in_order].
  eapply (shape_mk h W _ _ _ _ _ _ _ (fun (a : option string * unit)
    (b : option (TextWithWritingMode Knot) * (option (Text Knot) * (list C * option (Knot KRemarks)))) =>
    let '(x, (y, (z, r))) := b in mkAppdxTF x y z r (fst a)));
    [ats|eapply img_then; [con|eapply img_then; [con|eapply img_then; [apply img_els; exact Hc|con]]]|each|].
  intros []. eexists (_, tt), (_, (_, (_, _))). reflexivity.
Qed.
Lemma img_one : forall k, im (Either [Of k]) (fun v => [NElement (write k v)]).
Proof.
  intros k. eapply img_alts; [eapply (alts_cons h W _ _ (fun v : Knot k => v)); [exact (img_of h W HW k)|apply alts_nil]|].
  intros x. left. eauto.
Qed.
Lemma shape_appdx : sh "Appdx" [] (body KAppdx) (write_appdx write).
Proof.
  kind_of (fun (_ : unit) (b : option (Text Knot) * (option (Text Knot) * (list (ArithFormula Knot) * option (Knot KRemarks)))) =>
    let '(x, (y, (z, r))) := b in mkAppdxF x y z r).
  intros []. eexists tt, (_, (_, (_, _))). reflexivity.
Qed.
Lemma shape_appdx_fig : sh "AppdxFig" (slots KAppdxFig) (body KAppdxFig) (write_appdx_fig write).
Proof.
  kind_of (fun (a : option string * unit) (b : option (TextWithWritingMode Knot) * (option (Text Knot) * list (AppdxFigContents Knot))) =>
    let '(x, (y, z)) := b in mkAppdxFigF x y z (fst a)).
  intros []. eexists (_, tt), (_, (_, _)). reflexivity.
Qed.
Lemma shape_toc_head : forall C n tn m (wc : C -> Element), im m (els wc) ->
  sh n [always "Num" Numeral; perhaps "Delete" Yes] (toc_entry tn m) (write_toc_head write n tn wc).
Proof.
  intros C n tn m wc Hc. unfold toc_entry. cbn [in_order].
  eapply (shape_mk h W _ _ _ _ _ _ _ (fun (a : bool * (ArticleNumber * unit)) (b : Text Knot * (option (Text Knot) * list C)) =>
    let '(d, (n, _)) := a in let '(x, (y, z)) := b in mkTOCHeadF x y n d z));
    [ats|eapply img_then; [con|eapply img_then; [con|exact Hc]]|each|].
  intros []. eexists (_, (_, tt)), (_, (_, _)). reflexivity.
Qed.
Lemma shape_toc_article : sh "TOCArticle" (slots KTOCArticle) (body KTOCArticle) (write_toc_article write).
Proof.
  kind_of (fun (a : bool * (ArticleNumber * unit)) (b : Text Knot * Caption Knot) =>
    let '(d, (n, _)) := a in mkTOCArticleF (fst b) (snd b) n d).
  intros []. eexists (_, (_, tt)), (_, _). reflexivity.
Qed.
Lemma shape_toc_suppl : sh "TOCSupplProvision" [] (body KTOCSuppl) (write_toc_suppl write).
Proof.
  kind_of (fun (_ : unit) (b : Text Knot * (option (Text Knot) * list (TOCSupplContents Knot))) =>
    let '(x, (y, z)) := b in mkTOCSupplF x y z).
  intros []. eexists tt, (_, (_, _)). reflexivity.
Qed.
Lemma shape_toc : sh "TOC" [] (body KTOC) (write_toc write).
Proof.
  kind_of (fun (_ : unit) (b : option (Text Knot) * (option (Text Knot) * (list (TOCMainContents Knot) * (option (Knot KTOCSuppl) * list (Text Knot))))) =>
    let '(x, (y, (z, (s, l)))) := b in mkTOCF x y z s l).
  intros []. eexists tt, (_, (_, (_, (_, _)))). reflexivity.
Qed.
Lemma shape_law_body : sh "LawBody" (slots KLawBody) (body KLawBody) (write_law_body write).
Proof.
  kind_of (fun (a : option string * unit) (b : option (Knot KLawTitle) * (list (Text Knot) * (option (Knot KTOC) * (option (Knot KPreamble) *
      (Knot KMain * (list (Knot KSuppl) * (list (Knot KAppdxTable) * (list (Knot KAppdxNote) * (list (Knot KAppdxStyle) *
      (list (Knot KAppdx) * (list (Knot KAppdxFig) * list (Knot KAppdxFormat)))))))))))) =>
    let '(x1, (x2, (x3, (x4, (x5, (x6, (x7, (x8, (x9, (x10, (x11, x12))))))))))) := b in
    mkLawBodyF x1 x2 (fst a) x3 x4 x5 x6 x7 x8 x9 x10 x11 x12).
  intros []. eexists (_, tt), (_, (_, (_, (_, (_, (_, (_, (_, (_, (_, (_, _))))))))))). reflexivity.
Qed.

Lemma no_void : Knot KVoid -> False.
Proof. intros x. destruct (un KVoid x). Qed.

Lemma shape_kind : forall k, sh (tag k) (slots k) (body k) (wstep write k).
Proof.
  intros [].
  - intros e _. split; [intros (_ & _ & H)|intros [[] _]]. inversion H; subst. contradiction.
  - exact shape_ruby.
  - exact shape_line.
  - destruct c; [exact (shape_cont CQuote)|exact (shape_cont CArith)|exact (shape_cont CNote)|exact (shape_cont CStyle)
      |exact (shape_cont CFormat)].
  - exact shape_sentence.
  - exact shape_column.
  - exact shape_table.
  - exact shape_table_row.
  - exact shape_table_column.
  - exact shape_remarks.
  - destruct s; exact (shape_struct _ _ _ _ _ _ _ (img_title h W HW _) (img_of h W HW _)).
  - exact (shape_struct _ _ _ _ _ _ _ (img_title h W HW _) (img_figure h W)).
  - exact (shape_struct _ _ _ _ _ _ _ (img_title_with_mode h W HW _) (img_of h W HW KTable)).
  - destruct l.
    exact (shape_list List0 _ (img_els h W _ _ _ (img_of h W HW _))).
    exact (shape_list Sublist1 _ (img_els h W _ _ _ (img_of h W HW _))).
    exact (shape_list Sublist2 _ (img_els h W _ _ _ (img_of h W HW _))).
    exact (shape_list Sublist3 _ (img_void h W _ _ no_void)).
  - exact shape_class.
  - destruct l.
    exact (shape_item Item0 _ (img_els h W _ _ _ (img_of h W HW _))).
    exact (shape_item Sub1 _ (img_els h W _ _ _ (img_of h W HW _))).
    exact (shape_item Sub2 _ (img_els h W _ _ _ (img_of h W HW _))).
    exact (shape_item Sub3 _ (img_els h W _ _ _ (img_of h W HW _))).
    exact (shape_item Sub4 _ (img_els h W _ _ _ (img_of h W HW _))).
    exact (shape_item Sub5 _ (img_els h W _ _ _ (img_of h W HW _))).
    exact (shape_item Sub6 _ (img_els h W _ _ _ (img_of h W HW _))).
    exact (shape_item Sub7 _ (img_els h W _ _ _ (img_of h W HW _))).
    exact (shape_item Sub8 _ (img_els h W _ _ _ (img_of h W HW _))).
    exact (shape_item Sub9 _ (img_els h W _ _ _ (img_of h W HW _))).
    exact (shape_item Sub10 _ (img_void h W _ _ no_void)).
  - exact shape_paragraph.
  - exact shape_article.
  - exact (shape_head _ "Part" _ _ (img_part_node h W HW)).
  - exact (shape_head _ "Chapter" _ _ (img_chapter_node h W HW)).
  - exact (shape_head _ "Section" _ _ (img_section_node h W HW)).
  - exact (shape_head _ "Subsection" _ _ (img_subsection_node h W HW)).
  - exact (shape_head _ "Division" _ _ (img_one KArticle)).
  - exact shape_amend.
  - exact shape_law_title.
  - exact shape_preamble.
  - exact shape_main.
  - exact shape_suppl.
  - exact (shape_suppl_ts _ _ _ _ _ (img_of h W HW _)).
  - exact (shape_suppl_ts _ _ _ _ _ (img_of h W HW _)).
  - exact shape_suppl_appdx.
  - exact (shape_appdx_t _ "AppdxTable" _ _ (img_appdx_table_node h W HW)).
  - exact (shape_appdx_t _ "AppdxNote" _ _ (img_appdx_note_node h W HW)).
  - exact (shape_appdx_t _ "AppdxStyle" _ _ (img_one (KCStruct SStyle))).
  - exact (shape_appdx_t _ "AppdxFormat" _ _ (img_one (KCStruct SFormat))).
  - exact shape_appdx.
  - exact shape_appdx_fig.
  - exact shape_toc.
  - exact (shape_toc_head _ _ _ _ _ (img_els h W _ _ _ (img_of h W HW _))).
  - exact (shape_toc_head _ _ _ _ _ (img_els h W _ _ _ (img_of h W HW _))).
  - exact (shape_toc_head _ _ _ _ _ (img_els h W _ _ _ (img_toc_section_node h W HW))).
  - exact (shape_toc_head _ _ _ _ _ (img_els h W _ _ _ (img_of h W HW _))).
  - exact (shape_toc_head _ _ _ _ _ (img_void h W Empty_set _ (fun x => match x with end))).
  - exact shape_toc_article.
  - exact shape_toc_suppl.
  - exact shape_law_body.
Qed.
End Kinds.

Lemma written_step : forall k e, written k e <-> name e = tag k /\ attributes (slots k) e /\ fits written (body k) (children e).
Proof. intros k e. split; [destruct 1; auto|]. intros (A & B & C). constructor; assumption. Qed.

Theorem written_iff : forall k e, written k e <-> exists v, alike e (write k v).
Proof.
  intros k e. revert k. pattern e. apply element_ind_height. clear e. intros e IH k.
  rewrite written_step. rewrite (shape_kind (height e) written (fun k c Hc => IH c Hc k) k e (fun c Hc => height_child c e Hc)).
  split; intros [x Hx].
  - exists (mk k x). rewrite write_unfold. exact Hx.
  - exists (un k x). rewrite <- write_unfold, mk_un. exact Hx.
Qed.

Theorem law_written_iff : forall e, law_written e <-> exists l, alike e (write_law l).
Proof.
  intros e. set (h := height e).
  assert (HW : forall k c, height c < h -> (written k c <-> exists v, alike c (write k v))) by (intros; apply written_iff).
  refine (_ (fun c Hc => height_child c e Hc : height c < h)). intros He. unfold law_written. revert e h HW He.
  intros e h HW He.
  assert (H1 : img h written (Leaf "LawNum" [] Chars) (fun s => [NElement (mkElement "LawNum" [] [NText s])])).
  { apply img_leaf. eapply shape_plain; [exact (img_chars h written)|]. reflexivity. }
  assert (S : shape h written "Law" law_slots (Then (Leaf "LawNum" [] Chars) (Of KLawBody)) write_law).
  { unfold law_slots. eapply (shape_mk h written _ _ _ _ _ _ _ (fun
      (a : Lang * (LawType * (option N * (option N * (option ArticleNumber * (N * (Era * unit)))))))
      (b : string * Knot KLawBody) =>
      let '(la, (ty, (d, (m, (n, (y, (er, _))))))) := a in mkLaw er y n m d ty la (fst b) (snd b)));
      [ats|eapply img_then; [exact H1|exact (img_of h written HW _)]|each|].
    intros []. eexists (_, (_, (_, (_, (_, (_, (_, tt))))))), (_, _). reflexivity. }
  apply S. exact He.
Qed.

(** Trees that are the same are read the same. *)
Lemma likes_filter : forall n l m, (forall c, In (NElement c) l -> forall f, alike c f -> sim c f) -> likes l m ->
  Forall2 sim_node (filter (matters n) l) (filter (matters n) m).
Proof.
  intros n l m Hs H. induction H as [|x y l m Hx H IH]; [constructor|].
  specialize (IH (fun c Hc => Hs c (or_intror Hc))). inversion Hx; subst; cbn [filter matters].
  - constructor; [constructor; apply Hs; [left; reflexivity|assumption]|exact IH].
  - destruct (negb (structural n)); [|exact IH]. constructor; [constructor|exact IH].
  - exact IH.
Qed.
Lemma likes_shapes : forall l m, likes l m -> map shape_of l = map shape_of m.
Proof. induction 1 as [|x y l m Hx H IH]; [reflexivity|]. cbn [map]. rewrite IH. destruct Hx; reflexivity. Qed.
Lemma alike_sim : forall e f, alike e f -> sim e f.
Proof.
  intros e. pattern e. apply element_ind_height. clear e. intros e IH f H. apply alike_iff in H as (Hn & Ha & Hc).
  destruct e as [n a c], f as [n' a' c']. cbn in Hn, Hc. subst n'. constructor.
  - exact Ha.
  - apply likes_filter; [|exact Hc]. intros x Hx. apply IH. exact (height_child x (mkElement n a c) Hx).
  - rewrite (likes_shapes _ _ Hc). reflexivity.
Qed.
Lemma alike_read_law : forall e f, alike e f -> parse_law e = parse_law f.
Proof. intros e f H. apply parse_law_sim, alike_sim, H. Qed.

Lemma alike_refl : forall e, alike e e.
Proof.
  intros e. pattern e. apply element_ind_height. clear e. intros e IH. apply alike_iff. repeat (split; [reflexivity|]).
  assert (G : forall l, (forall c, In (NElement c) l -> alike c c) -> likes l l).
  { induction l as [|[c|s|s] l IHl]; intros Hl; [constructor|..]; (constructor; [|apply IHl; intros; apply Hl; right; assumption]);
    constructor. apply Hl. left. reflexivity. }
  apply G. intros c Hc. apply IH, height_child, Hc.
Qed.
Lemma likes_refl : forall l, likes l l.
Proof. induction l as [|[c|s|s] l IHl]; [constructor|..]; (constructor; [|exact IHl]); constructor. apply alike_refl. Qed.
