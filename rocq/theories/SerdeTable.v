(** Every serialisable type of the crate with its reader and its writer; what follows for whole laws. *)
From Coq Require Import String List NArith Bool Lia Arith Permutation.
From Verif Require Import Base NumStr Ast NumText Utils RoundTripSpec KnotFacts Serde SerdeSpec SerdeLib SerdeFacts SerdeFacts2.
Import ListNotations.
Open Scope string_scope.
Open Scope list_scope.

(** The derived [Deserialize] and [Serialize] of one type, as modelled in [Serde.v]. *)
Inductive implementation := Impl : forall A : Type, (json -> option A) -> (A -> json) -> implementation.
Arguments Impl {A}.

(** By the name of the type, in the order of [declarations]. *)
Definition implementations : list (string * implementation) := [
   ("AppdxTable", Impl (de KAppdxTable) (ser KAppdxTable));
   ("AppdxTableContents", Impl (de_at de) (ser_at ser));
   ("AppdxNote", Impl (de KAppdxNote) (ser KAppdxNote));
   ("AppdxNoteContents", Impl (de_an de) (ser_an ser));
   ("AppdxStyle", Impl (de KAppdxStyle) (ser KAppdxStyle));
   ("AppdxFormat", Impl (de KAppdxFormat) (ser KAppdxFormat));
   ("Appdx", Impl (de KAppdx) (ser KAppdx));
   ("AppdxFig", Impl (de KAppdxFig) (ser KAppdxFig));
   ("AppdxFigContents", Impl (de_af de) (ser_af ser));
   ("Part", Impl (de KPart) (ser KPart));
   ("PartContents", Impl (de_pc de) (ser_pc ser));
   ("Chapter", Impl (de KChapter) (ser KChapter));
   ("ChapterContents", Impl (de_chc de) (ser_chc ser));
   ("Section", Impl (de KSection) (ser KSection));
   ("SectionContents", Impl (de_sec de) (ser_sec ser));
   ("Subsection", Impl (de KSubsection) (ser KSubsection));
   ("SubsectionContents", Impl (de_suc de) (ser_suc ser));
   ("Division", Impl (de KDivision) (ser KDivision));
   ("Article", Impl (de KArticle) (ser KArticle));
   ("ArticleNumber", Impl de_AN ser_AN);
   ("ItemNumber", Impl de_item_number ser_item_number);
   ("ItemPattern", Impl de_pattern ser_pattern);
   ("Class", Impl (de KClass) (ser KClass));
   ("SentenceOrColumnOrTable", Impl (de_sct de) (ser_sct ser));
   ("Caption", Impl (de_caption de) (ser_caption ser));
   ("Column", Impl (de KColumn) (ser KColumn));
   ("Align", Impl de_align ser_align);
   ("Contents", Impl (de (KCont CArith)) (ser (KCont CArith)));
   ("ContentsElement", Impl (de_ce de) (ser_ce ser));
   ("Style", Impl (de (KCont CStyle)) (ser (KCont CStyle)));
   ("Note", Impl (de (KCont CNote)) (ser (KCont CNote)));
   ("Format", Impl (de (KCont CFormat)) (ser (KCont CFormat)));
   ("ArithFormula", Impl (de_arith de) (ser_arith ser));
   ("Fig", Impl de_fig ser_fig);
   ("Law", Impl de_law ser_law);
   ("Era", Impl de_era ser_era);
   ("LawType", Impl de_law_type ser_law_type);
   ("Lang", Impl de_lang ser_lang);
   ("LawBody", Impl (de KLawBody) (ser KLawBody));
   ("LawTitle", Impl (de KLawTitle) (ser KLawTitle));
   ("Preamble", Impl (de KPreamble) (ser KPreamble));
   ("MainProvision", Impl (de KMain) (ser KMain));
   ("MainProvisionContents", Impl (de_mc de) (ser_mc ser));
   ("AmendProvision", Impl (de KAmend) (ser KAmend));
   ("NewProvision", Impl (de_np de) (ser_np ser));
   ("Line", Impl (de KLine) (ser KLine));
   ("LineContents", Impl (de_lc de) (ser_lc ser));
   ("LineStyle", Impl de_linestyle ser_linestyle);
   ("List", Impl (de (KList List0)) (ser (KList List0)));
   ("ListSentence", Impl (de_ls de) (ser_ls ser));
   ("Sublist1", Impl (de (KList Sublist1)) (ser (KList Sublist1)));
   ("Sublist2", Impl (de (KList Sublist2)) (ser (KList Sublist2)));
   ("Sublist3", Impl (de (KList Sublist3)) (ser (KList Sublist3)));
   ("Paragraph", Impl (de KParagraph) (ser KParagraph));
   ("Item", Impl (de (KItem Item0)) (ser (KItem Item0)));
   ("Subitem1", Impl (de (KItem Sub1)) (ser (KItem Sub1)));
   ("Subitem2", Impl (de (KItem Sub2)) (ser (KItem Sub2)));
   ("Subitem3", Impl (de (KItem Sub3)) (ser (KItem Sub3)));
   ("Subitem4", Impl (de (KItem Sub4)) (ser (KItem Sub4)));
   ("Subitem5", Impl (de (KItem Sub5)) (ser (KItem Sub5)));
   ("Subitem6", Impl (de (KItem Sub6)) (ser (KItem Sub6)));
   ("Subitem7", Impl (de (KItem Sub7)) (ser (KItem Sub7)));
   ("Subitem8", Impl (de (KItem Sub8)) (ser (KItem Sub8)));
   ("Subitem9", Impl (de (KItem Sub9)) (ser (KItem Sub9)));
   ("Subitem10", Impl (de (KItem Sub10)) (ser (KItem Sub10)));
   ("Remarks", Impl (de KRemarks) (ser KRemarks));
   ("RemarksLabel", Impl (de_rlabel de) (ser_rlabel ser));
   ("RemarksContents", Impl (de_rc de) (ser_rc ser));
   ("Sentence", Impl (de KSentence) (ser KSentence));
   ("SentenceElement", Impl (de_se de) (ser_se ser));
   ("SentenceFunction", Impl de_function ser_function);
   ("SentenceIndent", Impl de_indent ser_indent);
   ("Struct", Impl (de_struct de) (ser_struct ser));
   ("QuoteStruct", Impl (de (KCont CQuote)) (ser (KCont CQuote)));
   ("NoteStruct", Impl (de (KCStruct SNote)) (ser (KCStruct SNote)));
   ("StyleStruct", Impl (de (KCStruct SStyle)) (ser (KCStruct SStyle)));
   ("FormatStruct", Impl (de (KCStruct SFormat)) (ser (KCStruct SFormat)));
   ("FigStruct", Impl (de KFigStruct) (ser KFigStruct));
   ("TableStruct", Impl (de KTableStruct) (ser KTableStruct));
   ("SupplProvision", Impl (de KSuppl) (ser KSuppl));
   ("SupplProvisionChildrenElement", Impl (de_sp de) (ser_sp ser));
   ("SupplProvisionType", Impl de_suppl_type ser_suppl_type);
   ("SupplProvisionAppdxTable", Impl (de KSupplTable) (ser KSupplTable));
   ("SupplProvisionAppdxStyle", Impl (de KSupplStyle) (ser KSupplStyle));
   ("SupplProvisionAppdx", Impl (de KSupplAppdx) (ser KSupplAppdx));
   ("Table", Impl (de KTable) (ser KTable));
   ("TableHeaderRow", Impl (de_header de) (ser_header ser));
   ("TableRow", Impl (de KTableRow) (ser KTableRow));
   ("TableColumn", Impl (de KTableColumn) (ser KTableColumn));
   ("TableColumnContents", Impl (de_tc de) (ser_tc ser));
   ("Position", Impl de_position ser_position);
   ("TOC", Impl (de KTOC) (ser KTOC));
   ("TOCMainContents", Impl (de_tm de) (ser_tm ser));
   ("TOCPart", Impl (de KTOCPart) (ser KTOCPart));
   ("TOCChapter", Impl (de KTOCChapter) (ser KTOCChapter));
   ("TOCSection", Impl (de KTOCSection) (ser KTOCSection));
   ("TOCSectionContents", Impl (de_tsc de) (ser_tsc ser));
   ("TOCSubsection", Impl (de KTOCSubsection) (ser KTOCSubsection));
   ("TOCDivision", Impl (de KTOCDivision) (ser KTOCDivision));
   ("TOCArticle", Impl (de KTOCArticle) (ser KTOCArticle));
   ("TOCSupplProvision", Impl (de KTOCSuppl) (ser KTOCSuppl));
   ("TOCSupplProvisionContents", Impl (de_tsp de) (ser_tsp ser));
   ("Text", Impl (de_text de) (ser_text ser));
   ("WritingMode", Impl de_mode ser_mode);
   ("TextWithWritingMode", Impl (de_twm de) (ser_twm ser));
   ("TextElement", Impl (de_te de) (ser_te ser));
   ("Ruby", Impl (de KRuby) (ser KRuby));
   ("Sup", Impl de_sup ser_sup);
   ("Sub", Impl de_sup ser_sup);
   ("TextIndex", Impl de_index ser_index)].

Definition table_ok (m : nat) (e : string * implementation) : Prop :=
  match snd e with Impl d s => ok m d s (TRef (fst e)) end.

Lemma all_ok : forall m, Forall (table_ok m) implementations.
Proof.
  intros m.
  apply Forall_cons; [exact (ok_de m KAppdxTable)|].
  apply Forall_cons; [exact (ok_at m de (ok_de m))|].
  apply Forall_cons; [exact (ok_de m KAppdxNote)|].
  apply Forall_cons; [exact (ok_an m de (ok_de m))|].
  apply Forall_cons; [exact (ok_de m KAppdxStyle)|].
  apply Forall_cons; [exact (ok_de m KAppdxFormat)|].
  apply Forall_cons; [exact (ok_de m KAppdx)|].
  apply Forall_cons; [exact (ok_de m KAppdxFig)|].
  apply Forall_cons; [exact (ok_af m de (ok_de m))|].
  apply Forall_cons; [exact (ok_de m KPart)|].
  apply Forall_cons; [exact (ok_pc m de (ok_de m))|].
  apply Forall_cons; [exact (ok_de m KChapter)|].
  apply Forall_cons; [exact (ok_chc m de (ok_de m))|].
  apply Forall_cons; [exact (ok_de m KSection)|].
  apply Forall_cons; [exact (ok_sec m de (ok_de m))|].
  apply Forall_cons; [exact (ok_de m KSubsection)|].
  apply Forall_cons; [exact (ok_suc m de (ok_de m))|].
  apply Forall_cons; [exact (ok_de m KDivision)|].
  apply Forall_cons; [exact (ok_de m KArticle)|].
  apply Forall_cons; [exact (ok_AN m)|].
  apply Forall_cons; [exact (ok_item_number m)|].
  apply Forall_cons; [exact (ok_pattern m)|].
  apply Forall_cons; [exact (ok_de m KClass)|].
  apply Forall_cons; [exact (ok_sct m de (ok_de m))|].
  apply Forall_cons; [exact (ok_caption m de (ok_de m))|].
  apply Forall_cons; [exact (ok_de m KColumn)|].
  apply Forall_cons; [exact (ok_align m)|].
  apply Forall_cons; [exact (ok_de m (KCont CArith))|].
  apply Forall_cons; [exact (ok_ce m de (ok_de m))|].
  apply Forall_cons; [exact (ok_de m (KCont CStyle))|].
  apply Forall_cons; [exact (ok_de m (KCont CNote))|].
  apply Forall_cons; [exact (ok_de m (KCont CFormat))|].
  apply Forall_cons; [exact (ok_arith m de (ok_de m))|].
  apply Forall_cons; [exact (ok_fig m)|].
  apply Forall_cons; [exact (ok_law m)|].
  apply Forall_cons; [exact (ok_era m)|].
  apply Forall_cons; [exact (ok_law_type m)|].
  apply Forall_cons; [exact (ok_lang m)|].
  apply Forall_cons; [exact (ok_de m KLawBody)|].
  apply Forall_cons; [exact (ok_de m KLawTitle)|].
  apply Forall_cons; [exact (ok_de m KPreamble)|].
  apply Forall_cons; [exact (ok_de m KMain)|].
  apply Forall_cons; [exact (ok_mc m de (ok_de m))|].
  apply Forall_cons; [exact (ok_de m KAmend)|].
  apply Forall_cons; [exact (ok_np m de (ok_de m))|].
  apply Forall_cons; [exact (ok_de m KLine)|].
  apply Forall_cons; [exact (ok_lc m de (ok_de m))|].
  apply Forall_cons; [exact (ok_linestyle m)|].
  apply Forall_cons; [exact (ok_de m (KList List0))|].
  apply Forall_cons; [exact (ok_ls m de (ok_de m))|].
  apply Forall_cons; [exact (ok_de m (KList Sublist1))|].
  apply Forall_cons; [exact (ok_de m (KList Sublist2))|].
  apply Forall_cons; [exact (ok_de m (KList Sublist3))|].
  apply Forall_cons; [exact (ok_de m KParagraph)|].
  apply Forall_cons; [exact (ok_de m (KItem Item0))|].
  apply Forall_cons; [exact (ok_de m (KItem Sub1))|].
  apply Forall_cons; [exact (ok_de m (KItem Sub2))|].
  apply Forall_cons; [exact (ok_de m (KItem Sub3))|].
  apply Forall_cons; [exact (ok_de m (KItem Sub4))|].
  apply Forall_cons; [exact (ok_de m (KItem Sub5))|].
  apply Forall_cons; [exact (ok_de m (KItem Sub6))|].
  apply Forall_cons; [exact (ok_de m (KItem Sub7))|].
  apply Forall_cons; [exact (ok_de m (KItem Sub8))|].
  apply Forall_cons; [exact (ok_de m (KItem Sub9))|].
  apply Forall_cons; [exact (ok_de m (KItem Sub10))|].
  apply Forall_cons; [exact (ok_de m KRemarks)|].
  apply Forall_cons; [exact (ok_rlabel m de (ok_de m))|].
  apply Forall_cons; [exact (ok_rc m de (ok_de m))|].
  apply Forall_cons; [exact (ok_de m KSentence)|].
  apply Forall_cons; [exact (ok_se m de (ok_de m))|].
  apply Forall_cons; [exact (ok_function m)|].
  apply Forall_cons; [exact (ok_indent m)|].
  apply Forall_cons; [exact (ok_struct m de (ok_de m))|].
  apply Forall_cons; [exact (ok_de m (KCont CQuote))|].
  apply Forall_cons; [exact (ok_de m (KCStruct SNote))|].
  apply Forall_cons; [exact (ok_de m (KCStruct SStyle))|].
  apply Forall_cons; [exact (ok_de m (KCStruct SFormat))|].
  apply Forall_cons; [exact (ok_de m KFigStruct)|].
  apply Forall_cons; [exact (ok_de m KTableStruct)|].
  apply Forall_cons; [exact (ok_de m KSuppl)|].
  apply Forall_cons; [exact (ok_sp m de (ok_de m))|].
  apply Forall_cons; [exact (ok_suppl_type m)|].
  apply Forall_cons; [exact (ok_de m KSupplTable)|].
  apply Forall_cons; [exact (ok_de m KSupplStyle)|].
  apply Forall_cons; [exact (ok_de m KSupplAppdx)|].
  apply Forall_cons; [exact (ok_de m KTable)|].
  apply Forall_cons; [exact (ok_header m de (ok_de m))|].
  apply Forall_cons; [exact (ok_de m KTableRow)|].
  apply Forall_cons; [exact (ok_de m KTableColumn)|].
  apply Forall_cons; [exact (ok_tc m de (ok_de m))|].
  apply Forall_cons; [exact (ok_position m)|].
  apply Forall_cons; [exact (ok_de m KTOC)|].
  apply Forall_cons; [exact (ok_tm m de (ok_de m))|].
  apply Forall_cons; [exact (ok_de m KTOCPart)|].
  apply Forall_cons; [exact (ok_de m KTOCChapter)|].
  apply Forall_cons; [exact (ok_de m KTOCSection)|].
  apply Forall_cons; [exact (ok_tsc m de (ok_de m))|].
  apply Forall_cons; [exact (ok_de m KTOCSubsection)|].
  apply Forall_cons; [exact (ok_de m KTOCDivision)|].
  apply Forall_cons; [exact (ok_de m KTOCArticle)|].
  apply Forall_cons; [exact (ok_de m KTOCSuppl)|].
  apply Forall_cons; [exact (ok_tsp m de (ok_de m))|].
  apply Forall_cons; [exact (ok_text m de (ok_de m))|].
  apply Forall_cons; [exact (ok_mode m)|].
  apply Forall_cons; [exact (ok_twm m de (ok_de m))|].
  apply Forall_cons; [exact (ok_te m de (ok_de m))|].
  apply Forall_cons; [exact (ok_de m KRuby)|].
  apply Forall_cons; [exact (ok_sup m)|].
  apply Forall_cons; [exact (ok_sub m)|].
  apply Forall_cons; [exact (ok_index m)|].
  apply Forall_nil.
Qed.

Theorem table_names : map fst implementations = map fst declarations.
Proof. reflexivity. Qed.

Theorem table_back : forall n A (d : json -> option A) s, In (n, Impl d s) implementations ->
  forall x, d (s x) = Some x.
Proof.
  intros n A d s I x. pose proof (proj1 (Forall_forall _ _) (all_ok (depth (s x))) _ I) as (_ & Hb & _).
  apply Hb. lia.
Qed.
Theorem table_form : forall n A (d : json -> option A) s, In (n, Impl d s) implementations ->
  forall j, option_map s (d j) = form (TRef n) j.
Proof.
  intros n A d s I j. pose proof (proj1 (Forall_forall _ _) (all_ok (depth j)) _ I) as (Ha & _).
  apply Ha. lia.
Qed.
Theorem table_written : forall n A (d : json -> option A) s, In (n, Impl d s) implementations ->
  forall j, form (TRef n) j = Some j <-> exists x, j = s x.
Proof.
  intros n A d s I j. rewrite <- (table_form n A d s I). split.
  - destruct (d j) as [x|]; [|discriminate]. intros [= E]. exists x. symmetry. exact E.
  - intros (x & ->). rewrite (table_back n A d s I). reflexivity.
Qed.
Theorem table_same : forall n A (d : json -> option A) s, In (n, Impl d s) implementations ->
  forall j j', form (TRef n) j = form (TRef n) j' <-> d j = d j'.
Proof.
  intros n A d s I j j'. rewrite <- !(table_form n A d s I). split; [|intros ->; reflexivity].
  pose proof (table_back n A d s I) as B.
  destruct (d j) as [x|], (d j') as [y|]; try discriminate; [|reflexivity]. intros [= E].
  apply (f_equal d) in E. rewrite !B in E. exact E.
Qed.
Theorem table_reordered : forall n A (d : json -> option A) s, In (n, Impl d s) implementations ->
  forall j j', reordered j j' -> d j = d j'.
Proof. intros n A d s I j j' H. apply (table_same n A d s I). apply form_reordered. exact H. Qed.
Theorem table_pruned : forall n A (d : json -> option A) s, In (n, Impl d s) implementations ->
  forall j x, d j = Some x -> d (pruned j) = Some x.
Proof.
  intros n A d s I j x H. rewrite <- H. symmetry. apply (table_same n A d s I).
  pose proof (table_form n A d s I j) as E. rewrite H in E. cbn in E. rewrite <- E. symmetry.
  apply form_pruned. symmetry. exact E.
Qed.
Theorem table_sparse : forall n A (d : json -> option A) s, In (n, Impl d s) implementations ->
  forall x, d (sparse (s x)) = Some x.
Proof.
  intros n A d s I x. rewrite <- (table_back n A d s I x). apply (table_same n A d s I).
  assert (E : form (TRef n) (s x) = Some (s x)) by (apply (table_written n A d s I); exists x; reflexivity).
  rewrite E. apply form_sparse. exact E.
Qed.

Lemma law_in : In ("Law", Impl de_law ser_law) implementations.
Proof. unfold implementations. repeat (first [left; reflexivity|right]). Qed.
