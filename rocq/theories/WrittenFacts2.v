(** The content of every kind of element. *)
From Coq Require Import String Ascii List NArith Bool Lia Arith.
From Verif Require Import Base BaseFacts NumStr NumStrSpec NumStrFacts Xml Ast XmlWrite WrittenSpec XmlParse XmlSpec XmlSim
  KnotFacts WrittenFacts.
Import ListNotations.
Open Scope string_scope.
Open Scope list_scope.

Section Kinds.
Context (h : nat) (W : kind -> Element -> Prop).
Context (HW : forall k c, height c < h -> (W k c <-> exists v, alike c (write k v))).

Lemma img_surj : forall X Y m (g : X -> list XMLNode) (k : Y -> list XMLNode), img h W m g ->
  (forall y, exists x, k y = g x) -> (forall x, exists y, g x = k y) -> img h W m k.
Proof.
  intros X Y m g k Hg H1 H2 l Hl. rewrite (Hg l Hl). split.
  - intros [x Hx]. destruct (H2 x) as [y Hy]. exists y. rewrite <- Hy. exact Hx.
  - intros [y Hy]. destruct (H1 y) as [x Hx]. exists x. rewrite <- Hx. exact Hy.
Qed.

(** ** Leaves *)
Ltac vals := first [exact v_flag | exact v_mode | exact v_any | exact v_must
  | exact (v_perhaps _ _ _ decimal_iff) | exact (v_always _ _ _ decimal_iff)
  | exact (v_perhaps _ _ _ numeral_iff) | exact (v_always _ _ _ numeral_iff)
  | exact (v_perhaps _ _ _ v_truth) | exact (v_always _ _ _ v_truth) | exact (v_always _ _ _ v_style)
  | exact (v_perhaps _ _ _ v_function) | exact (v_perhaps _ _ _ v_indent) | exact (v_perhaps _ _ _ v_align)
  | exact (v_perhaps _ _ _ v_type) | exact (v_always _ _ _ v_era) | exact (v_always _ _ _ v_law_type)
  | exact (v_always _ _ _ v_lang)].
Ltac ats := apply ai_rev; unfold always, perhaps, mode, numbered; cbn [rev app];
  repeat (eapply ai_cons; [vals|cbn; intuition discriminate|]); exact ai_nil.
Ltac each := intros a b;
  repeat match goal with p : (_ * _)%type |- _ => destruct p | u : unit |- _ => destruct u | x : bool |- _ => destruct x end;
  reflexivity.
Lemma img_sub : img h W sub (fun s => [NElement (write_sub s)]).
Proof. apply img_leaf. apply (shape_plain h W _ _ _ _ _ (img_chars h W)). reflexivity. Qed.
Lemma img_sup : img h W sup (fun s => [NElement (write_sup s)]).
Proof. apply img_leaf. apply (shape_plain h W _ _ _ _ _ (img_chars h W)). reflexivity. Qed.
Lemma img_figure : img h W figure (fun s => [NElement (write_fig s)]).
Proof.
  apply img_leaf. eapply (shape_mk h W _ _ _ _ _ _ _ (fun a _ => fst a)); [ats|exact (img_empty h W)|each|].
  intros s. eexists (_, tt), tt. reflexivity.
Qed.
Ltac atom := first [exact (img_of h W HW _) | exact (img_chars h W) | exact img_sub | exact img_sup | exact img_figure].
Ltac cover1 := first [left; eexists; reflexivity | right; cover1].
Ltac cover := first [cover1 | match goal with l : lvl |- _ => destruct l; cover1 | s : sname |- _ => destruct s; cover1 end].

Lemma img_formula : img h W formula (fun a => [NElement (write_arith write a)]).
Proof.
  apply (img_surj _ _ _ _ _ (img_of h W HW (KCont CArith))).
  - intros [n y]. exists y. reflexivity.
  - intros y. exists (mkArith None y). reflexivity.
Qed.

Lemma img_piece : img h W (Either [Chars; Of KRuby; Of KLine; sub; sup]) (fun x => [write_text_node write x]).
Proof.
  eapply img_alts.
  - cbn [map app contents items cell provision inline].
    eapply (alts_cons h W _ _ (@TE_Text Knot)); [atom|].
    eapply (alts_cons h W _ _ (@TE_Ruby Knot)); [atom|].
    eapply (alts_cons h W _ _ (@TE_Line Knot)); [atom|].
    eapply (alts_cons h W _ _ (@TE_Sub Knot)); [atom|].
    eapply (alts_cons h W _ _ (@TE_Sup Knot)); [atom|].
    apply alts_nil.
  - intros x. destruct x; cover.
Qed.
Lemma img_inline : img h W (Either inline) (fun x => [write_line_node write x]).
Proof.
  eapply img_alts.
  - cbn [map app contents items cell provision inline].
    eapply (alts_cons h W _ _ (@LC_Quote Knot)); [atom|].
    eapply (alts_cons h W _ _ (fun y => @LC_Arith Knot (mkArith None y))); [atom|].
    eapply (alts_cons h W _ _ (@LC_Ruby Knot)); [atom|].
    eapply (alts_cons h W _ _ (@LC_Sup Knot)); [atom|].
    eapply (alts_cons h W _ _ (@LC_Sub Knot)); [atom|].
    eapply (alts_cons h W _ _ (@LC_String Knot)); [atom|].
    apply alts_nil.
  - intros x. destruct x; cover.
Qed.
Lemma img_line_inline : img h W (Either (Of KLine :: inline)) (fun x => [write_sentence_node write x]).
Proof.
  eapply img_alts.
  - cbn [map app contents items cell provision inline].
    eapply (alts_cons h W _ _ (@SE_Line Knot)); [atom|].
    eapply (alts_cons h W _ _ (@SE_Quote Knot)); [atom|].
    eapply (alts_cons h W _ _ (fun y => @SE_Arith Knot (mkArith None y))); [atom|].
    eapply (alts_cons h W _ _ (@SE_Ruby Knot)); [atom|].
    eapply (alts_cons h W _ _ (@SE_Sup Knot)); [atom|].
    eapply (alts_cons h W _ _ (@SE_Sub Knot)); [atom|].
    eapply (alts_cons h W _ _ (@SE_String Knot)); [atom|].
    apply alts_nil.
  - intros x. destruct x; cover.
Qed.
Lemma img_contents : img h W (Either contents) (fun x => [write_contents_node write x]).
Proof.
  eapply img_alts.
  - cbn [map app contents items cell provision inline].
    eapply (alts_cons h W _ _ (@CE_Table Knot)); [atom|].
    eapply (alts_cons h W _ _ (@CE_TableStruct Knot)); [atom|].
    eapply (alts_cons h W _ _ (@CE_FigStruct Knot)); [atom|].
    eapply (alts_cons h W _ _ (@CE_Quote Knot)); [atom|].
    eapply (alts_cons h W _ _ (@CE_NoteStruct Knot)); [atom|].
    eapply (alts_cons h W _ _ (@CE_StyleStruct Knot)); [atom|].
    eapply (alts_cons h W _ _ (@CE_AppdxTable Knot)); [atom|].
    eapply (alts_cons h W _ _ (@CE_Ruby Knot)); [atom|].
    eapply (alts_cons h W _ _ (@CE_Line Knot)); [atom|].
    eapply (alts_cons h W _ _ (@CE_Paragraph Knot)); [atom|].
    eapply (alts_cons h W _ _ (@CE_List Knot)); [atom|].
    eapply (alts_cons h W _ _ (@CE_Sentence Knot)); [atom|].
    eapply (alts_cons h W _ _ (@CE_Remarks Knot)); [atom|].
    eapply (alts_cons h W _ _ (@CE_TOC Knot)); [atom|].
    eapply (alts_cons h W _ _ (@CE_TOCSection Knot)); [atom|].
    eapply (alts_cons h W _ _ (@CE_TableRow Knot)); [atom|].
    eapply (alts_cons h W _ _ (@CE_Fig Knot)); [atom|].
    eapply (alts_cons h W _ _ (@CE_Sup Knot)); [atom|].
    eapply (alts_cons h W _ _ (@CE_Sub Knot)); [atom|].
    eapply (alts_cons h W _ _ (@CE_String Knot)); [atom|].
    eapply (alts_cons h W _ _ (fun y => @CE_Arith Knot (mkArith None y))); [atom|].
    eapply (alts_cons h W _ _ (@CE_Item Knot Item0)); [atom|].
    eapply (alts_cons h W _ _ (@CE_Item Knot Sub1)); [atom|].
    eapply (alts_cons h W _ _ (@CE_Item Knot Sub2)); [atom|].
    eapply (alts_cons h W _ _ (@CE_Item Knot Sub3)); [atom|].
    eapply (alts_cons h W _ _ (@CE_Item Knot Sub4)); [atom|].
    eapply (alts_cons h W _ _ (@CE_Item Knot Sub5)); [atom|].
    eapply (alts_cons h W _ _ (@CE_Item Knot Sub6)); [atom|].
    eapply (alts_cons h W _ _ (@CE_Item Knot Sub7)); [atom|].
    eapply (alts_cons h W _ _ (@CE_Item Knot Sub8)); [atom|].
    eapply (alts_cons h W _ _ (@CE_Item Knot Sub9)); [atom|].
    eapply (alts_cons h W _ _ (@CE_Item Knot Sub10)); [atom|].
    apply alts_nil.
  - intros x. destruct x; cover.
Qed.
Lemma img_cell : img h W (Either cell) (fun x => [write_cell_node write x]).
Proof.
  eapply img_alts.
  - cbn [map app contents items cell provision inline].
    eapply (alts_cons h W _ _ (@TC_Part Knot)); [atom|].
    eapply (alts_cons h W _ _ (@TC_Chapter Knot)); [atom|].
    eapply (alts_cons h W _ _ (@TC_Section Knot)); [atom|].
    eapply (alts_cons h W _ _ (@TC_Subsection Knot)); [atom|].
    eapply (alts_cons h W _ _ (@TC_Division Knot)); [atom|].
    eapply (alts_cons h W _ _ (@TC_Article Knot)); [atom|].
    eapply (alts_cons h W _ _ (@TC_Paragraph Knot)); [atom|].
    eapply (alts_cons h W _ _ (@TC_FigStruct Knot)); [atom|].
    eapply (alts_cons h W _ _ (@TC_Remarks Knot)); [atom|].
    eapply (alts_cons h W _ _ (@TC_Sentence Knot)); [atom|].
    eapply (alts_cons h W _ _ (@TC_Column Knot)); [atom|].
    eapply (alts_cons h W _ _ (@TC_String Knot)); [atom|].
    eapply (alts_cons h W _ _ (@TC_Item Knot Item0)); [atom|].
    eapply (alts_cons h W _ _ (@TC_Item Knot Sub1)); [atom|].
    eapply (alts_cons h W _ _ (@TC_Item Knot Sub2)); [atom|].
    eapply (alts_cons h W _ _ (@TC_Item Knot Sub3)); [atom|].
    eapply (alts_cons h W _ _ (@TC_Item Knot Sub4)); [atom|].
    eapply (alts_cons h W _ _ (@TC_Item Knot Sub5)); [atom|].
    eapply (alts_cons h W _ _ (@TC_Item Knot Sub6)); [atom|].
    eapply (alts_cons h W _ _ (@TC_Item Knot Sub7)); [atom|].
    eapply (alts_cons h W _ _ (@TC_Item Knot Sub8)); [atom|].
    eapply (alts_cons h W _ _ (@TC_Item Knot Sub9)); [atom|].
    eapply (alts_cons h W _ _ (@TC_Item Knot Sub10)); [atom|].
    apply alts_nil.
  - intros x. destruct x; cover.
Qed.

(** ** Titles *)
Lemma img_words : img h W words (write_text_nodes write).
Proof. exact (img_many h W _ _ _ img_piece). Qed.
Lemma img_title : forall t, img h W (title t) (fun x => [NElement (write_text write t x)]).
Proof. intros t. apply img_leaf. apply (shape_plain h W _ _ _ _ _ img_words). reflexivity. Qed.
Lemma img_title_with_mode : forall t, img h W (title_with_mode t) (fun x => [NElement (write_twm write t x)]).
Proof.
  intros t. apply img_leaf. eapply (shape_mk h W _ _ _ _ _ _ _ (fun a b => mkTWM b (fst a))); [ats|exact img_words|each|].
  intros []. eexists (_, tt), _. reflexivity.
Qed.
Lemma img_caption : forall t, img h W (caption t) (fun x => [NElement (write_caption write t x)]).
Proof.
  intros t. apply img_leaf. eapply (shape_mk h W _ _ _ _ _ _ _ (fun a b => mkCaption b (fst a))); [ats|exact img_words|each|].
  intros []. eexists (_, tt), _. reflexivity.
Qed.
Lemma img_sentences : forall t, img h W (sentences t) (fun l => [NElement (mkElement t [] (els (write KSentence) l))]).
Proof. intros t. apply img_leaf. eapply shape_plain; [apply img_els; atom|]. reflexivity. Qed.
Lemma img_sct_body : img h W (Either [Many (Of KSentence); Many (Of KColumn); Of KTable]) (fun s => match s with SCT_Sentence l => els (write KSentence) l | SCT_Column l => els (write KColumn) l | SCT_Table t => [NElement (write KTable t)] end).
Proof.
  eapply img_alts.
  - cbn [map app contents items cell provision inline].
    eapply (alts_cons h W _ _ (@SCT_Sentence Knot)); [first [atom|apply img_els; atom]|].
    eapply (alts_cons h W _ _ (@SCT_Column Knot)); [first [atom|apply img_els; atom]|].
    eapply (alts_cons h W _ _ (@SCT_Table Knot)); [first [atom|apply img_els; atom]|].
    apply alts_nil.
  - intros x. destruct x; cover.
Qed.
Lemma img_sct : forall t, img h W (sentences_or_columns_or_table t) (fun x => [NElement (write_sct write t x)]).
Proof. intros t. apply img_leaf. eapply shape_plain; [exact img_sct_body|]. reflexivity. Qed.

(** ** Alternatives of one kind each *)
Lemma img_struct_any : img h W (Either [Of KTableStruct; Of KFigStruct; Of (KCStruct SStyle); Of (KList List0)]) (fun x => [(fun c => NElement (write_struct_any write c)) x]).
Proof.
  eapply img_alts.
  - cbn [map app contents items cell provision inline].
    eapply (alts_cons h W _ _ (@Struct_Table Knot)); [atom|].
    eapply (alts_cons h W _ _ (@Struct_Fig Knot)); [atom|].
    eapply (alts_cons h W _ _ (@Struct_Style Knot)); [atom|].
    eapply (alts_cons h W _ _ (@Struct_List Knot)); [atom|].
    apply alts_nil.
  - intros x. destruct x; cover.
Qed.
Lemma img_remarks_node : img h W (Either [Of (KItem Item0); Of KSentence]) (fun x => [(fun c => NElement (write_remarks_node write c)) x]).
Proof.
  eapply img_alts.
  - cbn [map app contents items cell provision inline].
    eapply (alts_cons h W _ _ (@RC_Item Knot)); [atom|].
    eapply (alts_cons h W _ _ (@RC_Sentence Knot)); [atom|].
    apply alts_nil.
  - intros x. destruct x; cover.
Qed.
Lemma img_list_sentence : img h W (Either [Of KSentence; Of KColumn]) (fun x => [(fun c => NElement (write_list_sentence write c)) x]).
Proof.
  eapply img_alts.
  - cbn [map app contents items cell provision inline].
    eapply (alts_cons h W _ _ (@LS_Sentence Knot)); [atom|].
    eapply (alts_cons h W _ _ (@LS_Column Knot)); [atom|].
    apply alts_nil.
  - intros x. destruct x; cover.
Qed.
Lemma img_part_node : img h W (Either [Of KArticle; Of KChapter]) (fun x => [(fun c => NElement (write_part_node write c)) x]).
Proof.
  eapply img_alts.
  - cbn [map app contents items cell provision inline].
    eapply (alts_cons h W _ _ (@PC_Article Knot)); [atom|].
    eapply (alts_cons h W _ _ (@PC_Chapter Knot)); [atom|].
    apply alts_nil.
  - intros x. destruct x; cover.
Qed.
Lemma img_chapter_node : img h W (Either [Of KArticle; Of KSection]) (fun x => [(fun c => NElement (write_chapter_node write c)) x]).
Proof.
  eapply img_alts.
  - cbn [map app contents items cell provision inline].
    eapply (alts_cons h W _ _ (@ChC_Article Knot)); [atom|].
    eapply (alts_cons h W _ _ (@ChC_Section Knot)); [atom|].
    apply alts_nil.
  - intros x. destruct x; cover.
Qed.
Lemma img_section_node : img h W (Either [Of KArticle; Of KSubsection; Of KDivision]) (fun x => [(fun c => NElement (write_section_node write c)) x]).
Proof.
  eapply img_alts.
  - cbn [map app contents items cell provision inline].
    eapply (alts_cons h W _ _ (@SeC_Article Knot)); [atom|].
    eapply (alts_cons h W _ _ (@SeC_Subsection Knot)); [atom|].
    eapply (alts_cons h W _ _ (@SeC_Division Knot)); [atom|].
    apply alts_nil.
  - intros x. destruct x; cover.
Qed.
Lemma img_subsection_node : img h W (Either [Of KArticle; Of KDivision]) (fun x => [(fun c => NElement (write_subsection_node write c)) x]).
Proof.
  eapply img_alts.
  - cbn [map app contents items cell provision inline].
    eapply (alts_cons h W _ _ (@SuC_Article Knot)); [atom|].
    eapply (alts_cons h W _ _ (@SuC_Division Knot)); [atom|].
    apply alts_nil.
  - intros x. destruct x; cover.
Qed.
Lemma img_main_node : img h W (Either [Of KPart; Of KChapter; Of KSection; Of KArticle; Of KParagraph]) (fun x => [(fun c => NElement (write_main_node write c)) x]).
Proof.
  eapply img_alts.
  - cbn [map app contents items cell provision inline].
    eapply (alts_cons h W _ _ (@MC_Part Knot)); [atom|].
    eapply (alts_cons h W _ _ (@MC_Chapter Knot)); [atom|].
    eapply (alts_cons h W _ _ (@MC_Section Knot)); [atom|].
    eapply (alts_cons h W _ _ (@MC_Article Knot)); [atom|].
    eapply (alts_cons h W _ _ (@MC_Paragraph Knot)); [atom|].
    apply alts_nil.
  - intros x. destruct x; cover.
Qed.
Lemma img_suppl_node : img h W (Either [Of KChapter; Of KArticle; Of KParagraph; Of KSupplTable; Of KSupplStyle; Of KSupplAppdx]) (fun x => [(fun c => NElement (write_suppl_node write c)) x]).
Proof.
  eapply img_alts.
  - cbn [map app contents items cell provision inline].
    eapply (alts_cons h W _ _ (@SP_Chapter Knot)); [atom|].
    eapply (alts_cons h W _ _ (@SP_Article Knot)); [atom|].
    eapply (alts_cons h W _ _ (@SP_Paragraph Knot)); [atom|].
    eapply (alts_cons h W _ _ (@SP_Table Knot)); [atom|].
    eapply (alts_cons h W _ _ (@SP_Style Knot)); [atom|].
    eapply (alts_cons h W _ _ (@SP_Appdx Knot)); [atom|].
    apply alts_nil.
  - intros x. destruct x; cover.
Qed.
Lemma img_appdx_table_node : img h W (Either [Of KTableStruct; Of (KItem Item0)]) (fun x => [(fun c => NElement (write_appdx_table_node write c)) x]).
Proof.
  eapply img_alts.
  - cbn [map app contents items cell provision inline].
    eapply (alts_cons h W _ _ (@AT_TableStruct Knot)); [atom|].
    eapply (alts_cons h W _ _ (@AT_Item Knot)); [atom|].
    apply alts_nil.
  - intros x. destruct x; cover.
Qed.
Lemma img_appdx_note_node : img h W (Either [Of (KCStruct SNote); Of KFigStruct; Of KTableStruct]) (fun x => [(fun c => NElement (write_appdx_note_node write c)) x]).
Proof.
  eapply img_alts.
  - cbn [map app contents items cell provision inline].
    eapply (alts_cons h W _ _ (@AN_NoteStruct Knot)); [atom|].
    eapply (alts_cons h W _ _ (@AN_FigStruct Knot)); [atom|].
    eapply (alts_cons h W _ _ (@AN_TableStruct Knot)); [atom|].
    apply alts_nil.
  - intros x. destruct x; cover.
Qed.
Lemma img_appdx_fig_node : img h W (Either [Of KFigStruct; Of KTableStruct]) (fun x => [(fun c => NElement (write_appdx_fig_node write c)) x]).
Proof.
  eapply img_alts.
  - cbn [map app contents items cell provision inline].
    eapply (alts_cons h W _ _ (@AF_FigStruct Knot)); [atom|].
    eapply (alts_cons h W _ _ (@AF_TableStruct Knot)); [atom|].
    apply alts_nil.
  - intros x. destruct x; cover.
Qed.
Lemma img_toc_section_node : img h W (Either [Of KTOCSubsection; Of KTOCDivision]) (fun x => [(fun c => NElement (write_toc_section_node write c)) x]).
Proof.
  eapply img_alts.
  - cbn [map app contents items cell provision inline].
    eapply (alts_cons h W _ _ (@TSC_Subsection Knot)); [atom|].
    eapply (alts_cons h W _ _ (@TSC_Division Knot)); [atom|].
    apply alts_nil.
  - intros x. destruct x; cover.
Qed.
Lemma img_toc_suppl_node : img h W (Either [Of KTOCArticle; Of KTOCChapter]) (fun x => [(fun c => NElement (write_toc_suppl_node write c)) x]).
Proof.
  eapply img_alts.
  - cbn [map app contents items cell provision inline].
    eapply (alts_cons h W _ _ (@TSP_Article Knot)); [atom|].
    eapply (alts_cons h W _ _ (@TSP_Chapter Knot)); [atom|].
    apply alts_nil.
  - intros x. destruct x; cover.
Qed.
Lemma img_toc_main_node : img h W (Either [Of KTOCPart; Of KTOCChapter; Of KTOCSection; Of KTOCArticle]) (fun x => [(fun c => NElement (write_toc_main_node write c)) x]).
Proof.
  eapply img_alts.
  - cbn [map app contents items cell provision inline].
    eapply (alts_cons h W _ _ (@TM_Part Knot)); [atom|].
    eapply (alts_cons h W _ _ (@TM_Chapter Knot)); [atom|].
    eapply (alts_cons h W _ _ (@TM_Section Knot)); [atom|].
    eapply (alts_cons h W _ _ (@TM_Article Knot)); [atom|].
    apply alts_nil.
  - intros x. destruct x; cover.
Qed.
Lemma img_provision : img h W (Either provision) (fun x => [(fun c => NElement (write_new_provision write c)) x]).
Proof.
  eapply img_alts.
  - cbn [map app contents items cell provision inline].
    eapply (alts_cons h W _ _ (@NP_LawTitle Knot)); [first [atom|exact (img_title _)]|].
    eapply (alts_cons h W _ _ (@NP_Preamble Knot)); [first [atom|exact (img_title _)]|].
    eapply (alts_cons h W _ _ (@NP_TOC Knot)); [first [atom|exact (img_title _)]|].
    eapply (alts_cons h W _ _ (@NP_Part Knot)); [first [atom|exact (img_title _)]|].
    eapply (alts_cons h W _ _ (@NP_Chapter Knot)); [first [atom|exact (img_title _)]|].
    eapply (alts_cons h W _ _ (@NP_Section Knot)); [first [atom|exact (img_title _)]|].
    eapply (alts_cons h W _ _ (@NP_Subsection Knot)); [first [atom|exact (img_title _)]|].
    eapply (alts_cons h W _ _ (@NP_Division Knot)); [first [atom|exact (img_title _)]|].
    eapply (alts_cons h W _ _ (@NP_Article Knot)); [first [atom|exact (img_title _)]|].
    eapply (alts_cons h W _ _ (@NP_Paragraph Knot)); [first [atom|exact (img_title _)]|].
    eapply (alts_cons h W _ _ (@NP_List Knot)); [first [atom|exact (img_title _)]|].
    eapply (alts_cons h W _ _ (@NP_Sentence Knot)); [first [atom|exact (img_title _)]|].
    eapply (alts_cons h W _ _ (@NP_Amend Knot)); [first [atom|exact (img_title _)]|].
    eapply (alts_cons h W _ _ (@NP_AppdxTable Knot)); [first [atom|exact (img_title _)]|].
    eapply (alts_cons h W _ _ (@NP_AppdxNote Knot)); [first [atom|exact (img_title _)]|].
    eapply (alts_cons h W _ _ (@NP_AppdxStyle Knot)); [first [atom|exact (img_title _)]|].
    eapply (alts_cons h W _ _ (@NP_Appdx Knot)); [first [atom|exact (img_title _)]|].
    eapply (alts_cons h W _ _ (@NP_AppdxFig Knot)); [first [atom|exact (img_title _)]|].
    eapply (alts_cons h W _ _ (@NP_AppdxFormat Knot)); [first [atom|exact (img_title _)]|].
    eapply (alts_cons h W _ _ (@NP_SupplStyle Knot)); [first [atom|exact (img_title _)]|].
    eapply (alts_cons h W _ _ (@NP_SupplTable Knot)); [first [atom|exact (img_title _)]|].
    eapply (alts_cons h W _ _ (@NP_SupplAppdx Knot)); [first [atom|exact (img_title _)]|].
    eapply (alts_cons h W _ _ (@NP_TableStruct Knot)); [first [atom|exact (img_title _)]|].
    eapply (alts_cons h W _ _ (@NP_TableRow Knot)); [first [atom|exact (img_title _)]|].
    eapply (alts_cons h W _ _ (@NP_TableColumn Knot)); [first [atom|exact (img_title _)]|].
    eapply (alts_cons h W _ _ (@NP_FigStruct Knot)); [first [atom|exact (img_title _)]|].
    eapply (alts_cons h W _ _ (@NP_CStruct Knot SNote)); [first [atom|exact (img_title _)]|].
    eapply (alts_cons h W _ _ (@NP_CStruct Knot SStyle)); [first [atom|exact (img_title _)]|].
    eapply (alts_cons h W _ _ (@NP_CStruct Knot SFormat)); [first [atom|exact (img_title _)]|].
    eapply (alts_cons h W _ _ (@NP_Remarks Knot)); [first [atom|exact (img_title _)]|].
    eapply (alts_cons h W _ _ (@NP_LawBody Knot)); [first [atom|exact (img_title _)]|].
    eapply (alts_cons h W _ _ (@NP_PartTitle Knot)); [first [atom|exact (img_title _)]|].
    eapply (alts_cons h W _ _ (@NP_ChapterTitle Knot)); [first [atom|exact (img_title _)]|].
    eapply (alts_cons h W _ _ (@NP_SectionTitle Knot)); [first [atom|exact (img_title _)]|].
    eapply (alts_cons h W _ _ (@NP_SubsectionTitle Knot)); [first [atom|exact (img_title _)]|].
    eapply (alts_cons h W _ _ (@NP_DivisionTitle Knot)); [first [atom|exact (img_title _)]|].
    eapply (alts_cons h W _ _ (@NP_SupplNote Knot)); [first [atom|exact (img_title _)]|].
    eapply (alts_cons h W _ _ (@NP_Item Knot Item0)); [first [atom|exact (img_title _)]|].
    eapply (alts_cons h W _ _ (@NP_Item Knot Sub1)); [first [atom|exact (img_title _)]|].
    eapply (alts_cons h W _ _ (@NP_Item Knot Sub2)); [first [atom|exact (img_title _)]|].
    eapply (alts_cons h W _ _ (@NP_Item Knot Sub3)); [first [atom|exact (img_title _)]|].
    eapply (alts_cons h W _ _ (@NP_Item Knot Sub4)); [first [atom|exact (img_title _)]|].
    eapply (alts_cons h W _ _ (@NP_Item Knot Sub5)); [first [atom|exact (img_title _)]|].
    eapply (alts_cons h W _ _ (@NP_Item Knot Sub6)); [first [atom|exact (img_title _)]|].
    eapply (alts_cons h W _ _ (@NP_Item Knot Sub7)); [first [atom|exact (img_title _)]|].
    eapply (alts_cons h W _ _ (@NP_Item Knot Sub8)); [first [atom|exact (img_title _)]|].
    eapply (alts_cons h W _ _ (@NP_Item Knot Sub9)); [first [atom|exact (img_title _)]|].
    eapply (alts_cons h W _ _ (@NP_Item Knot Sub10)); [first [atom|exact (img_title _)]|].
    apply alts_nil.
  - intros x. destruct x; cover.
Qed.
End Kinds.
