(** Which values can be read from XML. *)
From Coq Require Import String List NArith Bool.
From Verif Require Import Base NumStr Xml Ast XmlWrite XmlParse RoundTripSpec RoundTripFacts GrammarSpec Samples
  MendSpec MendFacts MendSame LegibleFacts.
Import ListNotations.
Open Scope string_scope.
Open Scope list_scope.

(** C96.  A value can be read from some element exactly if every part of it meets the conditions of [legible]: no
    double line, all numbers machine integers, no markup in the base text of a ruby, something in each item and
    each article.  Nothing else is lost by the reader. *)
Theorem C96_all_types : forall k x, (exists e, tagged k e /\ parse k e = Ok x) <-> can_be_read k x.
Proof.
  intros k x. split.
  - intros (e & Ht & H). exact (read_legible k e x Ht H).
  - intros H. exists (mend k x). split; [apply mend_tagged|apply read_mend, H].
Qed.
Print Assumptions C96_all_types.
Theorem C96_law : forall l, (exists e, parse_law e = Ok l) <-> law_can_be_read l.
Proof.
  intros l. split.
  - intros (e & H). exact (read_law_legible e l H).
  - intros H. exists (mend_law l). apply read_mend_law, H.
Qed.
Print Assumptions C96_law.

(** There is one writer whose results are read back whenever any element is read as the value: the losses of C15 to
    C26 are the writer's, not the reader's. *)
Theorem C96_mended : forall k x, (exists e, tagged k e /\ parse k e = Ok x) <-> parse k (mend k x) = Ok x.
Proof.
  intros k x. split.
  - intros (e & Ht & H). exact (read_mend k x (read_legible k e x Ht H)).
  - intros H. exists (mend k x). split; [apply mend_tagged|exact H].
Qed.
Print Assumptions C96_mended.
Theorem C96_mended_law : forall l, (exists e, parse_law e = Ok l) <-> parse_law (mend_law l) = Ok l.
Proof.
  intros l. split; [|intros H; exists (mend_law l); exact H]. intros (e & H). exact (read_mend_law l (read_law_legible e l H)).
Qed.
Print Assumptions C96_mended_law.

(** The mended writer differs from the crate's own only on what does not survive it. *)
Theorem C96_same : forall k x, survives k x -> mend k x = write k x.
Proof. exact mend_same. Qed.
Print Assumptions C96_same.
Theorem C96_same_law : forall l, law_survives l -> mend_law l = write_law l.
Proof. exact mend_law_same. Qed.
Print Assumptions C96_same_law.

(** What survives the crate's own writer can be read, *)
Theorem C96_survivors : forall l, law_survives l -> law_can_be_read l.
Proof. intros l H. apply C96_law. exists (write_law l). apply law_read_write_iff, H. Qed.
Print Assumptions C96_survivors.
(** but not conversely: here a law without a number, with remarks, a numbered formula, an amendment, an aligned cell
    and supplementary tables. *)
Definition rich_amend : Knot KAmend :=
  mkAmend (mkAmendF None [NP_Item Sub10 (mkItem (l := Sub10) (mkItemF None (SCT_Sentence [s_formula_sentence]) [] [] None true false));
    NP_CStruct SNote s_note_struct; NP_Article s_article]).
Definition rich_cell : Knot KTableColumn :=
  mkTableColumn (mkTableColumnF [TC_String "x"] LDotted LSolid LNone LSolid (Some "2") None (Some ACenter) (Some PTop)).
Definition rich_law : Law :=
  mkLaw Meiji 1 None None (Some 31%N) Misc Ja "" (mkLawBody (mkLawBodyF None [] None (Some s_toc_preamble) None
    (mkMain (mkMainF [MC_Article (mkArticle (mkArticleF None [] [mkParagraph (mkParagraphF None [] [rich_amend] [] [] []
       [] (mkAN 3 [2%N] [5%N]) false false false)] None (mkAN 3 [] [5%N; 1%N]) false false))] None))
    [mkSuppl (mkSupplF [] [SP_Table s_suppl_table; SP_Appdx s_suppl_appdx] None None None)]
    [mkAppdxTable (mkAppdxTF None None [AT_TableStruct (mkTableStruct (mkStructF None []
       (mkTable (mkTableF [] [mkTableRow ([rich_cell] : TableRowF Knot)] Vertical)) []))] None None)] [] [] [s_appdx_related] [] [])).
Theorem C96_survivors_refuted : exists l, law_can_be_read l /\ ~ law_survives l.
Proof.
  exists rich_law. split; [apply C96_law; exists (mend_law rich_law); vm_compute; reflexivity|].
  intros H. apply law_read_write_iff in H. revert H. vm_compute. discriminate.
Qed.
Print Assumptions C96_survivors_refuted.
Example C96_case : parse_law (mend_law rich_law) = Ok rich_law /\ parse_law (write_law rich_law) = Panic /\
  parse_law (mend_law s_law) = Ok s_law.
Proof. repeat split; vm_compute; reflexivity. Qed.

(** Values that no element is read as. *)
Example C96_never : forall e,
  parse KArticle e <> Ok s_bodyless_article /\ parse KTableColumn e <> Ok s_aligned_cell /\
  parse KLine e <> Ok (mkLine (mkLineF [LC_String "x"] LDouble)) /\
  parse KColumn e <> Ok (mkColumn (mkColumnF [] (Some (2 ^ 64)%N) false None)).
Proof.
  intros e. repeat split; intros H; apply read_legible in H; try exact I; specialize (H _ _ (part_self _)); discriminate H.
Qed.
