(** Which laws can be read from XML text. *)
From Coq Require Import String Ascii List NArith Bool.
From Verif Require Import Base NumStr Xml Ast XmlWrite XmlParse Api RoundTripSpec RoundTripFacts GrammarSpec Samples PlainSpec
  TidySpec TidyFacts ApiSpec ApiFacts Utf8Facts SampleXml SampleFacts MendSpec MendFacts MendSame LegibleFacts MendText PropMend.
Import ListNotations.
Open Scope string_scope.
Open Scope list_scope.

(** C96, for texts.  Whatever text is read, with whatever XML crate, gives a law that meets the conditions. *)
Theorem C96_from_text : forall x s l, parse_xml x s = Ok l -> law_can_be_read l.
Proof.
  intros x s l H. unfold parse_xml in H. destruct (xml_read x s) as [e|]; [|discriminate]. exact (read_law_legible e l H).
Qed.
Print Assumptions C96_from_text.

(** Conversely the text of the mended tree of any such law is read as the law in its tidy form. *)
Theorem C96_text : forall x l, keeps x (mend_law l) -> law_can_be_read l ->
  exists bs, xml_emit x (mend_law l) = (bs, true) /\ Forall encoded bs /\
    parse_xml x (concat_strings bs) = Ok (tidy_law l).
Proof.
  intros x l (bs & e & E & F & R & S) H. exists bs. split; [exact E|]. split; [exact F|].
  unfold parse_xml. rewrite R. exact (mended_text l e S H).
Qed.
Print Assumptions C96_text.

(** So a tidy law is the reading of some text exactly if it meets them, whatever of it the crate's own writer loses. *)
Theorem C96_text_iff : forall x l, keeps x (mend_law l) -> tidy_law l = l ->
  (exists s, parse_xml x s = Ok l) <-> law_can_be_read l.
Proof.
  intros x l K T. split.
  - intros (s & H). exact (C96_from_text x s l H).
  - intros H. destruct (C96_text x l K H) as (bs & _ & _ & R). rewrite T in R. exists (concat_strings bs). exact R.
Qed.
Print Assumptions C96_text_iff.

(** The tidy form of a law that can be read can be read. *)
Theorem C96_tidy : forall k x, can_be_read k x -> can_be_read k (tidy k x).
Proof. exact tidy_can_be_read. Qed.
Print Assumptions C96_tidy.

(** A law that the crate's own writer does not keep. *)
Example C96_text_case : keeps sample_xml (mend_law rich_law) /\ tidy_law rich_law = rich_law /\ law_can_be_read rich_law /\
  ~ law_survives rich_law /\
  parse_xml sample_xml (concat_strings (fst (xml_emit sample_xml (mend_law rich_law)))) = Ok rich_law.
Proof.
  split.
  { exists (fst (xml_emit sample_xml (mend_law rich_law))), (coalesce (mend_law rich_law)).
    split; [vm_compute; reflexivity|]. split.
    - apply Forall_forall. intros s Hs. apply utf8_iff.
      assert (G : forallb utf8 (fst (xml_emit sample_xml (mend_law rich_law))) = true) by (vm_compute; reflexivity).
      rewrite forallb_forall in G. apply G, Hs.
    - split; [vm_compute; reflexivity|]. apply same_refl. }
  split; [vm_compute; reflexivity|].
  split; [apply C96_law; exists (mend_law rich_law); vm_compute; reflexivity|].
  split; [|vm_compute; reflexivity].
  intros H. apply law_read_write_iff in H. revert H. vm_compute. discriminate.
Qed.
