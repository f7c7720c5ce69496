(** Properties C69 and C70: the public functions on XML text. *)
From Coq Require Import String Ascii List Arith NArith Bool Lia.
From Verif Require Import Base NumStr Xml Ast XmlWrite XmlParse Regex RoundTripSpec Samples
  Api TidySpec TidyFacts ApiSpec Utf8Facts ApiFacts SampleXml SampleFacts NamedFacts PropRoundTrip.
Import ListNotations.
Open Scope string_scope.
Open Scope list_scope.

(** C69.  The check of each buffer accepts exactly the UTF-8 forms of texts. *)
Theorem C69_utf8 : forall s, utf8 s = true <-> encoded s.
Proof. exact utf8_iff. Qed.
Print Assumptions C69_utf8.

Example C69_utf8_case :
  utf8 (enc [35947; 65; 127843; 233]%N) = true /\ utf8 "附則" = true /\
  (* overlong, surrogate, cut short, beyond the last scalar value *)
  utf8 (String "192" (String "128" "")) = false /\ utf8 (String "237" (String "160" (String "128" ""))) = false /\
  utf8 (String "232" (String "186" "")) = false /\ utf8 (String "244" (String "144" (String "128" (String "128" "")))) = false.
Proof. vm_compute. repeat split; reflexivity. Qed.

(** [to_xml] returns the bytes emitted, provided that the emission ends well and each buffer is text;
    in all other cases it returns the I/O error, and it never panics. *)
Theorem C69_to_xml : forall x l s, to_xml x l = Ok s <->
  exists bs, xml_emit x (write_law l) = (bs, true) /\ Forall encoded bs /\ s = concat_strings bs.
Proof. exact to_xml_iff. Qed.
Print Assumptions C69_to_xml.

Theorem C69_ends : forall x l, (exists s, to_xml x l = Ok s) \/ to_xml x l = Err Io.
Proof. exact to_xml_ends. Qed.
Print Assumptions C69_ends.

Theorem C69_text : forall x l s, to_xml x l = Ok s -> encoded s.
Proof. exact to_xml_text. Qed.
Print Assumptions C69_text.

(** Buffers that cut a character in two are refused although the whole is text. *)
Definition cut_xml : xml_crate := mkXmlCrate (fun _ => None) (fun _ => ([String "232" ""; String "186" (String "171" "")], true)).
Example C69_cut_case : forall l, to_xml cut_xml l = Err Io /\ encoded (concat_strings (fst (xml_emit cut_xml (write_law l)))).
Proof. intros l. split; [reflexivity|]. apply utf8_iff. vm_compute. reflexivity. Qed.

(** [write_file] leaves in an honest writer all bytes emitted, or returns the I/O error and leaves a first
    part of them. *)
Theorem C69_writer : forall S (w : writer S) content, honest w content ->
  forall x l fuel s bs ok r s', xml_emit x (write_law l) = (bs, ok) -> write_file x w fuel s l = Some (r, s') ->
  (r = Ok tt /\ ok = true /\ content s' = (content s ++ concat_strings bs)%string) \/
  (r = Err Io /\ exists p q, concat_strings bs = (p ++ q)%string /\ content s' = (content s ++ p)%string).
Proof. exact @write_file_honest. Qed.
Print Assumptions C69_writer.

(** A writer that never fails ends up with the text that [to_xml] returns. *)
Theorem C69_same : forall S (w : writer S) content, honest w content -> never_fails w ->
  forall x l t s, to_xml x l = Ok t ->
  exists fuel s', write_file x w fuel s l = Some (Ok tt, s') /\ content s' = (content s ++ t)%string.
Proof. exact @write_file_same. Qed.
Print Assumptions C69_same.

(** A small law for the examples. *)
Definition law_with (c : list (SentenceElement Knot)) : Law :=
  let s := mkSentence (mkSentenceF c None None None Vertical) in
  let p := mkParagraph (mkParagraphF None (plain "1") [] [] [s] [] [] (num1 1) false false false) in
  mkLaw Reiwa 1 (Some (num1 9)) None None Act Ja "x"
    (mkLawBody (mkLawBodyF None [] None None None (mkMain (mkMainF [MC_Paragraph p] None)) [] [] [] [] [] [] [])).
Definition loose_law : Law := law_with [SE_String "a"; SE_String "<b>"; SE_Sup "  "; SE_String " "].

(** A writer that takes one byte at a time, and one that holds only eight bytes and then fails. *)
Definition slow : writer string := fun s b => (Wrote 1, (s ++ first_bytes 1 b)%string).
Example C69_slow_case : honest slow (fun s => s) /\ never_fails slow /\
  exists s, to_xml sample_xml loose_law = Ok s /\ write_file sample_xml slow 1000 "" loose_law = Some (Ok tt, s).
Proof.
  split; [|split].
  - intros s [|c b] Hb; [congruence|]. cbn. repeat split; lia.
  - intros s b _. exists 1. eexists. split; [lia|reflexivity].
  - eexists. split; vm_compute; reflexivity.
Qed.
Definition small : writer string := fun s b =>
  let room := 8 - String.length s in
  if Nat.eqb room 0 then (Failed, s) else let n := Nat.min room (String.length b) in (Wrote n, (s ++ first_bytes n b)%string).
Example C69_small_case : honest small (fun s => s) /\ write_file sample_xml small 3 "" s_law = Some (Err Io, "<?xml ve").
Proof.
  split; [|vm_compute; reflexivity]. intros s [|c b] Hb; [congruence|]. unfold small.
  destruct (Nat.eqb_spec (8 - String.length s) 0); [reflexivity|]. split; [cbn [String.length]; lia|reflexivity].
Qed.
(** The same writer taking nothing instead of failing (as a full buffer does): the same I/O error. *)
Definition full : writer string := fun s b =>
  let n := Nat.min (8 - String.length s) (String.length b) in (Wrote n, (s ++ first_bytes n b)%string).
Example C69_full_case : honest full (fun s => s) /\ write_file sample_xml full 3 "" s_law = Some (Err Io, "<?xml ve").
Proof.
  split; [|vm_compute; reflexivity]. intros s [|c b] Hb; [congruence|]. unfold full. split; [cbn [String.length]; lia|reflexivity].
Qed.

(** C70.  There and back: a law that can be written is read from its XML text as the tidy form of it:
    neighbouring pieces of text joined, pieces of blanks left out. *)
Theorem C70_round_trip : forall x l, keeps x (write_law l) -> law_survives l ->
  exists s, to_xml x l = Ok s /\ parse_xml x s = Ok (tidy_law l).
Proof. exact xml_round_trip. Qed.
Print Assumptions C70_round_trip.

(** It comes back unchanged exactly when it can be written and is tidy. *)
Theorem C70_iff : forall x l s, keeps x (write_law l) -> to_xml x l = Ok s ->
  (parse_xml x s = Ok l <-> law_survives l /\ tidy_law l = l).
Proof. exact xml_round_trip_iff. Qed.
Print Assumptions C70_iff.

(** For any law, its text is read just like the tree written of its tidy form. *)
Theorem C70_tidy : forall x l, keeps x (write_law l) ->
  exists s, to_xml x l = Ok s /\ parse_xml x s = parse_law (write_law (tidy_law l)).
Proof. exact xml_tidy. Qed.
Print Assumptions C70_tidy.

(** The second time nothing changes any more. *)
Theorem C70_twice : forall x l, keeps x (write_law (tidy_law l)) -> law_survives l ->
  exists s, to_xml x (tidy_law l) = Ok s /\ parse_xml x s = Ok (tidy_law l).
Proof. exact xml_twice. Qed.
Print Assumptions C70_twice.

(** The same through a file. *)
Theorem C70_file : forall S (w : writer S) content x l s, honest w content -> never_fails w -> content s = "" ->
  keeps x (write_law l) -> law_survives l ->
  exists fuel s', write_file x w fuel s l = Some (Ok tt, s') /\
    forall files path, files path = Some (content s') -> parse_xml_file x files path = Ok (tidy_law l).
Proof. exact @xml_file. Qed.
Print Assumptions C70_file.

(** The hypothesis on the XML crate can be met: the sample printer and reader keep every law made of texts. *)
Theorem C70_sample : forall l, encoded_tree (write_law l) -> keeps sample_xml (write_law l).
Proof. intros l. exact (sample_keeps _ (law_named l)). Qed.
Print Assumptions C70_sample.

Example C70_case :
  law_survives s_law /\ tidy_law s_law = s_law /\ bind (to_xml sample_xml s_law) (parse_xml sample_xml) = Ok s_law.
Proof. split; [apply C16_law_roundtrip_iff|split]; vm_compute; reflexivity. Qed.

(** Two pieces of text come back as one, a piece of blanks at the end and the blanks of a superscript
    do not come back; the law is otherwise the same, and from then on it stays. *)
Example C70_loose_case :
  tidy_law loose_law = law_with [SE_String "a<b>"; SE_Sup ""] /\
  exists s, to_xml sample_xml loose_law = Ok s /\ parse_xml sample_xml s = Ok (tidy_law loose_law) /\
    parse_law (write_law loose_law) = Ok loose_law.
Proof. split; [vm_compute; reflexivity|]. eexists. repeat split; vm_compute; reflexivity. Qed.

(** The text itself. *)
Example C70_text_case : to_xml sample_xml loose_law = Ok
"<?xml version=""1.0"" encoding=""UTF-8""?>
<Law Era=""Reiwa"" Year=""1"" Num=""9"" LawType=""Act"" Lang=""ja"">
  <LawNum>x</LawNum>
  <LawBody>
    <MainProvision>
      <Paragraph Num=""1"">
        <ParagraphNum>1</ParagraphNum>
        <ParagraphSentence>
          <Sentence>a&lt;b&gt;<Sup>  </Sup> </Sentence>
        </ParagraphSentence>
      </Paragraph>
    </MainProvision>
  </LawBody>
</Law>".
Proof. vm_compute. reflexivity. Qed.
