(** Property C89: which results of the public functions on XML text stand for what. *)
From Coq Require Import String List Arith Bool Lia.
From Verif Require Import Base Xml Ast XmlWrite XmlParse Samples Api ApiSpec ApiFacts SampleXml PropApi CauseSpec CauseFacts.
Import ListNotations.
Open Scope string_scope.
Open Scope list_scope.

(** [parse_xml_file] gives the I/O error exactly for a file that cannot be read, the XML error exactly for a file that
    is no XML, and everything else is what the tree of the file gives. *)
Theorem C89_file : forall x files path,
  (parse_xml_file x files path = Err Io <-> files path = None) /\
  (parse_xml_file x files path = Err XMLParsing <-> exists b, files path = Some b /\ xml_read x b = None) /\
  forall r, r <> Err Io -> r <> Err XMLParsing -> parse_xml_file x files path = r <->
    exists b e, files path = Some b /\ xml_read x b = Some e /\ parse_law e = r.
Proof. exact file_causes. Qed.
Print Assumptions C89_file.

Theorem C89_bytes : forall x b,
  parse_xml x b <> Err Io /\ (parse_xml x b = Err XMLParsing <-> xml_read x b = None) /\
  forall r, r <> Err XMLParsing -> parse_xml x b = r <-> exists e, xml_read x b = Some e /\ parse_law e = r.
Proof. exact bytes_causes. Qed.
Print Assumptions C89_bytes.

Definition shelf (p : string) : option string :=
  if String.eqb p "law" then match to_xml sample_xml loose_law with Ok s => Some s | _ => None end
  else if String.eqb p "note" then Some "not < xml"
  else if String.eqb p "list" then Some (print_document (mkElement "List" [] [])) else None.
Example C89_file_case :
  parse_xml_file sample_xml shelf "nowhere" = Err Io /\ parse_xml_file sample_xml shelf "note" = Err XMLParsing /\
  (exists l, parse_xml_file sample_xml shelf "law" = Ok l) /\
  (exists er, parse_xml_file sample_xml shelf "list" = Err er /\ er <> Io /\ er <> XMLParsing).
Proof. split; [|split; [|split; [eexists|eexists; split; [|split]]]]; vm_compute; (reflexivity || discriminate). Qed.

(** [write_file] on a writer of any behaviour: it ends exactly as the emitted strings are taken one after the
    other, and the fuel of the model does not matter. *)
Theorem C89_writer : forall S (w : writer S) x l s r s', (exists fuel, write_file x w fuel s l = Some (r, s')) <->
  exists bs ok e, xml_emit x (write_law l) = (bs, ok) /\ all_taken w s bs e s' /\ r = outcome e ok.
Proof. exact @any_writer. Qed.
Print Assumptions C89_writer.

Theorem C89_one_result : forall S (w : writer S) x l s f g r r',
  write_file x w f s l = Some r -> write_file x w g s l = Some r' -> r = r'.
Proof. exact @one_result. Qed.
Print Assumptions C89_one_result.

(** It panics only on a writer that claims more than it was given. *)
Theorem C89_panic : forall S (w : writer S), modest w -> forall x l fuel s s', write_file x w fuel s l <> Some (Panic, s').
Proof. exact @panic_cause. Qed.
Print Assumptions C89_panic.

(** One that takes two bytes at a time and is interrupted in between, one that boasts after ten calls, one that
    takes one byte and then nothing. *)
Definition shy : writer (string * bool) := fun '(s, k) b =>
  if k then (Interrupted, (s, false))
  else let n := Nat.min 2 (String.length b) in (Wrote n, ((s ++ first_bytes n b)%string, true)).
Definition boast : writer nat := fun s b => if Nat.ltb s 10 then (Wrote 1, S s) else (Wrote (S (String.length b)), s).
Definition stuck : writer nat := fun s b => match s with 0 => (Wrote 1, 1) | _ => (Wrote 0, S s) end.
Example C89_writer_case :
  (exists t k, to_xml sample_xml loose_law = Ok t /\ write_file sample_xml shy 2000 ("", true) loose_law = Some (Ok tt, (t, k))) /\
  write_file sample_xml boast 2000 0 loose_law = Some (Panic, 10) /\
  write_file sample_xml stuck 2000 0 loose_law = Some (Err Io, 2) /\
  modest shy /\ modest stuck /\ ~ modest boast.
Proof.
  split; [eexists; eexists; split; vm_compute; reflexivity|]. split; [vm_compute; reflexivity|]. split; [vm_compute; reflexivity|].
  split; [|split].
  - intros [s [|]] b n s' _ H; unfold shy in H; [discriminate|]. injection H as <- _. exact (Nat.le_min_r 2 (String.length b)).
  - intros [|s] [|c b] n s' Hb H; cbn in H; try congruence; injection H as <- _; cbn; lia.
  - intros M. specialize (M 10 "a" 2 10 ltac:(discriminate) eq_refl). cbn in M. lia.
Qed.

(** A writer that is interrupted for ever is never done with a string. *)
Example C89_never_case : forall fuel l, write_file sample_xml (fun (_ : unit) _ => (Interrupted, tt)) fuel tt l = None.
Proof.
  intros fuel l. destruct (write_file _ _ fuel tt l) as [[r s]|] eqn:E; [exfalso|reflexivity].
  assert (H : exists f, write_file sample_xml (fun (_ : unit) _ => (Interrupted, tt)) f tt l = Some (r, s)) by (exists fuel; exact E).
  apply C89_writer in H as (bs & ok & e & Eb & A & _). injection Eb as <- _.
  assert (G : forall u b r u', b <> "" -> ~ taken (fun (_ : unit) _ => (Interrupted, tt)) u b r u').
  { intros u b r0 u' Hb H. induction H; try congruence; auto. }
  inversion A; subst; eapply G; try eassumption; discriminate.
Qed.
