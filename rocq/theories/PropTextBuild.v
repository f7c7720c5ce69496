(** Property C76: building texts. *)
From Coq Require Import String List Bool.
From Verif Require Import Base Xml Ast XmlParse XmlWrite Utils RoundTripSpec TextBuild TextBuildSpec TextBuildFacts.
Import ListNotations.
Open Scope string_scope.
Open Scope list_scope.

(** C76.  The string of a text is what it shows. *)
Theorem C76_string : forall t s, text_str t = s <-> shows t s.
Proof. exact shown. Qed.
Print Assumptions C76_string.

(** Calls of the methods add to what is shown, and nothing that was there changes. *)
Theorem C76_calls : forall l t s, adds l s <-> text_str (run_calls l t) = (text_str t ++ s)%string.
Proof. exact calls_str. Qed.
Print Assumptions C76_calls.

Theorem C76_kept : forall l t, exists new, run_calls l t = t ++ new /\ run_calls l text_new = new.
Proof. intros l t. exists (flat_map brings l). split; apply calls_bring. Qed.
Print Assumptions C76_kept.

(** Every text comes from calls for single elements, in one way. *)
Theorem C76_built : forall t, exists l, Forall single l /\ run_calls l text_new = t /\
  forall l', Forall single l' -> run_calls l' text_new = t -> l' = l.
Proof. exact built. Qed.
Print Assumptions C76_built.

(** A value shows its own string, and a writing mode does not change what is shown or stored inside. *)
Theorem C76_value : forall s, shows (from_value s) s /\ run_calls [AddString s] text_new = from_value s.
Proof. intros s. split; [|reflexivity]. apply shown. exact (BaseFacts.append_nil_r_s s). Qed.
Print Assumptions C76_value.
Theorem C76_mode : forall m t, twm_str (with_writing_mode m t) = text_str t /\
  forall n, children (write_twm write n (with_writing_mode m t)) = children (write_text write n t).
Proof. intros m t. split; [apply mode_str|reflexivity]. Qed.
Print Assumptions C76_mode.
(** The mode given is the one that is read from the attribute again. *)
Theorem C76_mode_kept : forall n m t,
  parse_twm parse (write_twm write n (with_writing_mode m t)) = Ok (mkTWM t m) <-> text_survives t.
Proof.
  intros n m t. rewrite LossFacts.text_survives_good. exact (RoundTripFacts.twm_iff write parse RoundTripFacts.write_name n (mkTWM t m)).
Qed.
Print Assumptions C76_mode_kept.

(** The reader on one element is the reader on a list of one; it never gives an error. *)
Theorem C76_parser : forall e, text_parser e = from_children parse [NElement e] /\ forall er, text_parser e <> Err er.
Proof.
  intros e. split; [apply parser_is|]. intros er H. rewrite parser_is in H. exact (LossFacts.text_no_err parse _ _ H).
Qed.
Print Assumptions C76_parser.

(** Reading and writing go through the list from left to right, with no influence of one part on another. *)
Theorem C76_read_parts : forall a b, from_children parse (a ++ b) =
  bind (from_children parse a) (fun t => bind (from_children parse b) (fun u => Ok (add_text u t))).
Proof.
  intros a b. rewrite read_app. apply XmlSim.bind_ext; [reflexivity|]. intros t. apply XmlSim.bind_ext; [reflexivity|].
  intros u. rewrite add_text_app. reflexivity.
Qed.
Print Assumptions C76_read_parts.
Theorem C76_write_parts : forall a b,
  write_text_nodes write (add_text b a) = write_text_nodes write a ++ write_text_nodes write b.
Proof. intros a b. rewrite add_text_app. apply write_app. Qed.
Print Assumptions C76_write_parts.

(** A text comes back from its nodes exactly if its rubies and lines do; its string comes back if rubies have
    plain strings as base, as they have in every text that was read. *)
Theorem C76_nodes : forall t, from_children parse (write_text_nodes write t) = Ok t <-> text_survives t.
Proof. exact tree_back. Qed.
Print Assumptions C76_nodes.
Theorem C76_string_back : forall t t', flat t -> from_children parse (write_text_nodes write t) = Ok t' ->
  text_str t' = text_str t.
Proof. exact string_back. Qed.
Print Assumptions C76_string_back.
Theorem C76_read_flat : forall l t, from_children parse l = Ok t -> flat t.
Proof. exact read_flat. Qed.
Print Assumptions C76_read_flat.
Theorem C76_string_back_any_refuted : exists t t', from_children parse (write_text_nodes write t) = Ok t' /\ text_str t' <> text_str t.
Proof.
  exists [TE_Ruby (mkRuby (mkRubyF [TE_Sup "甚"] "じん"))], [TE_Ruby (mkRuby (mkRubyF [] "じん"))].
  split; [vm_compute; reflexivity|discriminate].
Qed.
Print Assumptions C76_string_back_any_refuted.

Definition b_ruby : Knot KRuby := mkRuby (mkRubyF [TE_Text "甚"] "じん").
Definition b_line : Knot KLine := mkLine (mkLineF [LC_String "線"] LDotted).
Example C76_case :
  adds [AddString "激"; AddRuby b_ruby; AddText [TE_Text "災"; TE_Line b_line]; AddSup "2"; AddSub "i"]
    ("激" ++ "甚" ++ "災" ++ "2" ++ "i") /\
  text_str (run_calls [AddString "激"; AddRuby b_ruby; AddText [TE_Text "災"; TE_Line b_line]; AddSup "2"; AddSub "i"]
    (from_value "第")) = "第激甚災2i" /\
  text_parser (mkElement "Ruby" [] [NText "甚"; NElement (mkElement "Rt" [] [NText "じん"])]) = Ok [TE_Ruby b_ruby] /\
  text_parser (mkElement "Sentence" [] [NText "甚"]) = Ok [] /\
  from_children parse (write_text_nodes write [TE_Text "激"; TE_Ruby b_ruby; TE_Line b_line; TE_Sup "2"]) =
    Ok [TE_Text "激"; TE_Ruby b_ruby; TE_Line b_line; TE_Sup "2"] /\
  flat [TE_Text "激"; TE_Ruby b_ruby; TE_Line b_line].
Proof.
  split; [apply (calls_str _ []); reflexivity|]. repeat (split; [vm_compute; reflexivity|]).
  intros b n H. cbn [In] in H. decompose [or] H; try discriminate; try contradiction.
  match goal with E : _ = TE_Ruby _ |- _ => injection E as <- <- end. intros e [<-|[]]. eexists. reflexivity.
Qed.
