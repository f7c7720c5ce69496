(** Property C74: laws that are read from plain text and stored as XML. *)
From Coq Require Import String List NArith Bool.
From Verif Require Import Base NumStr NumStrSpec Ast Xml XmlWrite XmlParse Regex NumText TextParse TextSpec RoundTripSpec
  TidySpec Api ApiSpec SampleXml CodecSample Samples LineFacts PropLine PropRoundTrip PropApi StoreSpec StoreNumFacts StoreFacts.
Import ListNotations.
Open Scope list_scope.

(** C74.  Of the lines of a text the parser reads a first part [u], which is readable, up to a line that
    has no place there; whether the law comes back from its XML tree is decided by the arguments and by the
    numbers with a range among the lines of [u]. *)
Theorem C74_stored : forall cd cal fuel text year month day ty lang num law_num title lines l,
  classify cd text = Ok lines -> countable lines ->
  parse_text cd cal fuel text year month day ty lang num law_num title = Some (Ok l) ->
  exists u rest, lines = u ++ rest /\ readable u /\ (rest = [] \/ exists x r, rest = x :: r /\ misplaced u x) /\
    (parse_law (write_law l) = Ok l <->
     (is_usize year && usize_opt month && usize_opt day)%bool = true /\
     (exists n, num = Some n /\ an_ok n = true) /\ Forall line_kept u).
Proof.
  intros cd cal fuel text year month day ty lang num law_num title lines l C W H.
  destruct (text_law_stored _ _ _ _ _ _ _ _ _ _ _ _ _ _ C W H) as (u & rest & A & B & D & E & _).
  exists u, rest. rewrite C16_law_roundtrip_iff. auto.
Qed.
Print Assumptions C74_stored.

(** The body alone. *)
Theorem C74_body : forall cd fuel title text lines b, classify cd text = Ok lines -> countable lines ->
  parse_body cd fuel title text = Some (Ok b) ->
  exists u rest, lines = u ++ rest /\ readable u /\ (rest = [] \/ exists l r, rest = l :: r /\ misplaced u l) /\
    (parse KLawBody (write KLawBody b) = Ok b <-> Forall line_kept u).
Proof.
  intros cd fuel title text lines b C W H.
  destruct (text_body_stored _ _ _ _ _ _ C W H) as (u & rest & A & B & D & E & _).
  exists u, rest. rewrite C16_roundtrip_iff. auto.
Qed.
Print Assumptions C74_body.

(** From XML text it comes back unchanged exactly if, in addition, no line of [u] is an article and no text
    of it is blank: an article without a title is written with an empty one. *)
Theorem C74_xml_text : forall x cd cal fuel text year month day ty lang num law_num title lines l s,
  classify cd text = Ok lines -> countable lines ->
  parse_text cd cal fuel text year month day ty lang num law_num title = Some (Ok l) ->
  keeps x (write_law l) -> to_xml x l = Ok s ->
  exists u rest, lines = u ++ rest /\ readable u /\ (rest = [] \/ exists x r, rest = x :: r /\ misplaced u x) /\
    (parse_xml x s = Ok l <->
     ((is_usize year && usize_opt month && usize_opt day)%bool = true /\
      (exists n, num = Some n /\ an_ok n = true) /\ Forall line_kept u) /\
     (law_num = ""%string \/ blank law_num = false) /\ seen title /\ Forall line_seen u).
Proof.
  intros x cd cal fuel text year month day ty lang num law_num title lines l s C W H K S.
  destruct (text_law_stored _ _ _ _ _ _ _ _ _ _ _ _ _ _ C W H) as (u & rest & A & B & D & E & F).
  exists u, rest. rewrite (C70_iff x l s K S), E, F. tauto.
Qed.
Print Assumptions C74_xml_text.

(** All numbers of lines are machine integers, whatever the text. *)
Theorem C74_machine : forall cd text lines, classify cd text = Ok lines -> Forall line_machine lines.
Proof. exact classified_machine. Qed.
Print Assumptions C74_machine.

Definition stored_text : ustr :=
  lf (u "第一章　総則") ++ lf (u "（目的）") ++ lf (u "第一条　甲とする。") ++ lf (u "　一　乙") ++ lf (u "　　イ　丙") ++
  lf (u "２　丁") ++ lf (u "第二条の二から第五条まで　削除").
Definition lost_text : ustr := lf (u "第一条　甲とする。") ++ lf (u "第三条から第五条まで　削除").
Definition read (t : ustr) : Run Law :=
  parse_text sample_codec sample_calendar 100 t 2020 (Some 4%N) (Some 1%N) Act Ja (Some (mkAN 7 [] [])) "令和二年法律第七号" (u "法").

Definition lines_of (t : ustr) : list line := match classify sample_codec t with Ok l => l | _ => [] end.
Definition law_of (t : ustr) : Law := match read t with Some (Ok l) => l | _ => s_law end.
Definition stored_lines : list line := Eval vm_compute in lines_of stored_text.
Definition stored_law : Law := Eval vm_compute in law_of stored_text.

(** A text that comes back from the tree, and in tidy form from XML text. *)
Example C74_read_case : classify sample_codec stored_text = Ok stored_lines /\ countable stored_lines /\ Forall line_kept stored_lines /\
  read stored_text = Some (Ok stored_law).
Proof.
  split; [vm_compute; reflexivity|]. split; [vm_compute; reflexivity|]. split; [|vm_compute; reflexivity].
  unfold stored_lines. repeat first [apply Forall_cons|apply Forall_nil]; vm_compute; auto.
Qed.
Example C74_case : parse_law (write_law stored_law) = Ok stored_law /\
  bind (to_xml sample_xml stored_law) (parse_xml sample_xml) = Ok (tidy_law stored_law) /\ tidy_law stored_law <> stored_law.
Proof. split; [vm_compute; reflexivity|]. split; [vm_compute; reflexivity|]. vm_compute. discriminate. Qed.
(** A text of headings and text alone comes back from XML text as well. *)
Definition headings_text : ustr := lf (u "この法律は。") ++ lf (u "第一章　総則").
Definition headings_lines : list line := Eval vm_compute in lines_of headings_text.
Definition headings_law : Law := Eval vm_compute in law_of headings_text.
Example C74_xml_case :
  classify sample_codec headings_text = Ok headings_lines /\ read headings_text = Some (Ok headings_law) /\
  Forall line_kept headings_lines /\ Forall line_seen headings_lines /\
  bind (to_xml sample_xml headings_law) (parse_xml sample_xml) = Ok headings_law.
Proof.
  split; [vm_compute; reflexivity|]. split; [vm_compute; reflexivity|].
  split; [unfold headings_lines; repeat first [apply Forall_cons|apply Forall_nil]; vm_compute; auto|].
  split; [unfold headings_lines; repeat first [apply Forall_cons|apply Forall_nil]; vm_compute; auto|].
  vm_compute. reflexivity.
Qed.

Definition lost_law : Law := Eval vm_compute in law_of lost_text.
(** Not every law that is read from text can be stored: a range of articles without a branch cannot. *)
Theorem C74_always_refuted : exists l, read lost_text = Some (Ok l) /\ parse_law (write_law l) <> Ok l.
Proof. exists lost_law. split; [vm_compute; reflexivity|]. vm_compute. discriminate. Qed.
Print Assumptions C74_always_refuted.
Example C74_lost_case : exists n t, In (LArticle n t) (lines_of lost_text) /\ ~ range_kept n.
Proof.
  exists (mkAN 3 [] [5%N]), (u "削除"). split; [vm_compute; right; left; reflexivity|]. intros [H|H]; discriminate H.
Qed.
