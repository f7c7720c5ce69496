(** Properties of the numbers of headings and labels. *)
From Coq Require Import String List NArith Bool Lia.
From Verif Require Import Base NumStr Regex NumText NumTextSpec NumberSpec NumberFacts CodecSample.
Import ListNotations.
Open Scope string_scope.
Open Scope list_scope.

(** C65.  What is read from any text is what the grammar of headings and labels says. *)
Theorem C65_exact : forall cd s r, parse_article_number cd s = r <-> number_reading cd s r.
Proof. exact number_exact. Qed.
Print Assumptions C65_exact.

Theorem C65_heading : forall cd s h, heading_form s h -> parse_article_number cd s = heading_value cd h.
Proof. exact heading_read_exact. Qed.
Print Assumptions C65_heading.

Theorem C65_label : forall cd s h, ~ (exists h, heading_form s h) -> label_form s h -> parse_article_number cd s = label_value h.
Proof. exact label_read_exact. Qed.
Print Assumptions C65_label.

(** A heading with two branches and a range whose end has a joined branch. *)
Definition n_heading : ustr := u "第12条ノ三の４から第五条の六ノ七まで、".
Definition n_form : numbered :=
  mkNumbered (Ascii10, u "12") [(uc "ノ", (Kansuji, u "三")); (uc "の", (Wide10, u "４"))]
    (Some ((Kansuji, u "五"), [(uc "の", (Kansuji, u "六")); (uc "ノ", (Kansuji, u "七"))])).
Ltac chars_in := repeat (first [apply Forall_nil | apply Forall_cons]); vm_compute; tauto.
Ltac numtext := split; [discriminate|cbn [fst snd]; chars_in].
Ltac not_there := vm_compute; let H := fresh in intros H; repeat (destruct H as [H|H]; [discriminate H|]); exact H.
Ltac branch_step j k w s :=
  match goal with |- branches_upto _ _ ?t _ => replace t with (j :: w ++ s) by (vm_compute; reflexivity) end;
  apply (more_branches _ j k w _ s); [vm_compute; tauto|vm_compute; tauto|numtext|not_there|].
Ltac no_more :=
  apply no_branch; let E := fresh in let Hj := fresh in intros ? ? ? E Hj; vm_compute in E; injection E as <- _ _; vm_compute in Hj;
  repeat (destruct Hj as [Hj|Hj]; [discriminate Hj|]); destruct Hj.
Example C65_case : heading_form n_heading n_form /\ heading_value sample_codec n_form = Ok None /\
  pieces [(uc "の", (Kansuji, u "六")); (uc "ノ", (Kansuji, u "七"))] = [Joined (u "六ノ七")].
Proof.
  split; [|split; vm_compute; reflexivity]. right. exists (u "12条ノ三の４から第五条の六ノ七まで、"). split; [vm_compute; reflexivity|].
  exists (u "から第五条の六ノ七まで、"). split.
  - split; [numtext|]. exists (uc "条"), (u "ノ三の４から第五条の六ノ七まで、"). split; [vm_compute; tauto|]. split; [vm_compute; reflexivity|].
    branch_step (uc "ノ") Kansuji (u "三") (u "の４から第五条の六ノ七まで、").
    branch_step (uc "の") Wide10 (u "４") (u "から第五条の六ノ七まで、").
    no_more.
  - exists (u "五条の六ノ七まで、"), (u "、"). split; [vm_compute; reflexivity|]. split; [numtext|].
    exists (uc "条"), (u "の六ノ七まで、"). split; [vm_compute; tauto|]. split; [vm_compute; reflexivity|].
    branch_step (uc "の") Kansuji (u "六") (u "ノ七まで、").
    branch_step (uc "ノ") Kansuji (u "七") (u "まで、").
    no_more.
Qed.
(** A label with a range in ASCII digits. *)
Definition n_label : ustr := u "2の３から5まで".
Example C65_label_case : ~ (exists h, heading_form n_label h) /\
  label_form n_label (mkNumbered (Ascii10, u "2") [(uc "の", (Wide10, u "３"))] (Some ((Ascii10, u "5"), []))) /\
  parse_article_number sample_codec n_label = Ok (Some (mkAN 2 [3] [5])%N).
Proof.
  assert (E : parse_article_number sample_codec n_label = Ok (Some (mkAN 2 [3] [5])%N)) by (vm_compute; reflexivity).
  split; [|split; [|exact E]].
  - intros [h H]. apply heading_form_captures in H as (x & y & H).
    assert (X : captures re_article n_label = None) by (vm_compute; reflexivity). congruence.
  - exists (u "から5まで"). split.
    + split; [numtext|]. split; [vm_compute; tauto|]. exists (u "の３から5まで"). split; [vm_compute; reflexivity|]. split; [not_there|].
      branch_step (uc "の") Wide10 (u "３") (u "から5まで").
      no_more.
    + exists (u "5まで"), []. split; [vm_compute; reflexivity|]. split; [numtext|]. split; [vm_compute; tauto|].
      exists (u "まで"). split; [vm_compute; reflexivity|]. split; [not_there|].
      no_more.
Qed.

(** C66.  The text of a heading begins with "第", the number and the character of its kind, so texts of headings
    of different kinds are never equal. *)
Theorem C66_kind : forall cd x f a, In (x, f) (heading_texts cd) -> exists r, f a = u "第" ++ kan cd (base_number a) ++ x :: r.
Proof. exact heading_texts_unit. Qed.
Print Assumptions C66_kind.

Theorem C66_kinds_differ : forall cd x f y g a b, In (x, f) (heading_texts cd) -> In (y, g) (heading_texts cd) ->
  numeral cd (base_number a) -> numeral cd (base_number b) -> f a = g b -> x = y.
Proof. exact heading_kinds_differ. Qed.
Print Assumptions C66_kinds_differ.

Example C66_case : numeral sample_codec 12 /\ In (uc "款", subsection_text sample_codec) (heading_texts sample_codec) /\
  subsection_text sample_codec (mkAN 12 [3] [])%N = u "第十二款の三".
Proof. split; [apply sample_numeral; lia|]. split; [cbn; tauto|vm_compute; reflexivity]. Qed.
