(** Properties of the matches of regular expressions. *)
From Coq Require Import String List NArith Bool Arith Lia.
From Verif Require Import Base Regex RegexFacts NumText TextParse MatchSpec MatchFacts.
Import ListNotations.
Open Scope string_scope.
Open Scope list_scope.

(** C101: the engine reports the match that the leftmost-first, greedy rule prefers to every other
    one, with the groups that took part in it, and this is the only thing it can report. *)
Theorem C101_match : forall r s c,
  captures r s = Some c <-> exists t s', best r s t s' /\ groups_of t = c.
Proof.
  intros r s c. unfold captures. split.
  - destruct (exec r s) as [|[c' s'] l] eqn:E; [discriminate|]. intros H. injection H as <-.
    destruct (proj1 (exec_head r s c' s')) as [t [B G]]; [exists l; assumption|]. exists t, s'. auto.
  - intros [t [s' [B G]]]. destruct (proj2 (exec_head r s c s')) as [l E]; [exists t; auto|]. rewrite E. reflexivity.
Qed.
Print Assumptions C101_match.

(** It reports none exactly if there is none. *)
Theorem C101_none : forall r s, captures r s = None <-> forall t s', ~ parses r s t s'.
Proof.
  intros r s. unfold captures. rewrite trees_exec. split.
  - intros H t s' P. apply trees_in in P. destruct (trees r s); [destruct P|discriminate].
  - intros H. destruct (trees r s) as [|[t s'] l] eqn:E; [reflexivity|]. exfalso. apply (H t s').
    apply trees_in. rewrite E. left. reflexivity.
Qed.
Print Assumptions C101_none.

(** The preferred match is one match: its text and what is left make up the given text. *)
Theorem C101_one : forall r s t s', best r s t s' ->
  s = text_of t ++ s' /\ forall t' s'', best r s t' s'' -> t' = t /\ s'' = s'.
Proof.
  intros r s t s' B. split; [eapply parses_text, (proj1 B)|]. intros t' s'' B'. eapply best_unique; eassumption.
Qed.
Print Assumptions C101_one.

(** Two ways to match, of which the longer first group is reported; and the earlier alternative
    although it reads less. *)
Example C101_match_case :
  let r := Seq (Cap "a" (chars arabic)) (Cap "b" (Star (Chr arabic))) in
  let q := Seq (Alt (Cap "x" (Lit (u "1"))) (Cap "y" (Lit (u "12")))) (Star (Lit (u "3"))) in
  captures r (u "12x") = Some [("a", u "12"); ("b", [])] /\
  (exists t s', parses r (u "12x") t s' /\ groups_of t = [("a", u "1"); ("b", u "2")]) /\
  captures q (u "123") = Some [("x", u "1")] /\
  (exists t s', parses q (u "123") t s' /\ groups_of t = [("y", u "12")] /\ s' = []) /\
  captures re_caption (u "（あ") = None.
Proof.
  repeat split; try (vm_compute; reflexivity).
  - exists (Both (Named "a" (Both (One 49) Stop)) (Named "b" (More (One 50) Stop)))%N, (u "x"). split; [|reflexivity].
    apply trees_in. vm_compute. tauto.
  - exists (Both (Second (Named "y" (Both (One 49) (Both (One 50) Nothing)))) (More (Both (One 51) Nothing) Stop))%N, [].
    split; [|split; reflexivity]. apply trees_in. vm_compute. tauto.
Qed.

(** The expressions of the crate that start with [^]: /repo/src/article_number.rs 212, 213-216, 438,
    521, 564 and /repo/src/parse_from_text.rs 942, 944. *)
Definition crate_patterns : list re :=
  [re_article; re_paragraph; re_item_base; re_split; re_item; re_caption; re_suppl].

(** In all of them a group takes part at most once, so that it does not matter that the model reads
    the first and the crate [regex] the last text of a group. *)
Theorem C101_groups : forall r s c n v, In r crate_patterns -> captures r s = Some c ->
  In (n, v) c <-> group n c = Some v.
Proof.
  intros r s c n v Hr H. split; [|apply group_in].
  apply C101_match in H as [t [s' [[P _] <-]]].
  assert (D : NoDup (map fst (groups_of t))).
  { apply (groups_once r s t s' P).
    - repeat (destruct Hr as [<-|Hr]; [vm_compute; reflexivity|]). destruct Hr.
    - repeat (destruct Hr as [<-|Hr]; [vm_compute; repeat constructor; cbn; intros F; repeat (destruct F as [F|F]; [discriminate|]); exact F|]).
      destruct Hr. }
  revert D. generalize (groups_of t) as c. induction c as [|[k w] c IH]; cbn [map fst group]; [intros _ []|].
  intros D. inversion D as [|? ? N D']; subst. intros [E|I].
  - injection E as -> ->. rewrite String.eqb_refl. reflexivity.
  - destruct (String.eqb_spec n k) as [->|]; [|auto]. exfalso. apply N.
    apply in_map_iff. exists (k, v). auto.
Qed.
Print Assumptions C101_groups.

(** What is repeated in them always reads something, so that it does not matter what a repetition
    does when it reads nothing. *)
Theorem C101_progress : forall r a s t s', In r crate_patterns -> repeated a r -> parses a s t s' -> s' <> s.
Proof.
  intros r a s t s' Hr Ha P. assert (E : progress r = true).
  { repeat (destruct Hr as [<-|Hr]; [vm_compute; reflexivity|]). destruct Hr. }
  pose proof (never_empty _ _ _ _ P (progress_repeated _ _ Ha E)) as N.
  apply parses_text in P. intros Z. apply N. rewrite Z in P. symmetry. apply (app_inv_tail s). exact P.
Qed.
Print Assumptions C101_progress.

(** Without these conditions both may differ: a repeated group has two texts. *)
Example C101_groups_case :
  captures (Star (Cap "a" (Chr arabic))) (u "12") = Some [("a", u "1"); ("a", u "2")] /\
  (exists c, captures re_item_base (u "（ア）") = Some c /\ group "paren_iroha_katakana" c = Some (u "ア")) /\
  repeated (Chr arabic) re_article /\ parses (Chr arabic) (u "1x") (One 49%N) (u "x").
Proof.
  split; [vm_compute; reflexivity|]. split; [eexists; split; vm_compute; reflexivity|]. split.
  - unfold re_article. apply repeated_seq_r, repeated_seq_l. apply repeated_alt_l, repeated_cap, repeated_seq_r, repeated_here.
  - apply trees_in. vm_compute. tauto.
Qed.

(** The one expression without [^], /repo/src/article_number.rs 439, is looked for at every place of
    the text. *)
Theorem C101_roman : forall s, is_roman s = true <->
  exists before rest t s', s = before ++ rest /\
    parses (chars (one_of (u "ixvlcIXVLCｉｘｖｌｃＩＸＶＬＣ"))) rest t s'.
Proof.
  intros s. unfold is_roman. rewrite existsb_exists. split.
  - intros [c [I H]]. apply in_split in I as [l1 [l2 ->]].
    exists l1, (c :: l2), (Both (One c) Stop), l2. split; [reflexivity|].
    econstructor; [constructor; exact H|constructor].
  - intros [b [rest [t [s' [-> P]]]]]. inversion P as [| | |? ? ? ? ? ? ? P1 P2| | | | |]; subst.
    inversion P1; subst. eexists. split; [apply in_or_app; right; left; reflexivity|assumption].
Qed.
Print Assumptions C101_roman.
Example C101_roman_case : is_roman (u "ａｘ") = true /\ is_roman (u "ａｂ") = false.
Proof. split; vm_compute; reflexivity. Qed.
