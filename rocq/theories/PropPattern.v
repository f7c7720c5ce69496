(** Properties of the regular expressions as written in the source. *)
From Coq Require Import String List NArith Bool Arith Lia.
From Verif Require Import Base Regex RegexFacts NumText TextParse MatchSpec MatchFacts PropMatch Pattern PatternFacts PatternSpec PatternReadFacts.
Import ListNotations.
Open Scope string_scope.
Open Scope list_scope.

(** The expressions of the source that start with [^], each with the one used by the model. *)
Definition used_patterns : list (ustr * re) :=
  [(source_article, re_article);
   (source_paragraph, re_paragraph);
   (source_item_base, re_item_base);
   (source_split, re_split);
   (source_item, re_item);
   (source_caption, re_caption);
   (source_suppl, re_suppl)].
Lemma used_same : forall src r, In (src, r) used_patterns ->
  exists p, read_pattern src = Some (true, p) /\ same (expression p) r.
Proof.
  intros src r H.
  repeat (destruct H as [H|H]; [injection H as <- <-; eexists; split; [vm_compute; reflexivity|]; same_pattern|]).
  destruct H.
Qed.

(** C102: each expression of the source is understood, is anchored, and has for every text the matches of
    the expression of the model, in the same order; so the reported match is the same. *)
Theorem C102_patterns : forall src r, In (src, r) used_patterns ->
  exists p, read_pattern src = Some (true, p) /\
    forall s, captures (expression p) s = captures r s /\ exec (expression p) s = exec r s.
Proof.
  intros src r H. destruct (used_same src r H) as [p [E S]]. exists p. split; [exact E|].
  intros s. split; [unfold captures; rewrite S; reflexivity|apply S].
Qed.
Print Assumptions C102_patterns.

(** With C101: the model reports the match that is preferred among all derivations of the expression in
    the source. *)
Theorem C102_best : forall src r s c, In (src, r) used_patterns ->
  exists p, read_pattern src = Some (true, p) /\
    (captures r s = Some c <-> exists t s', best (expression p) s t s' /\ groups_of t = c).
Proof.
  intros src r s c H. destruct (C102_patterns src r H) as [p [E S]]. exists p. split; [exact E|].
  rewrite <- (proj1 (S s)). apply C101_match.
Qed.
Print Assumptions C102_best.

(** The list of C101 is the same. *)
Lemma used_all : map snd used_patterns = crate_patterns.
Proof. reflexivity. Qed.

(** The expression that is not anchored is found at some place of the text exactly if the model says so. *)
Theorem C102_roman : exists p, read_pattern source_roman = Some (false, p) /\
  forall s, is_roman s = true <-> exists before rest t s', s = before ++ rest /\ parses (expression p) rest t s'.
Proof.
  eexists. split; [vm_compute; reflexivity|]. intros s. rewrite C101_roman.
  match goal with |- (exists _ r1 t1 q1, _ /\ parses ?a r1 t1 q1) <-> (exists _ r2 t2 q2, _ /\ parses ?b r2 t2 q2) =>
    assert (S : same b a) by same_pattern; set (x := a) in *; set (y := b) in * end.
  assert (K : forall a b, same a b -> forall rest, (exists t s', parses a rest t s') -> exists t s', parses b rest t s').
  { intros a b Hab rest [t [s' P]]. apply trees_in in P. pose proof (Hab rest) as E. rewrite !trees_exec in E.
    destruct (trees a rest) as [|i l]; [destruct P|]. destruct (trees b rest) as [|[t' s''] l'] eqn:F; [discriminate|].
    exists t', s''. apply trees_in. rewrite F. left. reflexivity. }
  split; intros [b [rest [t [s' [-> P]]]]].
  - destruct (K x y (same_sym _ _ S) rest) as [t' [s'' P']]; [exists t, s'; exact P|]. exists b, rest, t', s''. auto.
  - destruct (K y x S rest) as [t' [s'' P']]; [exists t, s'; exact P|]. exists b, rest, t', s''. auto.
Qed.
Print Assumptions C102_roman.

(** The reader of patterns reads exactly what the grammar of PatternSpec.v writes. *)
Theorem C102_anchored : forall s p, read_pattern s = Some (true, p) <->
  exists w, s = uc "^" :: w /\ spells Alternatives p w /\ forall a b, p <> PAlt a b.
Proof.
  intros s p. unfold read_pattern. split.
  - destruct s as [|c r]; [discriminate|]. destruct (is "^" c) eqn:E.
    + apply is_true in E as ->. destruct (read_alternatives _ r) as [[q [|x l]]|] eqn:R; try discriminate.
      intros H. exists r. apply read_whole in R.
      destruct q; try discriminate; injection H as <-; (split; [reflexivity|split; [exact R|intros; discriminate]]).
    + cbv zeta. destruct (match read_alternatives _ (c :: r) with Some (p, []) => Some p | _ => None end); discriminate.
  - intros [w [-> [S N]]]. rewrite is_same. apply read_whole in S. rewrite S. destruct p; try reflexivity. destruct (N p1 p2 eq_refl).
Qed.
Print Assumptions C102_anchored.

Theorem C102_unanchored : forall s p, read_pattern s = Some (false, p) <-> spells Alternatives p s.
Proof.
  intros s p. unfold read_pattern. split.
  - destruct s as [|c r]; [intros H; injection H as <-; constructor; constructor|]. destruct (is "^" c) eqn:E; cbv zeta.
    + destruct (match read_alternatives _ r with Some (p, []) => Some p | _ => None end) as [[]|]; discriminate.
    + destruct (read_alternatives _ (c :: r)) as [[q [|x l]]|] eqn:R; try discriminate. intros H. injection H as <-. apply read_whole, R.
  - intros S. destruct s as [|c r].
    + apply read_whole in S. vm_compute in S. injection S as <-. reflexivity.
    + pose proof (atom_head _ _ _ S) as [_ [_ [_ E]]]. rewrite E. cbv zeta. apply read_whole in S. rewrite S. reflexivity.
Qed.
Print Assumptions C102_unanchored.

(** So a text has one reading by the grammar. *)
Theorem C102_unambiguous : forall s p q, spells Alternatives p s -> spells Alternatives q s -> p = q.
Proof.
  intros s p q H G. apply C102_unanchored in H. apply C102_unanchored in G. rewrite H in G. injection G as ->. reflexivity.
Qed.
Print Assumptions C102_unambiguous.
Example C102_syntax_case :
  spells Alternatives (PAlt (PSeq (PStar (PClass false [Between 97 97])) PEmpty) (PSeq (PClass true [Space; Between 48 57]) PEmpty))%N (u "a*|[^\s0-9]") /\
  exists w, source_caption = uc "^" :: w /\ exists p, spells Alternatives p w.
Proof.
  split; [apply C102_unanchored; vm_compute; reflexivity|].
  destruct (C102_patterns source_caption re_caption) as [p [E _]]; [do 5 right; left; reflexivity|].
  apply C102_anchored in E as [w [-> [S _]]]. exists w. split; [reflexivity|exists p; exact S].
Qed.

(** The reader of patterns groups as the documentation says, and refuses what it does not know. *)
Example C102_patterns_case :
  read_pattern (u "^a|b") = None /\ read_pattern (u "(a|b") = None /\ read_pattern (u "a{2}") = None /\
  read_pattern (u "^x(?<n>[^0-9あ]+|y)?$") =
    Some (true, PSeq (PClass false [Between 120 120])
      (PSeq (POpt (PNamed "n" (PAlt (PSeq (PPlus (PClass true [Between 48 57; Between 12354 12354])) PEmpty)
                                    (PSeq (PClass false [Between 121 121]) PEmpty))))
        (PSeq PEnd PEmpty)))%N /\
  In (source_caption, re_caption) used_patterns /\
  captures re_caption (u "（目的）") = Some [("caption", u "目的")].
Proof. do 4 (split; [vm_compute; reflexivity|]). split; [do 5 right; left; reflexivity|vm_compute; reflexivity]. Qed.
