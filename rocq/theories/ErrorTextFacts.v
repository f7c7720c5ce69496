(** Facts on the messages of errors. *)
From Coq Require Import String Ascii List Arith Lia.
From Verif Require Import Base Xml XmlSpec Ast XmlParse ErrorText ErrorTextSpec ErrorSpec ErrorFacts ErrorFacts2 GrammarSpec.
Import ListNotations.
Open Scope string_scope.

Lemma cut_space : forall a b r s, spaceless a -> spaceless b -> a ++ String " " r = b ++ String " " s -> a = b /\ r = s.
Proof.
  unfold spaceless. induction a as [|c a IH]; intros [|d b] r s Ha Hb E; cbn [append] in E.
  - injection E as ->. auto.
  - injection E as <- E. destruct Hb. left. reflexivity.
  - injection E as -> E. destruct Ha. left. reflexivity.
  - injection E as -> E. destruct (IH b r s) as [-> ->]; auto.
    + intros H. apply Ha. right. exact H.
    + intros H. apply Hb. right. exact H.
Qed.
Lemma length_app : forall a b, String.length (a ++ b) = String.length a + String.length b.
Proof. induction a as [|c a IH]; intros b; [reflexivity|]. cbn. rewrite IH. reflexivity. Qed.
Lemma cut_end : forall t a b, a ++ t = b ++ t -> a = b.
Proof.
  intros t. induction a as [|c a IH]; intros [|d b] E; [reflexivity| | |].
  - pose proof (f_equal String.length E) as L. rewrite !length_app in L. cbn in L. lia.
  - pose proof (f_equal String.length E) as L. rewrite !length_app in L. cbn in L. lia.
  - cbn in E. injection E as -> E. f_equal. apply IH, E.
Qed.
Lemma spaceless_check : forall s, existsb (Ascii.eqb " ") (list_ascii_of_string s) = false -> spaceless s.
Proof.
  intros s H I. assert (X : existsb (Ascii.eqb " ") (list_ascii_of_string s) = true).
  { apply existsb_exists. exists " "%char. split; [exact I|reflexivity]. }
  congruence.
Qed.

(** Removing equal beginnings. *)
Ltac strip E :=
  cbn [append] in E;
  repeat match type of E with
  | String ?a _ = String ?a _ => injection E as E
  end.
Theorem message_sharp : forall e e', sharp e -> sharp e' -> message e = message e' -> e = e'.
Proof.
  assert (P : forall w t e, spaceless w -> sharp e -> message (ParsingError w t) = message e -> ParsingError w t = e).
  { intros w t e Hw He E. destruct e; cbn [message] in E; cbn [sharp first_name] in He.
    - apply (cut_space w "Missing") in E; [|exact Hw|apply spaceless_check; reflexivity]. destruct E as [_ E]. discriminate E.
    - apply (cut_space w "Missing") in E; [|exact Hw|apply spaceless_check; reflexivity]. destruct E as [_ E]. discriminate E.
    - apply (cut_space w "Attribure") in E; [|exact Hw|apply spaceless_check; reflexivity]. destruct E as [_ E]. discriminate E.
    - apply (cut_space w "Tag") in E; [|exact Hw|apply spaceless_check; reflexivity]. destruct E as [_ E]. discriminate E.
    - apply (cut_space w "Unexpected") in E; [|exact Hw|apply spaceless_check; reflexivity]. destruct E as [_ E].
      change (append " parsing error: " ?x) with (String " " ("parsing" ++ String " " ("error: " ++ x))) in E.
      apply (cut_space "parsing" wrong_name) in E; [|apply spaceless_check; reflexivity|apply He; reflexivity].
      destruct E as [_ E]. discriminate E.
    - apply (cut_space w "xml") in E; [|exact Hw|apply spaceless_check; reflexivity]. destruct E as [_ E]. discriminate E.
    - apply cut_space in E; [|exact Hw|apply He; reflexivity]. destruct E as [-> E]. strip E. subst. reflexivity.
    - apply (cut_space w "write") in E; [|exact Hw|apply spaceless_check; reflexivity]. destruct E as [_ E]. discriminate E. }
  intros e e' H H' E.
  destruct e; try (apply P; [apply H; reflexivity|exact H'|exact E]);
  destruct e'; try (symmetry; apply P; [apply H'; reflexivity|exact H|symmetry; exact E]);
  cbn [message] in E; try discriminate E; try reflexivity; strip E.
  - apply cut_space in E; [|apply H; reflexivity|apply H'; reflexivity]. destruct E as [-> E]. strip E. apply cut_end in E. subst. reflexivity.
  - apply cut_end in E. subst. reflexivity.
  - apply cut_space in E; [|apply H; reflexivity|apply H'; reflexivity]. destruct E as [-> E]. strip E. apply cut_end in E. subst. reflexivity.
  - apply cut_space in E; [|apply H; reflexivity|apply H'; reflexivity]. destruct E as [-> E]. strip E. subst. reflexivity.
  - apply cut_space in E; [|apply H; reflexivity|apply H'; reflexivity]. destruct E as [-> E]. strip E. subst. reflexivity.
Qed.

(** ** The errors of the readers *)
Lemma all_spaceless : forall l s, forallb (fun s => negb (existsb (Ascii.eqb " ") (list_ascii_of_string s))) l = true -> In s l -> spaceless s.
Proof.
  intros l s H I. apply spaceless_check. rewrite forallb_forall in H. specialize (H s I).
  destruct (existsb _ _); [discriminate|reflexivity].
Qed.
Lemma in_further : forall r l n, In n (further r l) -> In n l.
Proof. intros r l n. unfold further. destruct (first r); [|trivial]. destruct l; [trivial|]. intros H. right. exact H. Qed.
Lemma inside_trans : forall a b c, inside a b -> inside b c -> inside a c.
Proof. intros a b c H1 H2. induction H2 as [|x d e I _ IH]; [exact H1|]. exact (inside_below _ _ _ I (IH H1)). Qed.
Lemma blamed_sharp : forall c er, blamed c er -> (forall d, In (NElement d) (children c) -> spaceless (name d)) ->
  (forall p d, In (NElement p) (children c) -> In (NElement d) (children p) -> spaceless (name d)) -> spaceless (name c) -> sharp er.
Proof.
  intros c er H D D2 C s E. destruct H; cbn [first_name] in E; try discriminate E; injection E as <-.
  - refine (all_spaceless (map snd required) _ eq_refl (in_map snd _ _ H)).
  - refine (all_spaceless (map (fun p => fst (snd p)) checked) _ eq_refl (in_map (fun p => fst (snd p)) _ _ H)).
  - refine (all_spaceless (map (fun p => fst (snd p)) selected) _ eq_refl (in_map (fun p => fst (snd p)) _ _ H)).
  - apply spaceless_check. reflexivity.
  - apply spaceless_check. reflexivity.
  - apply spaceless_check. reflexivity.
  - apply D. exact (in_further _ _ _ H0).
  - eapply D2; eassumption.
  - apply D. rewrite H0. apply in_or_app. right. right. assumption.
  - apply D. exact (in_further _ _ _ H1).
  - apply D. assumption.
  - apply D. rewrite H0. left. reflexivity.
  - apply D. rewrite H0. left. reflexivity.
  - apply D. rewrite H0. right. left. reflexivity.
  - apply D. rewrite H0. left. reflexivity.
  - exact C.
Qed.

Lemma explained_sharp : forall e er, spaceless_tags e -> explained e er -> sharp er.
Proof.
  intros e er S (c & I & B). apply (blamed_sharp c er B).
  - intros d D. apply S. refine (inside_trans _ _ _ (inside_below _ _ _ D (inside_here _)) I).
  - intros p d P D. apply S. refine (inside_trans _ _ _ (inside_below _ _ _ P (inside_below _ _ _ D (inside_here _))) I).
  - exact (S c I).
Qed.
Lemma wrong_sharp : forall w x, spaceless w -> sharp (WrongTagName w x).
Proof. intros w x H s E. injection E as <-. exact H. Qed.

Theorem law_error_sharp : forall e er, spaceless_tags e -> parse_law e = Err er -> sharp er.
Proof.
  intros e er S H. destruct (law_error_explained e er H) as [[_ ->]|X].
  - apply wrong_sharp, S, inside_here.
  - exact (explained_sharp e er S X).
Qed.
Theorem error_sharp : forall k e er, k <> KVoid -> tagged k e -> spaceless_tags e -> parse k e = Err er -> sharp er.
Proof.
  intros k e er N T S H. destruct (error_explained k e er N T H) as [(t & v & _ & _ & ->)|X].
  - apply wrong_sharp, S, inside_here.
  - exact (explained_sharp e er S X).
Qed.
