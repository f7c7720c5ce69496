(** What follows a fault does not matter. *)
From Coq Require Import String Ascii List Arith NArith Bool Lia.
From Verif Require Import Base NumStr NumStrSpec Xml Ast XmlWrite XmlParse XmlSpec XmlSim
  GrammarSpec ErrorSpec ReadingSpec EndSpec EndFacts EndFacts2.
Import ListNotations.
Open Scope string_scope.
Open Scope list_scope.

Lemma name_extended : forall e l, name (extended e l) = name e.
Proof. intros [n a c] l. reflexivity. Qed.
Lemma get_extended : forall e l x, get (extended e l) x = get e x.
Proof. intros [n a c] l x. reflexivity. Qed.
Lemma children_extended : forall e l, children (extended e l) = children e ++ l.
Proof. intros [n a c] l. reflexivity. Qed.

Lemma nodes_extended : forall rows o l w m, nodes_end rows o l w -> w <> Fine -> nodes_end rows o (l ++ m) w.
Proof.
  intros rows o l. induction l as [|n r IH]; intros w m H Hw; inversion H; subst; try contradiction; cbn.
  - apply nodes_text, IH; assumption.
  - apply nodes_other, IH; assumption.
  - apply nodes_pass; [assumption|]. apply IH; assumption.
  - apply nodes_stop; assumption.
Qed.
Lemma opening_extended : forall head rows o l er m, opening_ends head rows o l (Fault er) ->
  opening_ends head rows o (l ++ m) (Fault er).
Proof.
  intros head rows o l. induction l as [|n r IH]; intros er m H; inversion H; subst; cbn.
  - apply opening_text, IH; assumption.
  - apply opening_other, IH; assumption.
  - eapply opening_pass; [eassumption|assumption|]. apply IH; assumption.
  - eapply opening_stop; eassumption.
  - apply opening_over; [assumption|]. apply (nodes_extended _ _ (NElement c :: r)); [assumption|discriminate].
Qed.

(** Checks whose outcome does not change. *)
Definition steady (e : Element) (c : check) : Prop :=
  match c with
  | At i (MissingRequiredTag _) _ => True
  | At i _ _ => i < length (children e)
  | As _ | Tried _ | Each _ _ _ | Opening _ _ _ | Needs _ _ => False
  | _ => True
  end.
Definition lasting (er : Error) : Prop := forall u, er <> MissingRequiredTag u.
Lemma steady_same : forall e l c w, steady e c -> passes c e w -> (forall er, w = Fault er -> lasting er) ->
  passes c (extended e l) w.
Proof.
  intros e l c w Hs H Hw.
  destruct c as [t er|a|a|a v|a u ts|a ts|a|a|a|k|k|i rows o|i er ck|hd rows o|ts u]; try contradiction.
  1-9: inversion H; subst; apply pass_alone; match goal with X : alone _ _ _ |- _ => cbn [alone] in X |- * end;
    rewrite ?name_extended, ?get_extended; assumption.
  inversion H; subst; [contradiction| |].
  - eapply pass_at; [|eassumption]. unfold element_at in *. rewrite children_extended.
    rewrite nth_error_app1; [assumption|]. apply nth_error_Some. congruence.
  - specialize (Hw _ eq_refl).
    assert (Hi : i < length (children e)).
    { destruct er; try exact Hs. exfalso. eapply Hw. reflexivity. }
    apply pass_not_at. intros c X. unfold element_at in *. rewrite children_extended, nth_error_app1 in X by exact Hi.
    eapply H5. exact X.
Qed.

Definition final (l : list check) : Prop :=
  match l with
  | [] | [Each _ _ _] | [Each _ _ _; Needs _ _] | [Opening _ _ _] => True
  | _ => False
  end.
Lemma final_same : forall e m l er, final l -> (forall i rows o, In (Each i rows o) l -> i <= length (children e)) ->
  ends l e (Fault er) -> lasting er -> ends l (extended e m) (Fault er).
Proof.
  intros e m l er Hf Hi H Hl.
  assert (X : forall i rows o r, In (Each i rows o) l -> passes (Each i rows o) e (Fault er) ->
    ends (Each i rows o :: r) (extended e m) (Fault er)).
  { intros i rows o r Hin H1. apply ends_stop; [|discriminate]. inversion H1; subst; [contradiction|].
    apply pass_each. rewrite children_extended.
    rewrite skipn_app. replace (i - length (children e)) with 0 by (specialize (Hi _ _ _ Hin); lia).
    cbn [skipn]. apply nodes_extended; [assumption|discriminate]. }
  destruct l as [|c [|d [|]]]; try contradiction.
  - inversion H.
  - destruct c; try contradiction.
    + inversion H; subst; [match goal with Y : ends [] _ _ |- _ => inversion Y end|]. apply X; [left; reflexivity|assumption].
    + inversion H; subst; [match goal with Y : ends [] _ _ |- _ => inversion Y end|]. apply ends_stop; [|discriminate].
      match goal with Y : passes _ _ _ |- _ => inversion Y; subst; [contradiction|] end.
      apply pass_opening. rewrite children_extended. apply opening_extended. assumption.
  - destruct c; try contradiction. destruct d; try contradiction.
    inversion H; subst; [|apply X; [left; reflexivity|assumption]].
    exfalso. match goal with Y : ends [Needs _ _] _ _ |- _ => inversion Y; subst end;
      [match goal with Z : ends [] _ _ |- _ => inversion Z end|].
    match goal with Y : passes (Needs _ _) _ _ |- _ => inversion Y; subst end.
    match goal with Y : alone _ _ _ |- _ => destruct Y as [[_ Y]|[_ Y]]; [discriminate|injection Y as ->] end. eapply Hl. reflexivity.
  - destruct c; try contradiction. destruct d; contradiction.
Qed.
Lemma split_same : forall e m front back er, Forall (steady e) front -> final back ->
  (forall i rows o, In (Each i rows o) back -> i <= length (children e)) ->
  ends (front ++ back) e (Fault er) -> lasting er -> ends (front ++ back) (extended e m) (Fault er).
Proof.
  intros e m front back er Hs Hf Hi H Hl. induction Hs as [|c r Hc Hr IH]; cbn in *; [apply final_same; assumption|].
  inversion H; subst.
  - apply ends_pass; [|apply IH; assumption]. apply steady_same; [exact Hc|assumption|discriminate].
  - apply ends_stop; [|discriminate]. apply steady_same; [exact Hc|assumption|]. intros er' E. injection E as <-. exact Hl.
Qed.

Fixpoint cut (l : list check) : list check * list check :=
  match l with
  | [] => ([], [])
  | c :: r => match c with
      | Each _ _ _ | Opening _ _ _ => ([], l)
      | _ => let '(a, b) := cut r in (c :: a, b)
      end
  end.
Lemma cut_app : forall l, l = fst (cut l) ++ snd (cut l).
Proof. induction l as [|c r IH]; [reflexivity|]. destruct c; cbn; try reflexivity; destruct (cut r); cbn in *; congruence. Qed.

Lemma rules_cut : forall k e, children e <> [] ->
  Forall (steady e) (fst (cut (rules k))) /\ final (snd (cut (rules k))) /\
  (forall i rows o, In (Each i rows o) (snd (cut (rules k))) -> i <= length (children e)).
Proof.
  intros k e He.
  assert (L : 1 <= length (children e)) by (destruct (children e); [contradiction|cbn; lia]).
  destruct k; try match goal with x : cname |- _ => destruct x | x : sname |- _ => destruct x | x : llvl |- _ => destruct x | x : lvl |- _ => destruct x end;
    (split; [repeat apply Forall_cons; try apply Forall_nil; cbn; try exact I; try exact L|split; [exact I|]];
     intros i rows o Hin; cbn in Hin;
     repeat match type of Hin with _ \/ _ => destruct Hin as [Hin|Hin] end; try contradiction; try discriminate;
     injection Hin as <- _ _; lia).
Qed.

Theorem parse_extended : forall k e l er, k <> KVoid -> tagged k e -> children e <> [] ->
  parse k e = Err er -> lasting er -> parse k (extended e l) = Err er.
Proof.
  intros k e l er Hk Ht He H Hl. apply eo_fault, parse_ends_iff; [exact Hk| |].
  - destruct k; try exact I. destruct c; cbn in *; rewrite name_extended; exact Ht.
  - apply eo_fault, parse_ends_iff in H; [|exact Hk|exact Ht].
    destruct (rules_cut k e He) as (H1 & H2 & H3). rewrite (cut_app (rules k)) in H |- *. apply split_same; assumption.
Qed.
Theorem parse_law_extended : forall e l er, parse_law e = Err er -> lasting er -> parse_law (extended e l) = Err er.
Proof.
  intros e l er H Hl. apply eo_fault, parse_law_ends_iff. apply eo_fault, parse_law_ends_iff in H.
  rewrite <- (app_nil_r law_rules) in H |- *. apply split_same; try assumption.
  - unfold law_rules, is_tag. repeat apply Forall_cons; try apply Forall_nil; exact I.
  - exact I.
  - intros i rows o [].
Qed.
