(** Replacing an element anywhere in a tree: induction on the place. *)
From Coq Require Import String List NArith Bool Lia Arith.
From Verif Require Import Base NumStr Xml Ast XmlWrite XmlParse XmlSpec XmlSim Utils Serde LocalSpec LocalFacts.
Import ListNotations.
Open Scope string_scope.
Open Scope list_scope.

(** ** Places *)
Fixpoint deep (q : place) : nat := match q with Here => 0 | Under _ _ _ q _ => S (deep q) end.

(** Readers that look at the tag first. *)
Definition checks (k : kind) : option string :=
  match k with
  | KSentence => Some "Sentence"
  | KList v => Some (list_tag v)
  | KLawBody => Some "LawBody"
  | _ => None
  end.

Lemma kind_tagged : forall e k, kind_of e = Some k -> well_tagged k e.
Proof.
  intros e k. unfold kind_of, well_tagged.
  assert (H : Forall (fun r => match snd r with KCont _ => structural (fst r) || single (fst r) = false | _ => True end) kinds)
    by (repeat constructor).
  revert H. induction kinds as [|[n j] t IH]; intros H E; [discriminate|].
  cbn in E. inversion H as [|? ? H1 H2]; subst. destruct (String.eqb_spec (name e) n) as [->|].
  - injection E as ->. exact H1.
  - apply IH; assumption.
Qed.
Lemma checks_tagged : forall e k, checks k <> None -> well_tagged k e.
Proof. intros e k H. destruct k; try exact I. contradiction. Qed.
Lemma checks_name : forall k t e, checks k = Some t -> name e = t -> kind_of e = Some k.
Proof.
  intros k t e H E. unfold kind_of. rewrite E.
  destruct k; try discriminate; injection H as <-; try reflexivity. destruct l; reflexivity.
Qed.
Lemma checks_wrong : forall k t e e', checks k = Some t -> name e <> t -> name e' = name e -> parse k e = parse k e' /\ exists x, parse k e = Err x.
Proof.
  intros k t e e' H E En.
  rewrite !parse_unfold by (apply checks_tagged; rewrite H; discriminate).
  apply String.eqb_neq in E.
  destruct k; try discriminate; injection H as <-; cbn [pstep];
    unfold parse_sentence, parse_list, parse_law_body, with_name; rewrite En, E; unfold wrong_tag_name; rewrite En;
    (split; [reflexivity|eexists; reflexivity]).
Qed.

Section Hole.
Context (k0 : kind) (c c' : Element) (d d' : json).
Hypothesis Htw : twins k0 c c'.
Hypothesis Hole : orel (@rel _ (chg_knot d d' k0)) (parse k0 c) (parse k0 c').

Definition close (m : nat) (f f' : Element) : Prop := exists q, deep q < m /\ f = put q c /\ f' = put q c'.

Lemma close_name : forall m f f', close m f f' -> name f' = name f.
Proof. intros m f f' (q & _ & -> & ->). destruct q; [apply Htw|reflexivity]. Qed.
Lemma close_under : forall m f f', close m f f' -> kind_of f = None -> under (close m) f f'.
Proof.
  intros m f f' (q & Hq & -> & ->) E. destruct q as [|n a l q r]; cbn [put] in *.
  - destruct Htw as (K & _). congruence.
  - exists n, a, l, r, (put q c), (put q c'). split; [reflexivity|]. split; [reflexivity|].
    exists q. cbn in Hq. split; [lia|auto].
Qed.
Lemma close_num : forall m f f', close m f f' -> name f = "ArithFormula" -> get f' "Num" = get f "Num".
Proof.
  intros m f f' (q & _ & -> & ->) E. destruct q; [|reflexivity].
  destruct Htw as (K & _ & N). apply N. unfold kind_of in K. cbn [put] in E. rewrite E in K. injection K as <-. reflexivity.
Qed.

Lemma local : forall m q k, deep q < m -> (kind_of (put q c) = Some k \/ checks k <> None) ->
  orel (@rel _ (chg_knot d d' k)) (parse k (put q c)) (parse k (put q c')).
Proof.
  induction m as [|m IH]; intros q k Hq Hk; [lia|].
  destruct q as [|n a l q r]; cbn [put] in *.
  - destruct Htw as (K & N & _).
    assert (D : kind_of c = Some k \/ exists t, checks k = Some t /\ name c <> t).
    { destruct Hk as [Hk|Hk]; [left; exact Hk|]. destruct (checks k) as [t|] eqn:E; [|contradiction].
      destruct (string_dec (name c) t) as [En|En]; [left; apply (checks_name k t c E En)|right; exists t; auto]. }
    destruct D as [D|(t & E & En)].
    + rewrite K in D. injection D as <-. exact Hole.
    + destruct (checks_wrong k t c c' E En N) as (<- & x & ->). reflexivity.
  - assert (W : forall e, name e = n -> well_tagged k e).
    { intros e En. destruct Hk as [Hk|Hk]; [|apply checks_tagged, Hk].
      apply kind_tagged. unfold kind_of in *. rewrite En. exact Hk. }
    rewrite !parse_unfold by (apply W; reflexivity).
    eapply orel_bind.
    + apply (step_near (close m) (close_name m) d d' parse).
      * intros f f' j (i & Hi & -> & ->) Hj. apply IH; [exact Hi|].
        destruct Hj as [Hj|[->|(v & ->)]]; [left; exact Hj|right; discriminate|right; discriminate].
      * apply close_under.
      * apply close_num.
      * exists q. cbn in Hq. split; [lia|auto].
    + intros x y [->|H]; [left; reflexivity|right; exact H].
Qed.

Lemma local_law : forall q, orel (@rel _ (chg_law d d')) (parse_law (put q c)) (parse_law (put q c')).
Proof.
  intros [|n a l q r]; cbn [put].
  - destruct Htw as (K & N & _). unfold parse_law, with_name. rewrite N.
    destruct (String.eqb_spec (name c) "Law") as [E|]; [|unfold wrong_tag_name; rewrite N; reflexivity].
    exfalso. unfold kind_of in K. rewrite E in K. discriminate.
  - unfold parse_law, with_name. cbn [name]. destruct (String.eqb n "Law"); [|reflexivity].
    repeat (apply orel_same; intros ?). cbn [children].
    assert (Q : close (S (deep q)) (put q c) (put q c')) by (exists q; auto).
    destruct l as [|[x|t|t] l]; cbn [app]; [| |reflexivity|reflexivity].
    + rewrite (close_name _ _ _ Q). destruct (String.eqb_spec (name (put q c)) "LawNum") as [E|]; [|reflexivity].
      destruct (close_under _ _ _ Q) as (m & b & l' & r' & f & f' & -> & -> & _).
      { unfold kind_of. rewrite E. reflexivity. }
      cbn [children]. rewrite (nodes_text_near l' f f' r').
      apply orel_refl. left. reflexivity.
    + destruct (String.eqb (name x) "LawNum"); [|reflexivity].
      destruct l as [|[y|t|t] l]; cbn [app]; [| |reflexivity|reflexivity].
      * eapply orel_bind; [apply (local (S (deep q))); [lia|right; discriminate]|].
        intros u v [->|H]; [left; reflexivity|]. apply orel_ok. right. apply op_fields.
        do 8 apply chf_next. apply chf_here. exact H.
      * apply orel_refl. left. reflexivity.
Qed.
End Hole.
