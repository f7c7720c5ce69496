(** Expressions that have the same matches. *)
From Coq Require Import String List NArith Bool Arith Lia Btauto.
From Verif Require Import Base Regex RegexFacts NumText TextParse Pattern.
Import ListNotations.
Open Scope list_scope.

Definition same (a b : re) : Prop := forall s, exec a s = exec b s.

Lemma same_trans : forall a b c, same a b -> same b c -> same a c.
Proof. intros a b c H G s. rewrite H. apply G. Qed.
Lemma same_sym : forall a b, same a b -> same b a.
Proof. intros a b H s. symmetry. apply H. Qed.
Lemma same_seq : forall a a' b b', same a a' -> same b b' -> same (Seq a b) (Seq a' b').
Proof. intros a a' b b' H G s. cbn [exec]. rewrite H. apply flat_map_eq. intros x _. rewrite G. reflexivity. Qed.
Lemma same_alt : forall a a' b b', same a a' -> same b b' -> same (Alt a b) (Alt a' b').
Proof. intros a a' b b' H G s. cbn [exec]. rewrite H, G. reflexivity. Qed.
Lemma same_cap : forall n a a', same a a' -> same (Cap n a) (Cap n a').
Proof. intros n a a' H s. cbn [exec]. rewrite H. reflexivity. Qed.
Lemma same_star : forall a a', same a a' -> same (Star a) (Star a').
Proof.
  intros a a' H s. rewrite !exec_star. generalize (length s) as n. intros n. revert s.
  induction n as [|n IH]; intros s; [reflexivity|]. cbn [star_n]. rewrite H. f_equal. apply flat_map_eq.
  intros x _. destruct (Nat.ltb _ _); [|reflexivity]. rewrite IH. reflexivity.
Qed.

(** ** A normal form for the nesting of sequences and alternatives *)
Fixpoint join (a b : re) : re :=
  match a with
  | Seq x y => Seq x (join y b)
  | Eps => b
  | _ => match b with Eps => a | _ => Seq a b end
  end.
Fixpoint either (a b : re) : re :=
  match a with Alt x y => Alt x (either y b) | _ => Alt a b end.
Fixpoint norm (r : re) : re :=
  match r with
  | Eps => Eps
  | End => End
  | Chr p => Chr p
  | Seq a b => join (norm a) (norm b)
  | Alt a b => either (norm a) (norm b)
  | Star a => Star (norm a)
  | Cap n a => Cap n (norm a)
  end.
Lemma after_nil : forall l, after [] l = l.
Proof. intros l. unfold after. rewrite <- (map_id l) at 2. apply map_ext. intros [c s]. reflexivity. Qed.
Lemma seq_eps_l : forall b, same (Seq Eps b) b.
Proof. intros b s. cbn. rewrite app_nil_r. apply after_nil. Qed.
Lemma seq_eps_r : forall a, same (Seq a Eps) a.
Proof.
  intros a s. cbn [exec]. induction (exec a s) as [|[c s'] l IH]; [reflexivity|]. cbn [flat_map]. rewrite IH. cbn. rewrite app_nil_r. reflexivity.
Qed.
Lemma flat_map_flat : forall A B C (f : A -> list B) (g : B -> list C) l,
  flat_map g (flat_map f l) = flat_map (fun x => flat_map g (f x)) l.
Proof. intros A B C f g l. induction l; cbn; [reflexivity|]. rewrite flat_map_app, IHl. reflexivity. Qed.
Lemma after_app : forall c l m, after c (l ++ m) = after c l ++ after c m.
Proof. intros c l m. apply map_app. Qed.
Lemma after_after : forall c d l, after c (after d l) = after (c ++ d) l.
Proof.
  intros c d l. induction l as [|[e s] l IH]; [reflexivity|]. cbn. f_equal; [rewrite app_assoc; reflexivity|exact IH].
Qed.
Lemma after_flat : forall (f : ustr -> list result) c l,
  flat_map (fun x => after (fst x) (f (snd x))) (after c l) = after c (flat_map (fun x => after (fst x) (f (snd x))) l).
Proof.
  intros f c l. induction l as [|[d s] l IH]; [reflexivity|]. cbn [flat_map]. rewrite after_app, after_after, <- IH. reflexivity.
Qed.
Lemma seq_assoc : forall a b c, same (Seq (Seq a b) c) (Seq a (Seq b c)).
Proof.
  intros a b c s. cbn [exec]. rewrite flat_map_flat. apply flat_map_eq. intros [c1 s1] _. cbn [fst snd].
  apply (after_flat (exec c)).
Qed.
Lemma alt_assoc : forall a b c, same (Alt (Alt a b) c) (Alt a (Alt b c)).
Proof. intros a b c s. cbn [exec]. rewrite app_assoc. reflexivity. Qed.
Lemma same_refl : forall a, same a a.
Proof. intros a s. reflexivity. Qed.
Lemma join_same : forall a b, same (join a b) (Seq a b).
Proof.
  assert (D : forall a b, same (match b with Eps => a | _ => Seq a b end) (Seq a b)).
  { intros a b. destruct b; try apply same_refl. apply same_sym, seq_eps_r. }
  induction a as [| |p|x IHx y IHy|x IHx y IHy|x IHx|m x IHx]; intros b; try apply D.
  - apply same_sym, seq_eps_l.
  - cbn [join]. apply same_trans with (Seq x (Seq y b)); [apply same_seq; [apply same_refl|apply IHy]|].
    apply same_sym, seq_assoc.
Qed.
Lemma either_same : forall a b, same (either a b) (Alt a b).
Proof.
  induction a as [| |p|x IHx y IHy|x IHx y IHy|x IHx|m x IHx]; intros b; try apply same_refl.
  cbn [either]. apply same_trans with (Alt x (Alt y b)); [apply same_alt; [apply same_refl|apply IHy]|].
  apply same_sym, alt_assoc.
Qed.
Lemma norm_same : forall r, same (norm r) r.
Proof.
  induction r as [| |p|a IHa b IHb|a IHa b IHb|a IHa|m a IHa]; cbn [norm]; try apply same_refl.
  - eapply same_trans; [apply join_same|apply same_seq; assumption].
  - eapply same_trans; [apply either_same|apply same_alt; assumption].
  - apply same_star, IHa.
  - apply same_cap, IHa.
Qed.

(** ** Equal up to the way classes are written *)
Fixpoint alike (a b : re) : Prop :=
  match a, b with
  | Eps, Eps | End, End => True
  | Chr p, Chr q => forall c, p c = q c
  | Seq x y, Seq x' y' | Alt x y, Alt x' y' => alike x x' /\ alike y y'
  | Star x, Star x' => alike x x'
  | Cap n x, Cap m x' => n = m /\ alike x x'
  | _, _ => False
  end.
Lemma alike_same : forall a b, alike a b -> same a b.
Proof.
  induction a as [| |p|x IHx y IHy|x IHx y IHy|x IHx|m x IHx]; intros b H; destruct b; try destruct H; cbn [alike] in *; try apply same_refl.
  - intros [|c s]; [reflexivity|]. cbn. rewrite H. reflexivity.
  - apply same_seq; auto.
  - apply same_alt; auto.
  - apply same_star; auto.
  - subst. apply same_cap; auto.
Qed.
Lemma alike_norm : forall a b, alike (norm a) (norm b) -> same a b.
Proof.
  intros a b H. eapply same_trans; [apply same_sym, norm_same|]. eapply same_trans; [apply alike_same, H|apply norm_same].
Qed.
Lemma in_range_same : forall x c, in_range x x c = N.eqb c x.
Proof.
  intros x c. unfold in_range. destruct (N.eqb_spec c x) as [->|N].
  - rewrite N.leb_refl. reflexivity.
  - destruct (N.leb_spec x c), (N.leb_spec c x); try reflexivity. lia.
Qed.

Ltac same_class :=
  let c := fresh "c" in intros c; rewrite ?in_range_same, ?(N.eqb_sym _ c); try reflexivity; btauto.
Ltac same_pattern :=
  apply alike_norm; cbv -[in_range N.eqb is_space orb xorb negb]; repeat split; same_class.
