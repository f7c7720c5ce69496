(** The engine of Regex.v lists exactly the derivations of MatchSpec.v, best first. *)
From Coq Require Import String List NArith Bool Arith Lia Sorting.Sorted.
From Verif Require Import Base Regex RegexFacts MatchSpec.
Import ListNotations.
Open Scope list_scope.

(** ** The engine with derivations *)
Definition item := (tree * ustr)%type.
Definition build (k : tree -> tree) (l : list item) : list item := map (fun x => (k (fst x), snd x)) l.
Definition stars (f : ustr -> list item) : nat -> ustr -> list item :=
  fix go (n : nat) (s : ustr) {struct n} : list item :=
    match n with
    | O => [(Stop, s)]
    | S n' =>
        flat_map (fun x => if Nat.ltb (length (snd x)) (length s)
                           then build (More (fst x)) (go n' (snd x)) else []) (f s)
        ++ [(Stop, s)]
    end.
Fixpoint trees (r : re) (s : ustr) {struct r} : list item :=
  match r with
  | Eps => [(Nothing, s)]
  | End => match s with [] => [(Nothing, s)] | _ => [] end
  | Chr p => match s with c :: s' => if p c then [(One c, s')] else [] | [] => [] end
  | Seq a b => flat_map (fun x => build (Both (fst x)) (trees b (snd x))) (trees a s)
  | Alt a b => build First (trees a s) ++ build Second (trees b s)
  | Star a => stars (trees a) (length s) s
  | Cap n a => build (Named n) (trees a s)
  end.

(** ** Text *)
Lemma parses_text : forall r s t s', parses r s t s' -> s = text_of t ++ s'.
Proof.
  intros r s t s' H. induction H; cbn [text_of app]; try reflexivity; try assumption.
  - rewrite <- app_assoc, <- IHparses2. assumption.
  - rewrite <- app_assoc, <- IHparses2. assumption.
Qed.
Lemma parses_shorter : forall r s t s', parses r s t s' -> s' <> s <-> length s' < length s.
Proof.
  intros r s t s' H. apply parses_text in H. subst s. rewrite app_length. split.
  - intros N. destruct (text_of t); [exfalso; apply N; reflexivity|cbn; lia].
  - intros L E. apply (f_equal (@length N)) in E. rewrite app_length in E. lia.
Qed.

(** ** The list holds the derivations *)
Lemma in_build : forall k l t s, In (t, s) (build k l) <-> exists t0, t = k t0 /\ In (t0, s) l.
Proof.
  intros k l t s. unfold build. rewrite in_map_iff. split.
  - intros [[t0 s0] [E H]]. cbn in E. injection E as <- <-. exists t0. auto.
  - intros [t0 [-> H]]. exists (t0, s). auto.
Qed.
Lemma stars_in : forall a (IH : forall s t s', In (t, s') (trees a s) <-> parses a s t s') n s t s',
  length s <= n -> In (t, s') (stars (trees a) n s) <-> parses (Star a) s t s'.
Proof.
  intros a IH n. induction n as [|n IHn]; intros s t s' L; cbn [stars].
  - destruct s; [|cbn in L; lia]. split.
    + intros [H|[]]. injection H as <- <-. constructor.
    + intros H. inversion H; subst; [left; reflexivity|]. exfalso.
      match goal with Hp : parses a [] _ _, Hn : _ <> [] |- _ => apply (proj1 (parses_shorter _ _ _ _ Hp)) in Hn; cbn in Hn; lia end.
  - rewrite in_app_iff, in_flat_map. split.
    + intros [[[t1 s1] [H1 H]]|[H|[]]].
      * cbn [fst snd] in H. destruct (Nat.ltb_spec (length s1) (length s)); [|destruct H].
        apply in_build in H as [t2 [-> H]]. apply IH in H1.
        apply parses_more with s1; [assumption| |apply (IHn s1); [lia|assumption]].
        apply (parses_shorter _ _ _ _ H1). assumption.
      * injection H as <- <-. constructor.
    + intros H. inversion H; subst; [right; left; reflexivity|]. left.
      match goal with Hp : parses a s ?t0 ?s0, Hn : ?s0 <> s |- _ =>
        apply (proj1 (parses_shorter _ _ _ _ Hp)) in Hn; exists (t0, s0); split; [apply IH; exact Hp|];
        cbn [fst snd]; destruct (Nat.ltb_spec (length s0) (length s)); [|lia];
        apply in_build; eexists; split; [reflexivity|]; apply (IHn s0); [lia|assumption] end.
Qed.
Lemma trees_in : forall r s t s', In (t, s') (trees r s) <-> parses r s t s'.
Proof.
  induction r as [| |p|a IHa b IHb|a IHa b IHb|a IHa|m a IHa]; intros s t s'.
  - cbn. split; [intros [H|[]]; injection H as <- <-; constructor|intros H; inversion H; subst; left; reflexivity].
  - split.
    + destruct s; [|intros []]. intros [H|[]]. injection H as <- <-. constructor.
    + intros H. inversion H; subst. left. reflexivity.
  - split.
    + destruct s as [|c s]; [intros []|]. cbn. destruct (p c) eqn:E; [|intros []].
      intros [H|[]]. injection H as <- <-. constructor. assumption.
    + intros H. inversion H; subst. cbn.
      match goal with Hp : p _ = true |- _ => rewrite Hp end. left. reflexivity.
  - cbn [trees]. rewrite in_flat_map. split.
    + intros [[t1 s1] [H1 H]]. apply in_build in H as [t2 [-> H]]. cbn [fst snd] in *.
      econstructor; [apply IHa, H1|apply IHb, H].
    + intros H. inversion H; subst.
      match goal with Ha : parses a s ?t1 ?s1 |- _ => exists (t1, s1); split; [apply IHa; exact Ha|] end.
      apply in_build. eexists. split; [reflexivity|]. apply IHb. assumption.
  - cbn [trees]. rewrite in_app_iff, !in_build. split.
    + intros [[t0 [-> H]]|[t0 [-> H]]]; [apply parses_first, IHa, H|apply parses_second, IHb, H].
    + intros H. inversion H; subst; [left|right]; eexists; (split; [reflexivity|]); [apply IHa|apply IHb]; assumption.
  - cbn [trees]. apply stars_in; [exact IHa|lia].
  - cbn [trees]. rewrite in_build. split.
    + intros [t0 [-> H]]. constructor. apply IHa, H.
    + intros H. inversion H; subst. eexists. split; [reflexivity|]. apply IHa. assumption.
Qed.

(** ** The list is the list of the engine *)
Definition as_result (x : item) : result := (groups_of (fst x), snd x).
Lemma map_flat_map : forall A B C (g : B -> C) (f : A -> list B) l,
  map g (flat_map f l) = flat_map (fun x => map g (f x)) l.
Proof. intros A B C g f l. induction l; cbn; [reflexivity|]. rewrite map_app, IHl. reflexivity. Qed.
Lemma flat_map_map : forall A B C (g : A -> B) (f : B -> list C) l,
  flat_map f (map g l) = flat_map (fun x => f (g x)) l.
Proof. intros A B C g f l. induction l; cbn; [reflexivity|]. rewrite IHl. reflexivity. Qed.
Lemma trees_exec : forall r s, exec r s = map as_result (trees r s).
Proof.
  induction r as [| |p|a IHa b IHb|a IHa b IHb|a IHa|m a IHa]; intros s.
  - reflexivity.
  - destruct s; reflexivity.
  - destruct s as [|c s]; [reflexivity|]. cbn. destruct (p c); reflexivity.
  - cbn [exec trees]. rewrite IHa, flat_map_map, map_flat_map. apply flat_map_eq. intros x _.
    unfold after, build. cbn [as_result fst snd]. rewrite IHb, !map_map. reflexivity.
  - cbn [exec trees]. rewrite IHa, IHb, map_app. unfold build. rewrite !map_map. reflexivity.
  - rewrite exec_star. cbn [trees]. generalize (length s) as n. intros n. revert s.
    induction n as [|n IH]; intros s; [reflexivity|]. cbn [star_n stars].
    rewrite map_app, IHa, flat_map_map, map_flat_map. f_equal. apply flat_map_eq. intros x _.
    cbn [as_result fst snd]. destruct (Nat.ltb _ _); [|reflexivity].
    unfold after, build. rewrite IH, !map_map. reflexivity.
  - cbn [exec trees]. rewrite IHa. unfold build. rewrite !map_map. apply map_ext_in.
    intros [t s'] H. apply trees_in in H. apply parses_text in H. unfold as_result. cbn [fst snd groups_of].
    rewrite H at 1. rewrite consumed_app. reflexivity.
Qed.

(** ** The list is sorted *)
Definition over (x y : item) : Prop := prefers (fst x) (fst y).
Notation sorted := (StronglySorted over).
Lemma sorted_app : forall l m, sorted l -> sorted m -> (forall x y, In x l -> In y m -> over x y) -> sorted (l ++ m).
Proof.
  intros l m Hl Hm H. induction Hl as [|x l Hl IH Hx]; cbn; [assumption|]. constructor.
  - apply IH. intros; apply H; [right|]; assumption.
  - apply Forall_app. split; [assumption|]. apply Forall_forall. intros y Hy. apply H; [left; reflexivity|assumption].
Qed.
Lemma sorted_build : forall k l, (forall a b, prefers a b -> prefers (k a) (k b)) -> sorted l -> sorted (build k l).
Proof.
  intros k l Hk H. induction H as [|x l H IH Hx]; cbn; constructor; [assumption|].
  apply Forall_forall. intros y Hy. unfold build in Hy. apply in_map_iff in Hy as [z [<- Hz]].
  unfold over. cbn. apply Hk. rewrite Forall_forall in Hx. apply Hx, Hz.
Qed.
Lemma sorted_flat_map : forall (f : item -> list item) l, sorted l -> (forall x, In x l -> sorted (f x)) ->
  (forall x y p q, over x y -> In p (f x) -> In q (f y) -> over p q) -> sorted (flat_map f l).
Proof.
  intros f l H Hf Ho. induction H as [|x l H IH Hx]; cbn; [constructor|]. apply sorted_app.
  - apply Hf. left. reflexivity.
  - apply IH. intros; apply Hf; right; assumption.
  - intros p q Hp Hq. apply in_flat_map in Hq as [y [Hy Hq]]. rewrite Forall_forall in Hx. eauto.
Qed.
Lemma trees_sorted : forall r s, sorted (trees r s).
Proof.
  assert (U : forall x, sorted [x]) by (intros; constructor; constructor).
  induction r as [| |p|a IHa b IHb|a IHa b IHb|a IHa|m a IHa]; intros s.
  - apply U.
  - destruct s; [apply U|constructor].
  - destruct s as [|c s]; [constructor|]. cbn. destruct (p c); [apply U|constructor].
  - cbn [trees]. apply sorted_flat_map; [apply IHa| |].
    + intros x _. apply sorted_build; [intros; apply prefers_both_r; assumption|apply IHb].
    + intros x y [p p'] [q q'] O Hp Hq. apply in_build in Hp as [p0 [-> _]]. apply in_build in Hq as [q0 [-> _]].
      apply prefers_both_l, O.
  - cbn [trees]. apply sorted_app.
    + apply sorted_build; [intros; constructor; assumption|apply IHa].
    + apply sorted_build; [intros; constructor; assumption|apply IHb].
    + intros [p p'] [q q'] Hp Hq. apply in_build in Hp as [p0 [-> _]]. apply in_build in Hq as [q0 [-> _]]. constructor.
  - cbn [trees]. generalize (length s) as n. intros n. revert s.
    induction n as [|n IH]; intros s; cbn [stars]; [apply U|]. apply sorted_app; [|apply U|].
    + apply sorted_flat_map; [apply IHa| |].
      * intros x _. destruct (Nat.ltb _ _); [|constructor].
        apply sorted_build; [intros; apply prefers_more_r; assumption|apply IH].
      * intros x y [p p'] [q q'] O Hp Hq.
        destruct (Nat.ltb _ _) in Hp; [|destruct Hp]. destruct (Nat.ltb _ _) in Hq; [|destruct Hq].
        apply in_build in Hp as [p0 [-> _]]. apply in_build in Hq as [q0 [-> _]]. apply prefers_more_l, O.
    + intros [p p'] q Hp [<-|[]]. apply in_flat_map in Hp as [x [_ Hp]].
      destruct (Nat.ltb _ _) in Hp; [|destruct Hp]. apply in_build in Hp as [p0 [-> _]]. constructor.
  - cbn [trees]. apply sorted_build; [intros; constructor; assumption|apply IHa].
Qed.

(** ** The preferred derivation *)
Lemma prefers_irrefl : forall a, ~ prefers a a.
Proof. induction a; intros H; inversion H; subst; auto. Qed.
Lemma prefers_asym : forall a b, prefers a b -> prefers b a -> False.
Proof.
  intros a b H. induction H; intros G; inversion G; subst; auto;
  match goal with P : prefers ?x ?x |- _ => exact (prefers_irrefl _ P) end.
Qed.
Lemma parses_rest : forall r s t s' s'', parses r s t s' -> parses r s t s'' -> s' = s''.
Proof.
  intros r s t s' s'' H G. apply parses_text in H. apply parses_text in G. rewrite H in G.
  apply app_inv_head in G. assumption.
Qed.
Lemma best_unique : forall r s t s' t' s'', best r s t s' -> best r s t' s'' -> t = t' /\ s' = s''.
Proof.
  intros r s t s' t' s'' [P B] [P' B']. assert (E : t = t').
  { destruct (B _ _ P') as [E|O]; [auto|]. destruct (B' _ _ P) as [E|O']; [auto|].
    destruct (prefers_asym _ _ O O'). }
  split; [assumption|]. subst t'. eapply parses_rest; eassumption.
Qed.
Lemma exec_head : forall r s c s', (exists l, exec r s = (c, s') :: l) <-> exists t, best r s t s' /\ groups_of t = c.
Proof.
  assert (D : forall r s c s', (exists l, exec r s = (c, s') :: l) -> exists t, best r s t s' /\ groups_of t = c).
  { intros r s c s' [l H]. rewrite trees_exec in H. destruct (trees r s) as [|[t q] l'] eqn:E; [discriminate|].
    cbn in H. unfold as_result in H. cbn in H. injection H as <- <- _. exists t. split; [|reflexivity]. split.
    - apply trees_in. rewrite E. left. reflexivity.
    - intros t' s'' P. apply trees_in in P. rewrite E in P. destruct P as [P|P].
      + injection P as <- <-. left. reflexivity.
      + right. pose proof (trees_sorted r s) as S. rewrite E in S. inversion S as [|? ? ? F]; subst.
        rewrite Forall_forall in F. exact (F _ P). }
  intros r s c s'. split; [apply D|]. intros [t [B <-]].
  destruct (exec r s) as [|[c0 s0] l] eqn:E.
  - exfalso. destruct B as [P _]. apply trees_in in P. rewrite trees_exec in E.
    destruct (trees r s); [destruct P|discriminate].
  - destruct (D r s c0 s0) as [t0 [B0 <-]]; [exists l; assumption|].
    destruct (best_unique _ _ _ _ _ _ B B0) as [-> ->]. exists l. reflexivity.
Qed.

(** ** Names *)
Fixpoint bare (r : re) : bool :=
  match r with
  | Eps | End | Chr _ => true
  | Seq a b | Alt a b => bare a && bare b
  | Star a => bare a
  | Cap _ _ => false
  end.
(** No named group is repeated. *)
Fixpoint once (r : re) : bool :=
  match r with
  | Eps | End | Chr _ => true
  | Seq a b | Alt a b => once a && once b
  | Star a => bare a
  | Cap _ a => once a
  end.
Lemma bare_groups : forall r s t s', parses r s t s' -> bare r = true -> groups_of t = [].
Proof.
  intros r s t s' H. induction H; cbn [bare groups_of]; intros B; try reflexivity; try discriminate.
  - apply andb_true_iff in B as [B1 B2]. rewrite IHparses1, IHparses2 by assumption. reflexivity.
  - apply andb_true_iff in B as [B1 B2]. auto.
  - apply andb_true_iff in B as [B1 B2]. auto.
  - rewrite IHparses1, IHparses2 by assumption. reflexivity.
Qed.
Lemma groups_names : forall r s t s' n, parses r s t s' -> In n (map fst (groups_of t)) -> In n (names r).
Proof.
  intros r s t s' n H. induction H; cbn [names groups_of map fst]; try rewrite map_app, in_app_iff;
    try rewrite in_app_iff; cbn [In]; try tauto.
Qed.
Lemma nodup_app : forall A (l m : list A), NoDup l -> NoDup m -> (forall x, In x l -> ~ In x m) -> NoDup (l ++ m).
Proof.
  intros A l m Hl Hm H. induction Hl as [|x l Hx Hl IH]; cbn; [assumption|]. constructor.
  - rewrite in_app_iff. intros [I|I]; [auto|]. apply (H x); [left; reflexivity|assumption].
  - apply IH. intros; apply H; right; assumption.
Qed.
Lemma nodup_split : forall A (l m : list A), NoDup (l ++ m) -> NoDup l /\ NoDup m /\ forall x, In x l -> ~ In x m.
Proof.
  intros A l m. induction l as [|x l IH]; cbn; intros H; [split; [constructor|split; [assumption|intros ? []]]|].
  inversion H as [|? ? Hx H']; subst. destruct (IH H') as [A1 [A2 A3]]. rewrite in_app_iff in Hx.
  split; [constructor; tauto|split; [assumption|]]. intros y [<-|Hy]; [tauto|auto].
Qed.
Lemma groups_once : forall r s t s', parses r s t s' -> once r = true -> NoDup (names r) ->
  NoDup (map fst (groups_of t)).
Proof.
  intros r s t s' H. induction H; cbn [once names groups_of map fst]; intros O D; try (constructor; fail).
  - apply andb_true_iff in O as [O1 O2]. apply nodup_split in D as [D1 [D2 D3]]. rewrite map_app.
    apply nodup_app; auto. intros x Hx Hy. apply (D3 x); eapply groups_names; eassumption.
  - apply andb_true_iff in O as [O1 O2]. apply nodup_split in D as [D1 _]. auto.
  - apply andb_true_iff in O as [O1 O2]. apply nodup_split in D as [_ [D2 _]]. auto.
  - rewrite (bare_groups _ _ _ _ H O), (bare_groups _ _ _ _ H1 O). constructor.
  - inversion D; subst. constructor; [|auto]. intros I. eapply groups_names in I; [|eassumption]. auto.
Qed.

(** ** Progress *)
Fixpoint may_be_empty (r : re) : bool :=
  match r with
  | Eps | End | Star _ => true
  | Chr _ => false
  | Seq a b => may_be_empty a && may_be_empty b
  | Alt a b => may_be_empty a || may_be_empty b
  | Cap _ a => may_be_empty a
  end.
Lemma never_empty : forall r s t s', parses r s t s' -> may_be_empty r = false -> text_of t <> [].
Proof.
  intros r s t s' H. induction H; cbn [may_be_empty text_of]; intros E; try discriminate.
  - intros Z. apply app_eq_nil in Z as [Z1 Z2]. apply andb_false_iff in E as [E|E]; auto.
    + apply (IHparses1 E Z1).
    + apply (IHparses2 E Z2).
  - apply orb_false_iff in E as [E1 E2]. auto.
  - apply orb_false_iff in E as [E1 E2]. auto.
  - auto.
Qed.
Fixpoint progress (r : re) : bool :=
  match r with
  | Eps | End | Chr _ => true
  | Seq a b | Alt a b => progress a && progress b
  | Star a => negb (may_be_empty a) && progress a
  | Cap _ a => progress a
  end.
Lemma progress_repeated : forall a r, repeated a r -> progress r = true -> may_be_empty a = false.
Proof.
  intros a r H. induction H; cbn [progress]; intros P; try (apply andb_true_iff in P as [P1 P2]; auto); auto.
  destruct (may_be_empty a); [discriminate|reflexivity].
Qed.
