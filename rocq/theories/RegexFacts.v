(** Facts about the regular expression semantics. *)
From Coq Require Import String Ascii List NArith Bool Arith Lia.
From Verif Require Import Base Regex.
Import ListNotations.
Open Scope list_scope.

(** The preferred match. *)
Definition starts (r : re) (s : ustr) (c : caps) (s' : ustr) : Prop :=
  exists l, exec r s = (c, s') :: l.

Lemma starts_captures : forall r s c s', starts r s c s' -> captures r s = Some c.
Proof. intros r s c s' [l H]. unfold captures. rewrite H. reflexivity. Qed.

Lemma starts_eps : forall s, starts Eps s [] s.
Proof. intros s. exists []. reflexivity. Qed.
Lemma starts_end : starts End [] [] [].
Proof. exists []. reflexivity. Qed.
Lemma starts_chr : forall (p : N -> bool) c s, p c = true -> starts (Chr p) (c :: s) [] s.
Proof. intros p c s H. exists []. cbn. rewrite H. reflexivity. Qed.
Lemma starts_seq : forall a b s c1 s1 c2 s2,
  starts a s c1 s1 -> starts b s1 c2 s2 -> starts (Seq a b) s (c1 ++ c2) s2.
Proof.
  intros a b s c1 s1 c2 s2 [l Ha] [l' Hb]. cbn [exec]. unfold starts. cbn [exec]. rewrite Ha. cbn [flat_map fst snd].
  rewrite Hb. cbn [after map fst snd app]. eexists. reflexivity.
Qed.
Lemma starts_alt_l : forall a b s c s', starts a s c s' -> starts (Alt a b) s c s'.
Proof. intros a b s c s' [l H]. unfold starts. cbn [exec]. rewrite H. eexists. reflexivity. Qed.
Lemma starts_alt_r : forall a b s c s', exec a s = [] -> starts b s c s' -> starts (Alt a b) s c s'.
Proof. intros a b s c s' Ha [l H]. unfold starts. cbn [exec]. rewrite Ha, H. eexists. reflexivity. Qed.
Lemma starts_opt_skip : forall a s, exec a s = [] -> starts (Opt a) s [] s.
Proof. intros. apply starts_alt_r; [assumption|apply starts_eps]. Qed.

Lemma consumed_app : forall w s, consumed (w ++ s) s = w.
Proof.
  intros w s. unfold consumed. rewrite app_length.
  replace (length w + length s - length s) with (length w) by lia.
  rewrite firstn_app, firstn_all, Nat.sub_diag. cbn. apply app_nil_r.
Qed.
Lemma starts_cap : forall n a w c s', starts a (w ++ s') c s' -> starts (Cap n a) (w ++ s') ((n, w) :: c) s'.
Proof.
  intros n a w c s' [l H]. unfold starts. cbn [exec]. rewrite H. cbn [map fst snd].
  rewrite consumed_app. eexists. reflexivity.
Qed.

(** ** Repetition *)
Definition star_n (a : re) : nat -> ustr -> list result :=
  fix star (n : nat) (s : ustr) {struct n} : list result :=
    match n with
    | O => [([], s)]
    | S n' =>
        flat_map (fun x => if Nat.ltb (length (snd x)) (length s)
                           then after (fst x) (star n' (snd x)) else []) (exec a s)
        ++ [([], s)]
    end.
Lemma exec_star : forall a s, exec (Star a) s = star_n a (length s) s.
Proof. reflexivity. Qed.

Lemma flat_map_eq : forall A B (f g : A -> list B) l, (forall x, In x l -> f x = g x) -> flat_map f l = flat_map g l.
Proof. intros A B f g l. induction l as [|x l IH]; intros H; cbn; [reflexivity|]. rewrite H by (left; reflexivity). f_equal. apply IH. intros; apply H; right; assumption. Qed.

Lemma star_n_fuel : forall a n m s, length s <= n -> length s <= m -> star_n a n s = star_n a m s.
Proof.
  intros a n. induction n as [|n IH]; intros m s Hn Hm.
  - destruct s; [|cbn in Hn; lia]. destruct m; [reflexivity|]. cbn [star_n].
    rewrite flat_map_eq with (g := fun _ => []).
    + induction (exec a []); cbn; auto.
    + intros x _. cbn. reflexivity.
  - destruct m as [|m].
    + destruct s; [|cbn in Hm; lia]. cbn [star_n].
      rewrite flat_map_eq with (g := fun _ => []).
      * induction (exec a []); cbn; auto.
      * intros x _. cbn. reflexivity.
    + cbn [star_n]. f_equal. apply flat_map_eq. intros x _.
      destruct (Nat.ltb_spec (length (snd x)) (length s)); [|reflexivity].
      f_equal. apply IH; lia.
Qed.

Lemma star_unfold : forall a s, exec (Star a) s =
  flat_map (fun x => if Nat.ltb (length (snd x)) (length s)
                     then after (fst x) (exec (Star a) (snd x)) else []) (exec a s) ++ [([], s)].
Proof.
  intros a s. rewrite exec_star. rewrite (star_n_fuel a (length s) (S (length s))) by lia.
  cbn [star_n]. f_equal. apply flat_map_eq. intros x _.
  destruct (Nat.ltb_spec (length (snd x)) (length s)); [|reflexivity].
  f_equal. rewrite exec_star. apply star_n_fuel; lia.
Qed.

Lemma starts_star_stop : forall a s, exec a s = [] -> starts (Star a) s [] s.
Proof. intros a s H. exists []. rewrite star_unfold, H. reflexivity. Qed.
Lemma starts_star_step : forall a s c1 s1 c2 s2, starts a s c1 s1 -> length s1 < length s ->
  starts (Star a) s1 c2 s2 -> starts (Star a) s (c1 ++ c2) s2.
Proof.
  intros a s c1 s1 c2 s2 [l Ha] Hl [l' Hs]. unfold starts. rewrite star_unfold, Ha. cbn [flat_map fst snd].
  apply Nat.ltb_lt in Hl. rewrite Hl, Hs. cbn [after map fst snd app]. eexists. reflexivity.
Qed.

(** No character of the class follows. *)
Definition stops (p : N -> bool) (s : ustr) : Prop :=
  match s with [] => True | c :: _ => p c = false end.

Lemma exec_chr_stop : forall p s, stops p s -> exec (Chr p) s = [].
Proof. intros p [|c s] H; cbn in *; [|rewrite H]; reflexivity. Qed.
Lemma starts_star_chars : forall p w s, Forall (fun c => p c = true) w -> stops p s ->
  starts (Star (Chr p)) (w ++ s) [] s.
Proof.
  intros p w s H Hs. induction H as [|c w Hc _ IH]; cbn [app].
  - apply starts_star_stop, exec_chr_stop, Hs.
  - apply (starts_star_step _ _ [] (w ++ s) []); [apply starts_chr, Hc|cbn; lia|exact IH].
Qed.
Lemma starts_plus_chars : forall p w s, w <> [] -> Forall (fun c => p c = true) w -> stops p s ->
  starts (Plus (Chr p)) (w ++ s) [] s.
Proof.
  intros p w s Hw H Hs. destruct H as [|c w Hc H]; [contradiction|]. cbn [app].
  apply (starts_seq _ _ _ [] (w ++ s) []); [apply starts_chr, Hc|apply starts_star_chars; assumption].
Qed.
Lemma starts_lit : forall w s, starts (Lit w) (w ++ s) [] s.
Proof.
  induction w as [|c w IH]; intros s; cbn [Lit app]; [apply starts_eps|].
  apply (starts_seq _ _ _ [] (w ++ s) []); [apply starts_chr, N.eqb_refl|apply IH].
Qed.

(** ** Failure *)
Lemma seq_fails_l : forall a b s, exec a s = [] -> exec (Seq a b) s = [].
Proof. intros a b s H. cbn. rewrite H. reflexivity. Qed.
Lemma seq_fails_r : forall a b s, (forall c s', In (c, s') (exec a s) -> exec b s' = []) -> exec (Seq a b) s = [].
Proof.
  intros a b s H. cbn [exec]. induction (exec a s) as [|[c s'] l IH]; [reflexivity|]. cbn [flat_map fst snd].
  rewrite (H c s') by (left; reflexivity). cbn. apply IH. intros; eapply H; right; eassumption.
Qed.
Lemma alt_fails : forall a b s, exec a s = [] -> exec b s = [] -> exec (Alt a b) s = [].
Proof. intros a b s Ha Hb. cbn. rewrite Ha, Hb. reflexivity. Qed.
Lemma cap_fails : forall n a s, exec a s = [] -> exec (Cap n a) s = [].
Proof. intros n a s H. cbn. rewrite H. reflexivity. Qed.
Lemma plus_fails : forall p s, stops p s -> exec (Plus (Chr p)) s = [].
Proof. intros p s H. apply seq_fails_l, exec_chr_stop, H. Qed.
Lemma lit_fails : forall c w s, stops (N.eqb c) s -> exec (Lit (c :: w)) s = [].
Proof. intros c w s H. apply seq_fails_l, exec_chr_stop, H. Qed.
Lemma end_fails : forall c s, exec End (c :: s) = [].
Proof. reflexivity. Qed.

(** ** What a match reads *)
Lemma exec_suffix : forall r s c s', In (c, s') (exec r s) -> exists w, s = w ++ s'.
Proof.
  induction r as [| |p|a IHa b IHb|a IHa b IHb|a IHa|n a IHa]; intros s c s' H.
  - destruct H as [H|[]]. injection H as <- <-. exists []. reflexivity.
  - destruct s; [|destruct H]. destruct H as [H|[]]. injection H as <- <-. exists []. reflexivity.
  - destruct s as [|x s]; [destruct H|]. cbn in H. destruct (p x); [|destruct H].
    destruct H as [H|[]]. injection H as <- <-. exists [x]. reflexivity.
  - cbn in H. apply in_flat_map in H as [[c1 s1] [H1 H]]. apply in_map_iff in H as [[c2 s2] [E H2]].
    cbn in E. injection E as <- <-. destruct (IHa _ _ _ H1) as [w1 ->]. destruct (IHb _ _ _ H2) as [w2 W]. cbn in W. subst s1.
    exists (w1 ++ w2). apply app_assoc.
  - cbn in H. apply in_app_or in H as [H|H]; eauto.
  - rewrite exec_star in H. remember (length s) as k eqn:E. clear E.
    revert s c s' H. induction k as [|k IH]; intros s c s' H; cbn [star_n] in H.
    + destruct H as [H|[]]. injection H as <- <-. exists []. reflexivity.
    + apply in_app_or in H as [H|[H|[]]]; [|injection H as <- <-; exists []; reflexivity].
      apply in_flat_map in H as [[c1 s1] [H1 H]]. destruct (Nat.ltb _ _); [|destruct H].
      apply in_map_iff in H as [[c2 s2] [E H2]]. cbn in E. injection E as <- <-.
      destruct (IHa _ _ _ H1) as [w1 ->]. destruct (IH _ _ _ H2) as [w2 W]. cbn in W. subst s1.
      exists (w1 ++ w2). apply app_assoc.
  - cbn in H. apply in_map_iff in H as [[c1 s1] [E H1]]. cbn in E. injection E as <- <-. eauto.
Qed.

Lemma star_chars_in : forall p s c s', In (c, s') (exec (Star (Chr p)) s) ->
  c = [] /\ exists w, s = w ++ s' /\ Forall (fun x => p x = true) w.
Proof.
  intros p s c s' H. rewrite exec_star in H. remember (length s) as k eqn:E. clear E.
  revert s c s' H. induction k as [|k IH]; intros s c s' H; cbn [star_n] in H.
  - destruct H as [H|[]]. injection H as <- <-. split; [reflexivity|]. exists []. auto.
  - apply in_app_or in H as [H|[H|[]]]; [|injection H as <- <-; split; [reflexivity|]; exists []; auto].
    apply in_flat_map in H as [[c1 s1] [H1 H]]. destruct (Nat.ltb _ _); [|destruct H].
    apply in_map_iff in H as [[c2 s2] [E H2]]. cbn in E. injection E as <- <-.
    destruct s as [|x s]; [destruct H1|]. cbn in H1. destruct (p x) eqn:Px; [|destruct H1].
    destruct H1 as [H1|[]]. injection H1 as E1 E2. subst c1 s1. destruct (IH _ _ _ H2) as [-> [w [E Fw]]]. cbn in E. subst s.
    split; [reflexivity|]. exists (x :: w). auto.
Qed.
Lemma plus_chars_in : forall p s c s', In (c, s') (exec (Plus (Chr p)) s) ->
  c = [] /\ exists w, s = w ++ s' /\ w <> [] /\ Forall (fun x => p x = true) w.
Proof.
  intros p s c s' H. cbn [Plus] in H. unfold Plus in H. cbn [exec] in H. apply in_flat_map in H as [[c1 s1] [H1 H]].
  destruct s as [|x s]; [destruct H1|]. destruct (p x) eqn:Px; [|destruct H1].
  destruct H1 as [H1|[]]. injection H1 as E1 E2. subst c1 s1. cbn [fst snd] in H. apply in_map_iff in H as [[c2 s2] [E H2]].
  cbn in E. injection E as <- <-. destruct (star_chars_in _ _ _ _ H2) as [-> [w [E Fw]]]. subst s.
  split; [reflexivity|]. exists (x :: w). repeat split; [discriminate|]. auto.
Qed.

(** What follows a run of a class starts with the class or is the end of the run. *)
Lemma plus_chars_rest : forall p q w rest c s', Forall (fun x => p x = true) w ->
  (forall x, p x = true -> q x = false) -> stops q rest ->
  In (c, s') (exec (Plus (Chr p)) (w ++ rest)) -> stops p rest -> stops q s'.
Proof.
  intros p q w rest c s' Hw Hq Hr H Hp. destruct (plus_chars_in _ _ _ _ H) as [_ [v [E [_ Fv]]]].
  clear H. revert v E Fv. induction Hw as [|x w Hx Hw IH]; intros v E Fv; cbn in E.
  - destruct Fv as [|y v Hy Fv]; cbn in E; [subst; exact Hr|].
    subst rest. cbn in Hp. congruence.
  - destruct Fv as [|y v Hy Fv]; cbn in E; [subst s'; cbn; apply Hq, Hx|].
    injection E as -> E. apply (IH v E Fv).
Qed.

(** The names of the groups of a match. *)
Fixpoint names (r : re) : list string :=
  match r with
  | Eps | End | Chr _ => []
  | Seq a b => names a ++ names b
  | Alt a b => names a ++ names b
  | Star a => names a
  | Cap n a => n :: names a
  end.
Lemma exec_names : forall r s c s' n v, In (c, s') (exec r s) -> In (n, v) c -> In n (names r).
Proof.
  induction r as [| |p|a IHa b IHb|a IHa b IHb|a IHa|m a IHa]; intros s c s' n v H Hn.
  - destruct H as [H|[]]. injection H as <- <-. destruct Hn.
  - destruct s; [|destruct H]. destruct H as [H|[]]. injection H as <- <-. destruct Hn.
  - destruct s as [|x s]; [destruct H|]. cbn in H. destruct (p x); [|destruct H].
    destruct H as [H|[]]. injection H as <- <-. destruct Hn.
  - cbn in H. apply in_flat_map in H as [[c1 s1] [H1 H]]. apply in_map_iff in H as [[c2 s2] [E H2]].
    cbn in E. injection E as <- <-. cbn. apply in_or_app. apply in_app_or in Hn as [Hn|Hn]; [left|right]; eauto.
  - cbn in H |- *. apply in_or_app. apply in_app_or in H as [H|H]; [left|right]; eauto.
  - rewrite exec_star in H. cbn [names]. remember (length s) as k eqn:E. clear E.
    revert s c s' H Hn. induction k as [|k IH]; intros s c s' H Hn; cbn [star_n] in H.
    + destruct H as [H|[]]. injection H as <- <-. destruct Hn.
    + apply in_app_or in H as [H|[H|[]]]; [|injection H as <- <-; destruct Hn].
      apply in_flat_map in H as [[c1 s1] [H1 H]]. destruct (Nat.ltb _ _); [|destruct H].
      apply in_map_iff in H as [[c2 s2] [E H2]]. cbn in E. injection E as <- <-.
      apply in_app_or in Hn as [Hn|Hn]; eauto.
  - cbn in H. apply in_map_iff in H as [[c1 s1] [E H1]]. cbn in E. injection E as <- <-.
    destruct Hn as [Hn|Hn]; [injection Hn as <- _; left; reflexivity|right; eauto].
Qed.

Lemma group_in : forall n c v, group n c = Some v -> In (n, v) c.
Proof.
  intros n c v. induction c as [|[k w] c IH]; cbn; [discriminate|].
  destruct (String.eqb_spec n k) as [->|]; [intros H; injection H as <-; left; reflexivity|right; auto].
Qed.
Lemma captures_in : forall r s c, captures r s = Some c -> exists s', In (c, s') (exec r s).
Proof.
  intros r s c. unfold captures. destruct (exec r s) as [|[c' s'] l]; [discriminate|].
  intros H. injection H as <-. exists s'. left. reflexivity.
Qed.
Lemma group_absent : forall r s c n, captures r s = Some c -> ~ In n (names r) -> group n c = None.
Proof.
  intros r s c n H Hn. destruct (group n c) as [v|] eqn:E; [|reflexivity]. exfalso. apply Hn.
  destruct (captures_in _ _ _ H) as [s' Hs]. eapply exec_names; [exact Hs|apply group_in, E].
Qed.

Lemma ueqb_eq : forall a b, ueqb a b = true <-> a = b.
Proof.
  induction a as [|x a IH]; intros [|y b]; cbn; split; try discriminate; try reflexivity.
  - intros H. apply andb_true_iff in H as [H1 H2]. apply N.eqb_eq in H1. apply IH in H2. congruence.
  - intros H. injection H as -> ->. rewrite N.eqb_refl. apply IH. reflexivity.
Qed.
