(** The reader of patterns follows the grammar. *)
From Coq Require Import String List NArith Bool Arith Lia.
From Verif Require Import Base Regex Pattern PatternSpec.
Import ListNotations.
Open Scope string_scope.
Open Scope list_scope.

Lemma is_true : forall k c, is k c = true -> c = uc k.
Proof. intros k c H. apply N.eqb_eq, H. Qed.
Lemma is_same : forall k, is k (uc k) = true.
Proof. intros k. apply N.eqb_refl. Qed.
Lemma is_false : forall k c, c <> uc k -> is k c = false.
Proof. intros k c H. apply N.eqb_neq, H. Qed.
Lemma is_not : forall k c, is k c = false -> c <> uc k.
Proof. intros k c H. apply N.eqb_neq, H. Qed.
Lemma plain_is : forall c k, plain c -> existsb (N.eqb (uc k)) (u "()[]{}.$^*+?|\") = true -> is k c = false.
Proof.
  intros c k H E. apply is_false. intros ->. apply H. apply existsb_exists in E as [x [I E]]. apply N.eqb_eq in E. subst. exact I.
Qed.
Lemma plain_class_is : forall c k, plain_in_class c -> existsb (N.eqb (uc k)) (u "[]\") = true -> is k c = false.
Proof.
  intros c k H E. apply is_false. intros ->. apply H. apply existsb_exists in E as [x [I E]]. apply N.eqb_eq in E. subst. exact I.
Qed.

(** ** Classes *)
Lemma items_read : forall l s, spells_items l s -> forall f rest, length s <= f -> read_items f (s ++ rest) = Some (l, rest).
Proof.
  intros l s H. induction H; intros f rest L; (destruct f as [|f]; [cbn in L; lia|]); cbn [app read_items] in *.
  - rewrite is_same. reflexivity.
  - change (is "]" (uc "\")) with false. rewrite is_same, is_same. cbn [length] in L. rewrite IHspells_items by lia. reflexivity.
  - rewrite !(plain_class_is a) by (assumption || reflexivity). rewrite is_same, (is_false "]" z) by assumption.
    cbn [length] in L. rewrite IHspells_items by lia. reflexivity.
  - rewrite !(plain_class_is a) by (assumption || reflexivity). cbn [length] in L.
    assert (E : read_items f (s ++ rest) = Some (l, rest)) by (apply IHspells_items; lia).
    destruct s as [|d s]; [inversion H1|]. cbn [app] in *.
    assert (D : is "-" d = false) by (apply is_false; intros ->; apply H0; exists s; reflexivity).
    destruct (s ++ rest) as [|z r] eqn:Z; cbn [app] in *; try rewrite D; rewrite E; reflexivity.
Qed.
Lemma items_single : forall l c, spells_items l [c] -> c = uc "]".
Proof.
  intros l c H. inversion H; subst; [reflexivity|].
  match goal with S : spells_items _ [] |- _ => inversion S end.
Qed.
Lemma read_items_spells : forall f s l r, read_items f s = Some (l, r) -> exists w, s = w ++ r /\ spells_items l w.
Proof.
  induction f as [|f IH]; intros s l r; cbn [read_items]; [discriminate|]. destruct s as [|a s]; [discriminate|].
  destruct (is "]" a) eqn:E1; [intros H; injection H as <- <-; apply is_true in E1 as ->; exists [uc "]"]; split; [reflexivity|constructor]|].
  destruct (is "\" a) eqn:E2.
  { apply is_true in E2 as ->. destruct s as [|e s]; [discriminate|]. destruct (is "s" e) eqn:E3; [|discriminate].
    apply is_true in E3 as ->. destruct (read_items f s) as [[l' r']|] eqn:R; [|discriminate]. cbn. intros H. injection H as <- <-.
    destruct (IH _ _ _ R) as [w [-> S]]. exists (uc "\" :: uc "s" :: w). split; [reflexivity|constructor; exact S]. }
  destruct (is "[" a) eqn:E3; [discriminate|].
  assert (P : plain_in_class a).
  { intros [I|[I|[I|[]]]]; subst a; discriminate. }
  assert (One : (forall d z s', s = d :: z :: s' -> is "-" d = false) ->
    option_map (fun x => (Between a a :: fst x, snd x)) (read_items f s) = Some (l, r) -> exists w, a :: s = w ++ r /\ spells_items l w).
  { intros D. destruct (read_items f s) as [[l' r']|] eqn:R; [|discriminate]. cbn. intros H. injection H as <- <-.
    destruct (IH _ _ _ R) as [w [-> S]]. exists (a :: w). split; [reflexivity|]. constructor; [exact P| |exact S].
    intros [[|z w'] ->].
    - apply items_single in S. discriminate.
    - cbn [app] in D. specialize (D _ _ _ eq_refl). discriminate. }
  destruct s as [|d [|z s]]; [apply One; intros; discriminate|apply One; intros; discriminate|].
  destruct (is "-" d) eqn:D; [|apply One; intros ? ? ? E; injection E as <- <- <-; exact D].
  destruct (is "]" z) eqn:Z; [discriminate|]. apply is_true in D as ->.
  destruct (read_items f s) as [[l' r']|] eqn:R; [|discriminate]. cbn. intros H. injection H as <- <-.
  destruct (IH _ _ _ R) as [w [-> S]]. exists (a :: uc "-" :: z :: w). split; [reflexivity|].
  constructor; [exact P|apply is_not, Z|exact S].
Qed.

(** ** Names *)
Lemma name_read : forall n rest, ~ In (uc ">") n -> read_name (n ++ uc ">" :: rest) = Some (n, rest).
Proof.
  induction n as [|c n IH]; intros rest H; cbn [app read_name]; [rewrite is_same; reflexivity|].
  rewrite is_false by (intros ->; apply H; left; reflexivity). rewrite IH by (intros I; apply H; right; exact I). reflexivity.
Qed.
Lemma read_name_spells : forall s n r, read_name s = Some (n, r) -> s = n ++ uc ">" :: r /\ ~ In (uc ">") n.
Proof.
  induction s as [|c s IH]; intros n r; cbn [read_name]; [discriminate|]. destruct (is ">" c) eqn:E.
  - intros H. injection H as <- <-. apply is_true in E as ->. split; [reflexivity|intros []].
  - destruct (read_name s) as [[n' r']|]; [|discriminate]. cbn. intros H. injection H as <- <-.
    destruct (IH _ _ eq_refl) as [-> N]. split; [reflexivity|]. intros [I|I]; [exact (is_not _ _ E I)|exact (N I)].
Qed.

(** ** What is written is read *)
Definition ends (k : list string) (rest : ustr) : Prop :=
  match rest with [] => True | c :: _ => exists x, In x k /\ c = uc x end.
Definition no_repetition (rest : ustr) : Prop :=
  match rest with [] => True | c :: _ => is "*" c = false /\ is "+" c = false /\ is "?" c = false end.
Lemma atom_head : forall k p s, spells k p s -> match k with
  | Atom | Piece => exists c r, s = c :: r /\ is "|" c = false /\ is ")" c = false /\ is "*" c = false /\ is "+" c = false /\ is "?" c = false
                    /\ is "^" c = false
  | Sequence => match s with [] => True | c :: _ => is "*" c = false /\ is "+" c = false /\ is "?" c = false /\ is "^" c = false end
  | Alternatives => match s with [] => True | c :: _ => is "*" c = false /\ is "+" c = false /\ is "?" c = false /\ is "^" c = false end
  end.
Proof.
  intros k p s H. induction H; try (eexists; eexists; split; [reflexivity|]; repeat split; reflexivity).
  - exact IHspells.
  - destruct s; [cbn; repeat split; reflexivity|exact IHspells1].
  - exact I.
  - destruct IHspells1 as [c [r [-> A]]]. cbn. tauto.
  - exact IHspells.
  - destruct IHspells as [c [r [-> A]]]. exists c, (r ++ [uc "*"]). split; [reflexivity|exact A].
  - destruct IHspells as [c [r [-> A]]]. exists c, (r ++ [uc "+"]). split; [reflexivity|exact A].
  - destruct IHspells as [c [r [-> A]]]. exists c, (r ++ [uc "?"]). split; [reflexivity|exact A].
  - exists c, []. split; [reflexivity|]. rewrite !(plain_is c) by (assumption || reflexivity). repeat split.
Qed.
Lemma ends_sequence : forall c r, ends ["|"; ")"] (c :: r) -> is "|" c || is ")" c = true.
Proof. intros c r [x [[<-|[<-|[]]] ->]]; reflexivity. Qed.
Lemma spells_read : forall k p s, spells k p s -> match k with
  | Alternatives => forall f rest, 3 * length s + 3 <= f -> ends [")"] rest -> read_alternatives f (s ++ rest) = Some (p, rest)
  | Sequence => forall f rest, 3 * length s + 2 <= f -> ends ["|"; ")"] rest -> read_sequence f (s ++ rest) = Some (p, rest)
  | Piece => forall f rest, 3 * length s + 1 <= f -> no_repetition rest ->
      exists a r, read_atom f (s ++ rest) = Some (a, r) /\ repetition a r = (p, rest)
  | Atom => forall f rest, 3 * length s + 1 <= f -> read_atom f (s ++ rest) = Some (p, rest)
  end.
Proof.
  intros k p s H. induction H; intros f rest L; try intros E; (destruct f as [|f]; [lia|]).
  - cbn [read_alternatives]. rewrite IHspells; [|lia|destruct rest; [exact I|destruct E as [x [[<-|[]] ->]]; exists ")"; cbn; auto]].
    destruct rest as [|c r]; [reflexivity|]. destruct E as [x [[<-|[]] ->]]. reflexivity.
  - rewrite <- app_assoc. cbn [app read_alternatives]. rewrite app_length in L. cbn [length] in L.
    rewrite IHspells1; [|lia|exists "|"; cbn; auto]. rewrite is_same, IHspells2 by (lia || assumption). reflexivity.
  - cbn [app read_sequence]. destruct rest as [|c r]; [reflexivity|]. rewrite (ends_sequence _ _ E). reflexivity.
  - rewrite <- app_assoc. rewrite app_length in L. destruct (atom_head _ _ _ H) as [c [r [-> [A1 [A2 _]]]]].
    cbn [app read_sequence length] in *. rewrite A1, A2. cbn [orb].
    destruct (IHspells1 f (s' ++ rest)) as [a0 [r0 [R1 R2]]]; [lia| |].
    + pose proof (atom_head _ _ _ H0) as B. destruct s' as [|d s']; [|cbn in *; tauto]. cbn [app].
      destruct rest as [|d rest]; [exact I|]. destruct E as [x [[<-|[<-|[]]] ->]]; repeat split.
    + cbn [app] in R1. rewrite R1, R2, IHspells2 by (lia || assumption). reflexivity.
  - exists a, rest. split; [apply IHspells; lia|]. destruct rest as [|c r]; [reflexivity|]. cbn in E |- *.
    destruct E as [-> [-> ->]]. reflexivity.
  - rewrite app_length in L. rewrite <- app_assoc. exists a, (uc "*" :: rest). split; [apply IHspells; cbn in L; lia|reflexivity].
  - rewrite app_length in L. rewrite <- app_assoc. exists a, (uc "+" :: rest). split; [apply IHspells; cbn in L; lia|reflexivity].
  - rewrite app_length in L. rewrite <- app_assoc. exists a, (uc "?" :: rest). split; [apply IHspells; cbn in L; lia|reflexivity].
  - cbn [app read_atom]. rewrite !(plain_is c) by (assumption || reflexivity).
    assert (O : one_of (u "^*+?{}]") c = false).
    { unfold one_of. apply not_true_is_false. intros X. apply existsb_exists in X as [y [I X]]. apply N.eqb_eq in X. subst y.
      apply H. vm_compute in I |- *. tauto. }
    rewrite O. reflexivity.
  - reflexivity.
  - reflexivity.
  - reflexivity.
  - cbn [app read_atom length] in *. change (is "(" (uc "[")) with false. rewrite is_same.
    pose proof (items_read _ _ H f rest) as R. destruct s as [|c s]; [inversion H|]. cbn [app].
    rewrite is_false by (intros ->; apply H0; exists s; reflexivity). cbn [app] in R. rewrite R by lia. reflexivity.
  - cbn [app read_atom length] in *. change (is "(" (uc "[")) with false. rewrite !is_same.
    rewrite (items_read _ _ H f rest) by lia. reflexivity.
  - cbn [app read_atom length] in *. rewrite is_same. rewrite app_length in L. cbn [length] in L.
    assert (R : read_alternatives f (s ++ uc ")" :: rest) = Some (a, uc ")" :: rest)) by (apply IHspells; [lia|exists ")"; cbn; auto]).
    rewrite <- app_assoc. cbn [app]. pose proof (atom_head _ _ _ H) as B. destruct s as [|c s]; cbn [app] in *.
    + change (is "?" (uc ")")) with false. cbv iota. rewrite R, is_same. reflexivity.
    + destruct B as [_ [_ [B _]]]. rewrite B, R, is_same. reflexivity.
  - cbn [app read_atom length] in *. rewrite !is_same. rewrite app_length in L. cbn [length] in L. rewrite app_length in L. cbn [length] in L.
    rewrite <- app_assoc. cbn [app]. rewrite name_read by assumption. rewrite <- app_assoc. cbn [app].
    rewrite IHspells; [|lia|exists ")"; cbn; auto]. rewrite is_same. reflexivity.
Qed.

(** ** What is read is written so *)
Lemma repetition_spells : forall a s r p q, spells Atom a s -> repetition a r = (p, q) ->
  exists w, r = w ++ q /\ spells Piece p (s ++ w).
Proof.
  intros a s r p q H. unfold repetition. destruct r as [|c r].
  - intros E. injection E as <- <-. exists []. split; [reflexivity|]. rewrite app_nil_r. apply spells_once. exact H.
  - destruct (is "*" c) eqn:E1; [apply is_true in E1 as ->; intros E; injection E as <- <-; exists [uc "*"]; split; [reflexivity|constructor; exact H]|].
    destruct (is "+" c) eqn:E2; [apply is_true in E2 as ->; intros E; injection E as <- <-; exists [uc "+"]; split; [reflexivity|constructor; exact H]|].
    destruct (is "?" c) eqn:E3; [apply is_true in E3 as ->; intros E; injection E as <- <-; exists [uc "?"]; split; [reflexivity|constructor; exact H]|].
    intros E. injection E as <- <-. exists []. split; [reflexivity|]. rewrite app_nil_r. apply spells_once. exact H.
Qed.
Lemma read_spells : forall f,
  (forall s p r, read_alternatives f s = Some (p, r) -> exists w, s = w ++ r /\ spells Alternatives p w) /\
  (forall s p r, read_sequence f s = Some (p, r) -> exists w, s = w ++ r /\ spells Sequence p w) /\
  (forall s p r, match s with c :: _ => is "|" c || is ")" c = false | [] => True end ->
     read_atom f s = Some (p, r) -> exists w, s = w ++ r /\ spells Atom p w).
Proof.
  induction f as [|f [IA [IS IT]]]; [repeat split; intros; discriminate|]. split; [|split].
  - intros s p r. cbn [read_alternatives]. destruct (read_sequence f s) as [[a [|c r']]|] eqn:R; [| |discriminate].
    + intros H. injection H as <- <-. destruct (IS _ _ _ R) as [w [-> S]]. exists w. split; [reflexivity|constructor; exact S].
    + destruct (IS _ _ _ R) as [w [-> S]]. destruct (is "|" c) eqn:E.
      * apply is_true in E as ->. destruct (read_alternatives f r') as [[b q]|] eqn:R2; [|discriminate]. cbn. intros H. injection H as <- <-.
        destruct (IA _ _ _ R2) as [w' [-> S']]. exists (w ++ uc "|" :: w'). split; [rewrite <- app_assoc; reflexivity|constructor; assumption].
      * intros H. injection H as <- <-. exists w. split; [reflexivity|constructor; exact S].
  - intros s p r. cbn [read_sequence]. destruct s as [|c s]; [intros H; injection H as <- <-; exists []; split; [reflexivity|constructor]|].
    destruct (is "|" c || is ")" c) eqn:E; [intros H; injection H as <- <-; exists []; split; [reflexivity|constructor]|].
    destruct (read_atom f (c :: s)) as [[a r1]|] eqn:R; [|discriminate].
    destruct (IT (c :: s) a r1 E R) as [w1 [E1 S1]]. destruct (repetition a r1) as [a' r2] eqn:Q.
    destruct (repetition_spells _ _ _ _ _ S1 Q) as [w2 [-> S2]].
    destruct (read_sequence f r2) as [[b q]|] eqn:R2; [|discriminate]. cbn [option_map fst snd]. intros H. injection H as <- <-.
    destruct (IS _ _ _ R2) as [w3 [-> S3]]. exists ((w1 ++ w2) ++ w3). split; [rewrite E1, <- !app_assoc; reflexivity|constructor; assumption].
  - intros s p r G. cbn [read_atom]. destruct s as [|c s]; [discriminate|]. apply orb_false_iff in G as [G1 G2].
    destruct (is "(" c) eqn:E1.
    { apply is_true in E1 as ->. destruct s as [|q s]; [discriminate|]. destruct (is "?" q) eqn:E2.
      - apply is_true in E2 as ->. destruct s as [|l s]; [discriminate|]. destruct (is "<" l) eqn:E3; [|discriminate].
        apply is_true in E3 as ->. destruct (read_name s) as [[n s']|] eqn:R; [|discriminate]. apply read_name_spells in R as [-> N].
        destruct (read_alternatives f s') as [[a [|d r']]|] eqn:R2; try discriminate. destruct (is ")" d) eqn:E4; [|discriminate].
        apply is_true in E4 as ->. cbn [option_map fst snd]. intros H. injection H as <- <-. destruct (IA _ _ _ R2) as [w [-> S]].
        exists (uc "(" :: uc "?" :: uc "<" :: n ++ uc ">" :: w ++ [uc ")"]). split; [|constructor; assumption].
        cbn [app]. rewrite <- app_assoc. cbn [app]. rewrite <- app_assoc. reflexivity.
      - destruct (read_alternatives f (q :: s)) as [[a [|d r']]|] eqn:R2; try discriminate. destruct (is ")" d) eqn:E4; [|discriminate].
        apply is_true in E4 as ->. intros H. injection H as <- <-. destruct (IA _ _ _ R2) as [w [-> S]].
        exists (uc "(" :: w ++ [uc ")"]). split; [cbn [app]; rewrite <- app_assoc; reflexivity|constructor; exact S]. }
    destruct (is "[" c) eqn:E2.
    { apply is_true in E2 as ->. destruct s as [|n s]; [discriminate|]. destruct (is "^" n) eqn:E3.
      - apply is_true in E3 as ->. destruct (read_items f s) as [[l q]|] eqn:R; [|discriminate]. cbn [option_map fst snd]. intros H. injection H as <- <-.
        destruct (read_items_spells _ _ _ _ R) as [w [-> S]]. exists (uc "[" :: uc "^" :: w). split; [reflexivity|constructor; exact S].
      - destruct (read_items f (n :: s)) as [[l q]|] eqn:R; [|discriminate]. cbn [option_map fst snd]. intros H. injection H as <- <-.
        destruct (read_items_spells _ _ _ _ R) as [w [E S]]. rewrite E. exists (uc "[" :: w). split; [reflexivity|]. constructor; [exact S|].
        intros [w' ->]. cbn [app] in E. injection E as -> _. discriminate. }
    destruct (is "." c) eqn:E3; [apply is_true in E3 as ->; intros H; injection H as <- <-; exists [uc "."]; split; [reflexivity|constructor]|].
    destruct (is "$" c) eqn:E4; [apply is_true in E4 as ->; intros H; injection H as <- <-; exists [uc "$"]; split; [reflexivity|constructor]|].
    destruct (is "\" c) eqn:E5.
    { apply is_true in E5 as ->. destruct s as [|e s]; [discriminate|]. destruct (is "s" e) eqn:E6; [|discriminate]. apply is_true in E6 as ->.
      intros H. injection H as <- <-. exists [uc "\"; uc "s"]. split; [reflexivity|constructor]. }
    destruct (one_of (u "^*+?{}]") c) eqn:E6; [discriminate|]. intros H. injection H as <- <-. exists [c]. split; [reflexivity|].
    constructor. intros I.
    repeat (destruct I as [I|I]; [subst c; discriminate|]). exact I.
Qed.
Lemma read_whole : forall s p, read_alternatives (3 * length s + 3) s = Some (p, []) <-> spells Alternatives p s.
Proof.
  intros s p. split.
  - intros H. destruct (proj1 (read_spells _) _ _ _ H) as [w [-> S]]. rewrite app_nil_r. exact S.
  - intros H. pose proof (spells_read _ _ _ H (3 * length s + 3) [] (le_n _) I) as R. rewrite app_nil_r in R. exact R.
Qed.
