(** How every reading ends: the readers. *)
From Coq Require Import String Ascii List Arith NArith Bool Lia.
From Verif Require Import Base NumStr NumStrSpec BaseFacts NumStrFacts Xml Ast XmlWrite XmlParse XmlSpec XmlSim
  GrammarSpec GrammarFacts ErrorSpec ErrorFacts PartsFacts ReadingSpec EndSpec EndFacts.
Import ListNotations.
Open Scope string_scope.
Open Scope list_scope.

Lemma eo_map : forall A B (x : R A) (f : A -> B), eo (bind x (fun a => Ok (f a))) = eo x.
Proof. intros A B [a|er|] f; reflexivity. Qed.
Lemma eo_ok : forall A (x : R A), eo (ok x) = forgiven (eo x).
Proof. intros A [a|er|]; reflexivity. Qed.

Lemma ends_bind : forall A B c l e (x : R A) (f : A -> R B),
  passes c e (eo x) -> (forall a, x = Ok a -> ends l e (eo (f a))) -> ends (c :: l) e (eo (bind x f)).
Proof.
  intros A B c l e [a|er|] f H K; cbn in *.
  - apply ends_pass; [exact H|]. apply K. reflexivity.
  - apply ends_stop; [exact H|discriminate].
  - apply ends_stop; [exact H|discriminate].
Qed.
Lemma ends_skip : forall A B l e (x : R A) (f : A -> R B),
  (exists a, x = Ok a) -> (forall a, x = Ok a -> ends l e (eo (f a))) -> ends l e (eo (bind x f)).
Proof. intros A B l e x f [a ->] K. cbn. apply K. reflexivity. Qed.
Lemma ends_last : forall A B c e (x : R A) (f : A -> B),
  passes c e (eo x) -> ends [c] e (eo (bind x (fun a => Ok (f a)))).
Proof. intros. apply ends_bind; [assumption|]. intros a _. apply ends_fine. Qed.
Lemma ends_one : forall c e w, passes c e w -> ends [c] e w.
Proof.
  intros c e [|er|] H; [apply ends_pass; [exact H|apply ends_fine]| |]; apply ends_stop; try exact H; discriminate.
Qed.
Lemma ends_app : forall A B l m e (x : R A) (f : A -> R B),
  ends l e (eo x) -> (forall a, x = Ok a -> ends m e (eo (f a))) -> ends (l ++ m) e (eo (bind x f)).
Proof.
  intros A B l m e x f H. remember (eo x) as w eqn:E. revert x f E.
  induction H as [e|c l e w Hc Hl IH|c l e w Hc Hw]; intros x f E K; cbn.
  - destruct x as [a| |]; try discriminate. cbn. apply K. reflexivity.
  - apply ends_pass; [exact Hc|]. apply IH; assumption.
  - destruct x as [a|er|]; cbn in E; [congruence| |]; subst w; apply ends_stop; assumption.
Qed.

Lemma ends_named : forall A e n er x l (r : R A), er (name e) = WrongTagName (name e) x ->
  (name e = n -> ends l e (eo r)) -> ends (Is n er :: l) e (eo (with_name e n x r)).
Proof.
  intros A e n er x l r He H. unfold with_name. destruct (String.eqb_spec (name e) n) as [E|N].
  - apply ends_pass; [|apply H, E]. apply pass_alone. left. auto.
  - cbn. apply ends_stop; [|discriminate]. apply pass_alone. right. split; [exact N|]. rewrite He. reflexivity.
Qed.

(** Attributes. *)

Lemma legal_opt : forall T (f : string -> option T) e a v, (forall s, f s = None -> ~ legal v s) ->
  (forall s t, f s = Some t -> legal v s) ->
  passes (Legal a v) e (eo (get_attribute_opt_with_parse f e a)).
Proof.
  intros T f e a v Hn Hs. apply pass_alone. unfold get_attribute_opt_with_parse. cbn.
  destruct (get e a) as [s|] eqn:G; cbn.
  - destruct (f s) as [t|] eqn:F; cbn.
    + left. split; [|reflexivity]. intros s' E. injection E as <-. eapply Hs, F.
    + right. split; [|reflexivity]. intros H. eapply Hn; [exact F|]. apply H. reflexivity.
  - left. split; [discriminate|reflexivity].
Qed.
Lemma bool_legal : forall s t, parse_bool s = Some t -> legal VBool s.
Proof.
  intros s t H. unfold parse_bool in H. cbn.
  destruct (String.eqb_spec s "true"); [auto|]. destruct (String.eqb_spec s "false"); [auto|discriminate].
Qed.
Lemma integer_legal : forall s t, parse_usize s = Some t -> legal VInteger s.
Proof. intros s t H. apply parse_usize_spec in H. exists t. exact H. Qed.
Lemma number_legal : forall s t, parse_an s = Some t -> legal VNumber s.
Proof.
  intros s t H. unfold parse_an in H. destruct (from_num_str s) eqn:E; try discriminate.
  apply from_num_str_spec in E. cbn. eauto.
Qed.
Lemma flag_opt_end : forall e a, passes (Legal a VBool) e (eo (get_attribute_opt_with_parse parse_bool e a)).
Proof. intros. apply legal_opt; [exact bool_illegal|exact bool_legal]. Qed.
Lemma flag_end : forall e a, passes (Legal a VBool) e (eo (get_flag e a)).
Proof. intros. unfold get_flag. rewrite eo_map. apply flag_opt_end. Qed.
Lemma integer_opt_end : forall e a, passes (Legal a VInteger) e (eo (get_attribute_opt_with_parse parse_usize e a)).
Proof. intros. apply legal_opt; [exact integer_illegal|exact integer_legal]. Qed.
Lemma attribute_end : forall e a, passes (Present a) e (eo (get_attribute e a)).
Proof.
  intros e a. apply pass_alone. unfold get_attribute. cbn. destruct (get e a); cbn.
  - left. split; [discriminate|reflexivity].
  - right. split; [congruence|reflexivity].
Qed.
Lemma required_end : forall T (f : string -> option T) e a v B l (g : T -> R B), (forall s, f s = None -> ~ legal v s) ->
  (forall s t, f s = Some t -> legal v s) -> (forall t, ends l e (eo (g t))) ->
  ends (Present a :: Legal a v :: l) e (eo (bind (get_attribute_with_parse f e a) g)).
Proof.
  intros T f e a v B l g Hn Hs K. unfold get_attribute_with_parse. destruct (get e a) as [s|] eqn:G.
  - apply ends_pass; [apply pass_alone; left; rewrite G; split; [discriminate|reflexivity]|].
    destruct (f s) as [t|] eqn:F; cbn.
    + apply ends_pass; [|apply K]. apply pass_alone. left. split; [|reflexivity]. intros s' E. rewrite G in E. injection E as <-.
      eapply Hs, F.
    + apply ends_stop; [|discriminate]. apply pass_alone. right. split; [|reflexivity]. intros H. eapply Hn; [exact F|]. apply H, G.
  - cbn. apply ends_stop; [|discriminate]. apply pass_alone. right. rewrite G. split; [congruence|reflexivity].
Qed.
Lemma number_end : forall e a s, get_attribute e a = Ok s -> passes (Number a) e (eo (from_num_str s)).
Proof.
  intros e a s H. apply pass_alone. unfold get_attribute in H. cbn. destruct (get e a); [|discriminate].
  injection H as ->. apply number_eo.
Qed.
Lemma string_opt_fine : forall e a, exists o, get_string_opt e a = Ok o.
Proof. intros e a. unfold get_string_opt, get_attribute_opt_with_parse. destruct (get e a); eauto. Qed.
Lemma ok_num_fine : forall s, exists o, ok (from_num_str s) = Ok o.
Proof.
  intros s. destruct (from_num_str s) eqn:E; cbn; eauto. destruct (from_num_str_no_panic _ E).
Qed.
Lemma assoc_some_in : forall X s (l : list (string * X)) x, assoc s l = Some x -> In s (map fst l).
Proof.
  intros X s l x. induction l as [|[t y] r IH]; cbn; [discriminate|].
  destruct (String.eqb_spec s t) as [->|N]; [auto|]. intros H. right. apply IH, H.
Qed.
Lemma enum_opt_end : forall T e a u (l : list (string * T)) ts, map fst l = ts ->
  passes (OneOf a u ts) e (eo (enum_opt (get e a) l (AttributeParseError u a))).
Proof.
  intros T e a u l ts <-. apply pass_alone. cbn. destruct (get e a) as [s|]; cbn.
  - destruct (assoc s l) as [x|] eqn:E; cbn.
    + left. split; [|reflexivity]. intros s' X. injection X as <-. eapply assoc_some_in, E.
    + right. split; [|reflexivity]. intros H. apply (assoc_none _ _ _ E). apply H. reflexivity.
  - left. split; [discriminate|reflexivity].
Qed.
Lemma enum_req_end : forall T e a n (l : list (string * T)) ts, map fst l = ts -> name e = n ->
  passes (Chosen a ts) e (eo (enum_req (get e a) l (AttributeParseError n a))).
Proof.
  intros T e a n l ts <- <-. apply pass_alone. cbn. destruct (get e a) as [s|]; cbn.
  - destruct (assoc s l) as [x|] eqn:E; cbn.
    + left. split; [|reflexivity]. exists s. split; [reflexivity|]. eapply assoc_some_in, E.
    + right. split; [|reflexivity]. intros (s' & X & H). injection X as <-. exact (assoc_none _ _ _ E H).
  - right. split; [|reflexivity]. intros (s & X & _). discriminate.
Qed.

(** Children. *)
Definition has (l : list XMLNode) (ts : list string) : Prop := exists c, In (NElement c) l /\ In (name c) ts.
Lemma needs_end : forall A X (o : option X) (f : X -> A) e ts u, (o <> None <-> has (children e) ts) ->
  ends [Needs ts u] e (eo (match o with Some x => Ok (f x) | None => missing_required_tag u end)).
Proof.
  intros A X o f e ts u H. apply ends_one, pass_alone. cbn. destruct o as [x|]; cbn.
  - left. split; [|reflexivity]. apply H. discriminate.
  - right. split; [|reflexivity]. intros K. apply H in K. congruence.
Qed.

(** A field that is set by exactly the children with some tags. *)
Lemma run_sets : forall S (txt : string -> S -> S) dflt tbl ts (found : S -> Prop) l s s',
  run txt dflt tbl l s = Ok s' ->
  (forall t x, found (txt t x) <-> found x) ->
  (forall c u x, lookup dflt tbl c = Ok u -> (found (u x) <-> In (name c) ts \/ found x)) ->
  (found s' <-> has l ts \/ found s).
Proof.
  intros S txt dflt tbl ts found l. induction l as [|[c|t|t] r IH]; intros s s' H Ht Hc; cbn in H.
  - injection H as <-. split; [auto|]. intros [[c [[] _]]|X]; exact X.
  - apply bind_ok in H as [u [Hu H]]. rewrite (IH _ _ H Ht Hc). rewrite (Hc _ _ _ Hu). split.
    + intros [(d & Hd & Hi)|[Hi|X]]; [left; exists d; split; [right; exact Hd|exact Hi]|left; exists c; split; [left; reflexivity|exact Hi]|auto].
    + intros [(d & [E|Hd] & Hi)|X]; [injection E as <-; auto|left; exists d; auto|auto].
  - rewrite (IH _ _ H Ht Hc), Ht. split; (intros [(d & Hd & Hi)|X]; [left; exists d; split; [|exact Hi]|auto]).
    + right. exact Hd.
    + destruct Hd as [Hd|Hd]; [discriminate|exact Hd].
  - rewrite (IH _ _ H Ht Hc). split; (intros [(d & Hd & Hi)|X]; [left; exists d; split; [|exact Hi]|auto]).
    + right. exact Hd.
    + destruct Hd as [Hd|Hd]; [discriminate|exact Hd].
Qed.
Lemma lookup_sets : forall S (dflt : handler S) tbl ts (found : S -> Prop) c u x,
  lookup dflt tbl c = Ok u ->
  (forall v, ~ In (name c) (map fst tbl) -> dflt c = Ok v -> (found (v x) <-> In (name c) ts \/ found x)) ->
  Forall (fun th => name c = fst th -> forall v, snd th c = Ok v -> (found (v x) <-> In (fst th) ts \/ found x)) tbl ->
  (found (u x) <-> In (name c) ts \/ found x).
Proof.
  intros S dflt tbl ts found c u x H Hd Hf. unfold lookup in H. revert Hd H.
  induction Hf as [|[t h] r Hh Hr IH]; intros Hd H; cbn in H; [apply (Hd _ (fun X => X) H)|].
  destruct (String.eqb_spec (name c) t) as [E|N].
  - rewrite (Hh E _ H). cbn. rewrite E. reflexivity.
  - apply IH; [|exact H]. intros v Hv. apply Hd. cbn. intros [X|X]; [congruence|contradiction].
Qed.

Lemma run_needs : forall S (dflt : handler S) tbl ts (found : S -> Prop) l s s',
  run no_text dflt tbl l s = Ok s' -> ~ found s -> (forall c v, dflt c <> Ok v) ->
  Forall (fun th => forall c v x, snd th c = Ok v -> (found (v x) <-> In (fst th) ts \/ found x)) tbl ->
  (found s' <-> has l ts).
Proof.
  intros S dflt tbl ts found l s s' H Hs Hd Ht. rewrite (run_sets S no_text dflt tbl ts found l s s' H).
  - tauto.
  - reflexivity.
  - intros c u x Hu. apply (lookup_sets S dflt tbl ts found c u x Hu).
    + intros v _ Hv. destruct (Hd _ _ Hv).
    + eapply Forall_impl; [|exact Ht]. intros th X _ v Hv. exact (X c v x Hv).
Qed.
Lemma run_fine : forall S (txt : string -> S -> S) (dflt : handler S) tbl l s,
  (forall c, exists u, lookup dflt tbl c = Ok u) -> eo (run txt dflt tbl l s) = Fine.
Proof.
  intros S txt dflt tbl l s H. revert s. induction l as [|[c|t|t] r IH]; intros s; cbn; [reflexivity|..]; try apply IH.
  destruct (H c) as [u ->]. cbn. apply IH.
Qed.

Ltac sets_done := unfold at0, at1, at2, at3, at4, at5, at6, at7, at8, at9, at10, at11; cbn [fst snd In];
  first [ split; [intros _; left; left; reflexivity|intros _; discriminate]
        | split; [intros X; right; exact X|intros [[X|X]|X]; [discriminate X|destruct X|exact X]]
        | idtac ].
Ltac sets := repeat apply Forall_cons; try apply Forall_nil; cbn [fst snd]; intros ? ? ? W;
  apply bind_ok in W as [? [_ W]]; injection W as <-; sets_done.

Section Step.
Context (h : nat).
Hypothesis Hp : forall k c, k <> KVoid -> tagged k c -> height c < h -> ends (rules k) c (eo (parse k c)).
Notation p := parse.

Definition low (l : list XMLNode) : Prop := forall c, In (NElement c) l -> height c < h.
Lemma low_children : forall e, height e <= h -> low (children e).
Proof. intros e H c Hc. apply height_child in Hc. lia. Qed.
Lemma low_tail : forall n l, low (n :: l) -> low l.
Proof. intros n l H c Hc. apply H. right. exact Hc. Qed.

Definition others_ok {S} (o : others) (dflt : handler S) : Prop := forall c, height c < h ->
  match o with
  | Refused er => eo (dflt c) = Fault (er (name c))
  | Every l => ends l c (eo (dflt c))
  end.
Definition row_ok {S} (r : string * list check) (th : string * handler S) : Prop :=
  fst r = fst th /\ forall c, name c = fst th -> height c < h -> ends (snd r) c (eo (snd th c)).

Lemma lookup_end : forall S rows o (dflt : handler S) tbl c, Forall2 row_ok rows tbl -> others_ok o dflt ->
  height c < h -> child_ends rows o c (eo (lookup dflt tbl c)).
Proof.
  intros S rows o dflt tbl c H Ho Hc. unfold lookup.
  assert (X : match assoc (name c) rows, assoc (name c) tbl with
    | Some l, Some g => ends l c (eo (g c)) | None, None => True | _, _ => False end).
  { induction H as [|[t l] [t' g] rows tbl [Ht Hr] H IH]; cbn; [exact I|]. cbn in Ht, Hr. subst t'.
    destruct (String.eqb_spec (name c) t) as [E|N]; [apply Hr; assumption|exact IH]. }
  destruct (assoc (name c) rows) as [l|] eqn:E; destruct (assoc (name c) tbl) as [g|] eqn:F; try contradiction.
  - eapply child_listed; eassumption.
  - specialize (Ho c Hc). destruct o; [rewrite Ho; apply child_refused, E|apply child_every; assumption].
Qed.
Lemma run_end_gen : forall S (txt : string -> S -> S) rows o dflt tbl l s,
  (forall c, height c < h -> child_ends rows o c (eo (lookup dflt tbl c))) ->
  low l -> nodes_end rows o l (eo (run txt dflt tbl l s)).
Proof.
  intros S txt rows o dflt tbl l s H. revert s. induction l as [|[c|t|t] r IH]; intros s Hl; cbn.
  - apply nodes_done.
  - pose proof (H c (Hl c (or_introl eq_refl))) as X.
    destruct (lookup dflt tbl c) as [u|er|]; cbn in *.
    + apply nodes_pass; [exact X|]. apply IH. eapply low_tail, Hl.
    + apply nodes_stop; [exact X|discriminate].
    + apply nodes_stop; [exact X|discriminate].
  - apply nodes_text, IH. eapply low_tail, Hl.
  - apply nodes_other, IH. eapply low_tail, Hl.
Qed.
Lemma run_end : forall S (txt : string -> S -> S) rows o dflt tbl l s, Forall2 row_ok rows tbl -> others_ok o dflt ->
  low l -> nodes_end rows o l (eo (run txt dflt tbl l s)).
Proof. intros. apply run_end_gen; [|assumption]. intros c Hc. apply lookup_end; assumption. Qed.
Lemma each_end : forall S (txt : string -> S -> S) rows o dflt tbl e s, Forall2 row_ok rows tbl -> others_ok o dflt ->
  height e <= h -> passes (Each 0 rows o) e (eo (run txt dflt tbl (children e) s)).
Proof. intros. apply pass_each. cbn [skipn]. apply run_end; [assumption|assumption|]. apply low_children. assumption. Qed.
Lemma all_end : forall k l, k <> KVoid -> (forall c, tagged k c) -> low l ->
  nodes_end [] (Every [As k]) l (eo (parse_all (p k) l)).
Proof.
  intros k l Hk Ht. induction l as [|[c|t|t] r IH]; intros Hl; cbn.
  - apply nodes_done.
  - pose proof (Hp k c Hk (Ht c) (Hl c (or_introl eq_refl))) as X.
    assert (Y : child_ends [] (Every [As k]) c (eo (p k c))).
    { apply child_every; [reflexivity|]. apply ends_one, pass_as, X. }
    destruct (p k c) as [u|er|]; cbn in *.
    + apply nodes_pass; [exact Y|]. rewrite eo_map. apply IH. eapply low_tail, Hl.
    + apply nodes_stop; [exact Y|discriminate].
    + apply nodes_stop; [exact Y|discriminate].
  - apply nodes_text, IH. eapply low_tail, Hl.
  - apply nodes_other, IH. eapply low_tail, Hl.
Qed.

Lemma refuse_ok : forall S t e, name e = t -> @others_ok S (unexpected t) (reject e).
Proof. intros S t e <- c _. reflexivity. Qed.
Lemma ignore_ok : forall S, @others_ok S ignored skip.
Proof. intros S c _. apply ends_fine. Qed.

Lemma kid_end : forall k c, k <> KVoid -> tagged k c -> height c < h -> ends [As k] c (eo (p k c)).
Proof. intros. apply ends_one, pass_as, Hp; assumption. Qed.
Lemma tried_end : forall k c, k <> KVoid -> tagged k c -> height c < h -> ends [Tried k] c (eo (ok (p k c))).
Proof. intros. rewrite eo_ok. apply ends_one, pass_tried, Hp; assumption. Qed.

(** Text.  Its element children are below an element of height at most [h]. *)
Lemma sup_fine : forall c, name c = "Sup" -> eo (parse_sup c) = Fine.
Proof. intros c H. unfold parse_sup, with_name. rewrite H. reflexivity. Qed.
Lemma sub_fine : forall c, name c = "Sub" -> eo (parse_sub c) = Fine.
Proof. intros c H. unfold parse_sub, with_name. rewrite H. reflexivity. Qed.

Lemma text_child_end : forall c, height c < h ->
  child_ends [("Ruby", [Tried KRuby]); ("Line", [Tried KLine])] ignored c (eo (lookup skip (text_table p) c)).
Proof.
  intros c Hc. unfold lookup, text_table. cbn [assoc].
  destruct (String.eqb_spec (name c) "Ruby") as [E|N1]; [|destruct (String.eqb_spec (name c) "Line") as [E|N2]].
  - eapply child_listed; [cbn; rewrite E; reflexivity|]. unfold h_push_ok. rewrite eo_map. apply tried_end; [discriminate|exact I|exact Hc].
  - eapply child_listed; [cbn; rewrite E; reflexivity|]. unfold h_push_ok. rewrite eo_map. apply tried_end; [discriminate|exact I|exact Hc].
  - assert (F : forall w, w = Fine -> child_ends [("Ruby", [Tried KRuby]); ("Line", [Tried KLine])] ignored c w).
    { intros w ->. apply child_every; [|apply ends_fine]. cbn.
      apply String.eqb_neq in N1, N2. rewrite N1, N2. reflexivity. }
    destruct (String.eqb_spec (name c) "Sup") as [E|N3]; [|destruct (String.eqb_spec (name c) "Sub") as [E|N4]].
    + apply F. unfold h_push_ok. rewrite eo_map, eo_ok, (sup_fine _ E). reflexivity.
    + apply F. unfold h_push_ok. rewrite eo_map, eo_ok, (sub_fine _ E). reflexivity.
    + apply F. reflexivity.
Qed.
Lemma text_end : forall e, height e <= h -> ends text e (eo (from_children p (children e))).
Proof.
  intros e He. apply ends_one, pass_each. cbn [skipn]. apply run_end_gen; [exact text_child_end|apply low_children, He].
Qed.
Lemma p_text_end : forall e, height e < h -> ends text e (eo (p_text p e)).
Proof. intros e He. apply text_end. lia. Qed.
Lemma twm_end : forall e, height e < h -> ends text e (eo (parse_twm p e)).
Proof. intros e He. unfold parse_twm. rewrite eo_map. apply text_end. lia. Qed.
Lemma caption_end : forall e, height e < h -> ends caption e (eo (parse_caption p e)).
Proof.
  intros e He. unfold parse_caption, caption. apply ends_app; [apply text_end; lia|]. intros t _.
  apply ends_last, flag_opt_end.
Qed.
Lemma formula_end : forall e, name e = "ArithFormula" -> height e < h -> ends formula e (eo (parse_arith p e)).
Proof.
  intros e Hn He. unfold parse_arith, formula. apply ends_bind; [apply integer_opt_end|]. intros n _. rewrite eo_map.
  apply kid_end; [discriminate|exact Hn|exact He].
Qed.
Lemma figure_end : forall e, name e = "Fig" -> ends figure e (eo (parse_fig e)).
Proof.
  intros e Hn. apply ends_one, pass_alone. unfold parse_fig. cbn. rewrite Hn. destruct (get e "src"); cbn.
  - left. split; [discriminate|reflexivity].
  - right. split; [congruence|reflexivity].
Qed.
Lemma sentences_end : forall e, height e <= h -> passes (Each 0 [] (Every [As KSentence])) e (eo (parse_all (p KSentence) (children e))).
Proof.
  intros e He. apply pass_each. cbn [skipn]. apply all_end; [discriminate|exact (fun _ => I)|apply low_children, He].
Qed.

Ltac kid := first [ apply kid_end; [discriminate|first [exact I|assumption]|assumption]
  | apply p_text_end; assumption | apply twm_end; assumption | apply caption_end; assumption
  | apply formula_end; assumption | apply figure_end; assumption
  | apply tried_end; [discriminate|exact I|assumption] ].
Ltac row := let c := fresh "c" in let Hn := fresh "Hn" in let Hc := fresh "Hc" in
  split; [reflexivity|]; intros c Hn Hc; cbn [fst snd] in Hn |- *;
  unfold h_push, h_some, h_put; try rewrite eo_map;
  first [ kid
        | rewrite (sup_fine _ Hn); apply ends_fine | rewrite (sub_fine _ Hn); apply ends_fine
        | idtac ].
Ltac rows := repeat match goal with
  | |- Forall2 row_ok (_ ++ _) (_ ++ _) => apply Forall2_app
  | |- Forall2 row_ok (_ :: _) (_ :: _) => apply Forall2_cons; [row|]
  | |- Forall2 row_ok [] [] => apply Forall2_nil
  end.

Lemma item_tag_level : forall l, item_tag l = level_tag l.
Proof. intros []; reflexivity. Qed.
Lemma items_end : forall T (inj : forall l, Knot (KItem l) -> T), Forall2 row_ok items (item_rows p inj).
Proof. intros T inj. unfold items, item_rows, all_lvls, reads. cbn [map item_tag]. rows. Qed.
Lemma structs_end : forall S ix, Forall2 row_ok structs (@struct_rows Knot p S ix).
Proof. intros S ix. unfold structs, struct_rows, reads. rows. Qed.

Lemma sct_end : forall e t, name e = t -> height e < h -> ends (sentence_or_column_or_table t) e (eo (parse_sct p e)).
Proof.
  intros e t Hn He. unfold parse_sct, sentence_or_column_or_table. apply ends_bind.
  - apply each_end; [unfold reads; rows|apply refuse_ok, Hn|lia].
  - intros [ss [cs [tb u]]] H.
    assert (X : (ss <> [] \/ cs <> [] \/ tb <> None) <-> has (children e) ["Sentence"; "Column"; "Table"]).
    { apply (run_needs _ _ _ _ (fun s => fst s <> [] \/ fst (snd s) <> [] \/ fst (snd (snd s)) <> None) _ _ _ H).
      - cbn. tauto.
      - discriminate.
      - repeat apply Forall_cons; try apply Forall_nil; cbn [fst snd]; intros ? ? ? W;
          apply bind_ok in W as [y [_ W]]; injection W as <-; unfold at0, at1, at2; cbn [fst snd In].
        + split; [intros _; left; auto|]. intros _. left. intros Z. apply app_eq_nil in Z as [_ Z]. discriminate.
        + split; [intros _; left; auto|]. intros _. right. left. intros Z. apply app_eq_nil in Z as [_ Z]. discriminate.
        + split; [intros _; left; auto|]. intros _. right. right. discriminate. }
    destruct cs as [|c cs]; [destruct ss as [|s ss]; [destruct tb as [tb|]|]|].
    4,3,1: apply ends_one, pass_alone; left; split; [|reflexivity]; apply X;
      first [left; discriminate|right; left; discriminate|right; right; discriminate].
    apply ends_one, pass_alone. right. split; [|reflexivity]. intros Y. apply X in Y.
    destruct Y as [Y|[Y|Y]]; congruence.
Qed.

Ltac unpack := repeat match goal with |- context [let '(_, _) := ?x in _] => destruct x end.
Ltac named Hn := apply ends_named; [reflexivity|intros Hn].
Ltac last := apply ends_bind; [|intros; unpack; apply ends_fine].

Lemma contents_end : forall e t, name e = t -> height e <= h -> ends [Each 0 contents (unexpected t)] e (eo (parse_cont p e)).
Proof.
  intros e t Hn He. apply ends_one, each_end; [|apply refuse_ok, Hn|exact He]. unfold contents, contents_table, reads.
  apply Forall2_app; [rows|]. apply Forall2_app; [apply items_end|]. rows.
Qed.
Lemma struct_end : forall T B n tn bn body (pt : Element -> R T) (pb : Element -> R B) e,
  tn <> bn -> bn <> "Remarks" ->
  (forall c, height c < h -> ends text c (eo (pt c))) ->
  (forall c, name c = bn -> height c < h -> ends body c (eo (pb c))) -> height e <= h ->
  ends [is_tag n; Each 0 [(tn, text); ("Remarks", [Tried KRemarks]); (bn, body)] (unexpected n); Needs [bn] bn] e
    (eo (parse_struct p n tn bn pt pb e)).
Proof.
  intros T B n tn bn body pt pb e N1 N2 Ht Hb He. unfold parse_struct, is_tag. named Hn. apply ends_bind.
  - apply each_end; [|apply refuse_ok, Hn|exact He]. apply Forall2_cons; [|apply Forall2_cons; [|apply Forall2_cons; [|apply Forall2_nil]]].
    + row. apply Ht, Hc.
    + split; [reflexivity|]. intros c Hcn Hc. cbn [snd]. unfold h_struct_remarks. rewrite eo_map. kid.
    + row. apply Hb; assumption.
  - intros [t [r1 [b [r2 u]]]] H.
    apply (needs_end _ _ b (fun b => mkStructF t r1 b r2)).
    apply (run_needs _ _ _ _ (fun s => fst (snd (snd s)) <> None) _ _ _ H).
    + cbn. congruence.
    + discriminate.
    + apply Forall_cons; [|apply Forall_cons; [|apply Forall_cons; [|apply Forall_nil]]]; cbn [fst snd]; intros ? ? x W;
        apply bind_ok in W as [y [_ W]]; injection W as <-.
      * unfold at0. cbn [fst snd In]. split; [auto|]. intros [[X|[]]|X]; [congruence|exact X].
      * cbn [In]. destruct y as [y|]; [destruct (fst (snd (snd x))) eqn:E; unfold at1, at0, at3, at2, at1, at0; cbn [fst snd]; rewrite E|];
          (split; [auto|]; intros [[X|[]]|X]; [congruence|exact X]).
      * unfold at2, at1, at0. cbn [fst snd In]. split; [auto|]. intros _. discriminate.
Qed.

Lemma list_end : forall l x rest e, x = list_expected l ->
  (forall s r cs, children e = NElement s :: r ->
     cs = match l with Sublist3 => Ok [] | _ => parse_all (p (sub_list l)) r end ->
     ends rest e (eo cs)) -> height e <= h ->
  ends (list_rules (list_tag l) x rest) e (eo (parse_list p l e)).
Proof.
  intros l x rest e -> Hr He. unfold parse_list, list_rules, is_tag. cbn [app]. named Hn.
  destruct (children e) as [|[s|t|t] r] eqn:Ec.
  1, 3, 4: apply ends_stop; [|discriminate]; unfold wrong_tag_name; cbn [eo]; rewrite Hn; apply pass_not_at; rewrite Ec; intros c X; discriminate.
  assert (Hs : height s < h) by (apply (low_children e He); rewrite Ec; left; reflexivity).
  assert (Ea : element_at 0 (children e) s) by (rewrite Ec; reflexivity).
  destruct (String.eqb_spec (name s) (list_tag l ++ "Sentence")) as [E|N].
  - apply ends_bind.
    + eapply pass_at; [exact Ea|]. apply ends_pass; [apply pass_alone; left; split; [exact E|reflexivity]|].
      apply ends_one. unfold parse_list_sentences. apply each_end; [unfold reads; rows|apply refuse_ok, Hn|lia].
    + intros ss _. rewrite eo_map. eapply Hr; [reflexivity|reflexivity].
  - unfold wrong_tag_name. cbn [eo]. rewrite Hn. apply ends_stop; [|discriminate]. eapply pass_at; [exact Ea|].
    apply ends_stop; [|discriminate]. apply pass_alone. right. split; [exact N|reflexivity].
Qed.
Lemma sublists_end : forall e s r k, k <> KVoid -> (forall c, tagged k c) -> height e <= h -> children e = NElement s :: r ->
  ends [Each 1 [] (Every [As k])] e (eo (parse_all (p k) r)).
Proof.
  intros e s r k Hk Ht He Ec. apply ends_one, pass_each. rewrite Ec. cbn [skipn]. apply all_end; [exact Hk|exact Ht|].
  eapply low_tail. rewrite <- Ec. apply low_children, He.
Qed.

Lemma article_head_end : forall l cap title rows o B (f : option (Caption Knot) * (Text Knot * list XMLNode) -> R B),
  low l ->
  (forall c t r, low r -> nodes_end rows o r (eo (f (c, (t, r))))) ->
  opening_ends [("ArticleCaption", caption); ("ArticleTitle", text)] rows o l (eo (bind (article_head p l cap title) f)).
Proof.
  intros l. induction l as [|[c|t|t] r IH]; intros cap title rows o B f Hl Hf; cbn [article_head].
  - apply opening_crash.
  - pose proof (Hl c (or_introl eq_refl)) as Hc.
    destruct (String.eqb_spec (name c) "ArticleCaption") as [E|N1].
    { pose proof (caption_end c Hc) as X. destruct (parse_caption p c) as [v|er|]; cbn [bind eo] in *.
      - eapply opening_pass; [rewrite E; reflexivity|exact X|]. apply IH; [eapply low_tail, Hl|exact Hf].
      - eapply opening_stop; [rewrite E; reflexivity|exact X|discriminate].
      - eapply opening_stop; [rewrite E; reflexivity|exact X|discriminate]. }
    destruct (String.eqb_spec (name c) "ArticleTitle") as [E|N2].
    { pose proof (p_text_end c Hc) as X. destruct (p_text p c) as [v|er|]; cbn [bind eo] in *.
      - eapply opening_pass; [rewrite E; reflexivity|exact X|]. apply IH; [eapply low_tail, Hl|exact Hf].
      - eapply opening_stop; [rewrite E; reflexivity|exact X|discriminate].
      - eapply opening_stop; [rewrite E; reflexivity|exact X|discriminate]. }
    cbn [bind]. apply opening_over; [|apply Hf, Hl]. cbn. apply String.eqb_neq in N1, N2. rewrite N1, N2. reflexivity.
  - apply opening_text, IH; [eapply low_tail, Hl|exact Hf].
  - apply opening_other, IH; [eapply low_tail, Hl|exact Hf].
Qed.

Ltac num_attr n := apply ends_bind; [apply attribute_end|]; intros n ?;
  apply ends_bind; [apply number_end; assumption|]; intros ? _.
Ltac flags := repeat (apply ends_bind; [first [apply flag_end|apply flag_opt_end|apply integer_opt_end]|]; intros ? _).

Lemma head_end : forall C n rows tbl e, Forall2 row_ok rows tbl -> height e <= h ->
  ends (heading_rules n rows) e (eo (@parse_head Knot p C n tbl e)).
Proof.
  intros C n rows tbl e Hr He. unfold parse_head, heading_rules, is_tag, numbered. cbn [app]. named Hn. num_attr ns. flags.
  destruct (children e) as [|[s|t|t] r] eqn:Ec.
  1, 3, 4: apply ends_stop; [|discriminate]; apply pass_not_at; rewrite Ec; intros c X; discriminate.
  assert (Hs : height s < h) by (apply (low_children e He); rewrite Ec; left; reflexivity).
  assert (Ea : element_at 0 (children e) s) by (rewrite Ec; reflexivity).
  destruct (String.eqb_spec (name s) (n ++ "Title")) as [E|N].
  - apply ends_bind.
    + eapply pass_at; [exact Ea|]. apply ends_pass; [apply pass_alone; left; split; [exact E|reflexivity]|].
      apply p_text_end, Hs.
    + intros t _. apply ends_last. apply pass_each. rewrite Ec. cbn [skipn].
      apply run_end; [exact Hr|apply refuse_ok, Hn|]. eapply low_tail. rewrite <- Ec. apply low_children, He.
  - cbn [eo]. apply ends_stop; [|discriminate]. eapply pass_at; [exact Ea|].
    apply ends_stop; [|discriminate]. apply pass_alone. right. split; [exact N|reflexivity].
Qed.

Lemma article_end : forall e, height e <= h -> ends (rules KArticle) e (eo (parse_article p e)).
Proof.
  intros e He. cbn [rules]. unfold parse_article, is_tag, numbered. cbn [app]. named Hn. num_attr ns. flags.
  apply ends_one, pass_opening. apply article_head_end; [apply low_children, He|]. intros c t r Hr.
  match goal with |- nodes_end _ _ _ (eo (bind ?x _)) => replace (eo (bind x _)) with (eo x) by (destruct x as [[? [? ?]]| |]; reflexivity) end.
  apply run_end; [unfold reads; rows|apply refuse_ok, Hn|exact Hr].
Qed.

Lemma strings : forall B l e a (f : option string -> R B), (forall o, ends l e (eo (f o))) ->
  ends l e (eo (bind (get_string_opt e a) f)).
Proof. intros B l e a f H. destruct (string_opt_fine e a) as [o ->]. apply H. Qed.

Ltac loop Hn := apply ends_bind; [apply each_end; [unfold reads; rows|apply refuse_ok, Hn|assumption]|].
Ltac done := intros; unpack; apply ends_fine.

Lemma item_end : forall l e, height e <= h -> ends (rules (KItem l)) e (eo (parse_item p l e)).
Proof.
  intros l e He. cbn [rules]. unfold parse_item, is_tag. rewrite <- (item_tag_level l). named Hn.
  apply ends_bind; [apply attribute_end|]. intros n _.
  destruct (ok_num_fine n) as [o Eo]. rewrite Eo. cbn [bind]. clear Eo. flags. apply ends_bind.
  - apply each_end; [|apply refuse_ok, Hn|exact He]. unfold item_table. apply Forall2_app.
    + rows. apply sct_end; assumption.
    + apply Forall2_app; [apply structs_end|]. destruct l; cbn [sub_item sub_tag sub_level_tags map item_tag]; unfold reads; rows.
  - intros [t [s [ss [it u]]]] H.
    apply (needs_end _ _ s (fun s => mkItemF t s it ss o _ _)).
    apply (run_needs _ _ _ _ (fun s => fst (snd s) <> None) _ _ _ H).
    + cbn. congruence.
    + discriminate.
    + destruct l; unfold item_table, struct_rows; cbn [sub_item sub_tag item_tag app]; sets.
Qed.

Lemma appdx_end : forall C n rows tbl e, Forall2 row_ok rows tbl -> height e <= h ->
  ends (appended_rules n rows) e (eo (@parse_appdx_t Knot p C n tbl e)).
Proof.
  intros C n rows tbl e Hr He. unfold parse_appdx_t, appended_rules, is_tag. named Hn. apply strings. intros num. last.
  apply each_end; [|apply refuse_ok, Hn|exact He]. apply Forall2_app; [rows|]. apply Forall2_app; [exact Hr|]. unfold reads. rows.
Qed.
Lemma toc_end : forall C n t rows tbl e, Forall2 row_ok rows tbl -> height e <= h ->
  ends (toc_rules n t rows) e (eo (@parse_toc_head Knot p C n t tbl e)).
Proof.
  intros C n t rows tbl e Hr He. unfold parse_toc_head, toc_rules, is_tag. named Hn.
  apply required_end; [exact number_illegal|exact number_legal|]. intros num. flags. last.
  apply each_end; [|apply refuse_ok, Hn|exact He]. apply Forall2_app; [rows|exact Hr].
Qed.
Lemma suppl_ts_end : forall C n x tn ms cn checks o dflt pc e,
  tn <> "RelatedArticleNum" -> tn <> cn -> (name e = n -> others_ok o dflt) -> (forall c v, dflt c <> Ok v) ->
  (forall c, name c = cn -> height c < h -> ends checks c (eo (pc c))) -> height e <= h ->
  ends [is_tag_called n x; Each 0 [(tn, text); ("RelatedArticleNum", text); (cn, checks)] o; Needs [tn] ms] e
    (eo (@parse_suppl_ts Knot p C n x tn ms cn dflt pc e)).
Proof.
  intros C n x tn ms cn checks o dflt pc e N1 N2 Ho Hd Hc He. unfold parse_suppl_ts, is_tag_called. named Hn. apply strings. intros num.
  apply ends_bind.
  - apply each_end; [|apply Ho, Hn|exact He]. rows. apply Hc; assumption.
  - intros [t [r [c u]]] H. apply (needs_end _ _ t (fun t => mkSupplTSF t r c num)).
    apply (run_needs _ _ _ _ (fun s => fst s <> None) _ _ _ H).
    + cbn. congruence.
    + exact Hd.
    + apply Forall_cons; [|apply Forall_cons; [|apply Forall_cons; [|apply Forall_nil]]]; cbn [fst snd]; intros ? ? y W;
        apply bind_ok in W as [z [_ W]]; injection W as <-; unfold at0, at1, at2; cbn [fst snd In].
      * split; [auto|]. intros _. discriminate.
      * split; [auto|]. intros [[X|[]]|X]; [congruence|exact X].
      * split; [auto|]. intros [[X|[]]|X]; [congruence|exact X].
Qed.

Lemma pstep_end : forall k e, k <> KVoid -> tagged k e -> height e <= h -> ends (rules k) e (eo (pstep p k e)).
Proof.
  intros k e Hk Ht He. destruct k; cbn [pstep]; [contradiction|..].
  - (* Ruby *) unfold parse_ruby. cbn [rules]. unfold is_tag. named Hn.
    match goal with |- ends _ _ (eo (bind ?x _)) => replace (eo (bind x _)) with (eo x) by (destruct x as [[? [? ?]]| |]; reflexivity) end.
    rewrite run_fine; [apply ends_fine|]. intros c. unfold lookup. cbn [assoc]. destruct (String.eqb (name c) "Rt"); eexists; reflexivity.
  - (* Line *) unfold parse_line. cbn [rules]. unfold is_tag. named Hn.
    assert (X : passes (Chosen "Style" ["solid"; "none"; "dotted"; "double"]) e
      (match linestyle_of (get e "Style") with Some _ => Fine | None => Fault (AttributeParseError "Line" "Style") end)).
    { apply pass_alone. unfold linestyle_of. cbn [alone]. rewrite Hn. destruct (get e "Style") as [s|].
      - destruct (assoc s _) eqn:E.
        + left. split; [|reflexivity]. exists s. split; [reflexivity|]. apply assoc_some_in in E. exact E.
        + right. split; [|reflexivity]. intros (s' & Y & Z). injection Y as <-. exact (assoc_none _ _ _ E Z).
      - right. split; [|reflexivity]. intros (s' & Y & Z). discriminate. }
    destruct (linestyle_of (get e "Style")) as [st|].
    + apply ends_pass; [exact X|]. last. apply each_end; [unfold inline, line_table, reads; rows|apply refuse_ok, Hn|exact He].
    + apply ends_stop; [exact X|discriminate].
  - (* contents *) assert (Hn : name e = cont_tag c) by (destruct c; exact Ht). destruct c; apply contents_end; assumption.
  - (* Sentence *) unfold parse_sentence. cbn [rules]. unfold is_tag. named Hn. flags.
    rewrite Hn. apply ends_bind; [apply enum_opt_end; reflexivity|]. intros fn _.
    apply ends_bind; [apply enum_opt_end; reflexivity|]. intros ind _. last.
    apply each_end; [unfold inline, sentence_table, reads; rows|apply refuse_ok, Hn|exact He].
  - (* Column *) unfold parse_column. cbn [rules]. unfold is_tag, sentences. cbn [app]. named Hn. flags. last. apply sentences_end, He.
  - (* Table *) unfold parse_table. cbn [rules]. unfold is_tag. named Hn. loop Hn; [|done].
    unfold parse_header_row, with_name, header_row. rewrite Hn0. cbn. apply ends_one, each_end; [rows|apply ignore_ok|lia].
  - (* TableRow *) unfold parse_table_row. cbn [rules]. unfold is_tag. named Hn. apply ends_one, each_end; [unfold reads; rows|apply ignore_ok|exact He].
  - (* TableColumn *) unfold parse_table_column. cbn [rules]. unfold is_tag. named Hn. apply strings. intros r. apply strings. intros c. last.
    apply each_end; [|apply refuse_ok, Hn|exact He]. unfold cell, cell_table, reads.
    apply Forall2_app; [rows|]. apply Forall2_app; [apply items_end|rows].
  - (* Remarks *) unfold parse_remarks. cbn [rules]. unfold is_tag. named Hn. loop Hn.
    + unfold parse_remarks_label, remarks_label, with_name. rewrite Hn0. cbn [String.eqb Ascii.eqb Bool.eqb]. flags. rewrite eo_map. apply text_end. lia.
    + intros [l [c u]] H. apply (needs_end _ _ l (fun l => mkRemarksF l c)).
      apply (run_needs _ _ _ _ (fun s => fst s <> None) _ _ _ H); [cbn; congruence|discriminate|sets].
  - (* NoteStruct, StyleStruct, FormatStruct *) unfold parse_cstruct.
    destruct s; cbn [rules body_of]; unfold structure_rules; apply struct_end; try discriminate; try exact He;
      try (intros; apply p_text_end; assumption); (intros c Hcn Hc; apply kid_end; [discriminate|exact Hcn|exact Hc]).
  - (* FigStruct *) apply struct_end; try discriminate; try exact He; intros; [apply p_text_end|apply figure_end]; assumption.
  - (* TableStruct *) apply struct_end; try discriminate; try exact He; intros; [apply twm_end; assumption|apply kid_end; [discriminate|exact I|assumption]].
  - (* List *) destruct l as [| | |]; cbn [rules];
      [apply (list_end List0)|apply (list_end Sublist1)|apply (list_end Sublist2)|apply (list_end Sublist3)];
      try reflexivity; try exact He; intros s r cs Ec ->;
      first [apply ends_fine|eapply sublists_end; [discriminate|exact (fun _ => I)|exact He|exact Ec]].
  - (* Class *) unfold parse_class. cbn [rules]. unfold is_tag. named Hn. apply ends_bind; [apply attribute_end|]. intros num _. loop Hn.
    + apply sct_end; assumption.
    + intros [t [s [i u]]] H. apply (needs_end _ _ s (fun s => mkClassF t s i num)).
      apply (run_needs _ _ _ _ (fun s => fst (snd s) <> None) _ _ _ H); [cbn; congruence|discriminate|sets].
  - (* Item *) apply item_end, He.
  - (* Paragraph *) unfold parse_paragraph. cbn [rules]. unfold is_tag, numbered. cbn [app]. named Hn. num_attr ns. flags. last.
    apply each_end; [|apply refuse_ok, Hn|exact He]. unfold paragraph_table.
    change (Forall2 row_ok ([("ParagraphCaption", caption); ("ParagraphNum", text); ("ParagraphSentence", sentences);
      reads "AmendProvision" KAmend; reads "Class" KClass] ++ structs ++ [reads "Item" (KItem Item0)]) (paragraph_table p)).
    unfold paragraph_table. apply Forall2_app; [unfold reads; rows|apply Forall2_app; [apply structs_end|unfold reads; rows]].
    unfold h_sentences. rewrite eo_map. apply ends_one, sentences_end. lia.
  - (* Article *) apply article_end, He.
  - apply head_end; [unfold part_table, reads; rows|exact He].
  - apply head_end; [unfold chapter_table, reads; rows|exact He].
  - apply head_end; [unfold section_table, reads; rows|exact He].
  - apply head_end; [unfold subsection_table, reads; rows|exact He].
  - apply head_end; [unfold division_table, reads; rows|exact He].
  - (* AmendProvision *) unfold parse_amend. cbn [rules]. unfold is_tag. named Hn. loop Hn; [| |done].
    + unfold parse_amend_sentence. destruct (children c) as [|[s|t|t] r] eqn:Ec.
      1, 3, 4: apply ends_one, pass_not_at; rewrite Ec; intros d X; discriminate.
      apply ends_one. eapply pass_at; [rewrite Ec; reflexivity|]. apply kid_end; [discriminate|exact I|].
      assert (height s < height c) by (apply height_child; rewrite Ec; left; reflexivity). lia.
    + apply ends_one, each_end; [|apply refuse_ok, Hn|lia]. unfold new_provision, new_provision_table, reads.
      apply Forall2_app; [rows|]. apply Forall2_app; [apply items_end|rows].
  - (* LawTitle *) unfold parse_law_title. cbn [rules]. unfold is_tag. named Hn. do 3 (apply strings; intros ?). rewrite eo_map. apply text_end, He.
  - (* Preamble *) unfold parse_preamble. cbn [rules]. unfold is_tag. named Hn. apply ends_one, each_end; [unfold reads; rows|apply ignore_ok|exact He].
  - (* MainProvision *) unfold parse_main. cbn [rules]. unfold is_tag. named Hn. flags. last.
    apply each_end; [unfold main_table, reads; rows|apply refuse_ok, Hn|exact He].
  - (* SupplProvision *) unfold parse_suppl. cbn [rules]. unfold is_tag_called. named Hn.
    apply ends_bind; [apply enum_opt_end; reflexivity|]. intros ty _. flags. last.
    apply each_end; [unfold suppl_table, reads; rows|apply refuse_ok, Hn|exact He].
  - unfold parse_suppl_table. cbn [rules]. unfold reads. apply suppl_ts_end; try discriminate; try exact He.
    + intros _ c _. reflexivity.
    + intros c _ Hc. apply kid_end; [discriminate|exact I|exact Hc].
  - unfold parse_suppl_style. cbn [rules]. unfold reads. apply suppl_ts_end; try discriminate; try exact He.
    + intros Hn. apply refuse_ok, Hn.
    + intros c _ Hc. apply kid_end; [discriminate|exact I|exact Hc].
  - unfold parse_suppl_appdx. cbn [rules]. unfold is_tag_called. named Hn. apply strings. intros num. loop Hn. done.
  - apply appdx_end; [unfold appdx_table_rows, reads; rows|exact He].
  - apply appdx_end; [unfold appdx_note_rows, reads; rows|exact He].
  - apply appdx_end; [unfold appdx_style_rows, reads; rows|exact He].
  - apply appdx_end; [unfold appdx_format_rows, reads; rows|exact He].
  - unfold parse_appdx. cbn [rules]. unfold is_tag. named Hn. loop Hn. done.
  - unfold parse_appdx_fig. cbn [rules]. unfold is_tag. named Hn. apply strings. intros num. loop Hn. done.
  - unfold parse_toc. cbn [rules]. unfold is_tag. named Hn. loop Hn. done.
  - apply toc_end; [unfold toc_part_rows, reads; rows|exact He].
  - apply toc_end; [unfold toc_chapter_rows, reads; rows|exact He].
  - apply toc_end; [unfold toc_section_rows, reads; rows|exact He].
  - apply toc_end; [unfold toc_subsection_rows, reads; rows|exact He].
  - apply toc_end; [rows|exact He].
  - unfold parse_toc_article. cbn [rules]. unfold is_tag. named Hn.
    apply required_end; [exact number_illegal|exact number_legal|]. intros num. flags. loop Hn.
    intros [t [c u]] H. apply (needs_end _ _ c (fun c => mkTOCArticleF t c num _)).
    apply (run_needs _ _ _ _ (fun s => fst (snd s) <> None) _ _ _ H); [cbn; congruence|discriminate|sets].
  - unfold parse_toc_suppl. cbn [rules]. unfold is_tag_called. named Hn. loop Hn. done.
  - unfold parse_law_body. cbn [rules]. unfold is_tag. named Hn. apply strings. intros sub.
    apply ends_bind; [apply each_end; [unfold law_body_table, reads; rows|apply refuse_ok, Hn|exact He]|].
    intros [t [en [toc [pre [m [su [a [b [c [d [f [g u]]]]]]]]]]]] H.
    apply (needs_end _ _ m (fun m => mkLawBodyF t en sub toc pre m su a b c d f g)).
    apply (run_needs _ _ _ _ (fun s => fst (snd (snd (snd (snd s)))) <> None) _ _ _ H); [cbn; congruence|discriminate|].
    unfold law_body_table. sets.
Qed.
End Step.

Theorem parse_ends : forall k e, k <> KVoid -> tagged k e -> ends (rules k) e (eo (parse k e)).
Proof.
  intros k e. remember (height e) as n eqn:E. revert k e E. induction n as [n IH] using lt_wf_ind.
  intros k e -> Hk Ht. rewrite (parse_unfold k e (tagged_well k e Ht)), eo_map.
  apply (pstep_end (height e)); [|exact Hk|exact Ht|reflexivity].
  intros k' c Hk' Ht' Hc. apply (IH (height c)); [exact Hc|reflexivity|exact Hk'|exact Ht'].
Qed.

Theorem parse_law_ends : forall e, ends law_rules e (eo (parse_law e)).
Proof.
  intros e. unfold parse_law, law_rules, is_tag. apply ends_named; [reflexivity|]. intros Hn.
  apply ends_bind; [eapply enum_req_end; reflexivity|]. intros era _.
  apply required_end; [exact integer_illegal|exact integer_legal|]. intros year.
  apply ends_bind; [apply pass_alone; cbn; destruct (get e "Num"); reflexivity|]. intros ns Hns.
  apply ends_bind.
  { apply pass_alone. cbn. destruct (get e "Num") as [s|]; [|discriminate]. injection Hns as <-.
    destruct (String.eqb_spec s "") as [->|N]; [left; split; reflexivity|]. right. split; [exact N|]. rewrite eo_map. apply number_eo. }
  intros num _.
  assert (D : forall a, passes (IntegerOrBlank a) e (eo (parse_date_attr (get e a)))).
  { intros a. apply pass_alone. cbn. unfold parse_date_attr. destruct (get e a) as [s|]; [|reflexivity].
    destruct (String.eqb_spec s "") as [->|N]; [left; split; [auto|reflexivity]|].
    destruct (parse_usize s) eqn:E; cbn.
    - left. split; [|reflexivity]. right. exists n. apply parse_usize_spec, E.
    - right. split; [|reflexivity]. intros [X|X]; [contradiction|]. exact (integer_illegal _ E X). }
  apply ends_bind; [apply D|]. intros month _. apply ends_bind; [apply D|]. intros day _.
  apply ends_bind; [eapply enum_req_end; reflexivity|]. intros ty _.
  apply ends_bind; [eapply enum_req_end; reflexivity|]. intros lang _.
  destruct (children e) as [|[s|t|t] r] eqn:Ec.
  1, 3, 4: apply ends_stop; [|discriminate]; apply pass_not_at; rewrite Ec; intros c X; discriminate.
  assert (Ea : element_at 0 (children e) s) by (rewrite Ec; reflexivity).
  destruct (String.eqb_spec (name s) "LawNum") as [E|N].
  - apply ends_pass.
    { eapply pass_at; [exact Ea|]. apply ends_one, pass_alone. left. split; [exact E|reflexivity]. }
    destruct r as [|[b|t|t] r].
    1, 3, 4: apply ends_one, pass_not_at; rewrite Ec; intros c X; discriminate.
    apply ends_last. eapply pass_at; [rewrite Ec; reflexivity|]. apply ends_one, pass_as, parse_ends; [discriminate|exact I].
  - cbn [eo]. apply ends_stop; [|discriminate]. eapply pass_at; [exact Ea|].
    apply ends_stop; [|discriminate]. apply pass_alone. right. split; [exact N|reflexivity].
Qed.

(** The ending of a reading is the one given by the rules, and no other. *)
Lemma eo_fine : forall A (x : R A), eo x = Fine <-> exists v, x = Ok v.
Proof. intros A [v|er|]; cbn; split; try discriminate; try (intros [? ?]; discriminate); eauto. Qed.
Lemma eo_fault : forall A (x : R A) er, eo x = Fault er <-> x = Err er.
Proof. intros A [v|er|] er'; cbn; split; congruence. Qed.
Lemma eo_crash : forall A (x : R A), eo x = Crash <-> x = Panic.
Proof. intros A [v|er|]; cbn; split; congruence. Qed.

Lemma parse_ends_iff : forall k e w, k <> KVoid -> tagged k e -> (ends (rules k) e w <-> eo (parse k e) = w).
Proof.
  intros k e w Hk Ht. split; [|intros <-; apply parse_ends; assumption].
  intros H. eapply ends_det; [apply parse_ends; assumption|exact H].
Qed.
Lemma parse_law_ends_iff : forall e w, ends law_rules e w <-> eo (parse_law e) = w.
Proof.
  intros e w. split; [|intros <-; apply parse_law_ends]. intros H. eapply ends_det; [apply parse_law_ends|exact H].
Qed.
