(** Equations for reading back what was written, used by [RoundTripFacts.v]. *)
From Coq Require Import String List NArith Bool Lia Arith.
From Verif Require Import Base NumStr NumStrSpec BaseFacts NumStrFacts Xml Ast XmlWrite XmlParse
  RoundTripSpec.
Import ListNotations.
Open Scope list_scope.

(** ** Lists of propositions *)
Fixpoint allp (l : list Prop) : Prop :=
  match l with [] => True | P :: r => P /\ allp r end.

Lemma allp_app : forall l m, allp (l ++ m) <-> allp l /\ allp m.
Proof. induction l as [|P l IH]; intros m; cbn; [tauto|]. rewrite IH. tauto. Qed.

Lemma allp_map : forall X (P : X -> Prop) l, allp (map P l) <-> forall x, In x l -> P x.
Proof.
  induction l as [|x l IH]; cbn; [tauto|]. rewrite IH. split.
  - intros [H1 H2] y [<-|H]; auto.
  - intros H. split; [apply H; left; reflexivity|]. intros y Hy. apply H. right. exact Hy.
Qed.

(** ** Sequencing *)
Lemma bind_assoc : forall A B C (x : R A) (f : A -> R B) (g : B -> R C),
  bind (bind x f) g = bind x (fun a => bind (f a) g).
Proof. destruct x; reflexivity. Qed.

Lemma bind_ok : forall A B (x : R A) (f : A -> R B) b,
  bind x f = Ok b -> exists a, x = Ok a /\ f a = Ok b.
Proof. intros A B [a| |] f b H; cbn in H; try discriminate. exists a. split; [reflexivity|exact H]. Qed.

Lemma ok_iff : forall A (x : R A) a, ok x = Ok (Some a) <-> x = Ok a.
Proof. intros A [b| |] a; cbn; split; intros H; inversion H; reflexivity. Qed.

(** ** Attributes *)
Lemma assoc_insert : forall n m v l,
  assoc n (insert m v l) = if String.eqb n m then Some v else assoc n l.
Proof.
  intros n m v l. induction l as [|[k u] l IH]; cbn.
  - reflexivity.
  - destruct (String.eqb_spec m k) as [<-|Hk]; cbn.
    + destruct (String.eqb n m); reflexivity.
    + rewrite IH. destruct (String.eqb_spec n k) as [->|]; [|reflexivity].
      destruct (String.eqb_spec k m); [congruence|reflexivity].
Qed.

Lemma assoc_insert_opt : forall n m o l,
  assoc n (insert_opt m o l) =
  match o with Some v => if String.eqb n m then Some v else assoc n l | None => assoc n l end.
Proof. intros n m [v|] l; cbn; [apply assoc_insert|reflexivity]. Qed.

Lemma assoc_insert_opt_same : forall n o l,
  assoc n (insert_opt n o l) = match o with Some v => Some v | None => assoc n l end.
Proof. intros. rewrite assoc_insert_opt, String.eqb_refl. destruct o; reflexivity. Qed.

Lemma assoc_insert_opt_other : forall n m o l, String.eqb n m = false ->
  assoc n (insert_opt m o l) = assoc n l.
Proof. intros n m o l H. rewrite assoc_insert_opt, H. destruct o; reflexivity. Qed.

Lemma assoc_insert_flag_same : forall n (b : bool) l,
  assoc n (insert_flag n b l) = if b then Some "true"%string else assoc n l.
Proof.
  intros n b l. unfold insert_flag. destruct b; [|reflexivity].
  rewrite assoc_insert, String.eqb_refl. reflexivity.
Qed.

Lemma assoc_insert_flag_other : forall n m (b : bool) l, String.eqb n m = false ->
  assoc n (insert_flag m b l) = assoc n l.
Proof.
  intros n m b l H. unfold insert_flag. destruct b; [|reflexivity].
  rewrite assoc_insert, H. reflexivity.
Qed.

Lemma assoc_insert_same : forall n v l, assoc n (insert n v l) = Some v.
Proof. intros. rewrite assoc_insert, String.eqb_refl. reflexivity. Qed.

Lemma assoc_insert_other : forall n m v l, String.eqb n m = false ->
  assoc n (insert m v l) = assoc n l.
Proof. intros n m v l H. rewrite assoc_insert, H. reflexivity. Qed.

(** Reading written attribute values. *)
Lemma read_flag : forall e n (b : bool),
  get e n = (if b then Some "true"%string else None) -> get_flag e n = Ok b.
Proof.
  intros e n b H. unfold get_flag, get_attribute_opt_with_parse. rewrite H. destruct b; reflexivity.
Qed.

Lemma read_bool_opt : forall e n o,
  get e n = option_map bool_to_string o -> get_attribute_opt_with_parse parse_bool e n = Ok o.
Proof.
  intros e n o H. unfold get_attribute_opt_with_parse. rewrite H. destruct o as [[]|]; reflexivity.
Qed.

Lemma read_string_opt : forall e n o, get e n = o -> get_string_opt e n = Ok o.
Proof.
  intros e n o H. unfold get_string_opt, get_attribute_opt_with_parse. rewrite H. destruct o; reflexivity.
Qed.

Lemma usize_read : forall n, parse_usize (usize_to_string n) = Some n <-> is_usize n = true.
Proof.
  intros n. split; [|apply parse_usize_to_string].
  intros H. apply parse_usize_spec in H. apply usize_text_bound in H. exact H.
Qed.

Lemma read_usize_opt : forall e n o,
  get e n = option_map usize_to_string o ->
  (get_attribute_opt_with_parse parse_usize e n = Ok o <-> usize_opt o = true).
Proof.
  intros e n o H. unfold get_attribute_opt_with_parse. rewrite H.
  destruct o as [v|]; cbn; [|tauto]. rewrite <- usize_read.
  destruct (parse_usize (usize_to_string v)); split; intros E; inversion E; reflexivity.
Qed.

Lemma read_attribute : forall e n v, get e n = Some v -> get_attribute e n = Ok v.
Proof. intros e n v H. unfold get_attribute. rewrite H. reflexivity. Qed.

Lemma read_an : forall e n a, get e n = Some (num_str a) ->
  (get_attribute_with_parse parse_an e n = Ok a <-> an_ok a = true).
Proof.
  intros e n a H. unfold get_attribute_with_parse, parse_an. rewrite H, <- num_str_roundtrip_iff.
  destruct (from_num_str (num_str a)); split; intros E; inversion E; reflexivity.
Qed.

Lemma read_mode : forall m, mode_of (mode_str m) = m.
Proof. destruct m; reflexivity. Qed.

Lemma read_align : forall o, align_of (option_map align_str o) = o.
Proof. destruct o as [[]|]; reflexivity. Qed.

Lemma read_function : forall o err, enum_opt (option_map function_str o) functions err = Ok o.
Proof. destruct o as [[]|]; reflexivity. Qed.

Lemma read_indent : forall o err, enum_opt (option_map indent_str o) indents err = Ok o.
Proof. destruct o as [[|[]]|]; reflexivity. Qed.

Lemma read_linestyle : forall s, linestyle_of (Some (linestyle_str s)) = Some s <-> not_double s = true.
Proof. destruct s; cbn; split; congruence. Qed.

Lemma read_border : forall e n s, get e n = Some (linestyle_str s) ->
  (border e n = s <-> not_double s = true).
Proof. intros e n s H. unfold border. rewrite H. destruct s; cbn; split; congruence. Qed.

(** ** Loops over written children *)
Definition lens {S X} (ix : (X -> X) -> S -> S) : Prop :=
  (forall f g s, ix f (ix g s) = ix (fun x => f (g x)) s) /\
  (forall f g s, (forall x, f x = g x) -> ix f s = ix g s) /\
  (forall s, ix (fun x => x) s = s).

Lemma lens_whole : forall X, lens (@whole X).
Proof. intros. repeat split; intros; unfold whole; auto. Qed.
Lemma lens_at0 : forall A B, lens (@at0 A B).
Proof.
  intros. repeat split; intros; unfold at0; cbn; auto.
  - rewrite H. reflexivity.
  - destruct s; reflexivity.
Qed.
Lemma lens_next : forall A S X (ix : (X -> X) -> S -> S), lens ix ->
  lens (fun f (s : A * S) => (fst s, ix f (snd s))).
Proof.
  intros A S X ix (H1 & H2 & H3). repeat split; intros; cbn.
  - rewrite H1. reflexivity.
  - rewrite (H2 _ _ _ H). reflexivity.
  - rewrite H3. destruct s; reflexivity.
Qed.

Ltac lens_tac := first
  [ apply lens_whole | apply lens_at0
  | apply lens_next; lens_tac ].

Section Loops.
Context {S : Type} (txt : string -> S -> S) (d : handler S) (t : list (string * handler S)).

(** The node [n], written for [x], is read back as [x] exactly when [C] holds; otherwise it
    is left out or read as something else, or fails. *)
Definition elem {X} (ix : (list X -> list X) -> S -> S) (n : XMLNode) (x : X) (C : Prop) : Prop :=
  (forall r s s', run txt d t (n :: r) s = Ok s' ->
     (exists v, run txt d t r (ix (fun l => l ++ [v]) s) = Ok s' /\ (v = x -> C)) \/
     run txt d t r s = Ok s') /\
  (C -> forall r s, run txt d t (n :: r) s = run txt d t r (ix (fun l => l ++ [x]) s)).

Lemma elem_iff : forall X ix n (x : X) C C', (C <-> C') -> elem ix n x C -> elem ix n x C'.
Proof.
  intros X ix n x C C' E [H1 H2]. split.
  - intros r s s' H. destruct (H1 r s s' H) as [(v & Hv & Hc)|Hn]; [left|right; exact Hn].
    exists v. split; [exact Hv|]. intros Ev. apply E, Hc, Ev.
  - intros HC. apply H2, E, HC.
Qed.

Lemma elem_push : forall X Y (ix : (list X -> list X) -> S -> S) (inj : Y -> X) pr e v (C : Prop),
  lookup d t e = h_push ix inj pr e -> (forall a b, inj a = inj b -> a = b) ->
  (pr e = Ok v <-> C) -> elem ix (NElement e) (inj v) C.
Proof.
  intros X Y ix inj pr e v C HL Hi HC. split.
  - intros r s s' H. cbn [run] in H. rewrite HL in H. unfold h_push in H. rewrite bind_assoc in H.
    apply bind_ok in H as (u & Hu & H). cbn [bind] in H. left. exists (inj u). split; [exact H|].
    intros E. apply Hi in E. subst u. apply HC, Hu.
  - intros HC' r s. cbn [run]. rewrite HL. unfold h_push. apply HC in HC'. rewrite HC'. reflexivity.
Qed.

Lemma elem_push_ok : forall X Y (ix : (list X -> list X) -> S -> S) (inj : Y -> X) pr e v (C : Prop),
  lookup d t e = h_push_ok ix inj pr e -> (forall a b, inj a = inj b -> a = b) ->
  (pr e = Ok v <-> C) -> elem ix (NElement e) (inj v) C.
Proof.
  intros X Y ix inj pr e v C HL Hi HC. split.
  - intros r s s' H. cbn [run] in H. rewrite HL in H. unfold h_push_ok in H. rewrite bind_assoc in H.
    destruct (pr e) as [u| |] eqn:Hu; cbn in H; [left|right; exact H|discriminate].
    exists (inj u). split; [exact H|]. intros E. apply Hi in E. subst u. apply HC. reflexivity.
  - intros HC' r s. cbn [run]. rewrite HL. unfold h_push_ok. apply HC in HC'. rewrite HC'. reflexivity.
Qed.

Lemma elem_text : forall X (ix : (list X -> list X) -> S -> S) (f : string -> X) s,
  (forall st, txt s st = ix (fun l => l ++ [f s]) st) -> elem ix (NText s) (f s) True.
Proof.
  intros X ix f s H. split.
  - intros r st st' E. cbn [run] in E. rewrite H in E. left. exists (f s). split; [exact E|trivial].
  - intros _ r st. cbn [run]. rewrite H. reflexivity.
Qed.

Definition reads {X} (ix : (list X -> list X) -> S -> S) (nd : X -> XMLNode)
    (ex : X -> bool) (c : X -> list Prop) : Prop :=
  forall x, elem ix (nd x) x (ex x = true /\ allp (c x)).

Theorem reads_fwd : forall X ix (nd : X -> XMLNode) ex c, lens ix -> reads ix nd ex c ->
  forall l rest s s', run txt d t (map nd l ++ rest) s = Ok s' ->
  exists vs, run txt d t rest (ix (fun l => l ++ vs) s) = Ok s' /\
    (vs = l -> forallb ex l = true /\ allp (flat_map c l)).
Proof.
  intros X ix nd ex c (L1 & L2 & L3) HR l rest s s' H.
  assert (G : exists vs, run txt d t rest (ix (fun l => l ++ vs) s) = Ok s' /\
    length vs <= length l /\ (vs = l -> forallb ex l = true /\ allp (flat_map c l))).
  { revert s H. induction l as [|x l IH]; intros s H.
    - exists []. split; [|split; [reflexivity|cbn; auto]]. cbn in H.
      rewrite (L2 _ (fun x => x)), L3 by apply app_nil_r. exact H.
    - cbn [map app] in H. destruct (HR x) as [H1 _].
      destruct (H1 _ _ _ H) as [(v & Hv & Hc)|Hn]; clear H1 H.
      + apply IH in Hv as (vs & Hvs & Hl & Hc2). exists (v :: vs). split; [|split].
        * rewrite L1 in Hvs. rewrite <- Hvs. f_equal. apply L2. intros. rewrite <- app_assoc. reflexivity.
        * cbn. lia.
        * intros E. injection E as E1 E2. destruct (Hc E1). destruct (Hc2 E2). cbn.
          rewrite andb_true_iff, allp_app. auto.
      + apply IH in Hn as (vs & Hvs & Hl & _). exists vs. split; [exact Hvs|]. split; [cbn; lia|].
        intros ->. cbn in Hl. lia. }
  destruct G as (vs & G1 & _ & G2). exists vs. auto.
Qed.

Theorem reads_bwd : forall X ix (nd : X -> XMLNode) ex c, lens ix -> reads ix nd ex c ->
  forall l rest s, forallb ex l = true -> allp (flat_map c l) ->
  run txt d t (map nd l ++ rest) s = run txt d t rest (ix (fun m => m ++ l) s).
Proof.
  intros X ix nd ex c (L1 & L2 & L3) HR l rest. induction l as [|x l IH]; intros s H1 H2.
  - cbn. f_equal. rewrite (L2 _ (fun x => x)), L3 by apply app_nil_r. reflexivity.
  - cbn in H1, H2. rewrite andb_true_iff in H1. rewrite allp_app in H2.
    destruct H1 as [H1 H1']. destruct H2 as [H2 H2']. cbn [map app].
    destruct (HR x) as [_ Hb]. rewrite Hb by (split; assumption). rewrite IH by assumption.
    f_equal. rewrite L1. apply L2. intros. rewrite <- app_assoc. reflexivity.
Qed.

Theorem reads_fwd_end : forall X ix (nd : X -> XMLNode) ex c, lens ix -> reads ix nd ex c ->
  forall l s s', run txt d t (map nd l) s = Ok s' ->
  exists vs, ix (fun l => l ++ vs) s = s' /\
    (vs = l -> forallb ex l = true /\ allp (flat_map c l)).
Proof.
  intros X ix nd ex c L HR l s s' H. rewrite <- (app_nil_r (map nd l)) in H.
  eapply reads_fwd in H as (vs & H & Hc); [|exact L|exact HR]. injection H as H. exists vs. auto.
Qed.

Theorem reads_bwd_end : forall X ix (nd : X -> XMLNode) ex c, lens ix -> reads ix nd ex c ->
  forall l s, forallb ex l = true -> allp (flat_map c l) ->
  run txt d t (map nd l) s = Ok (ix (fun m => m ++ l) s).
Proof.
  intros X ix nd ex c L HR l s H1 H2. rewrite <- (app_nil_r (map nd l)).
  erewrite reads_bwd; [|exact L|exact HR|exact H1|exact H2]. reflexivity.
Qed.

(** An optional child. *)
Definition orelse {X} (v x : option X) : option X := match v with Some _ => v | None => x end.

Arguments orelse : simpl never.

Lemma opt_fwd : forall X (wr : X -> Element) (pr : Element -> R X) ix o rest s s' (c : X -> list Prop),
  lens ix ->
  (forall x, lookup d t (wr x) = h_some ix pr (wr x)) ->
  (forall x, pr (wr x) = Ok x <-> allp (c x)) ->
  run txt d t (el_opt wr o ++ rest) s = Ok s' ->
  exists v, run txt d t rest (ix (orelse v) s) = Ok s' /\
    (v = None <-> o = None) /\ (v = o -> allp (c_opt c o)).
Proof.
  intros X wr pr ix o rest s s' c (L1 & L2 & L3) HL HC H. destruct o as [x|]; cbn [el_opt app run] in H.
  - rewrite HL in H. unfold h_some in H. rewrite bind_assoc in H. apply bind_ok in H as (v & Hv & H).
    exists (Some v). split; [exact H|]. split; [split; discriminate|].
    intros E. injection E as ->. apply HC, Hv.
  - exists None. split; [|split; [tauto|intros _; exact I]].
    rewrite (L2 _ (fun x => x)), L3 by reflexivity. exact H.
Qed.

Lemma opt_bwd : forall X (wr : X -> Element) (pr : Element -> R X) ix o rest s (c : X -> list Prop),
  lens ix ->
  (forall x, lookup d t (wr x) = h_some ix pr (wr x)) ->
  (forall x, pr (wr x) = Ok x <-> allp (c x)) ->
  allp (c_opt c o) ->
  run txt d t (el_opt wr o ++ rest) s = run txt d t rest (ix (orelse o) s).
Proof.
  intros X wr pr ix o rest s c (L1 & L2 & L3) HL HC H.
  destruct o as [x|]; cbn [el_opt app run].
  - rewrite HL. unfold h_some. apply HC in H. rewrite H. reflexivity.
  - f_equal. rewrite (L2 _ (fun x => x)), L3 by reflexivity. reflexivity.
Qed.

Lemma opt_fwd_end : forall X (wr : X -> Element) (pr : Element -> R X) ix o s s' (c : X -> list Prop),
  lens ix ->
  (forall x, lookup d t (wr x) = h_some ix pr (wr x)) ->
  (forall x, pr (wr x) = Ok x <-> allp (c x)) ->
  run txt d t (el_opt wr o) s = Ok s' ->
  exists v, ix (orelse v) s = s' /\ (v = None <-> o = None) /\ (v = o -> allp (c_opt c o)).
Proof.
  intros X wr pr ix o s s' c L HL HC H. rewrite <- (app_nil_r (el_opt wr o)) in H.
  eapply opt_fwd in H as (v & H & Hc); [|exact L|exact HL|exact HC].
  injection H as H. exists v. auto.
Qed.

Lemma opt_bwd_end : forall X (wr : X -> Element) (pr : Element -> R X) ix o s (c : X -> list Prop),
  lens ix ->
  (forall x, lookup d t (wr x) = h_some ix pr (wr x)) ->
  (forall x, pr (wr x) = Ok x <-> allp (c x)) ->
  allp (c_opt c o) ->
  run txt d t (el_opt wr o) s = Ok (ix (orelse o) s).
Proof.
  intros X wr pr ix o s c L HL HC H. rewrite <- (app_nil_r (el_opt wr o)).
  erewrite opt_bwd; [|exact L|exact HL|exact HC|exact H]. reflexivity.
Qed.

(** A child that is always there. *)
Lemma some_fwd : forall X (pr : Element -> R X) ix e (x : X) rest s s' (C : Prop),
  lookup d t e = h_some ix pr e -> (pr e = Ok x <-> C) ->
  run txt d t ([NElement e] ++ rest) s = Ok s' ->
  exists v, run txt d t rest (ix (fun _ => Some v) s) = Ok s' /\ (v = x -> C).
Proof.
  intros X pr ix e x rest s s' C HL HC H. cbn [app run] in H. rewrite HL in H.
  unfold h_some in H. rewrite bind_assoc in H. apply bind_ok in H as (v & Hv & H).
  exists v. split; [exact H|]. intros ->. apply HC, Hv.
Qed.
Lemma some_bwd : forall X (pr : Element -> R X) ix e (x : X) rest s (C : Prop),
  lookup d t e = h_some ix pr e -> (pr e = Ok x <-> C) -> C ->
  run txt d t ([NElement e] ++ rest) s = run txt d t rest (ix (fun _ => Some x) s).
Proof.
  intros X pr ix e x rest s C HL HC H. apply HC in H. cbn [app run]. rewrite HL.
  unfold h_some. rewrite H. reflexivity.
Qed.
Lemma put_fwd : forall X (pr : Element -> R X) ix e (x : X) rest s s' (C : Prop),
  lookup d t e = h_put ix pr e -> (pr e = Ok x <-> C) ->
  run txt d t ([NElement e] ++ rest) s = Ok s' ->
  exists v, run txt d t rest (ix (fun _ => v) s) = Ok s' /\ (v = x -> C).
Proof.
  intros X pr ix e x rest s s' C HL HC H. cbn [app run] in H. rewrite HL in H.
  unfold h_put in H. rewrite bind_assoc in H. apply bind_ok in H as (v & Hv & H).
  exists v. split; [exact H|]. intros ->. apply HC, Hv.
Qed.
Lemma put_bwd : forall X (pr : Element -> R X) ix e (x : X) rest s (C : Prop),
  lookup d t e = h_put ix pr e -> (pr e = Ok x <-> C) -> C ->
  run txt d t ([NElement e] ++ rest) s = run txt d t rest (ix (fun _ => x) s).
Proof.
  intros X pr ix e x rest s C HL HC H. apply HC in H. cbn [app run]. rewrite HL.
  unfold h_put. rewrite H. reflexivity.
Qed.

Lemma run_elem : forall e rest s,
  run txt d t (NElement e :: rest) s = bind (lookup d t e) (fun u => run txt d t rest (u s)).
Proof. reflexivity. Qed.
End Loops.

Lemma forallb_true : forall X (l : list X), forallb (fun _ => true) l = true.
Proof. induction l; auto. Qed.

Lemma flat_map_single : forall X Y (f : X -> Y) l, flat_map (fun x => [f x]) l = map f l.
Proof. induction l as [|x l IH]; cbn; [reflexivity|]. rewrite IH. reflexivity. Qed.

(** Reading all children. *)
Lemma parse_all_els : forall X (pr : Element -> R X) (wr : X -> Element) (l : list X),
  parse_all pr (els wr l) = Ok l <-> allp (map (fun x => pr (wr x) = Ok x) l).
Proof.
  intros. induction l as [|x l IH]; cbn; [tauto|]. change (map _ l) with (els wr l) at 1. split.
  - intros H. apply bind_ok in H as (v & Hv & H). apply bind_ok in H as (vs & Hvs & H).
    injection H as -> ->. split; [exact Hv|]. apply IH, Hvs.
  - intros [H1 H2]. apply IH in H2. rewrite H1, H2. reflexivity.
Qed.

Lemma with_name_same : forall A e n x (k : R A), name e = n -> with_name e n x k = k.
Proof. intros A e n x k H. unfold with_name. rewrite H, String.eqb_refl. reflexivity. Qed.

Lemma orelse_none : forall X (v : option X), orelse v None = v.
Proof. destruct v; reflexivity. Qed.

Lemma ok_inj : forall A (a b : A), Ok a = Ok b -> a = b.
Proof. congruence. Qed.
