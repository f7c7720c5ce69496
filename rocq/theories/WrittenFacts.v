(** Numbers and attributes as they are written. *)
From Coq Require Import String Ascii List NArith Bool Lia Arith.
From Verif Require Import Base BaseFacts NumStr NumStrSpec NumStrFacts Xml Ast XmlWrite WrittenSpec.
Import ListNotations.
Open Scope string_scope.
Open Scope list_scope.

(** ** Numbers *)
Lemma digits_rev_canonical : forall f n, (n < 2 ^ N.of_nat f)%N -> n <> 0%N ->
  exists r d, digits_rev f n = r ++ [d] /\ d <> 0%N.
Proof.
  induction f as [|f IH]; intros n Hn H0; [cbn in Hn; lia|]. cbn [digits_rev].
  destruct (N.ltb_spec n 10); [exists [], n; auto|].
  rewrite Nnat.Nat2N.inj_succ, N.pow_succ_r' in Hn.
  assert (H1 : (n / 10 < 2 ^ N.of_nat f)%N).
  { apply N.div_lt_upper_bound; [lia|]. lia. }
  assert (H2 : (n / 10)%N <> 0%N).
  { intros Hz. apply N.div_small_iff in Hz; lia. }
  destruct (IH _ H1 H2) as (r & d & Hr & Hd). rewrite Hr. exists ((n mod 10)%N :: r), d. auto.
Qed.

Lemma canonical_ge : forall d r, d <> 0%N -> (1 <= digits_value (d :: r))%N.
Proof.
  intros d r Hd. induction r as [|x r IH] using rev_ind; [cbn; lia|].
  rewrite app_comm_cons, digits_value_app. lia.
Qed.

Lemma digits_rev_of : forall ds f, Forall (fun d => d < 10)%N ds ->
  (ds = [0%N] \/ exists d r, ds = d :: r /\ d <> 0%N) -> (digits_value ds < 2 ^ N.of_nat f)%N -> f <> O ->
  digits_rev f (digits_value ds) = rev ds.
Proof.
  induction ds as [|d l IH] using rev_ind; intros f Hd Hc Hf H0.
  - destruct Hc as [Hc|(d & r & Hc & _)]; discriminate.
  - apply Forall_app in Hd as [Hl Hd]. inversion Hd as [|? ? Hd' _]; subst. clear Hd.
    destruct f as [|f]; [congruence|]. rewrite rev_app_distr. cbn [rev app digits_rev].
    destruct l as [|x l].
    + cbn [digits_value fold_left app rev]. rewrite N.mul_0_l, N.add_0_l.
      destruct (N.ltb_spec d 10); [reflexivity|lia].
    + assert (Hx : x <> 0%N).
      { destruct Hc as [Hc|(d' & r & Hc & Hn)]; [destruct l; discriminate|]. cbn in Hc. injection Hc as -> _. exact Hn. }
      rewrite digits_value_app in *. pose proof (canonical_ge x l Hx) as Hg.
      destruct (N.ltb_spec (digits_value (x :: l) * 10 + d) 10); [lia|].
      assert (E : ((digits_value (x :: l) * 10 + d) / 10 = digits_value (x :: l))%N).
      { rewrite N.div_add_l by lia. rewrite N.div_small by lia. lia. }
      assert (M : ((digits_value (x :: l) * 10 + d) mod 10 = d)%N).
      { rewrite N.add_comm, N.mod_add by lia. apply N.mod_small. lia. }
      rewrite E, M. rewrite Nnat.Nat2N.inj_succ, N.pow_succ_r' in Hf. f_equal. apply IH.
      * exact Hl.
      * right. exists x, l. auto.
      * lia.
      * intros ->. change (2 * 2 ^ N.of_nat 0)%N with 2%N in Hf. lia.
Qed.

Lemma decimal_iff : forall s, decimal s <-> exists n, s = usize_to_string n.
Proof.
  intros s. split.
  - intros (ds & Hd & Hc & ->). exists (digits_value ds). unfold usize_to_string, digits.
    rewrite string_of_digits_text. f_equal. rewrite digits_rev_of; auto.
    + symmetry. apply rev_involutive.
    + apply size_nat_bound.
  - intros (n & ->). exists (digits n). split; [apply digits_lt|]. split; [|apply string_of_digits_text].
    destruct (N.eq_dec n 0) as [->|Hn]; [left; reflexivity|]. right. unfold digits.
    destruct (digits_rev_canonical (S (N.size_nat n)) n (size_nat_bound n) Hn) as (r & d & Hr & Hd).
    rewrite Hr. rewrite rev_app_distr. exists d, (rev r). auto.
Qed.

Lemma branches_iff : forall s, branches s <-> exists l, s = concat_strings (map (fun n => "_" ++ usize_to_string n)%string l).
Proof.
  intros s. split.
  - induction 1 as [|s r Hs Hr [l ->]]; [exists []; reflexivity|]. apply decimal_iff in Hs as [n ->].
    exists (n :: l). cbn [map concat_strings fold_right]. rewrite append_assoc_s. reflexivity.
  - intros [l ->]. induction l as [|n l IH]; [constructor|]. cbn [map concat_strings fold_right].
    rewrite append_assoc_s. constructor; [|exact IH]. apply decimal_iff. eauto.
Qed.

Lemma range_end_iff : forall s, range_end s <-> exists l, s = range_str l.
Proof.
  intros s. split.
  - destruct 1 as [|s r Hs Hr]; [exists []; reflexivity|]. apply decimal_iff in Hs as [n ->].
    apply branches_iff in Hr as [l ->]. exists (n :: l). reflexivity.
  - intros [[|n l] ->]; [constructor|]. cbn [range_str]. constructor; [apply decimal_iff; eauto|apply branches_iff; eauto].
Qed.

Lemma branches_with_iff : forall x s, branches_with x s <->
  exists l, s = concat_strings (map (fun n => "_" ++ usize_to_string n ++ x)%string l).
Proof.
  intros x s. split.
  - induction 1 as [|s r Hs Hr [l ->]]; [exists []; reflexivity|]. apply decimal_iff in Hs as [n ->].
    exists (n :: l). cbn [map concat_strings fold_right]. rewrite !append_assoc_s. reflexivity.
  - intros [l ->]. induction l as [|n l IH]; [constructor|]. cbn [map concat_strings fold_right].
    rewrite !append_assoc_s. constructor; [|exact IH]. apply decimal_iff. eauto.
Qed.

Lemma numeral_iff : forall s, numeral s <-> exists a, s = num_str a.
Proof.
  intros s. split.
  - intros (b & x & r & Hb & Hx & Hr & ->). apply decimal_iff in Hb as [n ->]. apply range_end_iff in Hx as [l ->].
    apply branches_with_iff in Hr as [m ->]. exists (mkAN n m l). reflexivity.
  - intros [[n m l] ->]. exists (usize_to_string n), (range_str l),
      (concat_strings (map (fun n => "_" ++ usize_to_string n ++ range_str l)%string m)).
    split; [apply decimal_iff; eauto|]. split; [apply range_end_iff; eauto|]. split; [apply branches_with_iff; eauto|reflexivity].
Qed.

(** ** Attributes *)
Lemma assoc_insert : forall a n v l, assoc a (insert n v l) = if String.eqb a n then Some v else assoc a l.
Proof.
  induction l as [|[m u] l IH]; [reflexivity|]. cbn [insert].
  destruct (String.eqb_spec n m) as [->|Hn]; cbn [assoc].
  - destruct (String.eqb a m); reflexivity.
  - rewrite IH. destruct (String.eqb_spec a m) as [->|Hm]; [|reflexivity].
    destruct (String.eqb_spec m n); [congruence|reflexivity].
Qed.

Lemma assoc_insert_opt : forall a n o l, assoc a (insert_opt n o l) =
  match o with Some v => if String.eqb a n then Some v else assoc a l | None => assoc a l end.
Proof. intros a n [v|] l; [apply assoc_insert|reflexivity]. Qed.

Lemma assoc_insert_flag : forall a n b l, assoc a (insert_flag n b l) =
  if b then (if String.eqb a n then Some "true" else assoc a l) else assoc a l.
Proof. intros a n [] l; [apply assoc_insert|reflexivity]. Qed.

(** Attributes as they are inserted one after the other. *)
Definition attrs_img {A} (l : list slot) (g : A -> list (string * string)) : Prop :=
  forall e, attributes l e <-> exists a, forall n, get e n = assoc n (g a).

Definition value_img {V} (must : bool) (v : value) (g : V -> option string) : Prop :=
  forall o, (match o with Some s => allowed v s | None => must = false end) <-> exists x, o = g x.

Lemma attributes_rev : forall l e, attributes (rev l) e <-> attributes l e.
Proof.
  intros l e. unfold attributes. rewrite map_rev. split; intros [H1 H2]; split.
  - apply Forall_rev in H1. rewrite rev_involutive in H1. exact H1.
  - intros a Ha. apply H2. rewrite <- in_rev. exact Ha.
  - apply Forall_rev. exact H1.
  - intros a Ha. apply H2. rewrite <- in_rev in Ha. exact Ha.
Qed.

Lemma ai_rev : forall A l (g : A -> list (string * string)), attrs_img (rev l) g -> attrs_img l g.
Proof. intros A l g H e. rewrite <- attributes_rev. apply H. Qed.

Lemma ai_nil : attrs_img [] (fun _ : unit => []).
Proof.
  intros e. unfold attributes. split.
  - intros [_ H]. exists tt. intros n. apply H. intros [].
  - intros [_ H]. split; [constructor|]. intros a _. apply H.
Qed.

Definition without (n : string) (e : Element) : Element :=
  mkElement (name e) (filter (fun p => negb (String.eqb n (fst p))) (attrs e)) (children e).
Lemma get_without : forall n e m, get (without n e) m = if String.eqb m n then None else get e m.
Proof.
  intros n [t a c] m. unfold get, without. cbn. induction a as [|[x y] a IH]; cbn [filter assoc fst].
  - destruct (String.eqb m n); reflexivity.
  - destruct (String.eqb_spec n x) as [->|Hn]; cbn [negb assoc].
    + rewrite IH. destruct (String.eqb m x); reflexivity.
    + rewrite IH. destruct (String.eqb_spec m x) as [->|Hm]; [|reflexivity].
      destruct (String.eqb_spec x n); [congruence|reflexivity].
Qed.

Lemma filled_without : forall n e s, fst s <> n -> (filled (without n e) s <-> filled e s).
Proof.
  intros n e s Hs. unfold filled. rewrite get_without. destruct (String.eqb_spec (fst s) n); [contradiction|]. reflexivity.
Qed.

Lemma ai_cons : forall A V n must v (gv : V -> option string) l (g : A -> list (string * string)),
  value_img must v gv -> ~ In n (map fst l) -> attrs_img l g ->
  attrs_img ((n, (must, v)) :: l) (fun p : V * A => insert_opt n (gv (fst p)) (g (snd p))).
Proof.
  intros A V n must v gv l g Hv Hn Hl e.
  assert (G : forall e, attributes ((n, (must, v)) :: l) e <-> filled e (n, (must, v)) /\ attributes l (without n e)).
  { intros e'. unfold attributes. cbn [map fst]. split.
    - intros [H1 H2]. inversion H1 as [|? ? Ha Hb]; subst. split; [exact Ha|]. split.
      + rewrite Forall_forall in *. intros s Hs. apply filled_without; [|auto]. intros <-. apply Hn. apply in_map. exact Hs.
      + intros a Hi. rewrite get_without. destruct (String.eqb_spec a n) as [->|Hx]; [reflexivity|]. apply H2.
        intros [Hy|Hy]; [congruence|contradiction].
    - intros [H1 [H2 H3]]. split.
      + constructor; [exact H1|]. rewrite Forall_forall in *. intros s Hs. apply (filled_without n); [|auto].
        intros <-. apply Hn. apply in_map. exact Hs.
      + intros a Hi. specialize (H3 a (fun H => Hi (or_intror H))). rewrite get_without in H3.
        destruct (String.eqb_spec a n) as [E|Hx]; [exfalso; apply Hi; left; congruence|exact H3]. }
  assert (N : forall a, assoc n (g a) = None).
  { intros a. assert (H : attributes l (mkElement "" (g a) [])).
    { apply Hl. exists a. reflexivity. } destruct H as [_ H]. apply H. exact Hn. }
  rewrite G. unfold filled. cbn [fst snd]. rewrite (Hv (get e n)), (Hl (without n e)). split.
  - intros [[x Hx] [a Ha]]. exists (x, a). intros m. cbn [fst snd]. rewrite assoc_insert_opt.
    specialize (Ha m). rewrite get_without in Ha. destruct (gv x) eqn:Ev.
    + destruct (String.eqb_spec m n) as [E|Hm]; [rewrite E; congruence|exact Ha].
    + destruct (String.eqb_spec m n) as [E|Hm]; [rewrite E, N; exact Hx|exact Ha].
  - intros [[x a] H]. cbn [fst snd] in H. split; [exists x|exists a].
    + rewrite H, assoc_insert_opt, String.eqb_refl, N. destruct (gv x); reflexivity.
    + intros m. rewrite get_without, H, assoc_insert_opt. destruct (String.eqb_spec m n) as [E|Hm]; [rewrite E; symmetry; apply N|].
      destruct (gv x); reflexivity.
Qed.

Lemma v_always : forall V v (f : V -> string), (forall s, allowed v s <-> exists x, s = f x) ->
  value_img true v (fun x => Some (f x)).
Proof.
  intros V v f H [s|]; cbn.
  - rewrite H. split; intros [x Hx]; exists x; congruence.
  - split; [discriminate|]. intros [x Hx]. discriminate.
Qed.
Lemma v_perhaps : forall V v (f : V -> string), (forall s, allowed v s <-> exists x, s = f x) ->
  value_img false v (option_map f).
Proof.
  intros V v f H [s|]; cbn.
  - rewrite H. split; [intros [x ->]; exists (Some x); reflexivity|]. intros [[x|] Hx]; [|discriminate].
    exists x. cbn in Hx. congruence.
  - split; [|reflexivity]. intros _. exists None. reflexivity.
Qed.
Lemma v_any : value_img false Any (fun o => o).
Proof. intros o. split; [intros _; exists o; reflexivity|]. intros _. destruct o; [exact I|reflexivity]. Qed.
Lemma v_must : value_img true Any (@Some string).
Proof. apply (v_always _ Any (fun s => s)). intros s. split; [eauto|]. intros _. exact I. Qed.
Lemma v_flag : value_img false Yes (fun b : bool => if b then Some "true" else None).
Proof.
  intros [s|]; cbn.
  - split; [intros ->; exists true; reflexivity|]. intros [[] Hx]; congruence.
  - split; [|reflexivity]. intros _. exists false. reflexivity.
Qed.
Lemma v_mode : value_img false (Among ["horizontal"]) mode_str.
Proof.
  intros [s|]; cbn.
  - split; [intros [<-|[]]; exists Horizontal; reflexivity|]. intros [[] Hx]; [discriminate|]. injection Hx as ->. auto.
  - split; [|reflexivity]. intros _. exists Vertical. reflexivity.
Qed.

Ltac among x := intros s; split;
  [intros H; cbn in H; repeat (destruct H as [H|H]; [subst; x|]); contradiction
  |intros [v ->]; destruct v; cbn; auto 20].

Lemma v_truth : forall s, allowed Truth s <-> exists x, s = bool_to_string x.
Proof.
  intros s. split; [intros [->| ->]; [exists true|exists false]; reflexivity|]. intros [[] ->]; cbn; auto.
Qed.
Lemma v_style : forall s, allowed styles s <-> exists x, s = linestyle_str x.
Proof. among ltac:(first [exists LDotted; reflexivity|exists LDouble; reflexivity|exists LSolid; reflexivity|exists LNone; reflexivity]). Qed.
Lemma v_function : forall s, allowed (Among ["main"; "proviso"]) s <-> exists x, s = function_str x.
Proof. among ltac:(first [exists FMain; reflexivity|exists FProviso; reflexivity]). Qed.
Lemma v_indent : forall s, allowed (Among ["Paragraph"; "Item"; "Subitem1"; "Subitem2"; "Subitem3"; "Subitem4"; "Subitem5";
        "Subitem6"; "Subitem7"; "Subitem8"; "Subitem9"; "Subitem10"]) s <-> exists x, s = indent_str x.
Proof.
  intros s. split.
  - intros H; cbn in H.
    repeat (destruct H as [H|H]; [subst; first
      [exists IParagraph; reflexivity|exists (IItem Item0); reflexivity|exists (IItem Sub1); reflexivity
      |exists (IItem Sub2); reflexivity|exists (IItem Sub3); reflexivity|exists (IItem Sub4); reflexivity
      |exists (IItem Sub5); reflexivity|exists (IItem Sub6); reflexivity|exists (IItem Sub7); reflexivity
      |exists (IItem Sub8); reflexivity|exists (IItem Sub9); reflexivity|exists (IItem Sub10); reflexivity]|]). contradiction.
  - intros [[|[]] ->]; cbn; auto 20.
Qed.
Lemma v_align : forall s, allowed (Among ["left"; "center"; "right"; "justify"]) s <-> exists x, s = align_str x.
Proof. among ltac:(first [exists ALeft; reflexivity|exists ACenter; reflexivity|exists ARight; reflexivity|exists AJustify; reflexivity]). Qed.
Lemma v_type : forall s, allowed (Among ["New"; "Amend"]) s <-> exists x, s = suppl_type_str x.
Proof. among ltac:(first [exists TNew; reflexivity|exists TAmend; reflexivity]). Qed.
Lemma v_era : forall s, allowed (Among ["Meiji"; "Taisho"; "Showa"; "Heisei"; "Reiwa"]) s <-> exists x, s = era_str x.
Proof.
  among ltac:(first [exists Meiji; reflexivity|exists Taisho; reflexivity|exists Showa; reflexivity|exists Heisei; reflexivity
    |exists Reiwa; reflexivity]).
Qed.
Lemma v_law_type : forall s, allowed (Among ["Constitution"; "Act"; "CabinetOrder"; "ImperialOrder"; "MinisterialOrdinance";
     "Rule"; "Misc"]) s <-> exists x, s = law_type_str x.
Proof.
  among ltac:(first [exists Constitution; reflexivity|exists Act; reflexivity|exists CabinetOrder; reflexivity
    |exists ImperialOrder; reflexivity|exists MinisterialOrdinance; reflexivity|exists Rule; reflexivity|exists Misc; reflexivity]).
Qed.
Lemma v_lang : forall s, allowed (Among ["ja"; "en"]) s <-> exists x, s = lang_str x.
Proof. among ltac:(first [exists Ja; reflexivity|exists En; reflexivity]). Qed.

(** ** Trees that are the same *)
Definition likes (l m : list XMLNode) : Prop := Forall2 node_alike l m.
Lemma alike_iff : forall e f, alike e f <->
  name e = name f /\ (forall a, get e a = get f a) /\ likes (children e) (children f).
Proof. intros e f. split; [destruct 1; auto|]. intros (A & B & C). constructor; assumption. Qed.

(** ** Content *)
From Verif Require Import XmlParse XmlSpec XmlSim KnotFacts.
Section Content.
Context (h : nat) (W : kind -> Element -> Prop).
Context (HW : forall k c, height c < h -> (W k c <-> exists v, alike c (write k v))).
Definition low (l : list XMLNode) : Prop := forall c, In (NElement c) l -> height c < h.
Definition img {X} (m : model) (g : X -> list XMLNode) : Prop :=
  forall l, low l -> (fits W m l <-> exists x, likes l (g x)).
Definition shape {X} (t : string) (sl : list slot) (m : model) (el : X -> Element) : Prop :=
  forall e, low (children e) ->
    (name e = t /\ attributes sl e /\ fits W m (children e) <-> exists x, alike e (el x)).

Lemma low_app : forall l m, low (l ++ m) -> low l /\ low m.
Proof. intros l m H. split; intros c Hc; apply H; apply in_or_app; auto. Qed.
Lemma low_children : forall e, low [NElement e] -> low (children e).
Proof. intros e H c Hc. apply height_child in Hc. specialize (H e (or_introl eq_refl)). lia. Qed.

Lemma img_chars : img Chars (fun s => [NText s]).
Proof.
  intros l _. split.
  - intros H. inversion H; subst. eexists. repeat constructor.
  - intros [s H]. inversion H as [|? ? ? ? H1 H2]; subst. inversion H1; subst. inversion H2; subst. constructor.
Qed.
Lemma img_of : forall k, img (Of k) (fun v => [NElement (write k v)]).
Proof.
  intros k l Hl. split.
  - intros H. inversion H; subst. apply HW in H1 as [v Hv]; [|apply Hl; left; reflexivity].
    exists v. constructor; [constructor; exact Hv|constructor].
  - intros [v H]. inversion H as [|? ? ? ? H1 H2]; subst. inversion H2; subst. inversion H1; subst.
    constructor. apply HW; [apply Hl; left; reflexivity|eauto].
Qed.
Lemma img_leaf : forall X t sl m (el : X -> Element), shape t sl m el -> img (Leaf t sl m) (fun x => [NElement (el x)]).
Proof.
  intros X t sl m el He l Hl. split.
  - intros H. inversion H; subst. destruct (He e (low_children e Hl)) as [A _]. destruct A as [x Hx]; [auto|].
    exists x. constructor; [constructor; exact Hx|constructor].
  - intros [v H]. inversion H as [|? ? ? ? H1 H2]; subst. inversion H2; subst. inversion H1; subst.
    destruct (He e (low_children e Hl)) as [_ A]. destruct A as (A & B & C); [eauto|]. constructor; assumption.
Qed.
Lemma img_empty : img Empty (fun _ : unit => []).
Proof.
  intros l _. split.
  - intros H. inversion H; subst. exists tt. constructor.
  - intros [_ H]. inversion H; subst. constructor.
Qed.
Lemma img_void : forall X (w : X -> Element), (X -> False) -> img Empty (els w).
Proof.
  intros X w HX l _. split.
  - intros H. inversion H; subst. exists []. constructor.
  - intros [[|x r] H]; [|destruct (HX x)]. inversion H; subst. constructor.
Qed.
Lemma img_then : forall X Y a b (g : X -> list XMLNode) (k : Y -> list XMLNode), img a g -> img b k ->
  img (Then a b) (fun p : X * Y => g (fst p) ++ k (snd p)).
Proof.
  intros X Y a b g k Ha Hb l Hl. split.
  - intros H. inversion H; subst. apply low_app in Hl as [Hl Hm].
    apply Ha in H2 as [x Hx]; [|exact Hl]. apply Hb in H4 as [y Hy]; [|exact Hm].
    exists (x, y). apply Forall2_app; assumption.
  - intros [[x y] H]. apply Forall2_app_inv_r in H as (l1 & l2 & H1 & H2 & ->). apply low_app in Hl as [Hl Hm].
    constructor; [apply Ha; eauto|apply Hb; eauto].
Qed.
Lemma img_maybe : forall X m (el : X -> Element), img m (fun x => [NElement (el x)]) -> img (Maybe m) (el_opt el).
Proof.
  intros X m el Hm l Hl. split.
  - intros H. inversion H; subst; [exists None; constructor|]. apply Hm in H1 as [x Hx]; [|exact Hl]. exists (Some x). exact Hx.
  - intros [[x|] H]; [apply fits_present, Hm; eauto|]. inversion H; subst. constructor.
Qed.
Lemma img_many : forall X m (n : X -> XMLNode), img m (fun x => [n x]) -> img (Many m) (map n).
Proof.
  intros X m n Hm l Hl. split.
  - intros H. remember (Many m) as mm eqn:E. revert Hl. induction H; try discriminate; injection E as ->; intros Hl.
    + exists []. constructor.
    + apply low_app in Hl as [Hl Hr]. apply Hm in H as [x Hx]; [|exact Hl].
      destruct (IHfits2 eq_refl Hr) as [r' Hr']. exists (x :: r'). exact (Forall2_app Hx Hr').
  - intros [xs H]. revert l Hl H. induction xs as [|x xs IH]; intros l Hl H.
    + inversion H; subst. constructor.
    + change (map n (x :: xs)) with ([n x] ++ map n xs) in H.
      apply Forall2_app_inv_r in H as (l1 & l2 & H1 & H2 & ->). apply low_app in Hl as [Hl Hr].
      constructor; [apply Hm; eauto|apply IH; auto].
Qed.
Lemma img_els : forall X m (el : X -> Element), img m (fun x => [NElement (el x)]) -> img (Many m) (els el).
Proof. intros X m el Hm. exact (img_many _ _ _ Hm). Qed.

(** Alternatives. *)
Definition alts {X} (l : list model) (n : X -> list XMLNode) (P : X -> Prop) : Prop :=
  forall ns, low ns -> ((exists m, In m l /\ fits W m ns) <-> exists x, P x /\ likes ns (n x)).
Lemma alts_nil : forall X (n : X -> list XMLNode), alts [] n (fun _ => False).
Proof. intros X n ns _. split; [intros (m & [] & _)|intros (x & [] & _)]. Qed.
Lemma alts_cons : forall X Y (f : Y -> X) m l (n : X -> list XMLNode) P,
  img m (fun y => n (f y)) -> alts l n P -> alts (m :: l) n (fun x => (exists y, n x = n (f y)) \/ P x).
Proof.
  intros X Y f m l n P Hm Hl ns Hns. split.
  - intros (m' & [<-|Hi] & Hf).
    + apply Hm in Hf as [y Hy]; [|exact Hns]. exists (f y). split; [left; eauto|exact Hy].
    + destruct (Hl ns Hns) as [A _]. destruct A as (x & Hx & Hk); [eauto|]. eauto.
  - intros (x & [[y Hy]|Hx] & Hk).
    + exists m. split; [left; reflexivity|]. apply Hm; [exact Hns|]. exists y. rewrite <- Hy. exact Hk.
    + destruct (Hl ns Hns) as [_ A]. destruct A as (m' & Hi & Hf); [eauto|]. exists m'. split; [right; exact Hi|exact Hf].
Qed.
Lemma img_alts : forall X l (n : X -> list XMLNode) P, alts l n P -> (forall x, P x) -> img (Either l) n.
Proof.
  intros X l n P Ha HP ns Hns. split.
  - intros H. inversion H; subst. destruct (Ha ns Hns) as [A _]. destruct A as (x & _ & Hk); [eauto|]. eauto.
  - intros [x Hx]. destruct (Ha ns Hns) as [_ A]. destruct A as (m & Hi & Hf); [eauto|]. econstructor; eassumption.
Qed.

(** Elements. *)
Lemma shape_gen : forall X A B t sl m (el : X -> Element) (mkx : A -> B -> X) ga (gb : B -> list XMLNode),
  attrs_img sl ga -> img m gb ->
  (forall a b, el (mkx a b) = mkElement t (ga a) (gb b)) ->
  (forall x, exists a b, name (el x) = t /\ (forall n, get (el x) n = assoc n (ga a)) /\ children (el x) = gb b) ->
  shape t sl m el.
Proof.
  intros X A B t sl m el mkx ga gb Ha Hb H1 H2 e He. rewrite (Ha e), (Hb _ He). split.
  - intros (Hn & [a Hga] & [b Hgb]). exists (mkx a b). rewrite H1. apply alike_iff. auto.
  - intros [x Hx]. apply alike_iff in Hx as (Hn & Hg & Hc). destruct (H2 x) as (a & b & Hn' & Hg' & Hc').
    rewrite Hc' in Hc. split; [congruence|]. split; [exists a|exists b; exact Hc]. intros n. rewrite Hg, Hg'. reflexivity.
Qed.
Lemma shape_mk : forall X A B t sl m (el : X -> Element) (mkx : A -> B -> X) ga (gb : B -> list XMLNode),
  attrs_img sl ga -> img m gb ->
  (forall a b, el (mkx a b) = mkElement t (ga a) (gb b)) ->
  (forall x, exists a b, el x = el (mkx a b)) ->
  shape t sl m el.
Proof.
  intros X A B t sl m el mkx ga gb Ha Hb H1 H2. apply (shape_gen X A B t sl m el mkx ga gb Ha Hb H1).
  intros x. destruct (H2 x) as (a & b & Hx). exists a, b. rewrite Hx, H1. auto.
Qed.
Lemma shape_plain : forall X t m (el : X -> Element) (g : X -> list XMLNode), img m g ->
  (forall x, el x = mkElement t [] (g x)) -> shape t [] m el.
Proof.
  intros X t m el g Hg He. apply (shape_mk X unit X t [] m el (fun _ x => x) (fun _ => []) g ai_nil Hg).
  - intros _ x. apply He.
  - intros x. exists tt, x. reflexivity.
Qed.
End Content.
