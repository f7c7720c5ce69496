(** Reading two trees that differ in one element: every reader gives results that differ in one place. *)
From Coq Require Import String List NArith Bool Lia Arith.
From Verif Require Import Base NumStr Xml Ast XmlWrite XmlParse Serde LocalSpec.
Import ListNotations.
Open Scope string_scope.
Open Scope list_scope.

(** Outcomes of two readings. *)
Definition orel {A} (r : A -> A -> Prop) (x y : R A) : Prop :=
  match x, y with
  | Ok a, Ok b => r a b
  | Err e, Err e' => e = e'
  | Panic, Panic => True
  | _, _ => False
  end.

Lemma orel_refl : forall A (r : A -> A -> Prop) x, (forall a, r a a) -> orel r x x.
Proof. intros A r [a|e|] H; cbn; auto. Qed.
Lemma orel_bind : forall A B (r : A -> A -> Prop) (s : B -> B -> Prop) x y f g,
  orel r x y -> (forall a b, r a b -> orel s (f a) (g b)) -> orel s (bind x f) (bind y g).
Proof. intros A B r s [a|e|] [b|e'|] f g H K; cbn in *; try contradiction; auto. Qed.
Lemma orel_same : forall A B (s : B -> B -> Prop) (x : R A) f g,
  (forall a, orel s (f a) (g a)) -> orel s (bind x f) (bind x g).
Proof. intros A B s [a|e|] f g K; cbn; auto. Qed.
Lemma orel_ok : forall A (r : A -> A -> Prop) a b, r a b -> orel r (Ok a) (Ok b).
Proof. auto. Qed.

Lemma orel_imp : forall A (r s : A -> A -> Prop) x y, orel r x y -> (forall a b, r a b -> s a b) -> orel s x y.
Proof. intros A r s [a|e|] [b|e'|] H K; cbn in *; auto. Qed.

(** ** Values that differ in one place *)
Class Chg (A : Type) := chg : A -> A -> Prop.
Definition rel {A} {_ : Chg A} (a b : A) : Prop := a = b \/ chg a b.

#[export] Instance chg_list {A} {_ : Chg A} : Chg (list A) :=
  fun l l' => exists a x x' b, l = a ++ x :: b /\ l' = a ++ x' :: b /\ chg x x'.
#[export] Instance chg_option {A} {_ : Chg A} : Chg (option A) :=
  fun o o' => match o, o' with Some x, Some x' => chg x x' | _, _ => False end.
#[export] Instance chg_prod {A B} {_ : Chg A} {_ : Chg B} : Chg (A * B) :=
  fun s s' => (chg (fst s) (fst s') /\ snd s = snd s') \/ (fst s = fst s' /\ chg (snd s) (snd s')).
#[export] Instance chg_unit : Chg unit := fun _ _ => False.
#[export] Instance chg_empty : Chg Empty_set := fun _ _ => False.
#[export] Instance chg_string : Chg string := fun _ _ => False.

Lemma rel_refl : forall A {C : Chg A} (a : A), rel a a.
Proof. left. reflexivity. Qed.
#[export] Hint Resolve rel_refl : core.

Lemma chg_app_l : forall A {C : Chg A} (l l' m : list A), chg l l' -> chg (l ++ m) (l' ++ m).
Proof.
  intros A C l l' m (a & x & x' & b & -> & -> & H). exists a, x, x', (b ++ m).
  rewrite <- !app_assoc. auto.
Qed.
Lemma chg_app_r : forall A {C : Chg A} (l m m' : list A), chg m m' -> chg (l ++ m) (l ++ m').
Proof.
  intros A C l m m' (a & x & x' & b & -> & -> & H). exists (l ++ a), x, x', b.
  rewrite <- !app_assoc. auto.
Qed.
Lemma chg_one : forall A {C : Chg A} (x x' : A), chg x x' -> chg [x] [x'].
Proof. intros A C x x' H. exists [], x, x', []. auto. Qed.
Lemma rel_app_l : forall A {C : Chg A} (l l' m : list A), rel l l' -> rel (l ++ m) (l' ++ m).
Proof. intros A C l l' m [->|H]; [left; reflexivity|right; apply chg_app_l, H]. Qed.
Lemma rel_app_r : forall A {C : Chg A} (l m m' : list A), rel m m' -> rel (l ++ m) (l ++ m').
Proof. intros A C l m m' [->|H]; [left; reflexivity|right; apply chg_app_r, H]. Qed.
Lemma rel_one : forall A {C : Chg A} (x x' : A), rel x x' -> rel [x] [x'].
Proof. intros A C x x' [->|H]; [left; reflexivity|right; apply chg_one, H]. Qed.
Lemma rel_some : forall A {C : Chg A} (x x' : A), rel x x' -> rel (Some x) (Some x').
Proof. intros A C x x' [->|H]; [left; reflexivity|right; exact H]. Qed.
Lemma rel_cons : forall A {C : Chg A} (x : A) l l', rel l l' -> rel (x :: l) (x :: l').
Proof. intros A C x l l' H. apply (rel_app_r _ [x] l l' H). Qed.
Lemma rel_cons_l : forall A {C : Chg A} (x x' : A) l, rel x x' -> rel (x :: l) (x' :: l).
Proof. intros A C x x' l H. apply (rel_app_l _ [x] [x'] l), rel_one, H. Qed.

Definition mono {S} {_ : Chg S} (u : S -> S) : Prop := forall s s', rel s s' -> rel (u s) (u s').
Definition near {S} {_ : Chg S} (u v : S -> S) : Prop := forall s, rel (u s) (v s).

(** Access to a component. *)
Definition ixok {A S} {_ : Chg A} {_ : Chg S} (ix : (A -> A) -> S -> S) : Prop :=
  (forall f, mono f -> mono (ix f)) /\ (forall f g, near f g -> near (ix f) (ix g)).

Lemma ix_whole : forall A {C : Chg A}, ixok (@whole A).
Proof. split; intros; assumption. Qed.
Lemma ix_at0 : forall A B {C : Chg A} {D : Chg B}, ixok (@at0 A B).
Proof.
  split.
  - intros f Hf [a b] [a' b'] [E|[[H E]|[E H]]]; cbn in *.
    + injection E as -> ->. apply rel_refl.
    + subst b'. destruct (Hf a a' (or_intror H)) as [E|H']; unfold at0; cbn; [rewrite E; apply rel_refl|].
      right. left. auto.
    + subst a'. right. right. auto.
  - intros f g H [a b]. unfold at0. cbn. destruct (H a) as [E|H']; [rewrite E; apply rel_refl|right; left; auto].
Qed.
Lemma ix_next : forall A B S {C : Chg A} {D : Chg B} {E : Chg S} (ix : (A -> A) -> S -> S),
  ixok ix -> ixok (fun f (s : B * S) => (fst s, ix f (snd s))).
Proof.
  intros A B S C D E ix [Hm Hn]. split.
  - intros f Hf [b s] [b' s'] [Q|[[H Q]|[Q H]]]; cbn in *.
    + injection Q as -> ->. apply rel_refl.
    + subst s'. right. left. auto.
    + subst b'. destruct (Hm f Hf s s' (or_intror H)) as [Q|H']; [rewrite Q; apply rel_refl|right; right; auto].
  - intros f g H [b s]. cbn. destruct (Hn f g H s) as [Q|H']; [rewrite Q; apply rel_refl|right; right; auto].
Qed.
Ltac ix_ok := first [ apply ix_whole | apply ix_at0 | apply ix_next; ix_ok ].

(** ** Loops *)
Section Near.
Context (nb : Element -> Element -> Prop).
Hypothesis nb_name : forall f f', nb f f' -> name f' = name f.

Definition row {S} {_ : Chg S} (n : string) (h : handler S) : Prop :=
  (forall c u, h c = Ok u -> mono u) /\ (forall f f', nb f f' -> name f = n -> orel near (h f) (h f')).
Definition rows {S} {_ : Chg S} (t : list (string * handler S)) : Prop := Forall (fun r => row (fst r) (snd r)) t.
Definition other {S} {_ : Chg S} (d d' : handler S) : Prop :=
  (forall c u, d c = Ok u -> mono u) /\ (forall f f', name f' = name f -> d f = d' f').
Definition agree {X} {_ : Chg X} (n : string) (g : Element -> R X) : Prop :=
  forall f f', nb f f' -> name f = n -> orel rel (g f) (g f').

Lemma row_push : forall S X Y {CS : Chg S} {CX : Chg X} {CY : Chg Y} n (ix : (list Y -> list Y) -> S -> S) (inj : X -> Y) g,
  ixok ix -> (forall x x', chg x x' -> chg (inj x) (inj x')) -> agree n g -> row n (h_push ix inj g).
Proof.
  intros S X Y CS CX CY n ix inj g [Hm Hn] Hi Hg. split.
  - intros c u E. unfold h_push in E. destruct (g c); try discriminate. injection E as <-.
    apply Hm. intros l l' H. apply rel_app_l, H.
  - intros f f' Hf E. unfold h_push. eapply orel_bind; [apply Hg; assumption|]. intros a b [->|H].
    + apply orel_ok. intros s. apply rel_refl.
    + apply orel_ok. apply Hn. intros l. apply rel_app_r, rel_one. right. apply Hi, H.
Qed.
Lemma row_push_ok : forall S X Y {CS : Chg S} {CX : Chg X} {CY : Chg Y} n (ix : (list Y -> list Y) -> S -> S) (inj : X -> Y) g,
  ixok ix -> (forall x x', chg x x' -> chg (inj x) (inj x')) -> agree n g -> row n (h_push_ok ix inj g).
Proof.
  intros S X Y CS CX CY n ix inj g [Hm Hn] Hi Hg. split.
  - intros c u E. unfold h_push_ok in E. destruct (g c); try discriminate; injection E as <-.
    + apply Hm. intros l l' H. apply rel_app_l, H.
    + intros s s' H. exact H.
  - intros f f' Hf E. unfold h_push_ok. specialize (Hg f f' Hf E).
    destruct (g f), (g f'); cbn in *; try contradiction; auto.
    + destruct Hg as [->|H]; [intros s; apply rel_refl|].
      apply Hn. intros l. apply rel_app_r, rel_one. right. apply Hi, H.
    + intros s. apply rel_refl.
Qed.
Lemma row_some : forall S X {CS : Chg S} {CX : Chg X} n (ix : (option X -> option X) -> S -> S) g,
  ixok ix -> agree n g -> row n (h_some ix g).
Proof.
  intros S X CS CX n ix g [Hm Hn] Hg. split.
  - intros c u E. unfold h_some in E. destruct (g c); try discriminate. injection E as <-.
    apply Hm. intros l l' H. apply rel_refl.
  - intros f f' Hf E. unfold h_some. eapply orel_bind; [apply Hg; assumption|]. intros a b H.
    apply orel_ok. apply Hn. intros l. apply rel_some, H.
Qed.
Lemma row_put : forall S X {CS : Chg S} {CX : Chg X} n (ix : (X -> X) -> S -> S) g,
  ixok ix -> agree n g -> row n (h_put ix g).
Proof.
  intros S X CS CX n ix g [Hm Hn] Hg. split.
  - intros c u E. unfold h_put in E. destruct (g c); try discriminate. injection E as <-.
    apply Hm. intros l l' H. apply rel_refl.
  - intros f f' Hf E. unfold h_put. eapply orel_bind; [apply Hg; assumption|]. intros a b H.
    apply orel_ok. apply Hn. intros l. exact H.
Qed.

Lemma other_reject : forall S {C : Chg S} e e', name e' = name e -> other (@reject S e) (reject e').
Proof.
  intros S C e e' H. split; [discriminate|]. intros f f' E. unfold reject, unexpected_tag. rewrite H, E. reflexivity.
Qed.
Lemma other_skip : forall S {C : Chg S}, other (@skip S) skip.
Proof. intros S C. split; [|reflexivity]. intros c u E. injection E as <-. intros s s' H. exact H. Qed.

Section Run.
Context {S : Type} {CS : Chg S} (txt : string -> S -> S) (d d' : handler S) (tbl : list (string * handler S)).
Hypothesis Ht : forall t, mono (txt t).
Hypothesis Hd : other d d'.
Hypothesis Hr : rows tbl.

Lemma lookup_mono : forall c u, lookup d tbl c = Ok u -> mono u.
Proof.
  intros c u. unfold lookup. destruct (Xml.assoc (name c) tbl) as [h|] eqn:E; [|apply (proj1 Hd)].
  intros H. revert E. induction Hr as [|[n g] t Hg Hx IH]; cbn; [discriminate|].
  destruct (String.eqb (name c) n); [|exact (IH Hx)]. intros E. injection E as ->. exact (proj1 Hg c u H).
Qed.
Lemma lookup_same : forall c, lookup d tbl c = lookup d' tbl c.
Proof. intros c. unfold lookup. destruct (Xml.assoc _ _); [reflexivity|]. apply (proj2 Hd). reflexivity. Qed.
Lemma lookup_near : forall f f', nb f f' -> orel near (lookup d tbl f) (lookup d' tbl f').
Proof.
  intros f f' Hf. unfold lookup. rewrite (nb_name _ _ Hf).
  destruct (Xml.assoc (name f) tbl) as [h|] eqn:E.
  - revert E. induction Hr as [|[n g] t Hg Hx IH]; cbn; [discriminate|].
    destruct (String.eqb_spec (name f) n); [|exact (IH Hx)]. intros E. injection E as ->. apply (proj2 Hg); assumption.
  - rewrite (proj2 Hd f f' (nb_name _ _ Hf)). apply orel_refl. intros u s. apply rel_refl.
Qed.
Lemma run_mono : forall l s s', rel s s' -> orel rel (run txt d tbl l s) (run txt d' tbl l s').
Proof.
  induction l as [|[c|t|t] l IH]; intros s s' H; cbn [run].
  - exact H.
  - rewrite <- lookup_same. destruct (lookup d tbl c) as [u| |] eqn:E; cbn; auto.
    apply IH, (lookup_mono c u E), H.
  - apply IH, Ht, H.
  - apply IH, H.
Qed.
Lemma run_near : forall l f f' r s, nb f f' ->
  orel rel (run txt d tbl (l ++ NElement f :: r) s) (run txt d' tbl (l ++ NElement f' :: r) s).
Proof.
  induction l as [|[c|t|t] l IH]; intros f f' r s H; cbn [run app].
  - eapply orel_bind; [apply lookup_near, H|]. intros u v Huv. apply run_mono, Huv.
  - rewrite <- lookup_same. apply orel_same. intros u. apply IH, H.
  - apply IH, H.
  - apply IH, H.
Qed.
End Run.

Lemma parse_all_near : forall X {C : Chg X} (g : Element -> R X) l f f' r,
  orel rel (g f) (g f') -> orel rel (parse_all g (l ++ NElement f :: r)) (parse_all g (l ++ NElement f' :: r)).
Proof.
  intros X C g l f f' r H. induction l as [|[c|t|t] l IH]; cbn [parse_all app]; try exact IH.
  - eapply orel_bind; [exact H|]. intros a b Hab. apply orel_same. intros vs. apply rel_cons_l, Hab.
  - apply orel_same. intros a. eapply orel_bind; [exact IH|]. intros vs vs' Hv. apply rel_cons, Hv.
Qed.

Lemma nodes_text_near : forall l (f f' : Element) r,
  nodes_text (l ++ NElement f :: r) = nodes_text (l ++ NElement f' :: r).
Proof. intros. unfold nodes_text. rewrite !map_app. reflexivity. Qed.
Lemma first_text_near : forall l (f f' : Element) r,
  first_text (l ++ NElement f :: r) = first_text (l ++ NElement f' :: r).
Proof. intros [|[]]; reflexivity. Qed.

(** Two elements around [nb] elements. *)
Definition under (e e' : Element) : Prop :=
  exists n a l r f f', e = mkElement n a (l ++ NElement f :: r) /\ e' = mkElement n a (l ++ NElement f' :: r) /\ nb f f'.

(** ** The readers *)
Context (d d' : json).
Notation op := (one_place d d').

Definition by_ser {A} (s : A -> json) : Chg A := fun x y => op (s x) (s y).
Instance chg_knot k : Chg (Knot k) := by_ser (ser k).
Instance chg_te : Chg (TextElement Knot) := by_ser (ser_te ser).
Instance chg_twm : Chg (TextWithWritingMode Knot) := by_ser (ser_twm ser).
Instance chg_arith : Chg (ArithFormula Knot) := by_ser (ser_arith ser).
Instance chg_lc : Chg (LineContents Knot) := by_ser (ser_lc ser).
Instance chg_ce : Chg (ContentsElement Knot) := by_ser (ser_ce ser).
Instance chg_se : Chg (SentenceElement Knot) := by_ser (ser_se ser).
Instance chg_sct : Chg (SentenceOrColumnOrTable Knot) := by_ser (ser_sct ser).
Instance chg_caption : Chg (Caption Knot) := by_ser (ser_caption ser).
Instance chg_tc : Chg (TableColumnContents Knot) := by_ser (ser_tc ser).
Instance chg_rlabel : Chg (RemarksLabel Knot) := by_ser (ser_rlabel ser).
Instance chg_rc : Chg (RemarksContents Knot) := by_ser (ser_rc ser).
Instance chg_struct : Chg (Struct Knot) := by_ser (ser_struct ser).
Instance chg_ls : Chg (ListSentence Knot) := by_ser (ser_ls ser).
Instance chg_pc : Chg (PartContents Knot) := by_ser (ser_pc ser).
Instance chg_chc : Chg (ChapterContents Knot) := by_ser (ser_chc ser).
Instance chg_sec : Chg (SectionContents Knot) := by_ser (ser_sec ser).
Instance chg_suc : Chg (SubsectionContents Knot) := by_ser (ser_suc ser).
Instance chg_np : Chg (NewProvision Knot) := by_ser (ser_np ser).
Instance chg_mc : Chg (MainContents Knot) := by_ser (ser_mc ser).
Instance chg_sp : Chg (SupplContents Knot) := by_ser (ser_sp ser).
Instance chg_atc : Chg (AppdxTableContents Knot) := by_ser (ser_at ser).
Instance chg_anc : Chg (AppdxNoteContents Knot) := by_ser (ser_an ser).
Instance chg_afc : Chg (AppdxFigContents Knot) := by_ser (ser_af ser).
Instance chg_tsc : Chg (TOCSectionContents Knot) := by_ser (ser_tsc ser).
Instance chg_tsp : Chg (TOCSupplContents Knot) := by_ser (ser_tsp ser).
Instance chg_tm : Chg (TOCMainContents Knot) := by_ser (ser_tm ser).
Instance chg_F k : Chg (F Knot k) := by_ser (fun f => ser k (mk k f)).
Instance chg_law : Chg Law := by_ser ser_law.

(** *** Documents *)
Definition chf (l l' : list (string * json)) : Prop :=
  exists a k x x' b, l = a ++ (k, x) :: b /\ l' = a ++ (k, x') :: b /\ op x x'.
Lemma chf_here : forall k x x' b, op x x' -> chf ((k, x) :: b) ((k, x') :: b).
Proof. intros k x x' b H. exists [], k, x, x', b. auto. Qed.
Lemma chf_next : forall e l l', chf l l' -> chf (e :: l) (e :: l').
Proof. intros e l l' (a & k & x & x' & b & -> & -> & H). exists (e :: a), k, x, x', b. auto. Qed.
Lemma op_fields : forall l l', chf l l' -> op (JObj l) (JObj l').
Proof. intros l l' (a & k & x & x' & b & -> & -> & H). apply op_object, H. Qed.
Lemma op_variant : forall n x x', op x x' -> op (variant n x) (variant n x').
Proof. intros n x x' H. apply op_fields, chf_here, H. Qed.
Lemma op_vec : forall A {C : Chg A} (s : A -> json) (l l' : list A),
  (forall x x', chg x x' -> op (s x) (s x')) -> chg l l' -> op (ser_vec s l) (ser_vec s l').
Proof.
  intros A C s l l' Hs (a & x & x' & b & -> & -> & H). unfold ser_vec. rewrite !map_app. cbn [map].
  apply op_array, Hs, H.
Qed.
Lemma op_opt : forall A {C : Chg A} (s : A -> json) (l l' : option A),
  (forall x x', chg x x' -> op (s x) (s x')) -> chg l l' -> op (ser_opt s l) (ser_opt s l').
Proof. intros A C s [x|] [x'|] Hs H; cbn in H; try contradiction. apply Hs, H. Qed.
Lemma op_text : forall (t t' : Text Knot), chg t t' -> op (ser_text ser t) (ser_text ser t').
Proof. intros t t' H. apply op_fields, chf_here. exact (op_vec _ _ _ _ (fun _ _ X => X) H). Qed.

Context (p : forall k, Element -> R (Knot k)).
Hypothesis nb_p : forall f f' k, nb f f' ->
  (kind_of f = Some k \/ k = KSentence \/ exists l, k = KList l) -> orel rel (p k f) (p k f').
Hypothesis nb_under : forall f f', nb f f' -> kind_of f = None -> under f f'.
Hypothesis nb_num : forall f f', nb f f' -> name f = "ArithFormula" -> get f' "Num" = get f "Num".

Lemma agree_p : forall n k, Xml.assoc n kinds = Some k -> agree n (p k).
Proof. intros n k H f f' Hf E. apply nb_p; [exact Hf|]. left. unfold kind_of. rewrite E. exact H. Qed.
Lemma agree_sentence : forall n, agree n (p KSentence).
Proof. intros n f f' Hf _. apply nb_p; auto. Qed.

(** An element that has no kind has the other element inside. *)
Lemma agree_under : forall X {C : Chg X} n (g : Element -> R X), Xml.assoc n kinds = None ->
  (forall a l r f f', nb f f' -> orel rel (g (mkElement n a (l ++ NElement f :: r))) (g (mkElement n a (l ++ NElement f' :: r)))) ->
  agree n g.
Proof.
  intros X C n g Hn H f f' Hf E.
  destruct (nb_under f f' Hf) as (m & a & l & r & i & i' & -> & -> & Hi).
  { unfold kind_of. rewrite E. exact Hn. }
  cbn in E. subst m. apply H, Hi.
Qed.

Ltac noname := unfold with_name; cbn [name]; destruct (String.eqb _ _); [|reflexivity].
Lemma agree_sup : agree "Sup" parse_sup.
Proof.
  apply agree_under; [reflexivity|]. intros. unfold parse_sup. noname. cbn [children].
  rewrite (first_text_near l f f' r). apply orel_refl. auto.
Qed.
Lemma agree_sub : agree "Sub" parse_sub.
Proof.
  apply agree_under; [reflexivity|]. intros. unfold parse_sub. noname. cbn [children].
  rewrite (first_text_near l f f' r). apply orel_refl. auto.
Qed.
Lemma agree_fig : agree "Fig" parse_fig.
Proof. apply agree_under; [reflexivity|]. intros. apply orel_refl. auto. Qed.

Lemma text_near : forall l f f' r, nb f f' ->
  orel rel (from_children p (l ++ NElement f :: r)) (from_children p (l ++ NElement f' :: r)).
Proof.
  intros. unfold from_children. apply run_near; [|apply other_skip| |assumption].
  - intros t s s' Hs. apply rel_app_l, Hs.
  - unfold text_table.
    repeat (apply Forall_cons; [cbn [fst snd]; eapply row_push_ok; [ix_ok| |]|]); try apply Forall_nil.
    all: first [apply agree_sup | apply agree_sub | apply agree_p; reflexivity | idtac].
    all: intros x x' Hx; first [contradiction | apply op_variant, Hx].
Qed.
Lemma agree_text : forall n, Xml.assoc n kinds = None -> agree n (p_text p).
Proof. intros n Hn. apply agree_under; [exact Hn|]. intros. apply text_near. assumption. Qed.
Lemma agree_twm : forall n, Xml.assoc n kinds = None -> agree n (parse_twm p).
Proof.
  intros n Hn. apply agree_under; [exact Hn|]. intros. unfold parse_twm. cbn [children].
  eapply orel_bind; [apply text_near; assumption|]. intros t t' [->|Ht]; [apply orel_refl; auto|].
  apply orel_ok. right. apply op_fields, chf_here. exact (op_vec _ _ _ _ (fun _ _ X => X) Ht).
Qed.
Lemma agree_caption : forall n, Xml.assoc n kinds = None -> agree n (parse_caption p).
Proof.
  intros n Hn. apply agree_under; [exact Hn|]. intros. unfold parse_caption. cbn [children].
  eapply orel_bind; [apply text_near; assumption|]. intros t t' [->|Ht]; [apply orel_refl; auto|].
  apply orel_same. intros o.
  apply orel_ok. right. apply op_fields, chf_here, op_text, Ht.
Qed.
Lemma agree_rlabel : agree "RemarksLabel" (parse_remarks_label p).
Proof.
  apply agree_under; [reflexivity|]. intros. unfold parse_remarks_label. noname. apply orel_same. intros lb.
  cbn [children].
  eapply orel_bind; [apply text_near; assumption|]. intros t t' [->|Ht]; [apply orel_refl; auto|].
  apply orel_ok. right. apply op_fields, chf_here, op_text, Ht.
Qed.
Lemma agree_arith : agree "ArithFormula" (parse_arith p).
Proof.
  intros f f' Hf E. unfold parse_arith, get_attribute_opt_with_parse.
  rewrite (nb_num _ _ Hf E), (nb_name _ _ Hf). apply orel_same. intros n.
  eapply orel_bind; [apply (agree_p "ArithFormula" (KCont CArith)); [reflexivity|exact Hf|exact E]|].
  intros c c' [->|Hc]; [apply orel_refl; auto|]. apply orel_ok. right.
  apply op_fields, chf_next, chf_here, Hc.
Qed.

Ltac inj_ok :=
  let x := fresh in let x' := fresh in let Hx := fresh in
  intros x x' Hx;
  first [ exact Hx | contradiction | apply op_variant; first [exact Hx | apply op_text; exact Hx] ].
Ltac agree_ok := first
  [ apply agree_p; reflexivity | apply agree_sup | apply agree_sub | apply agree_fig
  | apply agree_text; reflexivity | apply agree_twm; reflexivity | apply agree_caption; reflexivity
  | apply agree_rlabel | apply agree_arith | apply agree_sentence | assumption | eassumption ].
Ltac row1 := cbn [fst snd]; first
  [ (eapply row_push; [ix_ok| |agree_ok]); [inj_ok] | eapply row_some; [ix_ok|agree_ok] | eapply row_put; [ix_ok|agree_ok] ].
Lemma rows_app : forall S {C : Chg S} (t u : list (string * handler S)), rows t -> rows u -> rows (t ++ u).
Proof. intros. apply Forall_app. auto. Qed.
Lemma rows_items : forall T {C : Chg T} (inj : forall l, Knot (KItem l) -> T),
  (forall l x x', chg x x' -> chg (inj l x) (inj l x')) -> rows (item_rows p inj).
Proof.
  intros T C inj H. unfold item_rows, all_lvls. cbn [map].
  repeat (apply Forall_cons; [cbn [fst snd]; (eapply row_push; [ix_ok| |apply agree_p; reflexivity]); [apply H]|]). apply Forall_nil.
Qed.
Ltac tables := cbv beta delta
  [line_table contents_table sentence_table cell_table struct_rows paragraph_table part_table
   chapter_table section_table subsection_table division_table new_provision_table main_table
   suppl_table appdx_table_rows appdx_note_rows appdx_style_rows appdx_format_rows toc_part_rows
   toc_chapter_rows toc_section_rows toc_subsection_rows law_body_table].
Ltac rows_ok := tables; repeat first
  [ apply Forall_nil
  | apply rows_items; let l := fresh in intros l; inj_ok
  | apply Forall_cons; [row1|]
  | apply rows_app ].
Ltac run_ok := apply run_near;
  [ first [intros ? ? ? ?; assumption | intros ? ? ? ?; apply rel_app_l; assumption]
  | first [apply other_reject; reflexivity | apply other_skip] | try (rows_ok; fail) | try assumption ].

Lemma agree_sct : forall n, Xml.assoc n kinds = None -> agree n (parse_sct p).
Proof.
  intros n Hn. apply agree_under; [exact Hn|]. intros a0 l0 r0 f0 f0' Hf. unfold parse_sct. cbn [children].
  eapply orel_bind; [run_ok|].
  intros (ss & cs & t & u) (ss' & cs' & t' & u') [E|H]; [injection E as -> -> -> ->; apply orel_refl; auto|].
  destruct H as [[H E]|[E H]]; cbn [fst snd] in *.
  - injection E as -> -> ->. destruct cs'; [|apply rel_refl].
    assert (K : op (ser_sct ser (SCT_Sentence ss)) (ser_sct ser (SCT_Sentence ss')))
      by (apply op_variant; exact (op_vec _ _ _ _ (fun _ _ X => X) H)).
    destruct H as (a & x & x' & b & -> & -> & H).
    destruct a; cbn [app] in *; apply orel_ok; right; exact K.
  - subst ss'. destruct H as [[H E]|[E H]]; cbn [fst snd] in *.
    + injection E as -> ->.
      assert (K : op (ser_sct ser (SCT_Column cs)) (ser_sct ser (SCT_Column cs')))
        by (apply op_variant; exact (op_vec _ _ _ _ (fun _ _ X => X) H)).
      destruct H as (a & x & x' & b & -> & -> & H).
      destruct a; cbn [app] in *; apply orel_ok; right; exact K.
    + subst cs'. destruct H as [[H E]|[E H]]; cbn [fst snd] in *; [|contradiction].
      destruct cs; [|apply rel_refl]. destruct ss; [|apply rel_refl].
      destruct t, t'; cbn in H; try contradiction. apply orel_ok. right. apply op_variant, H.
Qed.
Lemma agree_header : agree "TableHeaderRow" (parse_header_row p).
Proof. apply agree_under; [reflexivity|]. intros. unfold parse_header_row. noname. cbn [children]. run_ok. Qed.

(** *** From the parts of a value to the value *)
Ltac leaf H :=
  first [ exact H | apply op_text; exact H
        | eapply op_vec; [|exact H]; let x := fresh in let x' := fresh in let X := fresh in intros x x' X; leaf X
        | eapply op_opt; [|exact H]; let x := fresh in let x' := fresh in let X := fresh in intros x x' X; leaf X
        | apply op_fields, chf_here; leaf H ].
Ltac field H := first [ apply chf_here; leaf H | apply chf_next; field H ].
(** One component of a tuple of results differs. *)
Ltac parts H fin :=
  lazymatch type of H with
  | @chg unit _ _ _ => exfalso; exact H
  | @chg _ _ (_, _) (_, _) =>
      let E := fresh "E" in
      destruct H as [[H E]|[E H]]; cbn [fst snd] in H, E; [injections; subst; fin H | subst; parts H fin]
  | _ => fin H
  end
with injections := repeat match goal with E : (_, _) = (_, _) |- _ => injection E; clear E; intros end.
Ltac choose H := repeat first
  [ exfalso; exact H
  | match goal with
    | |- orel _ (match ?o with _ => _ end) (match ?o with _ => _ end) => destruct o; try reflexivity
    | |- orel _ (match ?o with _ => _ end) _ => destruct o
    | |- orel _ _ (match ?o with _ => _ end) => destruct o
    end ].
Ltac value H := choose H; apply orel_ok; right; unfold chg, chg_F, by_ser; cbn [mk ser]; apply op_fields; field H.
Ltac untuple :=
  repeat match goal with x : ?T |- _ => let T' := eval hnf in T in lazymatch T' with (_ * _)%type => destruct x end end.
Ltac tuple :=
  let s := fresh "s" in let s' := fresh "s" in let H := fresh "H" in
  intros s s' H;
  untuple; destruct H as [H|H]; [injections; subst; apply orel_refl; auto | parts H ltac:(fun H => value H)].
Ltac attributes := repeat (apply orel_same; intros ?).
Ltac loop := eapply orel_bind; [run_ok|].

Lemma row_remarks : forall T B {CT : Chg T} {CB : Chg B}, row "Remarks" (@h_struct_remarks Knot p T B).
Proof.
  intros T B CT CB.
  assert (M : forall x, mono (fun s : @struct_state Knot T B =>
      match fst (snd (snd s)) with
      | None => at1 (fun l => app l [x]) s
      | Some _ => at3 (fun l => app l [x]) s
      end)).
  { intros x s s' H.
    assert (P1 : mono (@at1 (option T) (list (Knot KRemarks)) (option B * (list (Knot KRemarks) * unit)) (fun l => app l [x]))).
    { assert (Q : ixok (@at1 (option T) (list (Knot KRemarks)) (option B * (list (Knot KRemarks) * unit)))) by ix_ok.
      apply (proj1 Q). intros l l' Hl. apply rel_app_l, Hl. }
    assert (P3 : mono (@at3 (option T) (list (Knot KRemarks)) (option B) (list (Knot KRemarks)) unit (fun l => app l [x]))).
    { assert (Q : ixok (@at3 (option T) (list (Knot KRemarks)) (option B) (list (Knot KRemarks)) unit)) by ix_ok.
      apply (proj1 Q). intros l l' Hl. apply rel_app_l, Hl. }
    assert (E : match fst (snd (snd s)), fst (snd (snd s')) with None, None | Some _, Some _ => True | _, _ => False end).
    { destruct H as [->|[[_ E]|[_ [[_ E]|[_ [[E _]|[E _]]]]]]]; try rewrite E.
      1, 2, 3, 5: destruct (fst (snd (snd s'))); exact I.
      revert E. destruct (fst (snd (snd s))), (fst (snd (snd s'))); intros E; exact I || exact E. }
    destruct (fst (snd (snd s))), (fst (snd (snd s'))); try contradiction; auto. }
  split.
  - intros c u E. unfold h_struct_remarks in E. destruct (p KRemarks c); cbn in E; try discriminate; injection E as <-.
    + apply M.
    + intros s s' H. exact H.
  - intros f f' Hf E. unfold h_struct_remarks. pose proof (agree_p "Remarks" KRemarks eq_refl f f' Hf E) as H.
    destruct (p KRemarks f), (p KRemarks f'); cbn in *; try contradiction; auto; [|intros s; apply rel_refl].
    destruct H as [->|H]; [intros s; apply rel_refl|]. intros s.
    destruct (fst (snd (snd s))).
    + assert (Q : ixok (@at3 (option T) (list (Knot KRemarks)) (option B) (list (Knot KRemarks)) unit)) by ix_ok.
      apply (proj2 Q). intros l. apply rel_app_r, rel_one. right. exact H.
    + assert (Q : ixok (@at1 (option T) (list (Knot KRemarks)) (option B * (list (Knot KRemarks) * unit)))) by ix_ok.
      apply (proj2 Q). intros l. apply rel_app_r, rel_one. right. exact H.
Qed.
Lemma row_sentences : forall S {CS : Chg S} n (ix : (list (Knot KSentence) -> list (Knot KSentence)) -> S -> S),
  Xml.assoc n kinds = None -> ixok ix -> row n (h_sentences p ix).
Proof.
  intros S CS n ix Hn [Hm Hi]. split.
  - intros c u E. unfold h_sentences in E. destruct (parse_all _ _); try discriminate. injection E as <-.
    apply Hm. intros l l' H. apply rel_app_l, H.
  - intros f f' Hf E.
    destruct (nb_under f f' Hf) as (m & a & l & r & i & i' & -> & -> & Hi2).
    { unfold kind_of. rewrite E. exact Hn. }
    unfold h_sentences. cbn [children]. eapply orel_bind; [apply parse_all_near, nb_p; auto|].
    intros vs vs' Hv. apply orel_ok, Hi. intros x. apply rel_app_r, Hv.
Qed.
Lemma agree_amend_sentence : agree "AmendProvisionSentence" (parse_amend_sentence p).
Proof.
  apply agree_under; [reflexivity|]. intros a l r f f' Hf. unfold parse_amend_sentence. cbn [children].
  destruct l as [|[x|t|t] l]; cbn [app].
  - apply nb_p; auto.
  - apply orel_refl. auto.
  - reflexivity.
  - reflexivity.
Qed.
Lemma new_provisions : rows (new_provision_table p).
Proof. rows_ok. Qed.
Lemma row_new : forall e,
  row "NewProvision" (fun c => bind (run no_text (reject e) (new_provision_table p) (children c) [])
                        (fun vs => Ok (@at1 (option (Knot KSentence)) (list (NewProvision Knot)) unit (fun l => app l vs)))).
Proof.
  intros e.
  assert (Q : ixok (@at1 (option (Knot KSentence)) (list (NewProvision Knot)) unit)) by ix_ok.
  split.
  - intros c u E. destruct (run _ _ _ _ _); try discriminate. injection E as <-.
    apply (proj1 Q). intros l l' H. apply rel_app_l, H.
  - intros f f' Hf E.
    destruct (nb_under f f' Hf) as (m & a & l & r & i & i' & -> & -> & Hi2).
    { unfold kind_of. rewrite E. reflexivity. }
    cbn [children]. eapply orel_bind.
    + apply run_near; [intros ? ? ? ?; assumption|apply other_reject; reflexivity|apply new_provisions|exact Hi2].
    + intros vs vs' Hv. apply orel_ok, (proj2 Q). intros x. apply rel_app_r, Hv.
Qed.

(** The first loop of an article. *)
Lemma head_mono : forall l (cap cap' : option (Caption Knot)) (title title' : Text Knot), rel cap cap' -> rel title title' ->
  cap = cap' \/ title = title' ->
  orel (fun s s' => rel (fst s) (fst s') /\ rel (fst (snd s)) (fst (snd s')) /\
                    (fst s = fst s' \/ fst (snd s) = fst (snd s')) /\ snd (snd s) = snd (snd s'))
    (article_head p l cap title) (article_head p l cap' title').
Proof.
  induction l as [|[e|t|t] l IH]; intros cap cap' title title' Hc Ht Ho; cbn [article_head].
  - exact I.
  - destruct (String.eqb (name e) "ArticleCaption"); [apply orel_same; intros; apply IH; auto|].
    destruct (String.eqb (name e) "ArticleTitle"); [apply orel_same; intros; apply IH; auto|].
    cbn. auto.
  - apply IH; assumption.
  - apply IH; assumption.
Qed.
Lemma head_near : forall l f f' r cap title, nb f f' ->
  orel (fun s s' =>
         (rel (fst s) (fst s') /\ rel (fst (snd s)) (fst (snd s')) /\
          (fst s = fst s' \/ fst (snd s) = fst (snd s')) /\ snd (snd s) = snd (snd s')) \/
         (fst s = fst s' /\ fst (snd s) = fst (snd s') /\
          exists m, snd (snd s) = m ++ NElement f :: r /\ snd (snd s') = m ++ NElement f' :: r))
    (article_head p (l ++ NElement f :: r) cap title) (article_head p (l ++ NElement f' :: r) cap title).
Proof.
  induction l as [|[e|t|t] l IH]; intros f f' r cap title Hf; cbn [article_head app].
  - rewrite (nb_name _ _ Hf).
    destruct (String.eqb_spec (name f) "ArticleCaption") as [E|].
    { eapply orel_bind; [apply (agree_caption "ArticleCaption" eq_refl f f' Hf E)|].
      intros c c' Hc. pose proof (head_mono r (Some c) (Some c') title title (rel_some _ _ _ Hc)
        (rel_refl _ _) (or_intror eq_refl)) as H.
      destruct (article_head p r (Some c) title), (article_head p r (Some c') title); cbn in H |- *; auto. }
    destruct (String.eqb_spec (name f) "ArticleTitle") as [E|].
    { eapply orel_bind; [apply (agree_text "ArticleTitle" eq_refl f f' Hf E)|].
      intros c c' Hc. pose proof (head_mono r cap cap c c' (rel_refl _ _) Hc (or_introl eq_refl)) as H.
      destruct (article_head p r cap c), (article_head p r cap c'); cbn in H |- *; auto. }
    cbn. right. split; [reflexivity|]. split; [reflexivity|]. exists []. auto.
  - destruct (String.eqb (name e) "ArticleCaption"); [apply orel_same; intros; apply IH, Hf|].
    destruct (String.eqb (name e) "ArticleTitle"); [apply orel_same; intros; apply IH, Hf|].
    cbn. right. split; [reflexivity|]. split; [reflexivity|]. exists (NElement e :: l). auto.
  - apply IH, Hf.
  - apply IH, Hf.
Qed.
Lemma agree_ls : forall e v, agree (list_tag v ++ "Sentence")%string (parse_list_sentences p e).
Proof.
  intros e v. apply agree_under; [destruct v; reflexivity|]. intros. unfold parse_list_sentences. cbn [children].
  run_ok.
Qed.
Ltac struct_rows_ok pt :=
  apply Forall_cons; [cbn [fst snd]; eapply row_some; [ix_ok|pt]|];
  apply Forall_cons; [apply row_remarks|];
  apply Forall_cons; [row1|apply Forall_nil].
Definition step (k : kind) : Prop := forall n a l r f f', nb f f' ->
  orel (@rel _ (chg_F k)) (pstep p k (mkElement n a (l ++ NElement f :: r)))
                          (pstep p k (mkElement n a (l ++ NElement f' :: r))).
Lemma step_Void : step KVoid.
Proof.
  intros n a l r f f' Hf; cbn [pstep].
  exact I.
Qed.
Lemma step_Ruby : step KRuby.
Proof.
  intros n a l r f f' Hf; cbn [pstep].
  unfold parse_ruby. noname. cbn [children].
  eapply orel_bind; [apply run_near; [|apply other_skip| |exact Hf]|tuple].
  + intros t. apply (proj1 (ix_at0 _ _)). intros s s' Hs. apply rel_app_l, Hs.
  + apply Forall_cons; [|apply Forall_nil]. cbn [fst snd]. eapply row_put; [ix_ok|].
    apply agree_under; [reflexivity|]. intros. cbn [children]. rewrite (nodes_text_near l0 f0 f'0 r0).
    apply orel_refl. auto.
Qed.
Lemma step_Line : step KLine.
Proof.
  intros n a l r f f' Hf; cbn [pstep].
  unfold parse_line. noname. cbn [get attrs]. destruct (linestyle_of _); [|reflexivity]. cbn [children]. loop. tuple.
Qed.
Lemma step_Cont : forall c, step (KCont c).
Proof.
  intros c n a l r f f' Hf; cbn [pstep]. unfold parse_cont. cbn [children].
  apply (orel_imp _ (@rel (list (ContentsElement Knot)) _)); [run_ok|].
  intros x y [->|Q]; [left; reflexivity|right].
  unfold chg, chg_F, by_ser. destruct c; cbn [mk ser ser_cont]; leaf Q.
Qed.
Lemma step_Sentence : step KSentence.
Proof.
  intros n a l r f f' Hf; cbn [pstep].
  unfold parse_sentence. noname. attributes. cbn [children]. loop. tuple.
Qed.
Lemma step_Column : step KColumn.
Proof.
  intros n a l r f f' Hf; cbn [pstep].
  unfold parse_column. noname. attributes. cbn [children].
  eapply orel_bind; [apply parse_all_near, nb_p; auto|]. tuple.
Qed.
Lemma step_Table : step KTable.
Proof.
  intros n a l r f f' Hf; cbn [pstep].
  unfold parse_table. noname. cbn [children].
  eapply orel_bind; [run_ok|tuple].
  apply Forall_cons; [|rows_ok]. cbn [fst snd]. (eapply row_push; [ix_ok| |apply agree_header]); [inj_ok].
Qed.
Lemma step_TableRow : step KTableRow.
Proof.
  intros n a l r f f' Hf; cbn [pstep]. unfold parse_table_row. noname. cbn [children].
  apply (orel_imp _ (@rel (list (Knot KTableColumn)) _)); [run_ok|].
  intros x y [->|Q]; [left; reflexivity|right]. unfold chg, chg_F, by_ser. cbn [mk ser]. leaf Q.
Qed.
Lemma step_TableColumn : step KTableColumn.
Proof.
  intros n a l r f f' Hf; cbn [pstep].
  unfold parse_table_column. noname. attributes. cbn [children]. loop. tuple.
Qed.
Lemma step_Remarks : step KRemarks.
Proof.
  intros n a l r f f' Hf; cbn [pstep].
  unfold parse_remarks. noname. cbn [children]. loop. tuple.
Qed.
Lemma step_CStruct : forall s, step (KCStruct s).
Proof.
  intros s n a l r f f' Hf; cbn [pstep].
  unfold parse_cstruct, parse_struct. destruct s; cbn [struct_tag cont_tag body_of append]; noname; cbn [children];
    (eapply orel_bind; [run_ok; struct_rows_ok ltac:(idtac; apply agree_text; reflexivity)|tuple]).
Qed.
Lemma step_FigStruct : step KFigStruct.
Proof.
  intros n a l r f f' Hf; cbn [pstep].
  unfold parse_fig_struct, parse_struct. noname. cbn [children].
  eapply orel_bind; [run_ok; struct_rows_ok ltac:(idtac; apply agree_text; reflexivity)|tuple].
Qed.
Lemma step_TableStruct : step KTableStruct.
Proof.
  intros n a l r f f' Hf; cbn [pstep].
  unfold parse_table_struct, parse_struct. noname. cbn [children].
  eapply orel_bind; [run_ok; struct_rows_ok ltac:(idtac; apply agree_twm; reflexivity)|tuple].
Qed.
Lemma step_List : forall l0, step (KList l0).
Proof.
  intros l0 n a l r f f' Hf; cbn [pstep].
  unfold parse_list. noname. cbn [children].
  destruct l as [|[x|t|t] l]; cbn [app]; [| |reflexivity|reflexivity].
  + rewrite (nb_name _ _ Hf). destruct (String.eqb_spec (name f) (list_tag l0 ++ "Sentence")) as [E|]; [|reflexivity].
    eapply orel_bind; [exact (agree_ls (mkElement n a (NElement f :: r)) l0 f f' Hf E)|].
    intros ss ss' [->|H]; [apply orel_refl; auto|]. attributes.
    destruct l0; value H.
  + destruct (String.eqb (name x) (list_tag l0 ++ "Sentence")); [|reflexivity].
    change (parse_list_sentences p (mkElement n a (NElement x :: l ++ NElement f' :: r)) x)
      with (parse_list_sentences p (mkElement n a (NElement x :: l ++ NElement f :: r)) x).
    apply orel_same. intros ss.
    destruct l0; try apply rel_refl;
      (eapply orel_bind; [apply parse_all_near, nb_p; [exact Hf|right; right; eexists; reflexivity]|tuple]).
Qed.
Lemma step_Class : step KClass.
Proof.
  intros n a l r f f' Hf; cbn [pstep].
  unfold parse_class. noname. attributes. cbn [children]. eapply orel_bind; [run_ok|tuple].
  apply Forall_cons; [row1|]. apply Forall_cons; [|rows_ok]. cbn [fst snd]. eapply row_some; [ix_ok|].
  apply agree_sct. reflexivity.
Qed.
Lemma step_Item : forall l0, step (KItem l0).
Proof.
  intros l0 n a l r f f' Hf; cbn [pstep].
  unfold parse_item. noname. attributes. cbn [children].
  destruct l0; (eapply orel_bind; [run_ok; unfold item_table; cbn [item_tag append sub_tag sub_item app];
    (apply Forall_cons; [row1|]; apply Forall_cons;
     [cbn [fst snd]; eapply row_some; [ix_ok|apply agree_sct; reflexivity]|rows_ok])|]).
  11: { intros s s' H. untuple; destruct H as [H|H]; [injections; subst; apply orel_refl; auto | parts H ltac:(fun H => first [value H | idtac])].
    destruct H as (? & x & _). exfalso. inversion x. }
  all: tuple.
Qed.
Lemma step_Paragraph : step KParagraph.
Proof.
  intros n a l r f f' Hf; cbn [pstep].
  unfold parse_paragraph. noname. attributes. cbn [children]. eapply orel_bind; [run_ok|tuple].
  unfold paragraph_table. apply rows_app; [|rows_ok].
  apply Forall_cons; [row1|]. apply Forall_cons; [row1|].
  apply Forall_cons; [apply row_sentences; [reflexivity|ix_ok]|]. rows_ok.
Qed.
Lemma step_Article : step KArticle.
Proof.
  intros n a l r f f' Hf; cbn [pstep].
  unfold parse_article. noname. attributes. cbn [children].
  eapply orel_bind; [apply head_near; exact Hf|].
  intros (cap & title & rest) (cap' & title' & rest'). cbn [fst snd].
  intros [(Hc & Ht & Ho & <-)|(<- & <- & m & -> & ->)].
  + change (reject (mkElement n a (l ++ NElement f' :: r)))
      with (@reject (list (Knot KParagraph) * (option (Text Knot) * unit)) (mkElement n a (l ++ NElement f :: r))).
    apply orel_same. intros (ps & note & u). destruct Ho as [<-|<-].
    * destruct Ht as [<-|H]; [apply rel_refl|]. value H.
    * destruct Hc as [<-|H]; [apply rel_refl|]. value H.
  + loop. tuple.
Qed.
Lemma step_Part : step KPart.
Proof.
  intros n a l r f f' Hf; cbn [pstep].
  unfold parse_head. noname. attributes. cbn [children].
  destruct l as [|[x|t|t] l]; cbn [app]; [| |reflexivity|reflexivity].
  + rewrite (nb_name _ _ Hf). cbn [append].
    match goal with |- context [String.eqb (name f) ?t] => destruct (String.eqb_spec (name f) t) as [E|]; [|reflexivity] end.
    eapply orel_bind; [refine (agree_text _ _ f f' Hf E); reflexivity|].
    intros t t' [->|H]; [apply orel_refl; auto|].
    change (reject (mkElement n a (NElement f' :: r))) with (@reject (list (PartContents Knot)) (mkElement n a (NElement f :: r))).
    apply orel_same. intros c. value H.
  + destruct (String.eqb (name x) _); [|reflexivity]. apply orel_same. intros t. loop. tuple.
Qed.
Lemma step_Chapter : step KChapter.
Proof.
  intros n a l r f f' Hf; cbn [pstep].
  unfold parse_head. noname. attributes. cbn [children].
  destruct l as [|[x|t|t] l]; cbn [app]; [| |reflexivity|reflexivity].
  + rewrite (nb_name _ _ Hf). cbn [append].
    match goal with |- context [String.eqb (name f) ?t] => destruct (String.eqb_spec (name f) t) as [E|]; [|reflexivity] end.
    eapply orel_bind; [refine (agree_text _ _ f f' Hf E); reflexivity|].
    intros t t' [->|H]; [apply orel_refl; auto|].
    change (reject (mkElement n a (NElement f' :: r))) with (@reject (list (ChapterContents Knot)) (mkElement n a (NElement f :: r))).
    apply orel_same. intros c. value H.
  + destruct (String.eqb (name x) _); [|reflexivity]. apply orel_same. intros t. loop. tuple.
Qed.
Lemma step_Section : step KSection.
Proof.
  intros n a l r f f' Hf; cbn [pstep].
  unfold parse_head. noname. attributes. cbn [children].
  destruct l as [|[x|t|t] l]; cbn [app]; [| |reflexivity|reflexivity].
  + rewrite (nb_name _ _ Hf). cbn [append].
    match goal with |- context [String.eqb (name f) ?t] => destruct (String.eqb_spec (name f) t) as [E|]; [|reflexivity] end.
    eapply orel_bind; [refine (agree_text _ _ f f' Hf E); reflexivity|].
    intros t t' [->|H]; [apply orel_refl; auto|].
    change (reject (mkElement n a (NElement f' :: r))) with (@reject (list (SectionContents Knot)) (mkElement n a (NElement f :: r))).
    apply orel_same. intros c. value H.
  + destruct (String.eqb (name x) _); [|reflexivity]. apply orel_same. intros t. loop. tuple.
Qed.
Lemma step_Subsection : step KSubsection.
Proof.
  intros n a l r f f' Hf; cbn [pstep].
  unfold parse_head. noname. attributes. cbn [children].
  destruct l as [|[x|t|t] l]; cbn [app]; [| |reflexivity|reflexivity].
  + rewrite (nb_name _ _ Hf). cbn [append].
    match goal with |- context [String.eqb (name f) ?t] => destruct (String.eqb_spec (name f) t) as [E|]; [|reflexivity] end.
    eapply orel_bind; [refine (agree_text _ _ f f' Hf E); reflexivity|].
    intros t t' [->|H]; [apply orel_refl; auto|].
    change (reject (mkElement n a (NElement f' :: r))) with (@reject (list (SubsectionContents Knot)) (mkElement n a (NElement f :: r))).
    apply orel_same. intros c. value H.
  + destruct (String.eqb (name x) _); [|reflexivity]. apply orel_same. intros t. loop. tuple.
Qed.
Lemma step_Division : step KDivision.
Proof.
  intros n a l r f f' Hf; cbn [pstep].
  unfold parse_head. noname. attributes. cbn [children].
  destruct l as [|[x|t|t] l]; cbn [app]; [| |reflexivity|reflexivity].
  + rewrite (nb_name _ _ Hf). cbn [append].
    match goal with |- context [String.eqb (name f) ?t] => destruct (String.eqb_spec (name f) t) as [E|]; [|reflexivity] end.
    eapply orel_bind; [refine (agree_text _ _ f f' Hf E); reflexivity|].
    intros t t' [->|H]; [apply orel_refl; auto|].
    change (reject (mkElement n a (NElement f' :: r))) with (@reject (list (Knot KArticle)) (mkElement n a (NElement f :: r))).
    apply orel_same. intros c. value H.
  + destruct (String.eqb (name x) _); [|reflexivity]. apply orel_same. intros t. loop. tuple.
Qed.
Lemma step_Amend : step KAmend.
Proof.
  intros n a l r f f' Hf; cbn [pstep].
  unfold parse_amend. noname. cbn [children].
  match goal with |- context [reject ?e'] =>
    lazymatch e' with mkElement _ _ (_ ++ NElement f' :: _) =>
      change (@reject (list (NewProvision Knot)) e') with (@reject (list (NewProvision Knot)) (mkElement n a (l ++ NElement f :: r)))
    end end.
  eapply orel_bind; [run_ok|tuple].
  apply Forall_cons; [cbn [fst snd]; eapply row_some; [ix_ok|apply agree_amend_sentence]|].
  apply Forall_cons; [apply row_new|apply Forall_nil].
Qed.
Lemma step_LawTitle : step KLawTitle.
Proof.
  intros n a l r f f' Hf; cbn [pstep].
  unfold parse_law_title. noname. attributes. cbn [children]. eapply orel_bind; [apply text_near; exact Hf|tuple].
Qed.
Lemma step_Preamble : step KPreamble.
Proof.
  intros n a l r f f' Hf; cbn [pstep]. unfold parse_preamble. noname. cbn [children].
  apply (orel_imp _ (@rel (list (Knot KParagraph)) _)); [run_ok|].
  intros x y [->|Q]; [left; reflexivity|right]. unfold chg, chg_F, by_ser. cbn [mk ser]. leaf Q.
Qed.
Lemma step_Main : step KMain.
Proof.
  intros n a l r f f' Hf; cbn [pstep].
  unfold parse_main. noname. attributes. cbn [children]. loop. tuple.
Qed.
Lemma step_Suppl : step KSuppl.
Proof.
  intros n a l r f f' Hf; cbn [pstep].
  unfold parse_suppl. noname. attributes. cbn [children]. loop. tuple.
Qed.
Lemma step_SupplTable : step KSupplTable.
Proof.
  intros n a l r f f' Hf; cbn [pstep].
  unfold parse_suppl_table, parse_suppl_ts. noname. attributes. cbn [children].
  eapply orel_bind; [apply run_near; [intros ? ? ? ?; assumption| |rows_ok|exact Hf]|tuple].
  split; [discriminate|]. intros g g' E. unfold wrong_tag_name. rewrite E. reflexivity.
Qed.
Lemma step_SupplStyle : step KSupplStyle.
Proof.
  intros n a l r f f' Hf; cbn [pstep].
  unfold parse_suppl_style, parse_suppl_ts. noname. attributes. cbn [children]. loop. tuple.
Qed.
Lemma step_SupplAppdx : step KSupplAppdx.
Proof.
  intros n a l r f f' Hf; cbn [pstep].
  unfold parse_suppl_appdx. noname. attributes. cbn [children]. loop. tuple.
Qed.
Lemma step_AppdxTable : step KAppdxTable.
Proof.
  intros n a l r f f' Hf; cbn [pstep].
  unfold parse_appdx_t. noname. attributes. cbn [children append]. loop. tuple.
Qed.
Lemma step_AppdxNote : step KAppdxNote.
Proof.
  intros n a l r f f' Hf; cbn [pstep].
  unfold parse_appdx_t. noname. attributes. cbn [children append]. loop. tuple.
Qed.
Lemma step_AppdxStyle : step KAppdxStyle.
Proof.
  intros n a l r f f' Hf; cbn [pstep].
  unfold parse_appdx_t. noname. attributes. cbn [children append]. loop. tuple.
Qed.
Lemma step_AppdxFormat : step KAppdxFormat.
Proof.
  intros n a l r f f' Hf; cbn [pstep].
  unfold parse_appdx_t. noname. attributes. cbn [children append]. loop. tuple.
Qed.
Lemma step_Appdx : step KAppdx.
Proof.
  intros n a l r f f' Hf; cbn [pstep].
  unfold parse_appdx. noname. cbn [children]. loop. tuple.
Qed.
Lemma step_AppdxFig : step KAppdxFig.
Proof.
  intros n a l r f f' Hf; cbn [pstep].
  unfold parse_appdx_fig. noname. attributes. cbn [children]. loop. tuple.
Qed.
Lemma step_TOC : step KTOC.
Proof.
  intros n a l r f f' Hf; cbn [pstep].
  unfold parse_toc. noname. cbn [children]. loop. tuple.
Qed.
Lemma step_TOCPart : step KTOCPart.
Proof.
  intros n a l r f f' Hf; cbn [pstep].
  unfold parse_toc_head. noname. attributes. cbn [children]. loop. tuple.
Qed.
Lemma step_TOCChapter : step KTOCChapter.
Proof.
  intros n a l r f f' Hf; cbn [pstep].
  unfold parse_toc_head. noname. attributes. cbn [children]. loop. tuple.
Qed.
Lemma step_TOCSection : step KTOCSection.
Proof.
  intros n a l r f f' Hf; cbn [pstep].
  unfold parse_toc_head. noname. attributes. cbn [children]. loop. tuple.
Qed.
Lemma step_TOCSubsection : step KTOCSubsection.
Proof.
  intros n a l r f f' Hf; cbn [pstep].
  unfold parse_toc_head. noname. attributes. cbn [children]. loop. tuple.
Qed.
Lemma step_TOCDivision : step KTOCDivision.
Proof.
  intros n a l r f f' Hf; cbn [pstep].
  unfold parse_toc_head. noname. attributes. cbn [children]. loop.
  intros s s' H. untuple; destruct H as [H|H];
    [injections; subst; apply orel_refl; auto | parts H ltac:(fun H => first [value H | idtac])].
  destruct H as (? & [] & _).
Qed.
Lemma step_TOCArticle : step KTOCArticle.
Proof.
  intros n a l r f f' Hf; cbn [pstep].
  unfold parse_toc_article. noname. attributes. cbn [children]. loop. tuple.
Qed.
Lemma step_TOCSuppl : step KTOCSuppl.
Proof.
  intros n a l r f f' Hf; cbn [pstep].
  unfold parse_toc_suppl. noname. cbn [children]. loop. tuple.
Qed.
Lemma step_LawBody : step KLawBody.
Proof.
  intros n a l r f f' Hf; cbn [pstep].
  unfold parse_law_body. noname. attributes. cbn [children]. loop. tuple.
Qed.
Theorem step_near : forall k, step k.
Proof.
  destruct k.
  all: first [apply step_Void | apply step_Ruby | apply step_Line | apply step_Cont | apply step_Sentence | apply step_Column | apply step_Table | apply step_TableRow | apply step_TableColumn | apply step_Remarks | apply step_CStruct | apply step_FigStruct | apply step_TableStruct | apply step_List | apply step_Class | apply step_Item | apply step_Paragraph | apply step_Article | apply step_Part | apply step_Chapter | apply step_Section | apply step_Subsection | apply step_Division | apply step_Amend | apply step_LawTitle | apply step_Preamble | apply step_Main | apply step_Suppl | apply step_SupplTable | apply step_SupplStyle | apply step_SupplAppdx | apply step_AppdxTable | apply step_AppdxNote | apply step_AppdxStyle | apply step_AppdxFormat | apply step_Appdx | apply step_AppdxFig | apply step_TOC | apply step_TOCPart | apply step_TOCChapter | apply step_TOCSection | apply step_TOCSubsection | apply step_TOCDivision | apply step_TOCArticle | apply step_TOCSuppl | apply step_LawBody].
Qed.
End Near.
