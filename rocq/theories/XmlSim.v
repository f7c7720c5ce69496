(** The readers only depend on what [sim] preserves; the recursion equation of [parse]. *)
From Coq Require Import String List NArith Bool Lia Arith.
From Verif Require Import Base NumStr Xml Ast XmlWrite XmlParse XmlSpec.
Import ListNotations.
Open Scope list_scope.

Arguments structural : simpl never.
Arguments leading : simpl never.
Arguments single : simpl never.

(** ** Heights *)
Definition nheight (n : XMLNode) : nat := match n with NElement e => height e | _ => O end.
Definition lheight (l : list XMLNode) : nat := fold_right (fun n m => Nat.max (nheight n) m) O l.

Lemma height_eq : forall e, height e = S (lheight (children e)).
Proof. destruct e. reflexivity. Qed.

Lemma lheight_in : forall n l, In n l -> nheight n <= lheight l.
Proof.
  induction l as [|m l IH]; intros []; cbn; [subst; lia|]. apply IH in H. unfold lheight in H. lia.
Qed.

Lemma height_child : forall c e, In (NElement c) (children e) -> height c < height e.
Proof. intros. rewrite (height_eq e). apply lheight_in in H. cbn in H. lia. Qed.

Lemma lheight_filter : forall n l, lheight (filter (matters n) l) = lheight l.
Proof.
  induction l as [|x l IH]; [reflexivity|]. cbn [filter].
  assert (C : forall y m, lheight (y :: m) = Nat.max (nheight y) (lheight m)) by reflexivity.
  destruct (matters n x) eqn:E; rewrite ?C, IH; [reflexivity|].
  destruct x; try discriminate; reflexivity.
Qed.

Lemma element_ind_height : forall P : Element -> Prop,
  (forall e, (forall c, height c < height e -> P c) -> P e) -> forall e, P e.
Proof.
  intros P H. assert (G : forall n e, height e < n -> P e).
  { induction n; intros e He; [lia|]. apply H. intros. apply IHn. lia. }
  intros e. apply (G (S (height e))). lia.
Qed.

Lemma sim_refl : forall e, sim e e.
Proof.
  apply element_ind_height. intros [n a c] IH. constructor; auto.
  assert (G : forall l, (forall x, In x l -> In x c) ->
    Forall2 sim_node (filter (matters n) l) (filter (matters n) l)).
  { induction l as [|x l IHl]; intros Hl; cbn; [constructor|].
    destruct (matters n x) eqn:E; [|apply IHl; intros; apply Hl; right; assumption].
    constructor; [|apply IHl; intros; apply Hl; right; assumption].
    destruct x; try discriminate; constructor. apply IH, (height_child e (mkElement n a c)).
    cbn. apply Hl. left. reflexivity. }
  apply G. auto.
Qed.

Lemma sim_name : forall e e', sim e e' -> name e = name e'.
Proof. destruct 1; reflexivity. Qed.

Lemma sim_get : forall e e' x, sim e e' -> get e x = get e' x.
Proof. destruct 1 as [n a a' c c' H|n a a' _ H|a a' c c' H]; apply H. Qed.

(** The elements for which [sim] is special. *)
Definition special (n : string) : bool := single n || String.eqb n "SupplProvision".
Arguments special : simpl never.

Lemma sim_children : forall e e', sim e e' -> special (name e) = false ->
  Forall2 sim_node (filter (matters (name e)) (children e))
                   (filter (matters (name e)) (children e')).
Proof.
  destruct 1 as [n a a' c c' _ H|n a a' H|a a' c c' _ _]; cbn [name children]; [intros _; exact H| |discriminate].
  unfold special. rewrite H. discriminate.
Qed.

Lemma sim_leading : forall e e', sim e e' -> special (name e) = false ->
  firstn (leading (name e)) (map shape_of (children e)) =
  firstn (leading (name e)) (map shape_of (children e')).
Proof.
  destruct 1 as [n a a' c c' _ _ H|n a a' H|a a' c c' _ _]; cbn [name children]; [intros _; exact H| |discriminate].
  unfold special. rewrite H. discriminate.
Qed.

(** A single: as before, or empty text that is not there. *)
Lemma sim_mark : forall e e', sim e e' -> name e <> "SupplProvision"%string ->
  (Forall2 sim_node (filter (matters (name e)) (children e)) (filter (matters (name e)) (children e')) /\
   firstn (leading (name e)) (map shape_of (children e)) = firstn (leading (name e)) (map shape_of (children e'))) \/
  (children e = [] /\ children e' = [NText ""]).
Proof.
  destruct 1 as [n a a' c c' _ H1 H2|n a a' H|a a' c c' _ _]; cbn [name children]; intros Hn;
    [left; split; assumption|right; split; reflexivity|contradiction].
Qed.

(** A supplementary provision: as before, or an empty label that is not there. *)
Lemma sim_suppl : forall e e', sim e e' -> name e = "SupplProvision"%string ->
  Forall2 sim_node (filter (matters "SupplProvision") (children e)) (filter (matters "SupplProvision") (children e')) \/
  exists c, children e = NElement (mkElement "SupplProvisionLabel" [] []) :: c /\
    Forall2 sim_node (filter (matters "SupplProvision") c) (filter (matters "SupplProvision") (children e')).
Proof.
  destruct 1 as [n a a' c c' _ H1 H2|n a a' H|a a' c c' _ H]; cbn [name children]; intros Hn; subst; [left; assumption|discriminate|].
  right. exists c. split; [reflexivity|assumption].
Qed.

Lemma structural_mark : forall n, structural n = true -> n <> "SupplProvision"%string -> special n = false.
Proof.
  intros n H Hn. unfold special. apply orb_false_iff. split; [|apply String.eqb_neq, Hn]. clear Hn. revert n H.
  intros n H. unfold single, single_tags. destruct (existsb _ _) eqn:E; [|reflexivity].
  apply existsb_exists in E. destruct E as (m & Hm & E). apply String.eqb_eq in E. subst m.
  cbn in Hm. repeat (destruct Hm as [<- | Hm]; [discriminate H|]). contradiction.
Qed.

Lemma textual_special : forall n, structural n || single n = false -> special n = false.
Proof.
  intros n H. apply orb_false_iff in H. destruct H as [H1 H2]. unfold special. rewrite H2. cbn.
  apply String.eqb_neq. intros ->. discriminate.
Qed.

(** ** Loops *)
Lemma bind_ext : forall A B (x y : R A) (f g : A -> R B),
  x = y -> (forall a, f a = g a) -> bind x f = bind y g.
Proof. intros A B x y f g -> H. destruct y; cbn; auto. Qed.

Lemma with_name_ext : forall A e e' n m (x y : R A), name e = name e' ->
  (name e = n -> x = y) -> with_name e n m x = with_name e' n m y.
Proof.
  intros A e e' n m x y He H. unfold with_name, wrong_tag_name. rewrite <- He.
  destruct (String.eqb_spec (name e) n); auto.
Qed.

Section Loops.
Context (R0 : Element -> Element -> Prop).

(** Tables with the same tags whose rows agree on related elements. *)
Definition rows_rel {S} (t t' : list (string * handler S)) : Prop :=
  Forall2 (fun r r' => fst r = fst r' /\
             forall c c', name c = fst r -> R0 c c' -> snd r c = snd r' c') t t'.

Lemma lookup_rel : forall S (d d' : handler S) t t' c c',
  rows_rel t t' -> name c = name c' -> R0 c c' -> d c = d' c' -> lookup d t c = lookup d' t' c'.
Proof.
  intros S d d' t t' c c' H Hn Hr Hd. unfold lookup. rewrite <- Hn.
  induction H as [|[k h] [k' h'] t t' [Hk Hh] _ IH]; [exact Hd|].
  cbn in *. subst k'. destruct (String.eqb_spec (name c) k); [|exact IH].
  apply Hh; assumption.
Qed.

Lemma run_filter : forall S txt (d : handler S) t n l s,
  (structural n = true -> txt = no_text) ->
  run txt d t l s = run txt d t (filter (matters n) l) s.
Proof.
  intros S txt d t n l s H. revert s. induction l as [|x l IH]; intros s; [reflexivity|].
  destruct x; cbn.
  - destruct (lookup d t e); cbn; auto.
  - destruct (structural n); cbn; [|apply IH]. rewrite (H eq_refl) in IH |- *. apply IH.
  - apply IH.
Qed.

Lemma run_rel : forall S txt (d d' : handler S) t t' l l' s,
  Forall2 sim_node l l' -> rows_rel t t' ->
  (forall c c', In (NElement c) l -> In (NElement c') l' -> sim c c' -> R0 c c') ->
  (forall c c', name c = name c' -> d c = d' c') ->
  run txt d t l s = run txt d' t' l' s.
Proof.
  intros S txt d d' t t' l l' s H Ht Hr Hd. revert s.
  induction H as [|x x' l l' Hx _ IH]; intros s; [reflexivity|].
  destruct Hx as [c c' Hc|]; cbn.
  - assert (L : lookup d t c = lookup d' t' c').
    { apply lookup_rel; [exact Ht|apply sim_name, Hc| |apply Hd, sim_name, Hc].
      apply Hr; [left; reflexivity|left; reflexivity|exact Hc]. }
    rewrite L. destruct (lookup d' t' c'); cbn; try reflexivity.
    apply IH. intros. apply Hr; [right|right|]; assumption.
  - apply IH. intros. apply Hr; [right|right|]; assumption.
Qed.

Lemma parse_all_filter : forall X (p : Element -> R X) n l,
  parse_all p l = parse_all p (filter (matters n) l).
Proof.
  induction l as [|x l IH]; [reflexivity|]. destruct x; cbn.
  - rewrite IH. reflexivity.
  - destruct (negb (structural n)); cbn; exact IH.
  - exact IH.
Qed.

Lemma parse_all_rel : forall X (p p' : Element -> R X) l l',
  Forall2 sim_node l l' ->
  (forall c c', In (NElement c) l -> In (NElement c') l' -> sim c c' -> p c = p' c') ->
  parse_all p l = parse_all p' l'.
Proof.
  intros X p p' l l' H Hp. induction H as [|x x' l l' Hx _ IH]; [reflexivity|].
  destruct Hx as [c c' Hc|]; cbn.
  - rewrite (Hp c c' (or_introl eq_refl) (or_introl eq_refl) Hc).
    apply bind_ext; [reflexivity|]. intros. apply bind_ext; [|reflexivity].
    apply IH. intros. apply Hp; [right|right|]; assumption.
  - apply IH. intros. apply Hp; [right|right|]; assumption.
Qed.
End Loops.

Lemma nodes_text_cons : forall x l, nodes_text (x :: l) = (node_text x ++ nodes_text l)%string.
Proof. reflexivity. Qed.

Lemma nodes_text_filter : forall n l, structural n = false ->
  nodes_text l = nodes_text (filter (matters n) l).
Proof.
  intros n l H. induction l as [|x l IH]; [reflexivity|].
  rewrite nodes_text_cons. destruct x; cbn [filter matters node_text]; rewrite ?H; cbn [negb];
    rewrite ?nodes_text_cons, IH; reflexivity.
Qed.

Lemma nodes_text_sim : forall e e', sim e e' -> structural (name e) = false ->
  nodes_text (children e) = nodes_text (children e').
Proof.
  intros e e' H Hs. assert (Hn : name e <> "SupplProvision"%string) by (intros E; rewrite E in Hs; discriminate).
  destruct (sim_mark _ _ H Hn) as [[H1 _] | [H1 H2]]; [|rewrite H1, H2; reflexivity]. clear H. rename H1 into H.
  rewrite (nodes_text_filter _ _ Hs), (nodes_text_filter _ (children e') Hs).
  induction H as [|x x' l l' Hx _ IH]; [reflexivity|].
  rewrite !nodes_text_cons, IH. destruct Hx; reflexivity.
Qed.

(** ** The readers *)
Section Step.
Context {K : kind -> Type} (p q : forall k, Element -> R (K k)) (h h' : nat).

(** The contents readers do not look at the tag: they are only called on the tags below. *)
Definition well_tagged (k : kind) (e : Element) : Prop :=
  match k with KCont _ => structural (name e) || single (name e) = false | _ => True end.

Hypothesis Hpq : forall k c c', well_tagged k c -> sim c c' -> height c < h /\ height c' < h' -> p k c = q k c'.

Definition rel (c c' : Element) : Prop := sim c c' /\ height c < h /\ height c' < h'.

Definition low (e e' : Element) : Prop := height e <= h /\ height e' <= h'.

Lemma child_low : forall e e' c c', low e e' -> In (NElement c) (children e) -> In (NElement c') (children e') ->
  height c < h /\ height c' < h'.
Proof. intros e e' c c' [A B] H1 H2. apply height_child in H1, H2. lia. Qed.

Lemma rel_low : forall c c', rel c c' -> low c c'.
Proof. intros c c' (_ & A & B). split; lia. Qed.

Lemma rel_children : forall e e' c c', low e e' ->
  In (NElement c) (filter (matters (name e)) (children e)) ->
  In (NElement c') (filter (matters (name e)) (children e')) -> sim c c' -> rel c c'.
Proof.
  intros e e' c c' He Hin Hin' Hs. split; [exact Hs|]. apply filter_In in Hin, Hin'.
  apply (child_low e e'); tauto.
Qed.

Lemma run_sim : forall S txt (d d' : handler S) t t' e e' s,
  sim e e' -> low e e' -> (structural (name e) = true -> txt = no_text) -> special (name e) = false ->
  rows_rel rel t t' -> (forall c c', name c = name c' -> d c = d' c') ->
  run txt d t (children e) s = run txt d' t' (children e') s.
Proof.
  intros S txt d d' t t' e e' s Hs He Ht Hm Hr Hd.
  rewrite (run_filter _ _ _ _ (name e) (children e)), (run_filter _ _ _ _ (name e) (children e'))
    by exact Ht.
  apply (run_rel rel); [apply sim_children; assumption|exact Hr| |exact Hd].
  intros c c' Hin Hin' Hc. apply (rel_children e e'); assumption.
Qed.

Lemma parse_all_sim : forall X (f f' : Element -> R X) e e',
  sim e e' -> special (name e) = false -> low e e' -> (forall c c', rel c c' -> f c = f' c') ->
  parse_all f (children e) = parse_all f' (children e').
Proof.
  intros X f f' e e' Hs Hm He Hf.
  rewrite (parse_all_filter _ _ (name e) (children e)),
    (parse_all_filter _ _ (name e) (children e')).
  apply parse_all_rel; [apply sim_children; assumption|].
  intros c c' Hin Hin' Hc. apply Hf. apply (rel_children e e'); assumption.
Qed.

Lemma reject_sim : forall S e e' c c', name e = name e' -> name c = name c' ->
  @reject S e c = reject e' c'.
Proof. intros. unfold reject, unexpected_tag. rewrite H, H0. reflexivity. Qed.

Lemma skip_sim : forall S c c', name c = name c' -> @skip S c = skip c'.
Proof. reflexivity. Qed.

(** Rows whose reader agrees on related elements with the given tag. *)
Definition agree {X} (n : string) (f g : Element -> R X) : Prop :=
  forall c c', name c = n -> rel c c' -> f c = g c'.

Lemma row_push : forall S X Y n (ix : (list Y -> list Y) -> S -> S) (inj : X -> Y) f g,
  agree n f g -> agree n (h_push ix inj f) (h_push ix inj g).
Proof. intros S X Y n ix inj f g H c c' Hn Hr. unfold h_push. rewrite (H c c'); auto. Qed.
Lemma row_push_ok : forall S X Y n (ix : (list Y -> list Y) -> S -> S) (inj : X -> Y) f g,
  agree n f g -> agree n (h_push_ok ix inj f) (h_push_ok ix inj g).
Proof. intros S X Y n ix inj f g H c c' Hn Hr. unfold h_push_ok. rewrite (H c c'); auto. Qed.
Lemma row_some : forall S X n (ix : (option X -> option X) -> S -> S) f g,
  agree n f g -> agree n (h_some ix f) (h_some ix g).
Proof. intros S X n ix f g H c c' Hn Hr. unfold h_some. rewrite (H c c'); auto. Qed.
Lemma row_put : forall S X n (ix : (X -> X) -> S -> S) f g,
  agree n f g -> agree n (h_put ix f) (h_put ix g).
Proof. intros S X n ix f g H c c' Hn Hr. unfold h_put. rewrite (H c c'); auto. Qed.

Lemma agree_p : forall n k, (forall c, name c = n -> well_tagged k c) -> agree n (p k) (q k).
Proof. intros n k Hw c c' Hn [Hs Hh]. apply Hpq; auto. Qed.

Lemma rows_nil : forall S, rows_rel rel (@nil (string * handler S)) [].
Proof. constructor. Qed.
Lemma rows_cons : forall S n (f g : handler S) t t',
  agree n f g -> rows_rel rel t t' -> rows_rel rel ((n, f) :: t) ((n, g) :: t').
Proof. intros. constructor; [|assumption]. split; [reflexivity|assumption]. Qed.
Lemma rows_app : forall S (t t' u u' : list (string * handler S)),
  rows_rel rel t t' -> rows_rel rel u u' -> rows_rel rel (t ++ u) (t' ++ u').
Proof. intros. apply Forall2_app; assumption. Qed.
Lemma rows_items : forall T (inj : forall l, K (KItem l) -> T),
  rows_rel rel (item_rows p inj) (item_rows q inj).
Proof.
  intros. unfold item_rows. induction all_lvls as [|l ls IH]; [constructor|].
  apply rows_cons; [|exact IH]. apply row_push, agree_p. constructor.
Qed.

Lemma sup_sim : forall c c', sim c c' -> parse_sup c = parse_sup c'.
Proof.
  intros c c' H. unfold parse_sup. apply with_name_ext; [apply sim_name, H|]. intros Hn.
  f_equal. destruct (sim_mark _ _ H ltac:(rewrite Hn; discriminate)) as [[Hc Hl] | [E1 E2]]; [|rewrite E1, E2; reflexivity].
  rewrite Hn in Hl, Hc. vm_compute (leading _) in Hl. cbn in Hl, Hc.
  destruct (children c) as [|[]]; destruct (children c') as [|[]]; try discriminate; try reflexivity.
  cbn in Hc. inversion Hc; subst. inversion H3; subst. reflexivity.
Qed.
Lemma sub_sim : forall c c', sim c c' -> parse_sub c = parse_sub c'.
Proof.
  intros c c' H. unfold parse_sub. apply with_name_ext; [apply sim_name, H|]. intros Hn.
  f_equal. destruct (sim_mark _ _ H ltac:(rewrite Hn; discriminate)) as [[Hc Hl] | [E1 E2]]; [|rewrite E1, E2; reflexivity].
  rewrite Hn in Hl, Hc. vm_compute (leading _) in Hl. cbn in Hl, Hc.
  destruct (children c) as [|[]]; destruct (children c') as [|[]]; try discriminate; try reflexivity.
  cbn in Hc. inversion Hc; subst. inversion H3; subst. reflexivity.
Qed.

Lemma agree_sup : forall n, agree n parse_sup parse_sup.
Proof. intros n c c' _ [H _]. apply sup_sim, H. Qed.
Lemma agree_sub : forall n, agree n parse_sub parse_sub.
Proof. intros n c c' _ [H _]. apply sub_sim, H. Qed.

(** Attributes. *)
Lemma attr_sim : forall e e' n, sim e e' -> get_attribute e n = get_attribute e' n.
Proof. intros. unfold get_attribute. rewrite (sim_get _ _ _ H), (sim_name _ _ H). reflexivity. Qed.
Lemma attr_parse_sim : forall T (f : string -> option T) e e' n, sim e e' ->
  get_attribute_with_parse f e n = get_attribute_with_parse f e' n.
Proof.
  intros. unfold get_attribute_with_parse. rewrite (sim_get _ _ _ H), (sim_name _ _ H). reflexivity.
Qed.
Lemma attr_opt_sim : forall T (f : string -> option T) e e' n, sim e e' ->
  get_attribute_opt_with_parse f e n = get_attribute_opt_with_parse f e' n.
Proof.
  intros. unfold get_attribute_opt_with_parse. rewrite (sim_get _ _ _ H), (sim_name _ _ H).
  reflexivity.
Qed.
Lemma flag_sim : forall e e' n, sim e e' -> get_flag e n = get_flag e' n.
Proof. intros. unfold get_flag. rewrite (attr_opt_sim _ _ _ _ _ H). reflexivity. Qed.
Lemma string_opt_sim : forall e e' n, sim e e' -> get_string_opt e n = get_string_opt e' n.
Proof. intros. apply attr_opt_sim, H. Qed.

Lemma agree_fig : forall n, agree n parse_fig parse_fig.
Proof. intros n c c' _ [H _]. unfold parse_fig. rewrite (sim_get _ _ _ H). reflexivity. Qed.

Ltac name_side :=
  match goal with
  | Hn : name ?e = _ |- context [structural (name ?e)] => rewrite Hn
  end.

Lemma text_sim : forall e e', sim e e' -> low e e' -> structural (name e) || single (name e) = false ->
  from_children p (children e) = from_children q (children e').
Proof.
  intros e e' Hs He Hn. pose proof (textual_special _ Hn) as Hsp. apply orb_false_iff in Hn. destruct Hn.
  unfold from_children. apply run_sim; auto using skip_sim; [congruence|].
  unfold text_table.
  repeat (apply rows_cons; [apply row_push_ok; first [apply agree_sup | apply agree_sub | apply agree_p; constructor]|]).
  constructor.
Qed.

Lemma agree_text : forall n, structural n || single n = false -> agree n (p_text p) (p_text q).
Proof.
  intros n Hn c c' Hc [Hs Hh]. unfold p_text. apply text_sim; [exact Hs|apply rel_low; split; assumption|].
  rewrite Hc. exact Hn.
Qed.
Lemma agree_twm : forall n, structural n || single n = false -> agree n (parse_twm p) (parse_twm q).
Proof.
  intros n Hn c c' Hc [Hs Hh]. unfold parse_twm.
  apply bind_ext; [apply text_sim; [exact Hs|apply rel_low; split; assumption|rewrite Hc; exact Hn]|].
  intros. rewrite (sim_get _ _ _ Hs). reflexivity.
Qed.
Lemma agree_caption : forall n, structural n || single n = false -> agree n (parse_caption p) (parse_caption q).
Proof.
  intros n Hn c c' Hc [Hs Hh]. unfold parse_caption.
  apply bind_ext; [apply text_sim; [exact Hs|apply rel_low; split; assumption|rewrite Hc; exact Hn]|].
  intros. rewrite (attr_opt_sim _ _ _ _ _ Hs). reflexivity.
Qed.
Lemma agree_arith : forall n, structural n || single n = false -> agree n (parse_arith p) (parse_arith q).
Proof.
  intros n Hn c c' Hc [Hs Hh]. unfold parse_arith.
  apply bind_ext; [apply attr_opt_sim, Hs|]. intros.
  apply bind_ext; [|reflexivity]. apply Hpq; auto. cbn. rewrite Hc. exact Hn.
Qed.

Ltac rows1 := first
  [ apply row_push | apply row_some | apply row_put
  | apply agree_sup | apply agree_sub | apply agree_fig
  | apply agree_text; reflexivity | apply agree_twm; reflexivity
  | apply agree_caption; reflexivity | apply agree_arith; reflexivity
  | apply agree_p; first [exact (fun _ _ => I) | let H := fresh in intros ? H; cbn; rewrite H; reflexivity] ].
Ltac tables := cbv beta delta
  [line_table contents_table sentence_table cell_table struct_rows paragraph_table part_table
   chapter_table section_table subsection_table division_table new_provision_table main_table
   suppl_table appdx_table_rows appdx_note_rows appdx_style_rows appdx_format_rows toc_part_rows
   toc_chapter_rows toc_section_rows toc_subsection_rows law_body_table item_table].
Ltac rows := tables; repeat first
  [ apply rows_nil | apply rows_items | apply rows_cons; [repeat rows1|] | apply rows_app ].
Ltac sim_run Hn :=
  apply run_sim;
  [assumption|first [assumption | apply rel_low; split; assumption]|rewrite ?Hn; cbn; first [discriminate | reflexivity]|rewrite Hn; reflexivity
  |try (rows; fail)|intros; first [apply reject_sim; [apply sim_name; assumption|assumption] | apply skip_sim; assumption]].

Lemma agree_sct : forall n, structural n = true -> special n = false -> agree n (parse_sct p) (parse_sct q).
Proof.
  intros n Hn Hsp c c' Hc [Hs Hh]. unfold parse_sct. apply bind_ext; [|reflexivity].
  apply run_sim; [exact Hs|apply rel_low; split; assumption|reflexivity|rewrite Hc; exact Hsp|rows|].
  intros. apply reject_sim; [apply sim_name, Hs|assumption].
Qed.

Lemma agree_header_row : forall n, agree n (parse_header_row p) (parse_header_row q).
Proof.
  intros n c c' Hc [Hs Hh]. unfold parse_header_row.
  apply with_name_ext; [apply sim_name, Hs|]. intros Hn. clear Hc. sim_run Hn.
Qed.

Lemma agree_remarks_label : forall n, agree n (parse_remarks_label p) (parse_remarks_label q).
Proof.
  intros n c c' Hc [Hs Hh]. unfold parse_remarks_label.
  apply with_name_ext; [apply sim_name, Hs|]. intros Hn. clear Hc.
  apply bind_ext; [apply flag_sim, Hs|]. intros. apply bind_ext; [|reflexivity].
  apply text_sim; [exact Hs|apply rel_low; split; assumption|rewrite Hn; reflexivity].
Qed.

Lemma agree_struct_remarks : forall T B n,
  agree n (@h_struct_remarks K p T B) (@h_struct_remarks K q T B).
Proof.
  intros T B n c c' Hc Hr. unfold h_struct_remarks.
  rewrite (agree_p n KRemarks ltac:(constructor) c c' Hc Hr). reflexivity.
Qed.

Lemma struct_sim : forall T B n tn bn (pt qt : Element -> R T) (pb qb : Element -> R B) e e',
  structural n = true -> special n = false -> sim e e' -> low e e' -> agree tn pt qt -> agree bn pb qb ->
  parse_struct p n tn bn pt pb e = parse_struct q n tn bn qt qb e'.
Proof.
  intros T B n tn bn pt qt pb qb e e' Hst Hsp Hs He Ht Hb. unfold parse_struct.
  apply with_name_ext; [apply sim_name, Hs|]. intros Hn.
  apply bind_ext; [|intros (?&?&?&?&?); reflexivity].
  apply run_sim; [exact Hs|exact He|reflexivity|rewrite Hn; exact Hsp| |intros; apply reject_sim; [apply sim_name, Hs|assumption]].
  apply rows_cons; [apply row_some, Ht|]. apply rows_cons; [apply agree_struct_remarks|].
  apply rows_cons; [apply row_some, Hb|constructor].
Qed.

Lemma head_sim : forall C n tbl tbl' e e',
  leading n = 1 -> structural n = true -> special n = false -> structural (n ++ "Title") || single (n ++ "Title") = false ->
  sim e e' -> low e e' -> rows_rel rel tbl tbl' ->
  @parse_head K p C n tbl e = parse_head q n tbl' e'.
Proof.
  intros C n tbl tbl' e e' Hl Hst Hsp Htt Hs He Hrows. unfold parse_head.
  apply with_name_ext; [apply sim_name, Hs|]. intros Hn.
  assert (Hm : special (name e) = false) by (rewrite Hn; exact Hsp).
  apply bind_ext; [apply attr_sim, Hs|]. intros ns.
  apply bind_ext; [reflexivity|]. intros num.
  apply bind_ext; [apply flag_sim, Hs|]. intros del.
  apply bind_ext; [apply flag_sim, Hs|]. intros hide.
  pose proof (sim_leading _ _ Hs Hm) as L. pose proof (sim_children _ _ Hs Hm) as C0.
  rewrite Hn, Hl in L.
  assert (Hh : forall c c', In (NElement c) (children e) -> In (NElement c') (children e') -> height c < h /\ height c' < h').
  { intros c c'. apply child_low, He. }
  rewrite Hn in C0.
  destruct (children e) as [|[t| |] r]; destruct (children e') as [|[t'| |] r'];
    try discriminate; try reflexivity.
  cbn in C0. inversion C0 as [|x x' l l' Ht Hr]; subst. inversion Ht as [? ? Hst'|]; subst.
  rewrite <- (sim_name _ _ Hst').
  destruct (String.eqb_spec (name t) (name e ++ "Title")) as [Et|]; [|reflexivity].
  apply bind_ext.
  { apply (agree_text _ Htt t t' Et). split; [exact Hst'|]. apply Hh; left; reflexivity. }
  intros title. apply bind_ext; [|reflexivity].
  rewrite (run_filter _ _ _ _ (name e) r), (run_filter _ _ _ _ (name e) r') by reflexivity.
  apply (run_rel rel); [exact Hr|exact Hrows| |].
  - intros c c' Hin Hin' Hc. split; [exact Hc|]. apply filter_In in Hin, Hin'. apply Hh; right; tauto.
  - intros. apply reject_sim; [apply sim_name, Hs|assumption].
Qed.

Lemma list_sim : forall l e e', sim e e' -> low e e' ->
  parse_list p l e = parse_list q l e'.
Proof.
  intros l e e' Hs He. unfold parse_list.
  apply with_name_ext; [apply sim_name, Hs|]. intros Hn.
  assert (Hl : leading (list_tag l) = 1) by (destruct l; reflexivity).
  assert (Hm : special (name e) = false) by (rewrite Hn; destruct l; reflexivity).
  pose proof (sim_leading _ _ Hs Hm) as L. pose proof (sim_children _ _ Hs Hm) as C0.
  rewrite Hn, Hl in L. rewrite Hn in C0.
  assert (Hh : forall c c', In (NElement c) (children e) -> In (NElement c') (children e') -> height c < h /\ height c' < h').
  { intros c c'. apply child_low, He. }
  assert (W : forall A x, @wrong_tag_name A e x = wrong_tag_name e' x).
  { intros. unfold wrong_tag_name. rewrite (sim_name _ _ Hs). reflexivity. }
  rewrite !W.
  destruct (children e) as [|[t| |] r]; destruct (children e') as [|[t'| |] r'];
    try discriminate; try reflexivity.
  cbn [filter matters] in C0.
  inversion C0 as [|x x' m m' Ht Hr]; subst. inversion Ht as [? ? Hst'|]; subst.
  rewrite <- (sim_name _ _ Hst').
  destruct (String.eqb_spec (name t) (list_tag l ++ "Sentence")) as [Et|]; [|reflexivity].
  apply bind_ext.
  { unfold parse_list_sentences. pose proof (Hh t t' (or_introl eq_refl) (or_introl eq_refl)).
    apply run_sim; [exact Hst'|split; lia|reflexivity|rewrite Et; destruct l; reflexivity|rows|].
    intros. apply reject_sim; [apply sim_name, Hs|assumption]. }
  intros ss. apply bind_ext; [|reflexivity].
  destruct l; try reflexivity;
    match type of Hr with Forall2 _ (filter (matters ?n) _) _ =>
      rewrite (parse_all_filter _ _ n r), (parse_all_filter _ _ n r') end;
    (apply parse_all_rel; [exact Hr|]; intros c c' Hin Hin' Hc; apply Hpq; [exact I|exact Hc|];
     apply filter_In in Hin, Hin'; apply Hh; right; tauto).
Qed.


(** The article: the elements left by the first loop. *)
Lemma article_head_sim : forall l l' cap t,
  Forall2 sim_node (filter (matters "Article") l) (filter (matters "Article") l') ->
  (forall c, In (NElement c) l -> height c < h) -> (forall c, In (NElement c) l' -> height c < h') ->
  match article_head p l cap t, article_head q l' cap t with
  | Ok (c, (t, r)), Ok (c', (t', r')) =>
      c = c' /\ t = t' /\
      Forall2 sim_node (filter (matters "Article") r) (filter (matters "Article") r') /\
      (forall c, In (NElement c) r -> height c < h) /\ (forall c, In (NElement c) r' -> height c < h')
  | Err e, Err e' => e = e'
  | Panic, Panic => True
  | _, _ => False
  end.
Proof.
  assert (FT : forall s l, filter (matters "Article") (NText s :: l) = filter (matters "Article") l)
    by reflexivity.
  induction l as [|x l IH]; intros l' cap t Hl Hh Hg.
  - cbn in Hl. inversion Hl as [E0 E|]. clear Hl E0.
    induction l' as [|y l' IH']; [exact I|]. assert (Hg' : forall c, In (NElement c) l' -> height c < h') by (intros; apply Hg; right; assumption).
    destruct y; rewrite ?FT in E; [discriminate|exact (IH' Hg' E)|exact (IH' Hg' E)].
  - destruct x as [c| |]; rewrite ?FT in Hl; cbn in Hl.
    2,3: apply IH; [exact Hl|intros; apply Hh; right; assumption|exact Hg].
    induction l' as [|y l' IH']; [inversion Hl|]. assert (Hg' : forall c, In (NElement c) l' -> height c < h') by (intros; apply Hg; right; assumption).
    destruct y as [c'| |]; rewrite ?FT in Hl; cbn in Hl; [|exact (IH' Hl Hg')|exact (IH' Hl Hg')]. clear IH'.
    inversion Hl as [|? ? ? ? Hc Hr]; subst. inversion Hc as [? ? Hs|]; subst.
    cbn. rewrite <- (sim_name _ _ Hs).
    assert (Hrel : rel c c') by (split; [exact Hs|split; [apply Hh|apply Hg]; left; reflexivity]).
    assert (Hh' : forall d, In (NElement d) l -> height d < h) by (intros; apply Hh; right; assumption).
    destruct (String.eqb_spec (name c) "ArticleCaption") as [E|].
    { rewrite (agree_caption "ArticleCaption" eq_refl c c' E Hrel).
      destruct (parse_caption q c'); cbn; auto. apply IH; assumption. }
    destruct (String.eqb_spec (name c) "ArticleTitle") as [E|].
    { rewrite (agree_text "ArticleTitle" eq_refl c c' E Hrel).
      destruct (p_text q c'); cbn; auto. apply IH; assumption. }
    split; [reflexivity|]. split; [reflexivity|]. split; [cbn; constructor; assumption|]. split; assumption.
Qed.

Lemma amend_sentence_sim : forall n, n = "AmendProvisionSentence"%string ->
  agree n (parse_amend_sentence p) (parse_amend_sentence q).
Proof.
  intros n -> c c' Hn [Hs Hh]. unfold parse_amend_sentence.
  assert (Hm : special (name c) = false) by (rewrite Hn; reflexivity).
  pose proof (sim_leading _ _ Hs Hm) as L. pose proof (sim_children _ _ Hs Hm) as C0.
  rewrite Hn in L, C0. cbn in L.
  assert (Hc : forall d d', In (NElement d) (children c) -> In (NElement d') (children c') -> height d < h /\ height d' < h').
  { intros d d'. apply child_low, rel_low. split; assumption. }
  destruct (children c) as [|[t| |] r]; destruct (children c') as [|[t'| |] r'];
    try discriminate; try reflexivity.
  cbn in C0. inversion C0 as [|x x' l l' Ht Hr]; subst. inversion Ht as [? ? Hst'|]; subst.
  apply Hpq; [exact I|exact Hst'|]. apply Hc; left; reflexivity.
Qed.

Ltac attrs Hs := repeat (apply bind_ext; [first
  [apply attr_sim, Hs | apply attr_parse_sim, Hs | apply attr_opt_sim, Hs | apply flag_sim, Hs
  |apply string_opt_sim, Hs | reflexivity]|intros]).

Lemma appdx_sim : forall C n rows rows' e e',
  structural n = true -> special n = false -> structural (n ++ "Title") || single (n ++ "Title") = false ->
  sim e e' -> low e e' -> rows_rel rel rows rows' ->
  @parse_appdx_t K p C n rows e = parse_appdx_t q n rows' e'.
Proof.
  intros C n rows rows' e e' Hst Hsp Htt Hs He Hr. unfold parse_appdx_t.
  apply with_name_ext; [apply sim_name, Hs|]. intros Hn. attrs Hs.
  apply bind_ext; [|reflexivity].
  apply run_sim; [exact Hs|exact He|reflexivity|rewrite Hn; exact Hsp| |intros; apply reject_sim; [apply sim_name, Hs|assumption]].
  apply rows_app; [|apply rows_app; [exact Hr|rows]].
  apply rows_cons; [apply row_some, agree_twm, Htt|]. rows.
Qed.

Lemma toc_head_sim : forall C n tn rows rows' e e',
  structural n = true -> special n = false -> structural tn || single tn = false ->
  sim e e' -> low e e' -> rows_rel rel rows rows' ->
  @parse_toc_head K p C n tn rows e = parse_toc_head q n tn rows' e'.
Proof.
  intros C n tn rows rows' e e' Hst Hsp Htt Hs He Hr. unfold parse_toc_head.
  apply with_name_ext; [apply sim_name, Hs|]. intros Hn. attrs Hs.
  apply bind_ext; [|reflexivity].
  apply run_sim; [exact Hs|exact He|reflexivity|rewrite Hn; exact Hsp| |intros; apply reject_sim; [apply sim_name, Hs|assumption]].
  apply rows_app; [|exact Hr].
  apply rows_cons; [apply row_put, agree_text, Htt|]. rows.
Qed.

Lemma suppl_ts_sim : forall C n ex tn ms cn d d' f g e e',
  structural n = true -> special n = false -> structural tn || single tn = false ->
  sim e e' -> low e e' -> agree cn f g -> (forall c c', name c = name c' -> d c = d' c') ->
  @parse_suppl_ts K p C n ex tn ms cn d f e = parse_suppl_ts q n ex tn ms cn d' g e'.
Proof.
  intros C n ex tn ms cn d d' f g e e' Hst Hsp Htt Hs He Hr Hd. unfold parse_suppl_ts.
  apply with_name_ext; [apply sim_name, Hs|]. intros Hn. attrs Hs.
  apply bind_ext; [|reflexivity].
  apply run_sim; [exact Hs|exact He|reflexivity|rewrite Hn; exact Hsp| |exact Hd].
  apply rows_cons; [apply row_some, agree_twm, Htt|]. apply rows_cons; [repeat rows1|].
  apply rows_cons; [apply row_push, Hr|constructor].
Qed.

Ltac start Hs := apply with_name_ext; [apply sim_name, Hs|]; intros Hn; attrs Hs.
Ltac finish Hs Hn := apply bind_ext; [|intros; rewrite ?(sim_get _ _ _ Hs); reflexivity]; sim_run Hn.

(** Reading two similar elements gives the same outcome. *)
Theorem pstep_sim : forall k e e', well_tagged k e -> sim e e' -> low e e' ->
  pstep p k e = pstep q k e'.
Proof.
  intros k e e' Hw Hs He.
  destruct k; cbn [pstep].
  - reflexivity.
  - unfold parse_ruby. start Hs. apply bind_ext; [|reflexivity].
    sim_run Hn. apply rows_cons; [|constructor]. apply row_put.
    intros c c' Hc [Hcs _]. f_equal. apply nodes_text_sim; [exact Hcs|]. rewrite Hc. reflexivity.
  - unfold parse_line. start Hs. rewrite (sim_get _ _ _ Hs).
    destruct (linestyle_of (get e' "Style")); [|reflexivity]. finish Hs Hn.
  - unfold parse_cont. cbn in Hw. pose proof (textual_special _ Hw). apply orb_false_iff in Hw. destruct Hw.
    apply run_sim; [exact Hs|exact He|congruence|assumption|rows|].
    intros. apply reject_sim; [apply sim_name, Hs|assumption].
  - unfold parse_sentence. start Hs.
    finish Hs Hn.
  - unfold parse_column. start Hs. rewrite !(sim_get _ _ _ Hs).
    apply bind_ext; [|reflexivity]. apply parse_all_sim; [exact Hs|rewrite Hn; reflexivity|exact He|].
    intros c c' [? ?]. apply Hpq; [exact I|assumption|assumption].
  - unfold parse_table. start Hs. rewrite !(sim_get _ _ _ Hs). apply bind_ext; [|reflexivity].
    sim_run Hn. apply rows_cons; [apply row_push, agree_header_row|]. rows.
  - unfold parse_table_row. start Hs. sim_run Hn.
  - unfold parse_table_column, border. start Hs. rewrite !(sim_get _ _ _ Hs). finish Hs Hn.
  - unfold parse_remarks. start Hs. apply bind_ext; [|reflexivity].
    sim_run Hn. apply rows_cons; [apply row_some, agree_remarks_label|]. rows.
  - destruct s; (apply struct_sim; [reflexivity|reflexivity|exact Hs|exact He| |]; repeat rows1).
  - apply struct_sim; [reflexivity|reflexivity|exact Hs|exact He| |]; repeat rows1.
  - apply struct_sim; [reflexivity|reflexivity|exact Hs|exact He| |]; repeat rows1.
  - apply list_sim; assumption.
  - unfold parse_class. start Hs. apply bind_ext; [|reflexivity]. sim_run Hn.
    apply rows_cons; [repeat rows1|]. apply rows_cons; [apply row_some, agree_sct; reflexivity|]. rows.
  - unfold parse_item. start Hs. apply bind_ext; [|intros (?&?&?&?&?); reflexivity].
    apply run_sim; [exact Hs|exact He|reflexivity|rewrite Hn; destruct l; reflexivity| |intros; apply reject_sim; [apply sim_name, Hs|assumption]].
    destruct l; unfold item_table, struct_rows; cbn [item_tag append sub_tag sub_item];
      repeat first [apply rows_nil | apply rows_app | apply rows_cons; [first [apply row_some, agree_sct; reflexivity | repeat rows1]|]].
  - unfold parse_paragraph. start Hs. apply bind_ext; [|intros (?&?&?&?&?&?&?&?); reflexivity].
    sim_run Hn. unfold paragraph_table, struct_rows.
    repeat first [apply rows_nil | apply rows_app | apply rows_cons; [first [repeat rows1; fail | idtac]|]].
    intros c c' Hc [Hcs Hch]. unfold h_sentences. apply bind_ext; [|reflexivity].
    apply parse_all_sim; [exact Hcs|rewrite Hc; reflexivity|apply rel_low; split; assumption|]. intros d d' [? ?]. apply Hpq; [exact I|assumption|assumption].
  - unfold parse_article. start Hs.
    assert (Hch : Forall2 sim_node (filter (matters "Article") (children e))
                    (filter (matters "Article") (children e'))).
    { rewrite <- Hn. apply sim_children; [exact Hs|rewrite Hn; reflexivity]. }
    assert (Hh : forall c, In (NElement c) (children e) -> height c < h).
    { intros c Hin. apply height_child in Hin. destruct He. lia. }
    assert (Hg : forall c, In (NElement c) (children e') -> height c < h').
    { intros c Hin. apply height_child in Hin. destruct He. lia. }
    pose proof (article_head_sim _ _ None [] Hch Hh Hg) as A.
    destruct (article_head p (children e) None []) as [(c & t & r)| |];
      destruct (article_head q (children e') None []) as [(c' & t' & r')| |]; try contradiction;
      cbn; [|subst; reflexivity|reflexivity].
    destruct A as (-> & -> & Hr & Hrh & Hrg). apply bind_ext; [|reflexivity].
    rewrite (run_filter _ _ _ _ "Article" r), (run_filter _ _ _ _ "Article" r') by reflexivity.
    apply (run_rel rel); [exact Hr|rows| |].
    + intros c0 c0' Hin Hin' Hc. split; [exact Hc|]. apply filter_In in Hin, Hin'. split; [apply Hrh|apply Hrg]; tauto.
    + intros. apply reject_sim; [apply sim_name, Hs|assumption].
  - apply head_sim; try reflexivity; try assumption. unfold part_table. rows.
  - apply head_sim; try reflexivity; try assumption. unfold chapter_table. rows.
  - apply head_sim; try reflexivity; try assumption. unfold section_table. rows.
  - apply head_sim; try reflexivity; try assumption. unfold subsection_table. rows.
  - apply head_sim; try reflexivity; try assumption. unfold division_table. rows.
  - unfold parse_amend. start Hs. apply bind_ext; [|reflexivity]. sim_run Hn.
    apply rows_cons; [apply row_some, amend_sentence_sim; reflexivity|].
    apply rows_cons; [|constructor]. intros c c' Hc [Hcs Hch].
    apply bind_ext; [|reflexivity].
    apply run_sim; [exact Hcs|apply rel_low; split; assumption|reflexivity|rewrite Hc; reflexivity|unfold new_provision_table; rows|].
    intros. apply reject_sim; [apply sim_name, Hs|assumption].
  - unfold parse_law_title. start Hs. apply bind_ext; [|reflexivity].
    apply text_sim; [exact Hs|exact He|rewrite Hn; reflexivity].
  - unfold parse_preamble. start Hs. sim_run Hn.
  - unfold parse_main. start Hs. finish Hs Hn.
  - unfold parse_suppl. start Hs. rewrite !(sim_get _ _ _ Hs). attrs Hs.
    apply bind_ext; [|reflexivity].
    assert (Rows : rows_rel rel (suppl_table p) (suppl_table q)) by rows.
    assert (G : forall c s, (forall d, In (NElement d) c -> In (NElement d) (children e)) ->
      Forall2 sim_node (filter (matters "SupplProvision") c) (filter (matters "SupplProvision") (children e')) ->
      run no_text (reject e) (suppl_table p) c s = run no_text (reject e') (suppl_table q) (children e') s).
    { intros c s Hsub Hc. rewrite (run_filter _ _ _ _ "SupplProvision" c), (run_filter _ _ _ _ "SupplProvision" (children e')) by reflexivity.
      apply (run_rel rel); [exact Hc|exact Rows| |].
      - intros d d' Hin Hin' Hd. apply filter_In in Hin, Hin'. split; [exact Hd|]. apply (child_low e e'); [exact He|apply Hsub; tauto|tauto].
      - intros. apply reject_sim; [apply sim_name; assumption|assumption]. }
    destruct (sim_suppl e e' Hs Hn) as [C | (c & Ec & C)]; [apply G; auto|].
    rewrite Ec. cbn [run]. apply G; [|exact C]. intros d Hd. rewrite Ec. right. exact Hd.
  - apply suppl_ts_sim; try reflexivity; try assumption; [repeat rows1|].
    intros c c' Hc. unfold wrong_tag_name. rewrite Hc. reflexivity.
  - apply suppl_ts_sim; try reflexivity; try assumption; [repeat rows1|].
    intros. apply reject_sim; [apply sim_name, Hs|assumption].
  - unfold parse_suppl_appdx. start Hs. apply bind_ext; [|reflexivity]. sim_run Hn.
  - apply appdx_sim; try reflexivity; try assumption. unfold appdx_table_rows. rows.
  - apply appdx_sim; try reflexivity; try assumption. unfold appdx_note_rows. rows.
  - apply appdx_sim; try reflexivity; try assumption. unfold appdx_style_rows. rows.
  - apply appdx_sim; try reflexivity; try assumption. unfold appdx_format_rows. rows.
  - unfold parse_appdx. start Hs. apply bind_ext; [|reflexivity]. sim_run Hn.
  - unfold parse_appdx_fig. start Hs. apply bind_ext; [|reflexivity]. sim_run Hn.
  - unfold parse_toc. start Hs. apply bind_ext; [|reflexivity]. sim_run Hn.
  - apply toc_head_sim; try reflexivity; try assumption. unfold toc_part_rows. rows.
  - apply toc_head_sim; try reflexivity; try assumption. unfold toc_chapter_rows. rows.
  - apply toc_head_sim; try reflexivity; try assumption. unfold toc_section_rows. rows.
  - apply toc_head_sim; try reflexivity; try assumption. unfold toc_subsection_rows. rows.
  - apply toc_head_sim; try reflexivity; try assumption. constructor.
  - unfold parse_toc_article. start Hs. apply bind_ext; [|reflexivity]. sim_run Hn.
  - unfold parse_toc_suppl. start Hs. apply bind_ext; [|reflexivity]. sim_run Hn.
  - unfold parse_law_body. start Hs. apply bind_ext; [|reflexivity]. sim_run Hn.
Qed.
End Step.

(** ** Reading *)
Lemma parse_n_sim : forall n m k e e', well_tagged k e -> sim e e' ->
  height e <= n -> height e' <= m -> parse_n n k e = parse_n m k e'.
Proof.
  induction n as [|n IH]; intros m k e e' Hw Hs Hn Hm.
  - pose proof (height_eq e). lia.
  - destruct m as [|m]; [pose proof (height_eq e'); lia|]. cbn [parse_n].
    apply bind_ext; [|reflexivity]. apply (pstep_sim _ _ (height e) (height e')); [|exact Hw|exact Hs|split; lia].
    intros j c c' Hjc Hcc [Hh Hh']. apply IH; auto; lia.
Qed.

(** The recursion equation of the readers. *)
Theorem parse_unfold : forall k e, well_tagged k e ->
  parse k e = bind (pstep parse k e) (fun f => Ok (mk k f)).
Proof.
  intros k e Hw. unfold parse at 1. rewrite height_eq. cbn [parse_n].
  apply bind_ext; [|reflexivity]. apply (pstep_sim _ _ (height e) (height e)); [|exact Hw|apply sim_refl|split; lia].
  intros j c c' Hj Hc [Hh Hh']. unfold parse.
  apply parse_n_sim; [assumption|assumption| |lia]. rewrite (height_eq e) in Hh. lia.
Qed.

(** [sim]ilar trees are read alike. *)
Theorem parse_sim : forall k e e', well_tagged k e -> sim e e' -> parse k e = parse k e'.
Proof. intros k e e' Hw Hs. unfold parse. apply parse_n_sim; auto. Qed.

Theorem parse_law_sim : forall e e', sim e e' -> parse_law e = parse_law e'.
Proof.
  intros e e' Hs. unfold parse_law.
  apply with_name_ext; [apply sim_name, Hs|]. intros Hn.
  assert (Hm : special (name e) = false) by (rewrite Hn; reflexivity).
  rewrite !(sim_get _ _ _ Hs), (sim_name _ _ Hs), (attr_parse_sim _ _ _ _ _ Hs).
  repeat (apply bind_ext; [reflexivity|intros ?]).
  pose proof (sim_leading _ _ Hs Hm) as L. pose proof (sim_children _ _ Hs Hm) as C0.
  rewrite Hn in L, C0. vm_compute (leading _) in L.
  assert (FT : forall s l, filter (matters "Law") (NText s :: l) = filter (matters "Law") l)
    by reflexivity.
  destruct (children e) as [|[t| |] r]; destruct (children e') as [|[t'| |] r'];
    try discriminate; try reflexivity.
  cbn in C0. inversion C0 as [|x x' l l' Ht Hr]; subst. inversion Ht as [? ? Htt|]; subst.
  rewrite <- (sim_name _ _ Htt).
  destruct (String.eqb_spec (name t) "LawNum") as [Et|]; [|reflexivity].
  destruct r as [|[b| |] r]; destruct r' as [|[b'| |] r'];
    try discriminate; try reflexivity.
  cbn in Hr. inversion Hr as [|y y' m m' Hb _]; subst. inversion Hb as [? ? Hbb|]; subst.
  rewrite (parse_sim KLawBody b b' I Hbb), (nodes_text_sim t t' Htt); [reflexivity|].
  rewrite Et. reflexivity.
Qed.

(** The arrangement of the attributes of one element. *)
Lemma nodes_sim_refl : forall n l, Forall2 sim_node (filter (matters n) l) (filter (matters n) l).
Proof.
  intros n l. induction l as [|[c|s|s] r IH]; cbn [filter matters].
  - constructor.
  - constructor; [constructor; apply sim_refl|assumption].
  - destruct (negb (structural n)); [|assumption].
    constructor; [constructor|assumption].
  - assumption.
Qed.

Lemma attributes_sim : forall n a a' c,
  (forall x, assoc x a = assoc x a') ->
  parse_law (mkElement n a c) = parse_law (mkElement n a' c) /\
  forall k, well_tagged k (mkElement n a c) ->
    parse k (mkElement n a c) = parse k (mkElement n a' c).
Proof.
  intros n a a' c H.
  assert (S : sim (mkElement n a c) (mkElement n a' c)).
  { constructor; [exact H|apply nodes_sim_refl|reflexivity]. }
  split; [apply parse_law_sim, S|]. intros k Hw. apply parse_sim; assumption.
Qed.

Lemma delete_sim : forall k n a c,
  well_tagged k (mkElement n a c) -> structural n = true ->
  Forall (fun x => shape_of x = ShElement) (firstn (leading n) c) ->
  leading n <= List.length (firstn (leading n) c) ->
  parse k (mkElement n a c) = parse k (mkElement n a (only_elements c)).
Proof.
  intros k n a c Hw Hs Hl Hn. apply parse_sim; [assumption|].
  constructor; [reflexivity| |].
  - replace (filter (matters n) (only_elements c)) with (filter (matters n) c);
      [apply nodes_sim_refl|].
    clear - Hs. induction c as [|[e|t|t] r IH]; cbn; [reflexivity| | |];
      rewrite ?Hs; cbn; [f_equal| |]; assumption.
  - clear - Hl Hn. revert c Hl Hn. induction (leading n) as [|m IH]; intros c Hl Hn; [reflexivity|].
    destruct c as [|x c]; cbn in *; [lia|]. inversion Hl as [|? ? Hx Hr]; subst.
    destruct x; try discriminate. cbn. f_equal. apply IH; [assumption|lia].
Qed.
