(** What the XML text of a law keeps of it. *)
From Coq Require Import String Ascii List NArith Bool.
From Verif Require Import Base NumStr BaseFacts Xml Ast XmlWrite XmlParse RoundTripSpec KnotFacts XmlSpec XmlSim
  RoundTripLib RoundTripFacts PlainSpec KeptFacts TidySpec.
Import ListNotations.
Open Scope string_scope.
Open Scope list_scope.

Notation cnode := (fun x => match x with NElement d => NElement (coalesce d) | y => y end).

Lemma coalesce_eq : forall n a c,
  coalesce (mkElement n a c) = mkElement n a (join node_text_in NText (map cnode c)).
Proof. reflexivity. Qed.

Lemma sim_kids : forall n a a' c c', (forall x, assoc x a = assoc x a') -> Forall2 sim_node c c' -> sim (mkElement n a c) (mkElement n a' c').
Proof.
  intros n a a' c c' Ha H. apply sim_element; [exact Ha| |].
  - induction H as [|x y l l' Hx H IH]; [constructor|]. cbn [filter].
    destruct Hx; cbn [matters]; [constructor; [constructor; assumption|exact IH]|].
    destruct (negb (structural n)); [constructor; [constructor|exact IH]|exact IH].
  - f_equal. induction H as [|x y l l' Hx H IH]; [reflexivity|]. cbn [map]. f_equal; [destruct Hx; reflexivity|exact IH].
Qed.

Definition N (l l' : list XMLNode) : Prop := Forall2 sim_node (map cnode l) l'.

Lemma N_nil : N [] [].
Proof. constructor. Qed.
Lemma N_app : forall l m l' m', N l l' -> N m m' -> N (l ++ m) (l' ++ m').
Proof. intros. unfold N in *. rewrite map_app. apply Forall2_app; assumption. Qed.
Lemma N_cons : forall e e' l l', sim (coalesce e) e' -> N l l' -> N (NElement e :: l) (NElement e' :: l').
Proof. intros. constructor; [constructor; assumption|assumption]. Qed.
Lemma N_els : forall X (wr : X -> Element) tr l, (forall x, In x l -> sim (coalesce (wr x)) (wr (tr x))) ->
  N (els wr l) (els wr (map tr l)).
Proof.
  induction l as [|x l IH]; intros H; [constructor|]. apply N_cons; [apply H; left; reflexivity|].
  apply IH. intros y Hy. apply H. right. exact Hy.
Qed.
Lemma N_opt : forall X (wr : X -> Element) tr o, (forall x, o = Some x -> sim (coalesce (wr x)) (wr (tr x))) ->
  N (el_opt wr o) (el_opt wr (option_map tr o)).
Proof. intros X wr tr [x|] H; [|constructor]. apply N_cons; [apply H; reflexivity|constructor]. Qed.

Definition isel (x : XMLNode) : bool := match x with NElement _ => true | _ => false end.
Lemma isel_els : forall X (wr : X -> Element) l, forallb isel (els wr l) = true.
Proof. induction l; [reflexivity|exact IHl]. Qed.
Lemma isel_opt : forall X (wr : X -> Element) o, forallb isel (el_opt wr o) = true.
Proof. destruct o; reflexivity. Qed.
Lemma join_els : forall l, forallb isel l = true -> join node_text_in NText (map cnode l) = map cnode l.
Proof.
  unfold join. induction l as [|x l IH]; intros H; [reflexivity|]. cbn [forallb] in H. apply andb_true_iff in H as [Hx H].
  destruct x; try discriminate Hx. cbn. f_equal. apply IH, H.
Qed.
Lemma tree : forall n a l l', forallb isel l = true -> N l l' -> sim (coalesce (mkElement n a l)) (mkElement n a l').
Proof. intros n a l l' H Hn. rewrite coalesce_eq, join_els by exact H. apply sim_kids; [reflexivity|exact Hn]. Qed.

Section Pieces.
Context {X : Type} (text_in : X -> option string) (as_piece : string -> X) (f : X -> XMLNode) (tx : X -> X).
Hypothesis f_piece : forall s, f (as_piece s) = NText s.
Definition piece_ok (x : X) : Prop :=
  match text_in x with
  | Some s => f x = NText s /\ text_in (tx x) = Some s
  | None => text_in (tx x) = None /\ exists e e', f x = NElement e /\ f (tx x) = NElement e' /\ sim (coalesce e) e'
  end.
Lemma join_pieces : forall l acc, (forall x, In x l -> piece_ok x) ->
  Forall2 sim_node (join_from node_text_in NText acc (map cnode (map f l))) (map f (join_from text_in as_piece acc (map tx l))).
Proof.
  assert (Fl : forall acc, Forall2 sim_node (flush NText acc) (map f (flush as_piece acc))).
  { intros acc. unfold flush. destruct (blank acc); [constructor|]. cbn [map]. rewrite f_piece. repeat constructor. }
  induction l as [|x l IH]; intros acc H; [exact (Fl acc)|].
  assert (Hx : piece_ok x) by (apply H; left; reflexivity).
  assert (Hl : forall x, In x l -> piece_ok x) by (intros y Hy; apply H; right; exact Hy).
  unfold piece_ok in Hx. cbn [map join_from]. destruct (text_in x) as [s|] eqn:Ex.
  - destruct Hx as [-> ->]. cbn [node_text_in]. apply IH, Hl.
  - destruct Hx as (-> & e & e' & -> & Hf & Hs). cbn [node_text_in]. rewrite map_app. apply Forall2_app; [apply Fl|].
    cbn [map]. rewrite Hf. constructor; [constructor; exact Hs|apply IH, Hl].
Qed.
Lemma mixed : forall n a l, (forall x, In x l -> piece_ok x) ->
  sim (coalesce (mkElement n a (map f l))) (mkElement n a (map f (join text_in as_piece (map tx l)))).
Proof. intros n a l H. rewrite coalesce_eq. apply sim_kids; [reflexivity|]. apply join_pieces, H. Qed.
End Pieces.

Lemma allp_flat : forall X (c : X -> list Prop) l, allp (flat_map c l) <-> forall x, In x l -> allp (c x).
Proof.
  induction l as [|x l IH]; cbn [flat_map]; [split; [intros _ x []|intros; exact I]|].
  rewrite allp_app, IH. split.
  - intros [H1 H2] y [-> | Hy]; auto.
  - intros H. split; [apply H; left; reflexivity|intros y Hy; apply H; right; exact Hy].
Qed.

Lemma mark_ok : forall n s, single n = true -> sim (coalesce (mkElement n [] [NText s])) (mkElement n [] [NText (strip s)]).
Proof.
  intros n s Hn. rewrite coalesce_eq. unfold join, strip. cbn [map join_from node_text_in append].
  unfold flush. destruct (blank s).
  - apply sim_empty; [exact Hn|reflexivity].
  - apply sim_refl.
Qed.

Section Step.
Context {K : kind -> Type} (w : forall k, K k -> Element) (t : forall k, K k -> K k).
Definition good (k : kind) (x : K k) : Prop := sim (coalesce (w k x)) (w k (t k x)).

Lemma sup_ok : forall s, sim (coalesce (write_sup s)) (write_sup (strip s)).
Proof. intros. apply mark_ok. reflexivity. Qed.
Lemma sub_ok : forall s, sim (coalesce (write_sub s)) (write_sub (strip s)).
Proof. intros. apply mark_ok. reflexivity. Qed.
Lemma fig_ok : forall s, sim (coalesce (write_fig s)) (write_fig s).
Proof. intros. apply sim_refl. Qed.

Ltac piece := let x := fresh "x" in let Hx := fresh "Hx" in
  intros x Hx;
  match goal with H : allp _ |- _ => 
    let H' := fresh in pose proof (proj1 (allp_flat _ _ _) H x Hx) as H'; clear H Hx;
    destruct x; cbn in H'; unfold piece_ok; cbn;
    (split; [reflexivity|]); try reflexivity;
    (eexists; eexists; split; [reflexivity|split; [reflexivity|]]);
    first [apply sup_ok | apply sub_ok | apply fig_ok | exact (proj1 H')]
  end.

Lemma te_ok : forall x, allp (c_text good x) -> forall y, In y x -> piece_ok te_in (write_text_node w) (t_te t) y.
Proof. intros x H. unfold c_text in H. piece. Qed.
Lemma texts_ok : forall n a x, allp (c_text good x) ->
  sim (coalesce (mkElement n a (write_text_nodes w x))) (mkElement n a (write_text_nodes w (t_text t x))).
Proof. intros n a x H. apply mixed; [reflexivity|]. apply te_ok, H. Qed.
Lemma text_ok : forall n x, allp (c_text good x) -> sim (coalesce (write_text w n x)) (write_text w n (t_text t x)).
Proof. intros. apply texts_ok. assumption. Qed.
Lemma twm_ok : forall n x, allp (c_twm good x) -> sim (coalesce (write_twm w n x)) (write_twm w n (t_twm t x)).
Proof. intros n x H. apply texts_ok. exact H. Qed.
Lemma caption_ok : forall n x, allp (c_caption good x) -> sim (coalesce (write_caption w n x)) (write_caption w n (t_caption t x)).
Proof. intros n x H. apply texts_ok. exact H. Qed.
Lemma sct_ok : forall n s, allp (c_sct good s) -> sim (coalesce (write_sct w n s)) (write_sct w n (t_sct t s)).
Proof.
  intros n s H. unfold write_sct. destruct s as [l|l|v]; cbn [t_sct c_sct] in *.
  - apply tree; [apply isel_els|]. apply N_els. intros x Hx. exact (proj1 (allp_map _ _ _) H x Hx).
  - apply tree; [apply isel_els|]. apply N_els. intros x Hx. exact (proj1 (allp_map _ _ _) H x Hx).
  - apply tree; [reflexivity|]. apply N_cons; [exact (proj1 H)|constructor].
Qed.
Lemma header_row_ok : forall r, allp (flat_map (c_text good) r) -> sim (coalesce (write_header_row w r)) (write_header_row w (map (t_text t) r)).
Proof.
  intros r H. apply tree; [apply isel_els|]. apply N_els. intros x Hx. apply text_ok. exact (proj1 (allp_flat _ _ _) H x Hx).
Qed.

Ltac isel_tac := repeat (cbn [forallb isel app]; rewrite ?forallb_app, ?isel_els, ?isel_opt); reflexivity.
Ltac split_all := repeat match goal with H : allp (_ ++ _) |- _ => apply allp_app in H as [? ?] end.
Ltac child := first
  [ assumption
  | match goal with H : allp [good _ ?v] |- _ => exact (proj1 H) end
  | match goal with H : allp (map (good _) _), Hx : In ?x _ |- _ => exact (proj1 (allp_map _ _ _) H x Hx) end
  | match goal with H : allp (flat_map _ _), Hx : In ?x _ |- _ =>
      let H' := fresh in pose proof (proj1 (allp_flat _ _ _) H x Hx) as H';
      first [exact (proj1 H') | destruct x; exact (proj1 H') | destruct x; cbn in H'; first [exact (proj1 H') | apply text_ok; exact H']
      | apply text_ok; exact H' | apply header_row_ok; exact H'] end
  | match goal with H : allp (c_opt _ ?o), E : ?o = Some ?x |- _ => rewrite E in H; cbn in H; first [exact (proj1 H) | apply text_ok; exact H | apply twm_ok; exact H | apply caption_ok; exact H] end
  | apply text_ok; assumption | apply twm_ok; assumption | apply caption_ok; assumption
  | apply sct_ok; assumption | apply fig_ok ].
Ltac nodes := repeat first
  [ apply N_app | apply N_nil
  | apply N_els; let x := fresh "x" in let Hx := fresh "Hx" in intros x Hx; try child
  | apply N_opt; let x := fresh "x" in let Hx := fresh "Hx" in intros x Hx; try child
  | apply N_cons; [try child|] ].
Ltac trees := unfold c_struct, c_head, c_sts, c_appdx_t, c_toc_head in *; apply tree; [isel_tac|split_all; nodes].

Theorem tidy_step : forall k f, allp (collect good k f) ->
  sim (coalesce (wstep w k f)) (wstep w k (tstep t k f)).
Proof.
  intros k f H. destruct k; cbn [collect wstep tstep] in *.
  - destruct f.
  - (* ruby *) unfold write_ruby. cbn [ruby_text ruby_ruby]. rewrite coalesce_eq. apply sim_kids; [reflexivity|].
    assert (G : forall l acc, (forall x, In x l -> piece_ok te_in (write_text_node w) (t_te t) x) ->
      Forall2 sim_node (join_from node_text_in NText acc (map cnode (map (write_text_node w) l ++ [NElement (mkElement "Rt" [] [NText (ruby_ruby f)])])))
       (map (write_text_node w) (join_from te_in (@TE_Text K) acc (map (t_te t) l)) ++ [NElement (mkElement "Rt" [] [NText (strip (ruby_ruby f))])])).
    { intros l acc Hl.
      pose proof (join_pieces te_in (@TE_Text K) (write_text_node w) (t_te t) (fun s => eq_refl) l acc Hl) as P.
      assert (E : forall l acc e, join_from node_text_in NText acc (l ++ [NElement e]) = join_from node_text_in NText acc l ++ [NElement e]).
      { induction l0 as [|y l0 IH]; intros acc0 e; cbn [app join_from node_text_in]; [reflexivity|].
        destruct y; cbn [node_text_in]; rewrite IH; rewrite <- ?app_assoc; reflexivity. }
      rewrite map_app. cbn [map]. rewrite E. apply Forall2_app; [exact P|]. constructor; [|constructor]. constructor. apply mark_ok. reflexivity. }
    apply G, te_ok, H.
  - apply mixed; [reflexivity|]. piece.
  - apply mixed; [reflexivity|]. piece.
  - apply mixed; [reflexivity|]. piece.
  - trees.
  - trees.
  - trees.
  - apply mixed; [reflexivity|]. piece.
  - apply allp_app in H as [H1 H2]. trees.
  - trees.
  - trees.
  - trees.
  - unfold write_list. cbn [list_sentence list_children]. trees. apply tree; [apply isel_els|]. nodes.
  - trees.
  - trees.
  - trees. apply tree; [apply isel_els|]. nodes.
  - trees.
  - trees.
  - trees.
  - trees.
  - trees.
  - trees.
  - (* amend *) trees. apply tree; [reflexivity|]. nodes. apply tree; [reflexivity|]. nodes.
  - apply texts_ok, H.
  - trees.
  - trees.
  - (* suppl *) apply allp_app in H as [H1 H2]. unfold write_suppl. cbn [sp_label sp_children sp_type sp_amend_law_num sp_extract].
    destruct (sp_label f) as [|x l] eqn:El.
    { change (t_text t []) with (@nil (TextElement K)). cbv iota. cbn [app]. trees. }
    pose proof (text_ok "SupplProvisionLabel" (x :: l) H1) as P.
    destruct (t_text t (x :: l)) as [|y l'] eqn:Et.
    { cbn [app]. rewrite coalesce_eq. rewrite join_els by isel_tac. cbn [map].
      set (e := coalesce _) in P |- *. assert (E : e = mkElement "SupplProvisionLabel" [] []).
      { pose proof (texts_ok "ArticleTitle" [] (x :: l) H1) as Q. rewrite Et in Q. unfold e, write_text in *. rewrite coalesce_eq in *.
        f_equal. destruct (join node_text_in NText (map cnode (write_text_nodes w (x :: l)))) as [|z zs] eqn:Ej; [reflexivity|].
        exfalso. pose proof (join_pieces te_in (@TE_Text K) (write_text_node w) (t_te t) (fun s => eq_refl) (x :: l) "" (te_ok _ H1)) as J.
        unfold t_text, join in *. rewrite Et in J. unfold write_text_nodes in Ej. rewrite Ej in J. inversion J. }
      rewrite E. apply sim_label; [reflexivity|].
      assert (J : N (els (write_suppl_node w) (sp_children f)) (els (write_suppl_node w) (map (t_sp t) (sp_children f)))) by nodes.
      clear - J. unfold N in J. induction J as [|a b l l' Ha J IH]; [constructor|]. cbn [filter].
      destruct Ha; cbn; [constructor; [constructor; assumption|exact IH]|exact IH]. }
    cbn [app]. apply tree; [isel_tac|]. apply N_cons; [exact P|]. nodes.
  - trees.
  - trees.
  - trees.
  - trees.
  - trees.
  - trees.
  - trees.
  - trees.
  - trees.
  - trees.
  - trees.
  - trees.
  - trees.
  - trees.
  - trees.
  - trees.
  - trees.
  - trees.
Qed.
End Step.

(** ** Unfolding *)
Lemma tidy_unfold : forall k f, tidy k (mk k f) = mk k (tstep tidy k f).
Proof. destruct k; try reflexivity. intros []. Qed.

Theorem tidy_sim : forall k x, sim (coalesce (write k x)) (write k (tidy k x)).
Proof.
  intros k x. pattern k, x. revert k x. apply knot_ind. intros k f IH.
  rewrite tidy_unfold, !write_unfold. apply tidy_step.
  rewrite collect_kids, allp_map. intros [j y] Hy. apply IH, Hy.
Qed.

Theorem tidy_law_sim : forall l, sim (coalesce (write_law l)) (write_law (tidy_law l)).
Proof.
  intros l. unfold write_law. apply tree; [reflexivity|].
  apply N_cons; [apply mark_ok; reflexivity|]. apply N_cons; [apply tidy_sim|]. constructor.
Qed.

Lemma same_sim : forall e e', same e e' -> sim e e'.
Proof.
  intros e. induction e as [e IH] using element_ind_height. intros e' H. destruct H as [n a a' c c' Ha Hc].
  assert (G : forall l l', (forall d, In (NElement d) l -> In (NElement d) c) -> Forall2 same_node l l' ->
    Forall2 sim_node (filter (matters n) l) (filter (matters n) l')).
  { intros l l' Hl H. induction H as [|x y l l' Hx H IHl]; [constructor|].
    assert (IHl' : Forall2 sim_node (filter (matters n) l) (filter (matters n) l')).
    { apply IHl. intros d Hd. apply Hl. right. exact Hd. }
    cbn [filter]. destruct Hx as [d d' Hd|s|s]; cbn [matters].
    - constructor; [|exact IHl']. constructor. apply IH; [|exact Hd]. apply height_child. apply Hl. left. reflexivity.
    - destruct (negb (structural n)); [constructor; [constructor|exact IHl']|exact IHl'].
    - exact IHl'. }
  apply sim_element; [exact Ha|apply G; [auto|exact Hc]|].
  f_equal. clear - Hc. induction Hc as [|x y l l' Hx H IH]; [reflexivity|]. cbn [map]. f_equal; [destruct Hx; reflexivity|exact IH].
Qed.

(** ** Reading the text is reading the tidy law *)
Theorem read_tidy : forall l e, same e (coalesce (write_law l)) -> parse_law e = parse_law (write_law (tidy_law l)).
Proof.
  intros l e H. transitivity (parse_law (coalesce (write_law l))); apply parse_law_sim; [apply same_sim, H|apply tidy_law_sim].
Qed.

(** ** The parts of a tidy law *)
Section Parts.
Context {K : kind -> Type} (t : forall k, K k -> K k) {L : Type} (g : forall k, K k -> L).
Notation h := (fun k x => g k (t k x)).

Lemma flat_join : forall X (ti : X -> option string) ap (c c' : X -> list L) tx l acc,
  (forall s, c (ap s) = []) -> (forall x s, ti (tx x) = Some s -> c' x = []) -> (forall x, ti (tx x) = None -> c (tx x) = c' x) ->
  flat_map c (join_from ti ap acc (map tx l)) = flat_map c' l.
Proof.
  intros X ti ap c c' tx l acc H1 H2 H3.
  assert (Fl : forall a, flat_map c (flush ap a) = []) by (intros a; unfold flush; destruct (blank a); cbn; rewrite ?H1; reflexivity).
  revert acc. induction l as [|x l IH]; intros acc; cbn [map join_from flat_map]; [apply Fl|].
  destruct (ti (tx x)) as [s|] eqn:E.
  - rewrite (H2 x s E). apply IH.
  - rewrite flat_map_app, Fl. cbn [flat_map app]. rewrite (H3 x E), IH. reflexivity.
Qed.
Lemma flat_map_map : forall X Y (c : Y -> list L) (f : X -> Y) l, flat_map c (map f l) = flat_map (fun x => c (f x)) l.
Proof. induction l as [|x l IH]; cbn; [reflexivity|]. rewrite IH. reflexivity. Qed.
Lemma flat_ext : forall X (c c' : X -> list L) l, (forall x, c x = c' x) -> flat_map c l = flat_map c' l.
Proof. intros X c c' l H. induction l as [|x l IH]; cbn; [reflexivity|]. rewrite H, IH. reflexivity. Qed.
Lemma c_opt_map : forall X (c c' : X -> list L) f o, (forall x, c (f x) = c' x) -> c_opt c (option_map f o) = c_opt c' o.
Proof. intros X c c' f [x|] H; cbn; auto. Qed.

Ltac jn := apply flat_join; [reflexivity|intros [] ?; cbn; intros E; try discriminate E; reflexivity|intros []; cbn; intros E; try discriminate E; reflexivity].
Lemma p_text_nat : forall x, c_text g (t_text t x) = c_text h x.
Proof. intros x. unfold c_text, t_text, join. jn. Qed.
Lemma p_twm_nat : forall x, c_twm g (t_twm t x) = c_twm h x.
Proof. intros x. apply p_text_nat. Qed.
Lemma p_caption_nat : forall x, c_caption g (t_caption t x) = c_caption h x.
Proof. intros x. apply p_text_nat. Qed.
Lemma p_sct_nat : forall x, c_sct g (t_sct t x) = c_sct h x.
Proof. intros []; cbn; rewrite ?map_map; reflexivity. Qed.

Ltac one := first
  [ reflexivity | apply p_text_nat | apply p_twm_nat | apply p_caption_nat | apply p_sct_nat
  | rewrite map_map; reflexivity
  | apply c_opt_map; intros; first [reflexivity | apply p_text_nat | apply p_twm_nat | apply p_caption_nat]
  | rewrite flat_map_map; apply flat_ext; intros []; cbn; first [reflexivity | apply p_text_nat]
  | rewrite flat_map_map; apply flat_ext; intros ?; first [reflexivity | apply p_text_nat]
  | rewrite flat_map_map; apply flat_ext; intros ?; rewrite flat_map_map; apply flat_ext; intros ?; apply p_text_nat
  | unfold join; jn ].
Ltac parts := repeat (apply (f_equal2 (@app L))); one.

Theorem tidy_collect : forall k f, collect g k (tstep t k f) = collect h k f.
Proof.
  intros k f. destruct k; cbn [collect tstep]; unfold c_struct, c_head, c_sts, c_appdx_t, c_toc_head;
    cbn [t_struct t_head t_sts t_appdx_t t_toc_head st_title st_title_remarks st_body st_remarks hd_title hd_children
      sts_title sts_related sts_children ax_title ax_related ax_children ax_remarks th_title th_range th_children ruby_text
      line_contents sen_contents col_sentence tb_header tb_row tc_contents rem_label rem_children rl_text list_sentence list_children
      class_title class_sentence class_children it_title it_sentence it_children it_struct_list par_caption par_paragraph_num
      par_sentence par_amend_provision par_class par_struct_list par_children art_caption art_title art_paragraph art_suppl_note
      am_sentence am_new lt_text main_children sp_label sp_children sa_arith_formula_num sa_related sa_arith_formula
      ap_arith_formula_num ap_related ap_arith_formula ap_remarks af_title af_related af_children toc_label toc_preamble_label
      toc_main toc_suppl toc_appdx_table_label ta_title ta_caption ts_label ts_range ts_children
      lb_law_title lb_enact_statement lb_toc lb_preamble lb_main_provision lb_suppl_provision lb_appdx_table lb_appdx_note
      lb_appdx_style lb_appdx lb_appdx_fig lb_appdx_format]; parts.
Qed.
End Parts.

Definition tnode (n : Node) : Node := node (projT1 n) (tidy (projT1 n) (projT2 n)).

Lemma kids_tidy : forall k f, kids k (tstep tidy k f) = map tnode (kids k f).
Proof. intros k f. unfold kids at 1. rewrite tidy_collect. apply (collect_kids Node (fun k x => node k (tidy k x))). Qed.

Lemma part_tidy : forall k x n, part_of n (node k (tidy k x)) -> exists m, n = tnode m /\ part_of m (node k x).
Proof.
  intros k x. pattern k, x. revert k x. apply knot_ind. intros k f IH [j y] H. rewrite tidy_unfold in H.
  apply part_of_kids in H as [E | (i & z & Hi & Hp)].
  - exists (node k (mk k f)). split; [|constructor]. etransitivity; [exact E|]. unfold tnode. cbn. rewrite tidy_unfold. reflexivity.
  - rewrite kids_tidy in Hi. apply in_map_iff in Hi as ([i' z'] & E & Hi). rewrite <- E in Hp.
    destruct (IH i' z' Hi _ Hp) as (m & Em & Hm). exists m. split; [exact Em|]. destruct m as [jm ym].
    apply part_of_kids. right. exists i', z'. split; assumption.
Qed.

(** ** Storable parts *)
Lemma forallb_join : forall X (ti : X -> option string) ap (c : X -> bool) tx l acc,
  (forall s, c (ap s) = true) -> (forall x s, ti (tx x) = Some s -> c x = true) -> (forall x, ti (tx x) = None -> c (tx x) = c x) ->
  forallb c (join_from ti ap acc (map tx l)) = forallb c l.
Proof.
  intros X ti ap c tx l acc H1 H2 H3.
  assert (Fl : forall a, forallb c (flush ap a) = true) by (intros a; unfold flush; destruct (blank a); cbn; rewrite ?H1; reflexivity).
  revert acc. induction l as [|x l IH]; intros acc; cbn [map join_from forallb]; [apply Fl|].
  destruct (ti (tx x)) as [s|] eqn:E.
  - rewrite (H2 x s E). apply IH.
  - rewrite forallb_app, Fl. cbn [forallb andb]. rewrite (H3 x E), IH. reflexivity.
Qed.
Lemma is_nil_map : forall X Y (f : X -> Y) l, is_nil (map f l) = is_nil l.
Proof. destruct l; reflexivity. Qed.
Lemma is_none_map : forall X Y (f : X -> Y) o, is_none (option_map f o) = is_none o.
Proof. destruct o; reflexivity. Qed.

Theorem tidy_storable : forall K (t : forall k, K k -> K k) k f, storable k (tstep t k f) = storable k f.
Proof.
  intros K t k f.
  assert (S : forall s : SentenceOrColumnOrTable K, sct_full (t_sct t s) = sct_full s).
  { intros []; cbn; rewrite ?is_nil_map; reflexivity. }
  destruct k; try reflexivity; cbn [storable tstep];
    cbn [ruby_text line_style line_contents sen_num sen_contents col_num class_sentence it_num it_sentence art_num art_paragraph
      art_suppl_note am_new ap_related ap_arith_formula toc_preamble_label tc_border_top tc_border_bottom tc_border_left
      tc_border_right tc_align tc_valign]; rewrite ?S, ?is_nil_map, ?is_none_map; try reflexivity; unfold t_text, join.
  - apply forallb_join; [reflexivity|intros [] ?; cbn; intros E; try discriminate E; reflexivity|intros []; cbn; intros E; try discriminate E; reflexivity].
  - f_equal. apply forallb_join; [reflexivity|intros [] ?; cbn; intros E; try discriminate E; reflexivity|intros []; cbn; intros E; try discriminate E; reflexivity].
  - apply forallb_join; [reflexivity|intros [] ?; cbn; intros E; try discriminate E; reflexivity|intros []; cbn; intros E; try discriminate E; reflexivity].
  - f_equal. apply forallb_join; [reflexivity|intros [] ?; cbn; intros E; try discriminate E; reflexivity|intros []; cbn; intros E; try discriminate E; reflexivity].
  - f_equal. induction (ap_arith_formula f) as [|a l IH]; [reflexivity|]. cbn [map forallb]. rewrite IH. reflexivity.
Qed.

Theorem tidy_survives : forall k x, survives k (tidy k x) <-> survives k x.
Proof.
  intros k x. pattern k, x. revert k x. apply knot_ind. intros k f IH.
  rewrite tidy_unfold, !survives_unfold, tidy_storable. split; intros [H1 H2]; (split; [exact H1|]).
  - intros j y Hy. apply IH; [exact Hy|]. apply H2. rewrite kids_tidy. apply (in_map tnode _ (node j y)), Hy.
  - intros j y Hy. rewrite kids_tidy in Hy. apply in_map_iff in Hy as ([i z] & E & Hi).
    assert (G : survives (projT1 (tnode (existT _ i z))) (projT2 (tnode (existT _ i z)))).
    { cbn. apply IH; [exact Hi|]. apply H2, Hi. }
    rewrite E in G. exact G.
Qed.

Theorem tidy_law_survives : forall l, law_survives (tidy_law l) <-> law_survives l.
Proof. intros l. unfold law_survives, tidy_law. cbn [law_year law_no law_promulgate_month law_promulgate_day law_body]. rewrite tidy_survives. reflexivity. Qed.

(** ** Item numbers *)
Definition num_of (n : Node) : option ArticleNumber :=
  match projT1 n as k return Knot k -> option ArticleNumber with
  | KItem l => fun y => it_num (un (KItem l) y)
  | _ => fun _ => None
  end (projT2 n).
Lemma num_of_tidy : forall n, num_of (tnode n) = num_of n.
Proof.
  intros [k x]. rewrite <- (mk_un k x). unfold tnode. cbn [projT1 projT2]. rewrite tidy_unfold. generalize (un k x). intros f.
  destruct k; reflexivity.
Qed.
Lemma item_nums_node : forall k x, item_nums k x <-> forall n a, part_of n (node k x) -> num_of n = Some a ->
  Forall (fun n => n < 2 ^ 64)%N (base_number a :: eda_numbers a ++ range_end_numbers a).
Proof.
  intros k x. split.
  - intros H [j y] a Hp Ha. destruct j; try discriminate Ha. exact (H l y a Hp Ha).
  - intros H l y a Hp Ha. exact (H (node (KItem l) y) a Hp Ha).
Qed.
Lemma tidy_item_nums : forall k x, item_nums k x -> item_nums k (tidy k x).
Proof.
  intros k x H. rewrite item_nums_node in H |- *. intros n a Hp Ha. apply part_tidy in Hp as (m & -> & Hm).
  apply (H m a Hm). rewrite <- num_of_tidy. exact Ha.
Qed.

(** ** The round trip through the text *)
Theorem text_round_trip : forall l e, same e (coalesce (write_law l)) -> law_survives l -> parse_law e = Ok (tidy_law l).
Proof. intros l e He H. rewrite (read_tidy l e He). apply law_read_write_iff, tidy_law_survives, H. Qed.

Theorem text_round_trip_iff : forall l e, same e (coalesce (write_law l)) ->
  (parse_law e = Ok l <-> law_survives l /\ tidy_law l = l).
Proof.
  intros l e He. split.
  - intros H. assert (Hs : law_survives l).
    { apply law_read_write_iff. rewrite (read_tidy l e He) in H. eapply written_law_stable; [|exact H].
      apply tidy_item_nums. destruct (law_body_inside _ _ H) as (b & _ & Hb). eapply read_item_nums; [exact I|exact Hb]. }
    split; [exact Hs|]. apply ok_inj. rewrite <- (text_round_trip l e He Hs). exact H.
  - intros [Hs E]. rewrite <- E at 1. apply text_round_trip; assumption.
Qed.

(** ** What is tidy stays so *)
Lemma strip_idem : forall s, strip (strip s) = strip s.
Proof. intros s. unfold strip. destruct (blank s) eqn:E; [reflexivity|rewrite E; reflexivity]. Qed.

Lemma join_idem : forall X (ti : X -> option string) ap l acc, (forall s, ti (ap s) = Some s) ->
  join_from ti ap "" (join_from ti ap acc l) = join_from ti ap acc l.
Proof.
  intros X ti ap l acc H. revert acc. induction l as [|x l IH]; intros acc; cbn [join_from].
  - unfold flush. destruct (blank acc) eqn:E; [reflexivity|]. cbn [join_from]. rewrite H. cbn [append]. unfold flush. rewrite E. reflexivity.
  - destruct (ti x) as [s|] eqn:Ex; [apply IH|]. unfold flush at 1. destruct (blank acc) eqn:E; cbn [app join_from].
    + rewrite Ex, IH. unfold flush. rewrite E. reflexivity.
    + rewrite H. cbn [append]. rewrite Ex, IH. reflexivity.
Qed.

Lemma map_join : forall X (ti : X -> option string) ap tx l acc, (forall s, tx (ap s) = ap s) ->
  (forall x, In x l -> ti x = None -> tx x = x) -> map tx (join_from ti ap acc l) = join_from ti ap acc l.
Proof.
  intros X ti ap tx l acc H.
  assert (Fl : forall a, map tx (flush ap a) = flush ap a) by (intros a; unfold flush; destruct (blank a); cbn; rewrite ?H; reflexivity).
  revert acc. induction l as [|x l IH]; intros acc Hl; cbn [join_from]; [apply Fl|].
  destruct (ti x) as [s|] eqn:Ex; [apply IH; intros; apply Hl; [right|]; assumption|].
  rewrite map_app, Fl. cbn [map]. rewrite (Hl x (or_introl eq_refl) Ex), IH; [reflexivity|]. intros; apply Hl; [right|]; assumption.
Qed.

Section Idem.
Context {K : kind -> Type} (t : forall k, K k -> K k).
Definition idem (k : kind) (x : K k) : Prop := t k (t k x) = t k x.

Lemma pieces_idem : forall X (ti : X -> option string) ap (c : X -> list Prop) tx l,
  (forall s, ti (ap s) = Some s) -> (forall s, tx (ap s) = ap s) ->
  (forall x, allp (c x) -> tx (tx x) = tx x) -> allp (flat_map c l) ->
  join ti ap (map tx (join ti ap (map tx l))) = join ti ap (map tx l).
Proof.
  intros X ti ap c tx l H1 H2 H3 H. unfold join. rewrite map_join; [apply join_idem, H1|exact H2|].
  intros x Hx _. apply in_map_iff in Hx as (y & <- & Hy). apply H3. exact (proj1 (allp_flat _ _ _) H y Hy).
Qed.
Ltac elt := let x := fresh in let H := fresh in intros x H; destruct x; cbn in *; unfold t_arith in *; cbn in *; rewrite ?strip_idem; try reflexivity; f_equal; try exact (proj1 H); f_equal; exact (proj1 H).
Lemma text_idem : forall x, allp (c_text idem x) -> t_text t (t_text t x) = t_text t x.
Proof. intros x H. unfold t_text. eapply pieces_idem; [reflexivity|reflexivity| |exact H]. elt. Qed.
Lemma twm_idem : forall x, allp (c_twm idem x) -> t_twm t (t_twm t x) = t_twm t x.
Proof. intros x H. unfold t_twm. cbn. f_equal. apply text_idem, H. Qed.
Lemma caption_idem : forall x, allp (c_caption idem x) -> t_caption t (t_caption t x) = t_caption t x.
Proof. intros x H. unfold t_caption. cbn. f_equal. apply text_idem, H. Qed.
Lemma map_idem : forall X (f : X -> X) l, (forall x, In x l -> f (f x) = f x) -> map f (map f l) = map f l.
Proof. intros X f l H. rewrite map_map. apply map_ext_in. exact H. Qed.
Lemma kids_idem : forall k l, allp (map (idem k) l) -> map (t k) (map (t k) l) = map (t k) l.
Proof. intros k l H. apply map_idem. intros x Hx. exact (proj1 (allp_map _ _ _) H x Hx). Qed.
Lemma flat_idem : forall X (c : X -> list Prop) f l, (forall x, allp (c x) -> f (f x) = f x) -> allp (flat_map c l) -> map f (map f l) = map f l.
Proof. intros X c f l Hf H. apply map_idem. intros x Hx. apply Hf. exact (proj1 (allp_flat _ _ _) H x Hx). Qed.
Lemma opt_idem : forall X (c : X -> list Prop) f o, (forall x, allp (c x) -> f (f x) = f x) -> allp (c_opt c o) ->
  option_map f (option_map f o) = option_map f o.
Proof. intros X c f [x|] Hf H; [|reflexivity]. cbn. f_equal. apply Hf, H. Qed.
Lemma sct_idem : forall s, allp (c_sct idem s) -> t_sct t (t_sct t s) = t_sct t s.
Proof. intros [l|l|v] H; cbn in *; f_equal; try (apply kids_idem, H). exact (proj1 H). Qed.

Ltac kid := first
  [ elt | exact (fun x h => proj1 h) | exact text_idem | exact twm_idem | exact caption_idem
  | let h := fresh in intros ? h; eapply flat_idem; [exact text_idem|exact h] ].
Ltac field := first
  [ reflexivity | apply strip_idem | apply text_idem; assumption | apply twm_idem; assumption | apply caption_idem; assumption
  | apply sct_idem; assumption | apply kids_idem; assumption
  | match goal with H : allp [idem _ _] |- _ => exact (proj1 H) end
  | eapply opt_idem; [|eassumption]; kid
  | eapply flat_idem; [|eassumption]; kid
  | eapply pieces_idem; [reflexivity|reflexivity| |eassumption]; elt ].

Theorem tstep_idem : forall k f, allp (collect idem k f) -> tstep t k (tstep t k f) = tstep t k f.
Proof.
  intros k f H. destruct k; cbn [collect] in H; unfold c_struct, c_head, c_sts, c_appdx_t, c_toc_head in H;
    repeat match goal with H : allp (_ ++ _) |- _ => apply allp_app in H as [? ?] end;
    cbn [tstep]; unfold t_struct, t_head, t_sts, t_appdx_t, t_toc_head; 
    try (f_equal; field); try field.
  all: f_equal; try field.
  - f_equal. cbn [rem_label rl_text]. apply text_idem. assumption.
  - eapply flat_idem; [|eassumption]. intros x Hx. destruct x; cbn in *; f_equal; first [exact (proj1 Hx) | apply text_idem, Hx].
Qed.
End Idem.

Theorem tidy_idem : forall k x, tidy k (tidy k x) = tidy k x.
Proof.
  intros k x. pattern k, x. revert k x. apply knot_ind. intros k f IH. rewrite !tidy_unfold. f_equal. apply tstep_idem.
  rewrite collect_kids, allp_map. intros [j y] Hy. apply IH, Hy.
Qed.
Theorem tidy_law_idem : forall l, tidy_law (tidy_law l) = tidy_law l.
Proof.
  intros l. unfold tidy_law. cbn [law_era law_year law_no law_promulgate_month law_promulgate_day law_type law_lang law_num law_body].
  rewrite strip_idem, tidy_idem. reflexivity.
Qed.
