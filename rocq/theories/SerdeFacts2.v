(** What does not matter in a document; the table of all implementations. *)
From Coq Require Import String List NArith Bool Lia Arith Permutation.
From Verif Require Import Base NumStr Ast NumText Utils RoundTripSpec KnotFacts Serde SerdeSpec SerdeLib SerdeFacts.
Import ListNotations.
Open Scope string_scope.
Open Scope list_scope.

(** ** The order of entries *)
Lemma with_key_perm : forall n l m, Permutation l m -> Permutation (with_key n l) (with_key n m).
Proof.
  intros n l m H. induction H as [|[k v] l m _ IH|[k v] [k' v'] l|l m o _ IH1 _ IH2]; cbn [with_key].
  - constructor.
  - destruct (String.eqb k n); [constructor|]; exact IH.
  - destruct (String.eqb k n), (String.eqb k' n); try reflexivity. apply perm_swap.
  - transitivity (with_key n m); assumption.
Qed.
Lemma with_key_pairs : forall n l m,
  Forall2 (fun a b : string * json => fst a = fst b /\ reordered (snd a) (snd b)) l m ->
  Forall2 reordered (with_key n l) (with_key n m).
Proof.
  intros n l m H. induction H as [|[k v] [k' v'] l m (E & R) _ IH]; [constructor|]. cbn [fst snd] in *. subst k'.
  cbn [with_key]. destruct (String.eqb k n); [constructor; assumption|exact IH].
Qed.

Lemma fields_form_related : forall fs l m (R : json -> json -> Prop),
  (forall v v', R v v' -> forall n, In (n, v) l -> forall t, form t v = form t v') ->
  (forall n, exists k, Forall2 R (with_key n l) k /\ Permutation k (with_key n m)) ->
  fields_form form fs l = fields_form form fs m.
Proof.
  intros fs l m R HR H. induction fs as [|[n t] r IH]; [reflexivity|]. cbn [fields_form]. rewrite IH.
  assert (E : field_form form t (with_key n l) = field_form form t (with_key n m)).
  { destruct (H n) as (k & H1 & H2). pose proof (with_key_in n l) as I.
    destruct H1 as [|v v' a b H1 H3].
    - apply Permutation_nil in H2. rewrite H2. reflexivity.
    - destruct H3 as [|v2 v2' a b H3 H4].
      + apply Permutation_length_1_inv in H2. rewrite H2. cbn [field_form].
        eapply HR; [exact H1|apply I; left; reflexivity].
      + apply Permutation_length in H2. cbn [length] in H2.
        destruct (with_key n m) as [|x [|y z]]; [discriminate|discriminate|]. destruct t; reflexivity. }
  rewrite E. reflexivity.
Qed.

Theorem form_reordered : forall t j j', reordered j j' -> form t j = form t j'.
Proof.
  assert (G : forall n j j', depth j <= n -> reordered j j' -> forall t, form t j = form t j').
  { induction n as [|n IHn]; intros j j' D H t; [pose proof (depth_pos j); lia|].
    destruct H as [j|l l' H|l l' m H P]; [reflexivity| |].
    - assert (E : forall t, Forall2 (fun v v' => form t v = form t v') l l').
      { intros u. assert (D' : forall v, In v l -> depth v <= n).
        { intros v Hv. apply depth_arr in Hv. lia. }
        clear D. induction H as [|v v' l l' R _ IH]; constructor.
        - apply IHn; [apply D'; left; reflexivity|exact R].
        - apply IH. intros x Hx. apply D'. right. exact Hx. }
      clear D H. induction t as [| | |t IHt|t IHt|r]; rewrite (form_unfold _ (JArr l)), (form_unfold _ (JArr l')).
      1-3: reflexivity.
      + exact IHt.
      + f_equal. clear IHt. specialize (E t). induction E as [|v v' l l' Ev _ IH]; [reflexivity|].
        cbn [each]. rewrite Ev, IH. reflexivity.
      + destruct (find_decl r declarations) as [[fs|vs]|]; try reflexivity. cbn [decl_form]. f_equal.
        revert l l' E. induction fs as [|[k u] fs IH]; intros l l' E.
        * pose proof (E TStr) as E0. destruct E0; reflexivity.
        * pose proof (E u) as E0. destruct l as [|v l], l' as [|v' l']; try (inversion E0; fail); [reflexivity|].
          cbn [seq_form]. assert (Ev : form u v = form u v') by (inversion E0; assumption).
          rewrite Ev, (IH l l'); [reflexivity|]. intros t. specialize (E t). inversion E; assumption.
    - induction t as [| | |t IHt|t IHt|r]; rewrite (form_unfold _ (JObj l)), (form_unfold _ (JObj m)).
      1-3: reflexivity.
      + exact IHt.
      + reflexivity.
      + destruct (find_decl r declarations) as [[fs|vs]|]; [| |reflexivity].
        * cbn [decl_form]. f_equal. apply fields_form_related with (R := reordered).
          -- intros v v' R k I t. apply IHn; [|exact R]. apply depth_obj in I. lia.
          -- intros k. exists (with_key k l'). split; [apply with_key_pairs; exact H|apply with_key_perm; exact P].
        * destruct H as [|[v x] [v' x'] a b (E & R) H].
          -- apply Permutation_nil in P. subst. reflexivity.
          -- destruct H as [|y y' a b _ H].
             ++ apply Permutation_length_1_inv in P. subst m. cbn [fst snd] in *. subst v'. cbn [decl_form].
                destruct (find_variant v vs) as [[u|]|]; [|destruct R; reflexivity|reflexivity].
                f_equal. apply IHn; [|exact R].
                assert (I : In (v, x) [(v, x)]) by (left; reflexivity). apply depth_obj in I. lia.
             ++ apply Permutation_length in P. cbn [length] in P.
                destruct m as [|z [|z' m]]; [discriminate|discriminate|]. destruct z. reflexivity. }
  intros t j j' H. apply (G (depth j)); [lia|exact H].
Qed.

(** ** Keys that no declaration uses *)
Lemma find_decl_in : forall r l d, find_decl r l = Some d -> In (r, d) l.
Proof.
  intros r l d. induction l as [|[n e] l IH]; [discriminate|]. cbn [find_decl].
  destruct (String.eqb_spec r n) as [->|_]; [intros [= ->]; left; reflexivity|]. intros H. right. auto.
Qed.
Lemma field_declared : forall r fs n t, find_decl r declarations = Some (DStruct fs) -> In (n, t) fs ->
  declared n = true.
Proof.
  intros r fs n t D I. apply find_decl_in in D. unfold declared. apply existsb_exists. exists (r, DStruct fs).
  split; [exact D|]. cbn [snd]. apply existsb_exists. exists (n, t). split; [exact I|apply String.eqb_refl].
Qed.
Lemma find_variant_in : forall v vs o, find_variant v vs = Some o -> In (v, o) vs.
Proof.
  intros v vs o. induction vs as [|[n e] l IH]; [discriminate|]. cbn [find_variant].
  destruct (String.eqb_spec v n) as [->|_]; [intros [= ->]; left; reflexivity|]. intros H. right. auto.
Qed.
Lemma variant_declared : forall r vs v o, find_decl r declarations = Some (DEnum vs) ->
  find_variant v vs = Some o -> declared v = true.
Proof.
  intros r vs v o D I. apply find_decl_in in D. apply find_variant_in in I. unfold declared. apply existsb_exists.
  exists (r, DEnum vs). split; [exact D|]. cbn [snd]. apply existsb_exists. exists (v, o).
  split; [exact I|apply String.eqb_refl].
Qed.

Lemma with_key_pruned : forall n l, declared n = true ->
  with_key n (flat_map (fun e => if declared (fst e) then [(fst e, pruned (snd e))] else []) l)
  = map pruned (with_key n l).
Proof.
  intros n l D. induction l as [|[k v] l IH]; [reflexivity|]. cbn [flat_map fst snd with_key].
  destruct (String.eqb_spec k n) as [->|N].
  - rewrite D. cbn [app with_key map]. rewrite String.eqb_refl, IH. reflexivity.
  - destruct (declared k); cbn [app with_key]; [|exact IH].
    destruct (String.eqb_spec k n); [contradiction|exact IH].
Qed.

Lemma fields_form_some : forall g h fs l m l',
  (forall n t, In (n, t) fs -> forall c, field_form g t (with_key n l) = Some c ->
     field_form h t (with_key n m) = Some c) ->
  fields_form g fs l = Some l' -> fields_form h fs m = Some l'.
Proof.
  intros g h fs l m. induction fs as [|[n t] r IH]; intros l' H E; [exact E|]. cbn [fields_form] in *.
  destruct (field_form g t (with_key n l)) as [c|] eqn:F; [|discriminate].
  destruct (fields_form g r l) as [cs|] eqn:G; [|discriminate].
  rewrite (H n t (or_introl eq_refl) c F), (IH cs); [exact E| |reflexivity].
  intros k u I. apply H. right. exact I.
Qed.
Lemma seq_form_some : forall g h (f : json -> json) fs l l',
  (forall t v, In v l -> forall c, g t v = Some c -> h t (f v) = Some c) ->
  seq_form g fs l = Some l' -> seq_form h fs (map f l) = Some l'.
Proof.
  intros g h f fs. induction fs as [|[n t] r IH]; intros [|v l] l' H E; try discriminate; [exact E|].
  cbn [seq_form map] in *. destruct (g t v) as [c|] eqn:G; [|discriminate].
  destruct (seq_form g r l) as [cs|] eqn:Q; [|discriminate].
  rewrite (H t v (or_introl eq_refl) c G), (IH l cs); [exact E| |exact Q]. intros u x I. apply H. right. exact I.
Qed.
Lemma each_some : forall g h (f : json -> json) l l',
  (forall v, In v l -> forall c, g v = Some c -> h (f v) = Some c) ->
  each g l = Some l' -> each h (map f l) = Some l'.
Proof.
  intros g h f l. induction l as [|v l IH]; intros l' H E; [exact E|]. cbn [each map] in *.
  destruct (g v) as [c|] eqn:G; [|discriminate]. destruct (each g l) as [cs|] eqn:Q; [|discriminate].
  rewrite (H v (or_introl eq_refl) c G), (IH cs); [exact E| |reflexivity]. intros x I. apply H. right. exact I.
Qed.

Theorem form_pruned : forall t j c, form t j = Some c -> form t (pruned j) = Some c.
Proof.
  assert (G : forall n j, depth j <= n -> forall t c, form t j = Some c -> form t (pruned j) = Some c).
  { induction n as [|n IHn]; intros j D t; [pose proof (depth_pos j); lia|].
    induction t as [| | |t IHt|t IHt|r]; intros c H.
    1-3: destruct j; cbn [pruned]; try exact H; rewrite form_unfold in H; discriminate.
    - rewrite form_opt in *. destruct j; try exact H; exact (IHt c H).
    - rewrite form_vec in *. destruct j; try discriminate. cbn [pruned].
      destruct (each (form t) l) as [cs|] eqn:E; [|discriminate]. cbn [option_map] in H.
      erewrite each_some; [exact H| |exact E]. intros v I x Hx. apply IHn; [|exact Hx]. apply depth_arr in I. lia.
    - rewrite form_unfold in H |- *. destruct (find_decl r declarations) as [[fs|vs]|] eqn:Dr; [| |discriminate].
      + destruct j; try discriminate; cbn [decl_form pruned] in *.
        * destruct (seq_form form fs l) as [cs|] eqn:E; [|discriminate].
          erewrite seq_form_some; [exact H| |exact E]. intros t v I x Hx.
          apply IHn; [|exact Hx]. apply depth_arr in I. lia.
        * destruct (fields_form form fs l) as [cs|] eqn:E; [|discriminate].
          erewrite fields_form_some; [exact H| |exact E]. intros k t I x Hx.
          rewrite with_key_pruned by (eapply field_declared; eassumption).
          unfold field_form in *. destruct (with_key k l) as [|v [|]] eqn:W; cbn [map]; try exact Hx.
          apply IHn; [|exact Hx]. assert (J : In (k, v) l) by (apply with_key_in; rewrite W; left; reflexivity).
          apply depth_obj in J. lia.
      + destruct j; try discriminate; [exact H|]. destruct l as [|[v x] [|]]; try discriminate.
        cbn [decl_form pruned flat_map fst snd] in *.
        destruct (find_variant v vs) as [o|] eqn:F; [|discriminate].
        rewrite (variant_declared _ _ _ _ Dr F). cbn [app]. rewrite F.
        destruct o as [t|]; [|destruct x; try discriminate; exact H].
        destruct (form t x) as [y|] eqn:Fx; [|discriminate]. rewrite (IHn x) with (c := y); [exact H| |exact Fx].
        assert (J : In (v, x) [(v, x)]) by (left; reflexivity). apply depth_obj in J. lia. }
  intros t j c. apply (G (depth j)). lia.
Qed.

(** ** Fields left out *)
Definition decl_names (d : decl) : list string :=
  match d with DStruct fs => map fst fs | DEnum vs => map fst vs end.
Lemma names_distinct : forall r d, find_decl r declarations = Some d -> NoDup (decl_names d).
Proof.
  assert (E : forallb (fun d => nodupb (decl_names (snd d))) declarations = true) by (vm_compute; reflexivity).
  intros r d H. apply find_decl_in in H. rewrite forallb_forall in E. specialize (E _ H). apply nodupb_iff, E.
Qed.

Lemma no_option_variant : forall r vs v t, find_decl r declarations = Some (DEnum vs) ->
  find_variant v vs = Some (Some (TOpt t)) -> False.
Proof.
  assert (E : forallb (fun d => match snd d with
                | DEnum vs => forallb (fun v => match snd v with Some (TOpt _) => false | _ => true end) vs
                | DStruct _ => true end) declarations = true) by (vm_compute; reflexivity).
  intros r vs v t D F. apply find_decl_in in D. apply find_variant_in in F. rewrite forallb_forall in E.
  specialize (E _ D). cbn [snd] in E. rewrite forallb_forall in E. specialize (E _ F). discriminate.
Qed.
Lemma form_null : forall t c, form t JNull = Some c -> c = JNull /\ exists u, t = TOpt u.
Proof.
  intros t c H. rewrite form_unfold in H. destruct t as [| | |t|t|r]; try discriminate.
  - injection H as <-. split; [reflexivity|exists t; reflexivity].
  - destruct (find_decl r declarations) as [[fs|vs]|]; discriminate.
Qed.

Lemma with_key_sparse : forall n l,
  with_key n (flat_map (fun e => if is_null (snd e) then [] else [(fst e, sparse (snd e))]) l)
  = flat_map (fun v => if is_null v then [] else [sparse v]) (with_key n l).
Proof.
  intros n l. induction l as [|[k v] l IH]; [reflexivity|]. cbn [flat_map fst snd].
  cbn [with_key]. destruct (is_null v) eqn:V; cbn [app with_key]; destruct (String.eqb k n); cbn [flat_map app];
    rewrite ?V; cbn [app]; rewrite ?IH; reflexivity.
Qed.

Lemma fields_form_own : forall g fs l l', NoDup (map fst fs) -> fields_form g fs l = Some l' ->
  map fst l' = map fst fs.
Proof.
  intros g fs l. induction fs as [|[n t] r IH]; intros l' N H; cbn [fields_form] in H; [injection H as <-; reflexivity|].
  destruct (field_form g t (with_key n l)); [|discriminate].
  destruct (fields_form g r l) as [cs|] eqn:E; [|discriminate]. injection H as <-.
  inversion N; subst. cbn [map fst]. rewrite (IH cs); [reflexivity|assumption|reflexivity].
Qed.
Lemma with_key_nodup : forall n v l, NoDup (map fst l) -> In (n, v) l -> with_key n l = [v].
Proof.
  intros n v l. induction l as [|[k x] l IH]; intros N I; [destruct I|]. cbn [map fst] in N.
  inversion N as [|? ? Nk Nl]; subst. cbn [with_key]. destruct I as [[= -> ->]|I].
  - rewrite String.eqb_refl. f_equal. destruct (with_key n l) as [|y ys] eqn:W; [reflexivity|].
    exfalso. apply Nk. change n with (fst (n, y)). apply in_map. apply with_key_in. rewrite W. left. reflexivity.
  - destruct (String.eqb_spec k n) as [->|_]; [|auto]. exfalso. apply Nk.
    change n with (fst (n, v)). apply in_map. exact I.
Qed.

Theorem form_sparse : forall t j, form t j = Some j -> form t (sparse j) = Some j.
Proof.
  assert (G : forall n j, depth j <= n -> forall t, form t j = Some j -> form t (sparse j) = Some j).
  { induction n as [|n IHn]; intros j D t; [pose proof (depth_pos j); lia|].
    induction t as [| | |t IHt|t IHt|r]; intros H.
    1-3: destruct j; cbn [sparse]; try exact H; rewrite form_unfold in H; discriminate.
    - rewrite form_opt in *. destruct j; try exact H; exact (IHt H).
    - rewrite form_vec in *. destruct j; try discriminate. cbn [sparse].
      destruct (each (form t) l) as [cs|] eqn:E; [|discriminate]. cbn [option_map] in H. injection H as ->.
      replace (each (form t) (map sparse l)) with (Some l); [reflexivity|]. symmetry.
      assert (D' : forall v, In v l -> depth v <= n) by (intros v I; apply depth_arr in I; lia). clear D IHt.
      induction l as [|v l IH]; [reflexivity|]. cbn [each map] in *.
      destruct (form t v) as [c|] eqn:Fv; [|discriminate]. destruct (each (form t) l) as [cs|]; [|discriminate].
      injection E as -> ->. rewrite (IHn v (D' v (or_introl eq_refl)) t Fv), IH; [reflexivity|reflexivity|].
      intros x I. apply D'. right. exact I.
    - rewrite form_unfold in H |- *. destruct (find_decl r declarations) as [[fs|vs]|] eqn:Dr; [| |discriminate].
      + apply names_distinct in Dr. cbn [decl_names] in Dr. destruct j; try discriminate; cbn [decl_form sparse] in *.
        * destruct (seq_form form fs l); discriminate.
        * destruct (fields_form form fs l) as [cs|] eqn:E; [|discriminate]. injection H as ->.
          pose proof (fields_form_own _ _ _ _ Dr E) as N. 
          erewrite fields_form_some; [reflexivity| |exact E]. intros k t I x Hx.
          rewrite with_key_sparse.
          assert (J : In (k, x) l).
          { clear D N. revert E. generalize l at 2 3. intros l' E. revert l' E.
            induction fs as [|[k' t'] fs IH]; intros l' E; [destruct I|]. cbn [fields_form] in E.
            destruct (field_form form t' (with_key k' l)) as [y|] eqn:Fy; [|discriminate].
            destruct (fields_form form fs l) as [ys|]; [|discriminate]. injection E as <-.
            destruct I as [[= -> ->]|I]; [left; congruence|right]. inversion Dr; subst. apply IH; auto. }
          rewrite <- N in Dr. rewrite (with_key_nodup _ _ _ Dr J) in Hx |- *. cbn [field_form] in Hx.
          apply depth_obj in J.
          assert (Sx : x <> JNull -> form t (sparse x) = Some x) by (intros _; apply IHn; [lia|exact Hx]).
          cbn [flat_map]. destruct (is_null x) eqn:Nx; cbn [app field_form].
          -- destruct x; try discriminate. destruct (form_null _ _ Hx) as (_ & u & ->). reflexivity.
          -- apply Sx. intros ->. discriminate.
      + destruct j; try discriminate; [exact H|]. destruct l as [|[v x] [|]]; try discriminate.
        cbn [decl_form] in H. destruct (find_variant v vs) as [o|] eqn:F; [|discriminate].
        destruct o as [t|]; [|destruct x; discriminate].
        destruct (form t x) as [y|] eqn:Fx; [|discriminate]. injection H as ->.
        assert (Dx : depth x <= n).
        { assert (J : In (v, x) [(v, x)]) by (left; reflexivity). apply depth_obj in J. lia. }
        assert (Sx : form t (sparse x) = Some x) by (apply IHn; assumption).
        cbn [sparse flat_map fst snd]. destruct (is_null x) eqn:Nx.
        * destruct x; try discriminate. destruct (form_null _ _ Fx) as (_ & u & ->).
          exfalso. exact (no_option_variant _ _ _ _ Dr F).
        * cbn [app decl_form]. rewrite F, Sx. reflexivity. }
  intros t j. apply (G (depth j)). lia.
Qed.
