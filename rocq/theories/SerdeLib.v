(** Facts about documents, normal forms, and the parts shared by all derived implementations. *)
From Coq Require Import String List NArith Bool Lia Arith Permutation.
From Verif Require Import Base NumStr Ast Utils Serde SerdeSpec.
Import ListNotations.
Open Scope string_scope.
Open Scope list_scope.

(** ** Nesting *)
Lemma depth_arr : forall l j, In j l -> depth j < depth (JArr l).
Proof.
  intros l j H. cbn [depth]. apply le_n_S. induction l as [|x r IH]; [destruct H|].
  cbn [fold_right]. destruct H as [->|H]; [lia|specialize (IH H); lia].
Qed.
Lemma depth_obj : forall l n j, In (n, j) l -> depth j < depth (JObj l).
Proof.
  intros l n j H. cbn [depth]. apply le_n_S. induction l as [|x r IH]; [destruct H|].
  cbn [fold_right]. destruct H as [->|H]; [cbn [snd]; lia|specialize (IH H); lia].
Qed.
Lemma depth_pos : forall j, 1 <= depth j.
Proof. destruct j; cbn [depth]; lia. Qed.

Lemma entries_depth : forall ns j l, entries ns j = Some l ->
  forall n v, In (n, v) l -> depth v < depth j.
Proof.
  intros ns j l H n v Hv. destruct j; cbn [entries] in H; try discriminate.
  - destruct (Nat.eqb _ _); [|discriminate]. injection H as <-.
    apply in_combine_r in Hv. apply depth_arr. exact Hv.
  - injection H as <-. eapply depth_obj. exact Hv.
Qed.

Lemma given_with_key : forall l n, given l n = with_key n l.
Proof.
  intros l n. unfold given. induction l as [|[m v] r IH]; [reflexivity|].
  cbn [filter with_key fst]. destruct (String.eqb m n); cbn [map snd]; rewrite IH; reflexivity.
Qed.
Lemma with_key_in : forall n l v, In v (with_key n l) -> In (n, v) l.
Proof.
  intros n l v. induction l as [|[m x] r IH]; [intros []|]. cbn [with_key].
  destruct (String.eqb_spec m n) as [->|_]; cbn [In].
  - intros [->|H]; [left; reflexivity|right; auto].
  - intros H. right. auto.
Qed.

(** ** Normal forms: the bound does not matter *)
Lemma each_ext : forall g h l, (forall v, In v l -> g v = h v) -> each g l = each h l.
Proof.
  intros g h l. induction l as [|x r IH]; intros H; [reflexivity|]. cbn [each].
  rewrite (H x) by (left; reflexivity). rewrite IH; [reflexivity|]. intros v Hv. apply H. right. exact Hv.
Qed.
Lemma fields_form_ext : forall g h fs l,
  (forall t n v, In (n, v) l -> g t v = h t v) -> fields_form g fs l = fields_form h fs l.
Proof.
  intros g h fs l H. induction fs as [|[n t] r IH]; [reflexivity|]. cbn [fields_form]. rewrite IH.
  assert (E : field_form g t (with_key n l) = field_form h t (with_key n l)).
  { unfold field_form. destruct (with_key n l) as [|v [|]] eqn:W; try reflexivity.
    apply H with (n := n). apply with_key_in. rewrite W. left. reflexivity. }
  rewrite E. reflexivity.
Qed.
Lemma seq_form_ext : forall g h fs l,
  (forall t v, In v l -> g t v = h t v) -> seq_form g fs l = seq_form h fs l.
Proof.
  intros g h fs. induction fs as [|[n t] r IH]; intros [|v l] H; try reflexivity. cbn [seq_form].
  rewrite (H t v) by (left; reflexivity). rewrite IH; [reflexivity|]. intros u x Hx. apply H. right. exact Hx.
Qed.
Lemma decl_form_ext : forall g h d j,
  (forall t v, depth v < depth j -> g t v = h t v) -> decl_form g d j = decl_form h d j.
Proof.
  intros g h [fs|vs] j H; destruct j; cbn [decl_form]; try reflexivity.
  - f_equal. apply seq_form_ext. intros t v Hv. apply H, depth_arr, Hv.
  - f_equal. apply fields_form_ext. intros t n v Hv. eapply H, depth_obj, Hv.
  - destruct l as [|[v x] [|]]; try reflexivity. destruct (find_variant v vs) as [[t|]|]; try reflexivity.
    f_equal. apply H. eapply depth_obj. left. reflexivity.
Qed.

Lemma form_n_ext : forall n m t j, depth j <= n -> depth j <= m -> form_n n t j = form_n m t j.
Proof.
  induction n as [|n IH]; intros m t j Hn Hm; [pose proof (depth_pos j); lia|].
  destruct m as [|m]; [pose proof (depth_pos j); lia|].
  revert j Hn Hm. induction t as [| | |t IHt|t IHt|r]; intros j Hn Hm; [reflexivity..| | |].
  - cbn [form_n]. destruct j; try reflexivity; apply IHt; assumption.
  - cbn [form_n]. destruct j; try reflexivity. f_equal. apply each_ext. intros v Hv.
    apply depth_arr in Hv. apply IHt; lia.
  - cbn [form_n]. destruct (find_decl r declarations) as [d|]; [|reflexivity].
    apply decl_form_ext. intros t v Hv. apply IH; lia.
Qed.

Lemma form_ref : forall r d j, find_decl r declarations = Some d ->
  form (TRef r) j = decl_form form d j.
Proof.
  intros r d j H. unfold form at 1. pose proof (depth_pos j). destruct (depth j) as [|m] eqn:E; [lia|].
  cbn [form_n]. rewrite H. apply decl_form_ext. intros t v Hv. unfold form. apply form_n_ext; lia.
Qed.
Lemma form_n_opt : forall n t j,
  form_n n (TOpt t) j = match j with JNull => Some JNull | _ => form_n n t j end.
Proof. destruct n; reflexivity. Qed.
Lemma form_n_vec : forall n t j,
  form_n n (TVec t) j = match j with JArr l => option_map JArr (each (form_n n t) l) | _ => None end.
Proof. destruct n; reflexivity. Qed.
Lemma form_opt : forall t j, form (TOpt t) j = match j with JNull => Some JNull | _ => form t j end.
Proof. intros t j. unfold form. rewrite form_n_opt. destruct j; reflexivity. Qed.
Lemma form_vec : forall t j,
  form (TVec t) j = match j with JArr l => option_map JArr (each (form t) l) | _ => None end.
Proof.
  intros t j. unfold form at 1. rewrite form_n_vec. destruct j; try reflexivity. f_equal.
  apply each_ext. intros v Hv. apply depth_arr in Hv. unfold form. apply form_n_ext; lia.
Qed.
Lemma form_str : forall j, form TStr j = match j with JStr _ => Some j | _ => None end.
Proof. destruct j; reflexivity. Qed.
Lemma form_bool : forall j, form TBool j = match j with JBool _ => Some j | _ => None end.
Proof. destruct j; reflexivity. Qed.
Lemma form_num : forall j, form TNum j = match j with JNum _ => Some j | _ => None end.
Proof. destruct j; reflexivity. Qed.

(** ** The recursion equation of the normal form *)
Theorem form_unfold : forall t j, form t j =
  match t with
  | TStr => match j with JStr _ => Some j | _ => None end
  | TBool => match j with JBool _ => Some j | _ => None end
  | TNum => match j with JNum _ => Some j | _ => None end
  | TOpt u => match j with JNull => Some JNull | _ => form u j end
  | TVec u => match j with JArr l => option_map JArr (each (form u) l) | _ => None end
  | TRef r =>
      match find_decl r declarations with Some d => decl_form form d j | None => None end
  end.
Proof.
  intros [| | |t|t|r] j; [apply form_str|apply form_bool|apply form_num|apply form_opt|apply form_vec|].
  destruct (find_decl r declarations) as [d|] eqn:E; [apply form_ref; exact E|].
  unfold form. pose proof (depth_pos j). destruct (depth j); [lia|]. cbn [form_n]. rewrite E. reflexivity.
Qed.

(** ** Structs from arrays *)
Fixpoint nodupb (l : list string) : bool :=
  match l with [] => true | n :: r => negb (existsb (String.eqb n) r) && nodupb r end.
Lemma nodupb_iff : forall l, nodupb l = true -> NoDup l.
Proof.
  induction l as [|n r IH]; intros H; [constructor|]. cbn [nodupb] in H. apply andb_true_iff in H as [H1 H2].
  constructor; [|auto]. intros Hn. apply negb_true_iff in H1.
  assert (E : existsb (String.eqb n) r = true) by (apply existsb_exists; exists n; rewrite String.eqb_refl; auto).
  congruence.
Qed.

Lemma with_key_absent : forall n ns l, ~ In n ns -> with_key n (combine ns l) = [].
Proof.
  intros n ns. induction ns as [|m r IH]; intros [|v l] H; try reflexivity. cbn [combine with_key].
  destruct (String.eqb_spec m n) as [->|_]; [exfalso; apply H; left; reflexivity|].
  apply IH. intros Hi. apply H. right. exact Hi.
Qed.
Lemma fields_form_skip : forall g fs n v l, ~ In n (map fst fs) ->
  fields_form g fs ((n, v) :: l) = fields_form g fs l.
Proof.
  intros g fs n v l. induction fs as [|[m t] r IH]; intros H; [reflexivity|]. cbn [fields_form with_key].
  destruct (String.eqb_spec n m) as [->|_]; [exfalso; apply H; left; reflexivity|].
  rewrite IH; [reflexivity|]. intros Hi. apply H. right. exact Hi.
Qed.
Lemma fields_seq : forall g fs l, NoDup (map fst fs) -> length l = length fs ->
  fields_form g fs (combine (map fst fs) l) = seq_form g fs l.
Proof.
  intros g fs. induction fs as [|[n t] r IH]; intros [|v l] N E; try discriminate; [reflexivity|].
  cbn [map fst combine] in *. inversion N as [|? ? Hn Hr]; subst. cbn [fields_form with_key].
  rewrite String.eqb_refl, with_key_absent by exact Hn. cbn [field_form seq_form].
  rewrite fields_form_skip by exact Hn. rewrite IH; [reflexivity|exact Hr|]. cbn in E. lia.
Qed.
Lemma seq_form_length : forall g fs l, length l <> length fs -> seq_form g fs l = None.
Proof.
  intros g fs. induction fs as [|[n t] r IH]; intros [|v l] E; try reflexivity; [destruct E; reflexivity|].
  cbn [seq_form]. rewrite IH by (cbn in E; lia). destruct (g t v); reflexivity.
Qed.

Lemma struct_form : forall g fs j, nodupb (map fst fs) = true ->
  decl_form g (DStruct fs) j = option_map JObj (obind (entries (map fst fs) j) (fields_form g fs)).
Proof.
  intros g fs j N. apply nodupb_iff in N. destruct j; try reflexivity. cbn [decl_form entries].
  rewrite map_length. destruct (Nat.eqb_spec (length l) (length fs)) as [E|E].
  - cbn [obind]. rewrite fields_seq by assumption. reflexivity.
  - rewrite seq_form_length by exact E. reflexivity.
Qed.

(** ** A reader and a writer that agree with a declared type, on documents nested at most [m] deep *)
Definition agrees {A} (m : nat) (d : json -> option A) (s : A -> json) (t : sty) : Prop :=
  forall j, depth j <= m -> option_map s (d j) = form t j.
Definition back {A} (m : nat) (d : json -> option A) (s : A -> json) : Prop :=
  forall x, depth (s x) <= m -> d (s x) = Some x.
Definition nonnull {A} (s : A -> json) : Prop := forall x, s x <> JNull.
Definition ok {A} (m : nat) (d : json -> option A) (s : A -> json) (t : sty) : Prop :=
  agrees m d s t /\ back m d s /\ nonnull s.

Lemma ok_le : forall A m n (d : json -> option A) s t, n <= m -> ok m d s t -> ok n d s t.
Proof.
  intros A m n d s t L (Ha & Hb & Hn). split; [|split].
  - intros j Hj. apply Ha. lia.
  - intros x Hx. apply Hb. lia.
  - exact Hn.
Qed.
Lemma ok_pred : forall A m (d : json -> option A) s t, ok (S m) d s t -> ok m d s t.
Proof. intros A m d s t. apply ok_le. lia. Qed.

Lemma ok_str : forall m, ok m de_str JStr TStr.
Proof.
  intros m. split; [|split]; [|intros x _; reflexivity|intros x; discriminate].
  intros j _. rewrite form_str. destruct j; reflexivity.
Qed.
Lemma ok_bool : forall m, ok m de_bool JBool TBool.
Proof.
  intros m. split; [|split]; [|intros x _; reflexivity|intros x; discriminate].
  intros j _. rewrite form_bool. destruct j; reflexivity.
Qed.
Lemma ok_num : forall m, ok m de_num JNum TNum.
Proof.
  intros m. split; [|split]; [|intros x _; reflexivity|intros x; discriminate].
  intros j _. rewrite form_num. destruct j; reflexivity.
Qed.

Lemma ok_vec : forall A m (d : json -> option A) s t, ok m d s t -> ok m (de_vec d) (ser_vec s) (TVec t).
Proof.
  intros A m d s t (Ha & Hb & Hn). split; [|split]; [| |intros x; discriminate].
  - intros j Hj. rewrite form_vec. destruct j; try reflexivity. unfold de_vec.
    assert (G : forall v, In v l -> option_map s (d v) = form t v).
    { intros v Hv. apply Ha. apply depth_arr in Hv. lia. }
    clear Hj. unfold ser_vec. induction l as [|v r IH]; [reflexivity|]. cbn [all_some each].
    rewrite <- (G v) by (left; reflexivity).
    assert (E := IH (fun u Hu => G u (or_intror Hu))).
    destruct (d v) as [a|]; cbn [option_map obind]; [|reflexivity].
    destruct (all_some d r) as [rs|], (each (form t) r) as [es|]; cbn in E |- *; try discriminate; [|reflexivity].
    injection E as E. rewrite E. reflexivity.
  - intros x Hx. unfold ser_vec, de_vec in *.
    assert (G : forall a, In a x -> d (s a) = Some a).
    { intros a Hi. apply Hb. apply (in_map s) in Hi. apply depth_arr in Hi. lia. }
    clear Hx. induction x as [|a r IH]; [reflexivity|]. cbn [map all_some].
    rewrite (G a) by (left; reflexivity). cbn [obind]. rewrite IH; [reflexivity|].
    intros b Hi. apply G. right. exact Hi.
Qed.

(** [Option] outside of a field. *)
Lemma opt_agrees : forall A m (d : json -> option A) s t, ok m d s t ->
  agrees m (de_opt d) (ser_opt s) (TOpt t).
Proof.
  intros A m d s t (Ha & _) j Hj. rewrite form_opt. specialize (Ha j Hj).
  destruct j; cbn [de_opt]; rewrite <- ?Ha; try reflexivity; destruct (d _); reflexivity.
Qed.
Lemma opt_back0 : forall A m (d : json -> option A) s t, ok m d s t -> back m (de_opt d) (ser_opt s).
Proof.
  intros A m d s t (_ & Hb & Hn) [a|] Hx; [|reflexivity]. cbn [ser_opt] in *.
  specialize (Hb a Hx). specialize (Hn a). unfold de_opt. destruct (s a); rewrite ?Hb; try reflexivity.
  destruct Hn. reflexivity.
Qed.

(** [Vec<Option<T>>]. *)
Lemma ok_vec_opt : forall A m (d : json -> option A) s t, ok m d s t ->
  ok m (de_vec (de_opt d)) (ser_vec (ser_opt s)) (TVec (TOpt t)).
Proof.
  intros A m d s t H. pose proof (opt_agrees _ _ _ _ _ H) as Ha. pose proof (opt_back0 _ _ _ _ _ H) as Hb.
  split; [|split]; [| |intros x; discriminate].
  - intros j Hj. rewrite form_vec. destruct j; try reflexivity. unfold de_vec.
    assert (G : forall v, In v l -> option_map (ser_opt s) (de_opt d v) = form (TOpt t) v).
    { intros v Hv. apply Ha. apply depth_arr in Hv. lia. }
    clear Hj. unfold ser_vec. induction l as [|v r IH]; [reflexivity|]. cbn [all_some each].
    rewrite <- (G v) by (left; reflexivity).
    assert (E := IH (fun u Hu => G u (or_intror Hu))).
    destruct (de_opt d v) as [a|]; cbn [option_map obind]; [|reflexivity].
    destruct (all_some (de_opt d) r) as [rs|], (each (form (TOpt t)) r) as [es|]; cbn in E |- *;
      try discriminate; [|reflexivity].
    injection E as E. rewrite E. reflexivity.
  - intros x Hx. unfold ser_vec, de_vec in *.
    assert (G : forall a, In a x -> de_opt d (ser_opt s a) = Some a).
    { intros a Hi. apply Hb. apply (in_map (ser_opt s)) in Hi. apply depth_arr in Hi. lia. }
    clear Hx. induction x as [|a r IH]; [reflexivity|]. cbn [map all_some].
    rewrite (G a) by (left; reflexivity). cbn [obind]. rewrite IH; [reflexivity|].
    intros b Hi. apply G. right. exact Hi.
Qed.

(** ** Fields *)
Definition is_opt (t : sty) : bool := match t with TOpt _ => true | _ => false end.

Lemma req_form : forall A m (d : json -> option A) s t l n, ok m d s t -> is_opt t = false ->
  (forall k v, In (k, v) l -> depth v <= m) ->
  option_map s (req d l n) = field_form form t (with_key n l).
Proof.
  intros A m d s t l n (Ha & _) Ht H. unfold req. rewrite given_with_key. unfold field_form.
  destruct (with_key n l) as [|v [|]] eqn:W; [destruct t; try reflexivity; discriminate| |reflexivity].
  apply Ha. eapply H, with_key_in. rewrite W. left. reflexivity.
Qed.
Lemma opt_form : forall A m (d : json -> option A) s t l n, ok m d s t ->
  (forall k v, In (k, v) l -> depth v <= m) ->
  option_map (ser_opt s) (opt d l n) = field_form form (TOpt t) (with_key n l).
Proof.
  intros A m d s t l n Hk H. unfold opt. rewrite given_with_key. unfold field_form.
  destruct (with_key n l) as [|v [|]] eqn:W; try reflexivity.
  eapply opt_agrees; [exact Hk|]. eapply H, with_key_in. rewrite W. left. reflexivity.
Qed.

Lemma req_back : forall A m (d : json -> option A) s t l n x, ok m d s t -> depth (JObj l) <= S m ->
  given l n = [s x] -> req d l n = Some x.
Proof.
  intros A m d s t l n x (_ & Hb & _) H G. unfold req. rewrite G. apply Hb.
  assert (I : In (n, s x) l).
  { apply with_key_in. rewrite <- given_with_key, G. left. reflexivity. }
  apply depth_obj in I. lia.
Qed.
Lemma opt_back : forall A m (d : json -> option A) s t l n x, ok m d s t -> depth (JObj l) <= S m ->
  given l n = [ser_opt s x] -> opt d l n = Some x.
Proof.
  intros A m d s t l n x Hk H G. unfold opt. rewrite G. eapply opt_back0; [exact Hk|].
  assert (I : In (n, ser_opt s x) l).
  { apply with_key_in. rewrite <- given_with_key, G. left. reflexivity. }
  apply depth_obj in I. lia.
Qed.

(** ** Enums *)
Lemma units_find : forall A (s : A -> json) us ds,
  Forall2 (fun u d => fst u = fst d /\ snd d = None /\ s (snd u) = JStr (fst u)) us ds ->
  forall v, option_map s (assoc v us) =
      match find_variant v ds with Some None => Some (JStr v) | _ => None end
    /\ (find_variant v ds = None \/ find_variant v ds = Some None).
Proof.
  intros A s us ds H v. induction H as [|[n a] [n' o] us ds (E1 & E2 & E3) _ IH]; [cbn; auto|].
  cbn [fst snd] in *. subst n' o. cbn [assoc find_variant].
  destruct (String.eqb_spec v n) as [->|_]; [|exact IH].
  cbn [option_map]. rewrite E3. auto.
Qed.
Lemma units_ok : forall A m (us : list (string * A)) ds s r,
  find_decl r declarations = Some (DEnum ds) ->
  Forall2 (fun u d => fst u = fst d /\ snd d = None /\ s (snd u) = JStr (fst u)) us ds ->
  (forall x, de_units us (s x) = Some x) -> nonnull s ->
  ok m (de_units us) s (TRef r).
Proof.
  intros A m us ds s r D H Hb Hn. split; [|split]; [|intros x _; apply Hb|exact Hn].
  intros j _. rewrite (form_ref _ _ _ D). pose proof (units_find _ _ _ _ H) as G.
  destruct j; try reflexivity.
  - apply G.
  - destruct l as [|[v x] [|]]; try reflexivity; [|destruct x; reflexivity].
    destruct (G v) as (G1 & G2). cbn [decl_form].
    destruct G2 as [E|E]; rewrite E in *; destruct x; cbn [de_units]; try exact G1; reflexivity.
Qed.

(** A variant of the code and of the declaration. *)
Definition same_variant {A} (m : nat) (s : A -> json) (v : string * (json -> option A))
    (d : string * option sty) : Prop :=
  fst v = fst d /\ exists t, snd d = Some t /\
  forall x, depth x <= m -> option_map s (snd v x) = option_map (fun c => JObj [(fst v, c)]) (form t x).

Lemma vari_same : forall A B m (s : B -> json) n (c : A -> B) d sa t, ok m d sa t ->
  (forall a, s (c a) = variant n (sa a)) -> same_variant m s (vari n c d) (n, Some t).
Proof.
  intros A B m s n c d sa t (Ha & _) H. split; [reflexivity|]. exists t. split; [reflexivity|].
  intros x Hx. cbn [vari fst snd]. rewrite <- (Ha x Hx). destruct (d x); cbn [option_map]; [|reflexivity].
  rewrite H. reflexivity.
Qed.

Lemma variants_agree : forall A m (vs : list (string * (json -> option A))) ds s r,
  find_decl r declarations = Some (DEnum ds) -> Forall2 (same_variant m s) vs ds ->
  agrees (S m) (de_variants vs) s (TRef r).
Proof.
  intros A m vs ds s r D H j Hj. rewrite (form_ref _ _ _ D). clear D.
  destruct j; try reflexivity.
  - cbn [de_variants decl_form option_map].
    induction H as [|[n v] [n' o] vs ds (E1 & t & E2 & _) _ IH]; [reflexivity|].
    cbn [fst snd] in *. subst n' o. cbn [find_variant]. destruct (String.eqb s0 n); [reflexivity|exact IH].
  - destruct l as [|[v x] [|]]; try reflexivity.
    assert (Hx : depth x <= m).
    { assert (I : In (v, x) [(v, x)]) by (left; reflexivity). apply depth_obj in I. lia. }
    clear Hj. cbn [de_variants decl_form].
    induction H as [|[n d] [n' o] vs ds (E1 & t & E2 & E3) _ IH]; [reflexivity|].
    cbn [fst snd] in *. subst n' o. cbn [find_variant assoc].
    destruct (String.eqb_spec v n) as [->|_]; [|exact IH]. cbn [obind]. apply E3. exact Hx.
Qed.
Lemma variant_back : forall A B m (vs : list (string * (json -> option B))) n (c : A -> B) d sa t a,
  ok m d sa t -> assoc n vs = Some (snd (vari n c d)) -> depth (variant n (sa a)) <= S m ->
  de_variants vs (variant n (sa a)) = Some (c a).
Proof.
  intros A B m vs n c d sa t a (_ & Hb & _) E H. unfold variant, de_variants. rewrite E. cbn [obind vari snd].
  rewrite Hb; [reflexivity|]. assert (I : In (n, sa a) [(n, sa a)]) by (left; reflexivity).
  apply depth_obj in I. unfold variant in H. lia.
Qed.
