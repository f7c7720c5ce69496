(** The indices of the listing of texts. *)
From Coq Require Import String List NArith Bool.
From Verif Require Import Base NumStr Ast RoundTripSpec KnotFacts Utils UtilsSpec UtilsFacts IndexSpec.
Import ListNotations.
Open Scope list_scope.

Lemma nodup_cons_map : forall A (n : A) l, NoDup (map (cons n) l) <-> NoDup l.
Proof.
  intros A n l. induction l as [|x l IH]; cbn [map]; [split; intros _; constructor|].
  rewrite !NoDup_cons_iff, IH. split; intros [H1 H2]; (split; [|exact H2]).
  - intros H. apply H1, in_map, H.
  - intros H. apply H1. apply in_map_iff in H as [y [E H]]. injection E as ->. exact H.
Qed.
Lemma nodup_app : forall A (l m : list A), NoDup (l ++ m) <-> NoDup l /\ NoDup m /\ (forall x, In x l -> ~ In x m).
Proof.
  intros A l m. induction l as [|a l IH]; cbn [app].
  - split; [intros H; repeat split; [constructor|exact H|intros x []]|intros [_ [H _]]; exact H].
  - rewrite !NoDup_cons_iff, IH, in_app_iff. split.
    + intros [H1 [H2 [H3 H4]]]. repeat split; try assumption; [intros H; apply H1; left; exact H|].
      intros x [->|Hx] Hm; [apply H1; right; exact Hm|exact (H4 x Hx Hm)].
    + intros [[H1 H2] [H3 H4]]. repeat split; try assumption.
      * intros [H|H]; [exact (H1 H)|exact (H4 a (or_introl eq_refl) H)].
      * intros x Hx. apply H4. right. exact Hx.
Qed.

(** Lists, each of which starts with the number of the child it comes from. *)
Lemma nodup_flat : forall C A B (tag : C -> A) (f : C -> list B) (key : A -> B) (of : B -> A) cs,
  (forall c b, In c cs -> In b (f c) -> of b = tag c) -> (forall c, In c cs -> In (key (tag c)) (f c)) ->
  (NoDup (flat_map f cs) <-> NoDup (map tag cs) /\ Forall (fun c => NoDup (f c)) cs).
Proof.
  intros C A B tag f key of cs. induction cs as [|c cs IH]; intros Hof Hkey; cbn [flat_map map].
  - split; [intros _; split; constructor|intros _; constructor].
  - assert (IH' := IH (fun c' b H => Hof c' b (or_intror H)) (fun c' H => Hkey c' (or_intror H))). clear IH.
    rewrite nodup_app, IH', NoDup_cons_iff, Forall_cons_iff. split.
    + intros [H1 [[H2 H3] H4]]. repeat split; try assumption. intros H. apply in_map_iff in H as [d [E Hd]].
      apply (H4 (key (tag c)) (Hkey c (or_introl eq_refl))). apply in_flat_map. exists d. split; [exact Hd|].
      rewrite <- E. apply Hkey. right. exact Hd.
    + intros [[H1 H2] [H3 H4]]. repeat split; try assumption. intros b Hb H. apply in_flat_map in H as [d [Hd H]].
      apply H1. apply in_map_iff. exists d. split; [|exact Hd].
      rewrite <- (Hof d b (or_intror Hd) H). exact (Hof c b (or_introl eq_refl) Hb).
Qed.

(** The paths of the items at or below one. *)
Definition paths (k : kind) (x : Knot k) : list (list (option ArticleNumber)) := map (fun y => fst (fst y)) (items_of k x).
Lemma paths_eq : forall l f, paths (KItem l) (mk (KItem l) f) = map (cons (it_num f)) ([] :: flat_map (paths (sub_item l)) (it_children f)).
Proof.
  intros l f. unfold paths. rewrite items_of_eq, un_mk. cbn [map fst]. f_equal. rewrite map_map, flat_map_map_out.
  rewrite !flat_map_map_out. apply flat_map_ext. intros c. rewrite !map_map. apply map_ext. intros [[p l'] s]. reflexivity.
Qed.
Lemma paths_not_nil : forall k x, ~ In [] (paths k x).
Proof.
  intros k x. rewrite <- (mk_un k x). destruct k;
    first [ rewrite paths_eq; intros H; apply in_map_iff in H as [p [E _]]; discriminate E
          | exact (fun H => H)
          | destruct (un KVoid x) ].
Qed.
Lemma own_number_mk : forall l f, own_number (KItem l) (mk (KItem l) f) = Some (it_num f).
Proof. reflexivity. Qed.
(** Children of an item are items, or there are none. *)
Lemma child_is_item : forall l (c : Knot (sub_item l)), exists n r, own_number (sub_item l) c = Some n /\
  paths (sub_item l) c = map (cons n) ([] :: r).
Proof.
  assert (I : forall l (c : Knot (KItem l)), exists n r, own_number (KItem l) c = Some n /\ paths (KItem l) c = map (cons n) ([] :: r)).
  { intros l c. rewrite <- (mk_un _ c). rewrite own_number_mk, paths_eq. eexists. eexists. split; reflexivity. }
  intros l c. destruct l; cbn [sub_item] in *; try apply I. destruct (un KVoid c).
Qed.
Lemma child_is_item0 : forall c : Knot (KItem Item0), exists n r, own_number (KItem Item0) c = Some n /\
  paths (KItem Item0) c = map (cons n) ([] :: r).
Proof. intros c. rewrite <- (mk_un _ c). rewrite own_number_mk, paths_eq. eexists. eexists. split; reflexivity. Qed.
Lemma nodup_children : forall k (cs : list (Knot k)),
  (forall c, In c cs -> exists n r, own_number k c = Some n /\ paths k c = map (cons n) ([] :: r)) ->
  (NoDup (flat_map (paths k) cs) <-> NoDup (map (own_number k) cs) /\ Forall (fun c => NoDup (paths k c)) cs).
Proof.
  intros k cs H.
  apply (nodup_flat _ _ _ (own_number k) (paths k) (fun o => match o with Some n => [n] | None => [] end)
           (fun p => match p with n :: _ => Some n | [] => None end) cs).
  - intros c b Hc Hb. destruct (H c Hc) as [n [r [E1 E2]]]. rewrite E1. rewrite E2 in Hb. apply in_map_iff in Hb as [p [<- _]]. reflexivity.
  - intros c Hc. destruct (H c Hc) as [n [r [E1 E2]]]. rewrite E1, E2. left. reflexivity.
Qed.
Lemma apart_inv : forall k x, apart k x ->
  match k as k return Knot k -> Prop with
  | KItem l => fun x => NoDup (map (own_number (sub_item l)) (it_children (un (KItem l) x))) /\
                        Forall (apart (sub_item l)) (it_children (un (KItem l) x))
  | _ => fun _ => False
  end x.
Proof. intros k x H. destruct H as [l f H1 H2]. split; [exact H1|exact H2]. Qed.
Lemma paths_apart : forall k (x : Knot k), (exists l, k = KItem l) -> (NoDup (paths k x) <-> apart k x).
Proof.
  intros k x. pattern k, x. apply knot_ind. clear k x. intros k f IH [l ->].
  assert (S : Forall (fun c => NoDup (paths (sub_item l) c)) (it_children f) <-> Forall (apart (sub_item l)) (it_children f)).
  { assert (Q : forall c, In c (it_children f) -> (NoDup (paths (sub_item l) c) <-> apart (sub_item l) c)).
    { intros c Hc. apply IH.
      - unfold kids. cbn [collect]. apply in_or_app. right. apply in_or_app. right. apply in_or_app. left. apply in_map, Hc.
      - destruct l; cbn [sub_item] in *; try (eexists; reflexivity). destruct (un KVoid c). }
    rewrite !Forall_forall. split; intros H c Hc; apply Q; auto. }
  rewrite paths_eq, nodup_cons_map, NoDup_cons_iff, nodup_children by (intros c _; apply child_is_item). rewrite S. split.
  - intros [_ [H1 H2]]. apply apart_item; assumption.
  - intros H. apply apart_inv in H. cbn beta iota in H. rewrite un_mk in H. split; [|exact H].
    intros N. apply in_flat_map in N as [c [_ N]]. exact (paths_not_nil _ _ N).
Qed.

Lemma nodup_ti : forall n l, NoDup (map (mkTI n) l) <-> NoDup l.
Proof.
  intros n l. induction l as [|x l IH]; cbn [map]; [split; intros _; constructor|].
  rewrite !NoDup_cons_iff, IH. split; intros [H1 H2]; (split; [|exact H2]).
  - intros H. apply H1, in_map, H.
  - intros H. apply H1. apply in_map_iff in H as [y [E H]]. injection E as ->. exact H.
Qed.
Theorem index_unique : forall ps, NoDup (map fst (text_info_list_from_paragraph ps)) <->
  NoDup (map (fun p => par_num (un KParagraph p)) ps) /\ Forall items_apart ps.
Proof.
  intros ps. rewrite text_entries, flat_map_map_out.
  assert (E : forall p, map fst (paragraph_entries p) =
    map (mkTI (par_num (un KParagraph p))) ([] :: flat_map (paths (KItem Item0)) (par_children (un KParagraph p)))).
  { intros p. unfold paragraph_entries. cbn [map fst]. f_equal. rewrite map_map, !flat_map_map_out. apply flat_map_ext.
    intros c. unfold paths. rewrite !map_map. apply map_ext. intros [[q l] s]. reflexivity. }
  rewrite (nodup_flat _ _ _ (fun p => par_num (un KParagraph p)) (fun p => map fst (paragraph_entries p)) (fun n => mkTI n []) ti_paragraph ps).
  - assert (Q : forall p, NoDup (map fst (paragraph_entries p)) <-> items_apart p).
    { intros p. rewrite E, nodup_ti, NoDup_cons_iff, nodup_children by (intros c _; apply (child_is_item0 c)).
      unfold items_apart. assert (S : Forall (fun c => NoDup (paths (KItem Item0) c)) (par_children (un KParagraph p)) <->
        Forall (apart (KItem Item0)) (par_children (un KParagraph p))).
      { rewrite !Forall_forall. split; intros H c Hc; apply paths_apart; eauto. }
      rewrite S. split; [intros [_ H]; exact H|]. intros H. split; [|exact H].
      intros N. apply in_flat_map in N as [c [_ N]]. exact (paths_not_nil _ _ N). }
    rewrite !Forall_forall. split; (intros [H1 H2]; split; [exact H1|]; intros p Hp; apply Q; auto).
  - intros p i _ Hi. rewrite E in Hi. apply in_map_iff in Hi as [q [<- _]]. reflexivity.
  - intros p _. rewrite E. left. reflexivity.
Qed.
Lemma nodup_fst : forall A B (l : list (A * B)) a b c, NoDup (map fst l) -> In (a, b) l -> In (a, c) l -> b = c.
Proof.
  intros A B l a b c. induction l as [|[x y] l IH]; cbn [map fst In]; [intros _ []|].
  rewrite NoDup_cons_iff. intros [H1 H2] [E|Hb] [E'|Hc].
  - congruence.
  - injection E as -> ->. destruct H1. apply in_map_iff. exists (a, c). split; [reflexivity|exact Hc].
  - injection E' as -> ->. destruct H1. apply in_map_iff. exists (a, b). split; [reflexivity|exact Hb].
  - exact (IH H2 Hb Hc).
Qed.
Theorem index_one_text : forall ps i s t,
  NoDup (map (fun p => par_num (un KParagraph p)) ps) -> Forall items_apart ps ->
  In (i, s) (text_info_list_from_paragraph ps) -> In (i, t) (text_info_list_from_paragraph ps) -> s = t.
Proof. intros ps i s t H1 H2. apply nodup_fst. apply index_unique. split; assumption. Qed.
