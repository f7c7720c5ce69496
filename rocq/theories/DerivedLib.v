(** Comparing and hashing: leaves, options, vectors, and the tactics for records. *)
From Coq Require Import String Ascii List Arith NArith Bool Lia.
From Verif Require Import Base NumStr Ast RoundTripSpec KnotFacts RoundTripLib Regex NumText Utils Serde TextParse Derived.
Import ListNotations.
Open Scope list_scope.

(** [e] compares [x] rightly; [h] feeds a sequence that determines [x] and where it ends. *)
Definition eqr {A} (e : A -> A -> bool) (x : A) : Prop := forall y, e x y = true <-> x = y.
Definition inj {A} (h : A -> stream) (x : A) : Prop := forall y r r', h x ++ r = h y ++ r' -> x = y /\ r = r'.

(** ** Leaves *)
Lemma eqr_string : forall x, eqr String.eqb x.
Proof. intros x y. apply String.eqb_eq. Qed.
Lemma eqr_N : forall x, eqr N.eqb x.
Proof. intros x y. apply N.eqb_eq. Qed.
Lemma eqr_bool : forall x, eqr Bool.eqb x.
Proof. intros x y. apply Bool.eqb_true_iff. Qed.
Lemma inj_string : forall x, inj hash_str x.
Proof. intros x y r r' E. injection E. auto. Qed.
Lemma inj_N : forall x, inj hash_usize x.
Proof. intros x y r r' E. injection E. auto. Qed.
Lemma inj_bool : forall x, inj hash_bool x.
Proof. intros [] [] r r' E; injection E; auto; intros; discriminate. Qed.
Lemma inj_usizes : forall x, inj hash_usizes x.
Proof. intros x y r r' E. injection E. auto. Qed.
Lemma inj_disc : forall x, inj hash_discriminant x.
Proof. intros x y r r' E. injection E. auto. Qed.

(** ** Options and vectors *)
Lemma eqr_opt : forall A (e : A -> A -> bool) o, (forall x, o = Some x -> eqr e x) -> eqr (peq_opt e) o.
Proof.
  intros A e [x|] H [y|]; cbn; split; intros E; try discriminate; try reflexivity.
  - f_equal. apply (H x eq_refl). exact E.
  - injection E as <-. apply (H x eq_refl). reflexivity.
Qed.
Lemma eqr_vec : forall A (e : A -> A -> bool) l, (forall x, In x l -> eqr e x) -> eqr (peq_vec e) l.
Proof.
  intros A e l. induction l as [|x l IH]; intros H [|y m]; cbn; split; intros E; try discriminate; try reflexivity.
  - apply andb_true_iff in E as [E1 E2]. apply (H x (or_introl eq_refl)) in E1. apply IH in E2; [|intros z Hz; apply H; right; exact Hz].
    subst. reflexivity.
  - injection E as <- <-. apply andb_true_iff. split; [apply (H x (or_introl eq_refl)); reflexivity|].
    apply IH; [intros z Hz; apply H; right; exact Hz|reflexivity].
Qed.
Lemma inj_opt : forall A (h : A -> stream) o, (forall x, o = Some x -> inj h x) -> inj (hash_opt h) o.
Proof.
  intros A h [x|] H [y|] r r' E; cbn in E; try discriminate; injection E as E.
  - apply (H x eq_refl) in E as [-> ->]. auto.
  - auto.
Qed.
Lemma inj_vec : forall A (h : A -> stream) l, (forall x, In x l -> inj h x) -> inj (hash_vec h) l.
Proof.
  intros A h l H m r r' E. unfold hash_vec in E. rewrite <- !app_assoc in E. apply inj_N in E as [En E].
  apply Nnat.Nat2N.inj in En. revert m En E. induction l as [|x l IH]; intros [|y m] En E; try discriminate.
  - auto.
  - cbn in E. rewrite <- !app_assoc in E. apply (H x (or_introl eq_refl)) in E as [-> E].
    injection En as En. apply IH in E as [-> ->]; auto. intros z Hz. apply H. right. exact Hz.
Qed.
Lemma allp_flat : forall X (cc : X -> list Prop) l, allp (flat_map cc l) -> forall x, In x l -> allp (cc x).
Proof.
  intros X cc l. induction l as [|y l IH]; intros H x Hx; [destruct Hx|]. cbn [flat_map] in H. apply allp_app in H as [H1 H2].
  destruct Hx as [<-|Hx]; [exact H1|apply IH; assumption].
Qed.

Section Over.
Context {A : Type} (P : A -> Prop) (cc : A -> list Prop).
Variables (e : A -> A -> bool) (h : A -> stream).
Lemma eqr_opt_c : forall o, (forall x, allp (cc x) -> eqr e x) -> allp (c_opt cc o) -> eqr (peq_opt e) o.
Proof. intros o He H. apply eqr_opt. intros x ->. apply He, H. Qed.
Lemma eqr_flat : forall l, (forall x, allp (cc x) -> eqr e x) -> allp (flat_map cc l) -> eqr (peq_vec e) l.
Proof. intros l He H. apply eqr_vec. intros x Hx. apply He. exact (allp_flat _ _ _ H x Hx). Qed.
Lemma eqr_map : forall l, (forall x, P x -> eqr e x) -> allp (map P l) -> eqr (peq_vec e) l.
Proof. intros l He H. apply eqr_vec. intros x Hx. apply He. exact (proj1 (allp_map _ _ _) H x Hx). Qed.
Lemma inj_opt_c : forall o, (forall x, allp (cc x) -> inj h x) -> allp (c_opt cc o) -> inj (hash_opt h) o.
Proof. intros o He H. apply inj_opt. intros x ->. apply He, H. Qed.
Lemma inj_flat : forall l, (forall x, allp (cc x) -> inj h x) -> allp (flat_map cc l) -> inj (hash_vec h) l.
Proof. intros l He H. apply inj_vec. intros x Hx. apply He. exact (allp_flat _ _ _ H x Hx). Qed.
Lemma inj_map : forall l, (forall x, P x -> inj h x) -> allp (map P l) -> inj (hash_vec h) l.
Proof. intros l He H. apply inj_vec. intros x Hx. apply He. exact (proj1 (allp_map _ _ _) H x Hx). Qed.
End Over.

(** ** Tactics for records and enums *)
Ltac splitk := repeat match goal with
  | H : allp (_ ++ _) |- _ => apply allp_app in H as [? ?]
  | H : allp (_ :: _) |- _ => destruct H
  | H : _ /\ _ |- _ => destruct H
  end.
Ltac fields f g := destruct f, g; cbn in *; subst; reflexivity.
(** [tac] proves that the fields are compared rightly; [pre] adds equations of fields that are not compared. *)
Ltac rec_eq_with pre tac :=
  match goal with |- eqr _ ?f =>
    let g := fresh "g" in let E := fresh "E" in
    intros g; cbv beta; split; intros E;
    [ repeat match type of E with _ && _ = true => apply andb_true_iff in E; destruct E as [E ?] end;
      repeat match goal with
        | Q : ?e ?a ?b = true |- _ =>
            let K := fresh "K" in let V := fresh "V" in
            assert (K : eqr e a) by tac; assert (V : a = b) by (apply (proj1 (K b)); exact Q); clear Q K
        end;
      pre f g;
      repeat match goal with Q : allp _ |- _ => clear Q end; fields f g
    | subst g; repeat (apply andb_true_iff; split); try exact eq_refl;
      match goal with |- ?e ?a ?a = true => let K := fresh "K" in assert (K : eqr e a) by tac; apply (proj2 (K a)); reflexivity end ]
  end.
Ltac rec_inj_with pre tac :=
  match goal with |- inj _ ?f =>
    let g := fresh "g" in let E := fresh "E" in
    intros g ? ? E; cbv beta in E; rewrite <- ?app_assoc in E; cbn [app] in E;
    repeat match type of E with
      | ?h ?a ++ _ = ?h ?b ++ _ => let K := fresh "K" in assert (K : inj h a) by tac; apply K in E; clear K; destruct E as [? E]
      end;
    split; [pre f g; repeat match goal with Q : allp _ |- _ => clear Q end; clear E; fields f g|exact E]
  end.
Ltac none f g := idtac.
Ltac rec_eq tac := rec_eq_with none tac.
Ltac rec_inj tac := rec_inj_with none tac.

(** ** Types outside the knot *)
Ltac flat_eq := intros x y; destruct x, y; cbn; split; intros E; solve [reflexivity | discriminate].
Ltac flat_inj := intros x y r r' E; destruct x, y; try discriminate; (split; [reflexivity|injection E; auto]).
Lemma eqr_mode : forall x, eqr peq_mode x. Proof. flat_eq. Qed.
Lemma eqr_linestyle : forall x, eqr peq_linestyle x. Proof. flat_eq. Qed.
Lemma eqr_align : forall x, eqr peq_align x. Proof. flat_eq. Qed.
Lemma eqr_position : forall x, eqr peq_position x. Proof. flat_eq. Qed.
Lemma eqr_function : forall x, eqr peq_function x. Proof. flat_eq. Qed.
Lemma eqr_suppl_type : forall x, eqr peq_suppl_type x. Proof. flat_eq. Qed.
Lemma eqr_era : forall x, eqr peq_era x. Proof. flat_eq. Qed.
Lemma eqr_law_type : forall x, eqr peq_law_type x. Proof. flat_eq. Qed.
Lemma eqr_lang : forall x, eqr peq_lang x. Proof. flat_eq. Qed.
Lemma eqr_pattern : forall x, eqr peq_pattern x. Proof. flat_eq. Qed.
Lemma eqr_indent : forall x, eqr peq_indent x.
Proof. intros [|l] [|m]; try destruct l; try destruct m; cbn; split; intros E; solve [reflexivity | discriminate]. Qed.
Lemma inj_mode : forall x, inj hash_mode x. Proof. flat_inj. Qed.
Lemma inj_linestyle : forall x, inj hash_linestyle x. Proof. flat_inj. Qed.
Lemma inj_align : forall x, inj hash_align x. Proof. flat_inj. Qed.
Lemma inj_position : forall x, inj hash_position x. Proof. flat_inj. Qed.
Lemma inj_function : forall x, inj hash_function x. Proof. flat_inj. Qed.
Lemma inj_suppl_type : forall x, inj hash_suppl_type x. Proof. flat_inj. Qed.
Lemma inj_era : forall x, inj hash_era x. Proof. flat_inj. Qed.
Lemma inj_law_type : forall x, inj hash_law_type x. Proof. flat_inj. Qed.
Lemma inj_lang : forall x, inj hash_lang x. Proof. flat_inj. Qed.
Lemma inj_pattern : forall x, inj hash_pattern x. Proof. flat_inj. Qed.
Lemma inj_indent : forall x, inj hash_indent x.
Proof. intros [|l] [|m] r r' E; try destruct l; try destruct m; try discriminate; split; try reflexivity; injection E; auto. Qed.
Lemma eqr_fig : forall x, eqr peq_fig x. Proof. exact eqr_string. Qed.
Lemma eqr_sup : forall x, eqr peq_sup x. Proof. exact eqr_string. Qed.
Lemma inj_fig : forall x, inj hash_fig x. Proof. exact inj_string. Qed.
Lemma inj_sup : forall x, inj hash_sup x. Proof. exact inj_string. Qed.

Ltac leaf1 := solve [apply eqr_string | apply eqr_N | apply eqr_bool | apply eqr_mode | apply eqr_linestyle | apply eqr_align
  | apply eqr_position | apply eqr_function | apply eqr_suppl_type | apply eqr_era | apply eqr_law_type | apply eqr_lang | apply eqr_pattern
  | apply eqr_indent | apply eqr_fig | apply eqr_sup
  | apply inj_string | apply inj_N | apply inj_bool | apply inj_usizes | apply inj_mode | apply inj_linestyle | apply inj_align
  | apply inj_position | apply inj_function | apply inj_suppl_type | apply inj_era | apply inj_law_type | apply inj_lang | apply inj_pattern
  | apply inj_indent | apply inj_fig | apply inj_sup].
Ltac leaf0 := idtac; match goal with
  | |- eqr (peq_opt _) _ => apply eqr_opt; intros ? _; leaf0
  | |- eqr (peq_vec _) _ => apply eqr_vec; intros ? _; leaf0
  | |- inj (hash_opt _) _ => apply inj_opt; intros ? _; leaf0
  | |- inj (hash_vec _) _ => apply inj_vec; intros ? _; leaf0
  | _ => leaf1
  end.
Lemma eqr_AN : forall x, eqr peq_AN x.
Proof. intros x. unfold peq_AN. rec_eq leaf0. Qed.
Lemma inj_AN : forall x, inj hash_AN x.
Proof. intros x. unfold hash_AN. rec_inj leaf0. Qed.
Ltac leaf := idtac; match goal with
  | |- eqr (peq_opt _) _ => apply eqr_opt; intros ? _; leaf
  | |- eqr (peq_vec _) _ => apply eqr_vec; intros ? _; leaf
  | |- inj (hash_opt _) _ => apply inj_opt; intros ? _; leaf
  | |- inj (hash_vec _) _ => apply inj_vec; intros ? _; leaf
  | |- eqr peq_AN _ => apply eqr_AN
  | |- inj hash_AN _ => apply inj_AN
  | _ => leaf1
  end.
Lemma eqr_index : forall x, eqr peq_index x.
Proof. intros x. unfold peq_index. rec_eq leaf. Qed.
Lemma inj_index : forall x, inj hash_index x.
Proof. intros x. unfold hash_index. rec_inj leaf. Qed.
Lemma eqr_item_number : forall x, eqr peq_item_number x.
Proof. intros x. unfold peq_item_number. rec_eq leaf. Qed.
Lemma inj_item_number : forall x, inj hash_item_number x.
Proof. intros x. unfold hash_item_number. rec_inj leaf. Qed.
Lemma eqr_toc_row : forall x, eqr peq_toc_row x.
Proof. intros x. unfold peq_toc_row. rec_eq leaf. Qed.
Lemma inj_toc_row : forall x, inj hash_toc_row x.
Proof. intros x. unfold hash_toc_row. rec_inj leaf. Qed.

(** ** The knot *)
Lemma void_nil : forall l : list (Knot KVoid), l = [].
Proof. intros [|x l]; [reflexivity|]. destruct (un KVoid x). Qed.
Lemma empty_nil : forall l : list Empty_set, l = [].
Proof. intros [|x l]; [reflexivity|destruct x]. Qed.
Ltac same_list f g := assert (list_children f = list_children g) by (etransitivity; [apply void_nil|symmetry; apply void_nil]).
Ltac same_item f g := assert (it_children f = it_children g) by (etransitivity; [apply void_nil|symmetry; apply void_nil]).
Ltac same_toc f g := assert (th_children f = th_children g) by (etransitivity; [apply empty_nil|symmetry; apply empty_nil]).

