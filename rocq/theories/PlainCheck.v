(** A test for plain documents, used in the examples of [PropStable.v]. *)
From Coq Require Import String List Arith NArith Bool Lia.
From Verif Require Import Base NumStr NumStrSpec BaseFacts NumStrFacts Xml Ast XmlSpec XmlSim PlainSpec.
Import ListNotations.
Open Scope string_scope.
Open Scope list_scope.

Definition mem (s : string) (l : list string) : bool := existsb (String.eqb s) l.
Definition has_child_b (e : Element) (t : string) : bool :=
  existsb (fun n => match n with NElement c => String.eqb (name c) t | _ => false end) (children e).
Definition none {A} (o : option A) : bool := match o with None => true | Some _ => false end.
Definition simple_b (s : string) : bool :=
  match from_num_str s with
  | Ok (mkAN _ _ []) | Ok (mkAN _ [_] _) => true
  | Ok _ => false
  | _ => true
  end.
Definition readable_b (s : string) : bool := match from_num_str s with Ok _ => true | _ => false end.
Definition plain_element_b (e : Element) : bool :=
  negb (mem (name e) ["Remarks"; "SupplProvisionAppdxTable"; "SupplProvisionAppdx"; "NewProvision"; "TOCPreambleLabel"]) &&
  (negb (String.eqb (name e) "Appdx") || negb (has_child_b e "RelatedArticleNum")) &&
  (negb (String.eqb (name e) "ArithFormula") || none (get e "Num")) &&
  (negb (String.eqb (name e) "TableColumn") || (none (get e "Align") && none (get e "Valign"))) &&
  (negb (mem (name e) (provision_tags ++ item_tags)) || match get e "Num" with Some s => simple_b s | None => true end) &&
  (negb (mem (name e) item_tags) || match get e "Num" with Some s => readable_b s | None => true end).

Fixpoint plain_b (e : Element) : bool :=
  plain_element_b e &&
  match e with
  | mkElement _ _ cs =>
    (fix all (l : list XMLNode) : bool := match l with
      | [] => true
      | NElement c :: r => plain_b c && all r
      | _ :: r => all r
      end) cs
  end.

Lemma mem_in : forall s l, In s l -> mem s l = true.
Proof. intros s l H. apply existsb_exists. exists s. split; [exact H|apply String.eqb_refl]. Qed.

Lemma plain_element_b_ok : forall e, plain_element_b e = true -> plain_element e.
Proof.
  intros e H. unfold plain_element_b in H. repeat (apply andb_true_iff in H as [H ?]).
  repeat match goal with X : (_ || _) = true |- _ => apply orb_true_iff in X end.
  assert (D : forall s l (P : Prop), (negb (mem s l) = true \/ P) -> In s l -> P).
  { intros s l P [X|X] Hi; [|exact X]. rewrite mem_in in X by exact Hi. discriminate. }
  assert (Q : forall s t (P : Prop), (negb (String.eqb s t) = true \/ P) -> s = t -> P).
  { intros s t P [X|X] Hi; [|exact X]. subst. rewrite String.eqb_refl in X. discriminate. }
  split; [|split; [|split; [|split; [|split]]]].
  - intros Hi. rewrite mem_in in H by exact Hi. discriminate.
  - intros Hn (c & Hc & Hcn). apply (Q _ _ _ H4) in Hn. unfold has_child_b in Hn. apply negb_true_iff in Hn.
    eassert (X : existsb _ _ = true); [|rewrite X in Hn; discriminate]. apply existsb_exists. exists (NElement c). split; [exact Hc|].
    cbn. apply String.eqb_eq, Hcn.
  - intros Hn. apply (Q _ _ _ H3) in Hn. destruct (get e "Num"); [discriminate|reflexivity].
  - intros Hn. apply (Q _ _ _ H2) in Hn. apply andb_true_iff in Hn as [A B].
    destruct (get e "Align"); [discriminate|]. destruct (get e "Valign"); [discriminate|]. auto.
  - intros Hn s Hs. apply (D _ _ _ H1) in Hn. rewrite Hs in Hn. intros b ed r X. apply from_num_str_C03 in X.
    unfold simple_b in Hn. rewrite X in Hn. destruct r; [left; reflexivity|]. destruct ed as [|x [|? ?]]; try discriminate.
    right. exists x. reflexivity.
  - intros Hn s Hs. apply (D _ _ _ H0) in Hn. rewrite Hs in Hn. unfold readable_b in Hn.
    destruct (from_num_str s) as [[b ed r]| |] eqn:E; try discriminate. exists b, ed, r. apply from_num_str_C03, E.
Qed.

Lemma plain_b_ok : forall e, plain_b e = true -> plain_document e.
Proof.
  intros e H c Hc. induction Hc as [e|c d e Hd Hc IH].
  - apply plain_element_b_ok. destruct e. cbn [plain_b] in H. apply andb_true_iff in H as [H _]. exact H.
  - apply IH. destruct e as [n a cs]. cbn [plain_b] in H. apply andb_true_iff in H as [_ H]. cbn [children] in Hd. clear -H Hd.
    induction cs as [|[x|x|x] cs IH]; [destruct Hd| | |].
    + apply andb_true_iff in H as [A B]. destruct Hd as [E|Hd]; [injection E as <-; exact A|]. apply IH; assumption.
    + destruct Hd as [E|Hd]; [discriminate|]. apply IH; assumption.
    + destruct Hd as [E|Hd]; [discriminate|]. apply IH; assumption.
Qed.
