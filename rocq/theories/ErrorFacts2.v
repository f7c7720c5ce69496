(** Every error of the readers is the fault of an element of the document: the readers. *)
From Coq Require Import String Ascii List Arith NArith Bool Lia.
From Verif Require Import Base NumStr NumStrSpec BaseFacts NumStrFacts Xml Ast XmlWrite XmlParse XmlSpec XmlSim
  GrammarSpec GrammarFacts ErrorSpec ErrorFacts.
Import ListNotations.
Open Scope string_scope.
Open Scope list_scope.

Lemma inside_trans : forall c d e, inside c d -> inside d e -> inside c e.
Proof. intros c d e H K. revert c H. induction K as [|d m e Hm K IH]; intros c H; [exact H|]. econstructor; [exact Hm|]. apply IH, H. Qed.
Lemma explained_inside : forall c e er, inside c e -> explained c er -> explained e er.
Proof. intros c e er H [d [Hd B]]. exists d. split; [eapply inside_trans; eassumption|exact B]. Qed.
Lemma inside_child : forall c e, In (NElement c) (children e) -> inside c e.
Proof. intros c e H. econstructor; [exact H|constructor]. Qed.
Lemma inside_grandchild : forall c d e, In (NElement d) (children e) -> In (NElement c) (children d) -> inside c e.
Proof. intros c d e H K. econstructor; [exact H|]. apply inside_child, K. Qed.
Lemma eb_inside : forall A (x : R A) c e, inside c e -> eb x (explained c) -> eb x (explained e).
Proof. intros A x c e H K er E. eapply explained_inside; [exact H|]. apply K, E. Qed.

Lemma not_in_tags : forall x l, existsb (String.eqb x) l = false -> ~ In x l.
Proof.
  intros x l H Hi. assert (T : existsb (String.eqb x) l = true); [|congruence].
  apply existsb_exists. exists x. split; [exact Hi|apply String.eqb_refl].
Qed.

(** Membership in the tables of the specification, decided. *)
Lemma in_pairs : forall (X : Type) (eqx : X -> X -> bool) (t : string) (x : X) l,
  (forall a b, eqx a b = true -> a = b) ->
  existsb (fun y => String.eqb t (fst y) && eqx x (snd y)) l = true -> In (t, x) l.
Proof.
  intros X eqx t x l He H. apply existsb_exists in H as [[t' x'] [Hi E]]. apply andb_true_iff in E as [E1 E2].
  cbn in E1, E2. apply String.eqb_eq in E1. apply He in E2. subst. exact Hi.
Qed.
Definition strings_eqb (l m : list string) : bool := if list_eq_dec String.string_dec l m then true else false.
Definition value_eqb (a b : value) : bool :=
  match a, b with
  | VBool, VBool | VInteger, VInteger | VNumber, VNumber => true
  | VOneOf l, VOneOf m => strings_eqb l m
  | _, _ => false
  end.
Definition pair_eqb {X Y} (ex : X -> X -> bool) (ey : Y -> Y -> bool) (a b : X * Y) : bool :=
  ex (fst a) (fst b) && ey (snd a) (snd b).
Lemma strings_eqb_eq : forall l m, strings_eqb l m = true -> l = m.
Proof. intros l m. unfold strings_eqb. destruct (list_eq_dec _ l m); [auto|discriminate]. Qed.
Lemma string_eqb_eq : forall a b, String.eqb a b = true -> a = b.
Proof. intros a b. apply String.eqb_eq. Qed.
Lemma value_eqb_eq : forall a b, value_eqb a b = true -> a = b.
Proof. intros [] []; cbn; try discriminate; auto. intros H. apply strings_eqb_eq in H. congruence. Qed.
Lemma pair_eqb_eq : forall (X Y : Type) (ex : X -> X -> bool) (ey : Y -> Y -> bool),
  (forall a b, ex a b = true -> a = b) -> (forall a b, ey a b = true -> a = b) ->
  forall a b, pair_eqb ex ey a b = true -> a = b.
Proof.
  intros X Y ex ey Hx Hy [a1 a2] [b1 b2] H. apply andb_true_iff in H as [H1 H2]. cbn in *.
  apply Hx in H1. apply Hy in H2. congruence.
Qed.
Ltac in_list := first
  [ apply in_tags; vm_compute; reflexivity
  | apply (in_pairs _ String.eqb); [exact string_eqb_eq|vm_compute; reflexivity]
  | apply (in_pairs _ (pair_eqb String.eqb value_eqb));
      [apply pair_eqb_eq; [exact string_eqb_eq|exact value_eqb_eq]|vm_compute; reflexivity]
  | apply (in_pairs _ (pair_eqb strings_eqb String.eqb));
      [apply pair_eqb_eq; [exact strings_eqb_eq|exact string_eqb_eq]|vm_compute; reflexivity]
  | apply (in_pairs _ (pair_eqb String.eqb strings_eqb));
      [apply pair_eqb_eq; [exact string_eqb_eq|exact strings_eqb_eq]|vm_compute; reflexivity]
  | apply (in_pairs _ (pair_eqb String.eqb String.eqb));
      [apply pair_eqb_eq; exact string_eqb_eq|vm_compute; reflexivity] ].

Ltac attrs Hn := rewrite Hn; in_list.

Definition rows_ok {S} (e c : Element) (tbl : list (string * handler S)) : Prop :=
  Forall (fun th => name c = fst th -> eb (snd th c) (explained e)) tbl.

Definition covers (ts : list string) (r : tag_rules) : bool :=
  forallb (fun t => existsb (String.eqb t) ts) (nested r ++ plain r).

Lemma covers_misplaced : forall ts t r c,
  assoc t grammar = Some r -> covers ts r = true -> ~ In (name c) ts -> misplaced t c.
Proof.
  intros ts t r c Hg Hc Hn. unfold covers in Hc. rewrite forallb_forall in Hc.
  exists r. split; [exact Hg|]. split; intros Hi; apply Hn;
    (assert (X : existsb (String.eqb (name c)) ts = true) by (apply Hc, in_or_app; auto));
    apply existsb_exists in X as [y [Hy E]]; apply String.eqb_eq in E; subst y; exact Hy.
Qed.

Lemma eb_strict : forall e r S (txt : string -> S -> S) tbl l s,
  assoc (name e) grammar = Some r -> existsb (String.eqb (name e)) reported_otherwise = false ->
  (forall c, In (NElement c) l -> In (NElement c) (further r (children e))) ->
  covers (map fst tbl) r = true ->
  (forall c, In (NElement c) l -> rows_ok e c tbl) -> eb (run txt (reject e) tbl l s) (explained e).
Proof.
  intros e r S txt tbl l s Hg Hr Hl Hc H. apply eb_run. intros c Hi. apply eb_lookup; [|apply H, Hi].
  intros Hn. apply eb_err, here. eapply unknown_child; [exact Hg|apply Hl, Hi| |apply not_in_tags, Hr].
  eapply covers_misplaced; eassumption.
Qed.

(** A part whose unknown children are reported against [e]. *)
Lemma eb_part : forall e m r S (txt : string -> S -> S) tbl s,
  In (NElement m) (children e) -> In (name e, name m) part_of ->
  assoc (name m) grammar = Some r -> covers (map fst tbl) r = true ->
  (forall c, In (NElement c) (children m) -> rows_ok e c tbl) ->
  eb (run txt (reject e) tbl (children m) s) (explained e).
Proof.
  intros e m r S txt tbl s Hm Hp Hg Hc H. apply eb_run. intros c Hi. apply eb_lookup; [|apply H, Hi].
  intros Hn. apply eb_err, here. eapply unknown_in_part; [exact Hm|exact Hp|exact Hi|].
  eapply covers_misplaced; eassumption.
Qed.

Section Step.
Context {K : kind -> Type}.
Context (p : forall k, Element -> R (K k)).
Hypothesis Hp : forall k c, k <> KVoid -> tagged k c -> eb (p k c) (fun er => misnamed k c er \/ explained c er).

Lemma eb_kid : forall e k t u c, k <> KVoid -> own_tag k = Some (t, u) -> inside c e -> name c = t -> tagged k c ->
  eb (p k c) (explained e).
Proof.
  intros e k t u c Hk Ho Hi Hn Ht er E. destruct (Hp k c Hk Ht er E) as [[t' [u' [Ho' [Hn' _]]]]|X].
  - exfalso. rewrite Ho in Ho'. injection Ho' as <- <-. contradiction.
  - eapply explained_inside; eassumption.
Qed.
Lemma eb_cont : forall e x c, inside c e -> name c = cont_tag x -> eb (p (KCont x) c) (explained e).
Proof.
  intros e x c Hi Hn er E. destruct (Hp (KCont x) c) with (er := er) as [[t [u [Ho _]]]|X]; try exact E.
  - discriminate.
  - apply cont_tagged, Hn.
  - discriminate.
  - eapply explained_inside; eassumption.
Qed.

Lemma eb_with_name : forall A k e n x (r : R A), own_tag k = Some (n, x) -> (name e = n -> eb r (explained e)) ->
  eb (with_name e n x r) (fun er => misnamed k e er \/ explained e er).
Proof.
  intros A k e n x r Ho H er E. unfold with_name in E. destruct (String.eqb_spec (name e) n) as [Y|N].
  - right. apply H; assumption.
  - injection E as <-. left. exists n, x. auto.
Qed.
(** The same for readers called with the right tag only. *)
Lemma eb_named : forall A e n x (r : R A) P, name e = n -> eb r P -> eb (with_name e n x r) P.
Proof. intros A e n x r P <- H. unfold with_name. rewrite String.eqb_refl. exact H. Qed.

Lemma eb_text : forall c P, eb (p_text p c) P.
Proof.
  intros c P. apply eb_run. intros d _. apply eb_lookup; [intros _; apply eb_ok|].
  unfold text_table. repeat constructor; intros _; apply eb_push_ok.
Qed.
Lemma eb_children : forall l P, eb (from_children p l) P.
Proof. intros l P. exact (eb_text (mkElement "" [] l) P). Qed.
Lemma eb_twm : forall c P, eb (parse_twm p c) P.
Proof. intros c P. apply eb_bind; [apply eb_children|intros; apply eb_ok]. Qed.
Lemma eb_sup : forall c P, name c = "Sup" -> eb (parse_sup c) P.
Proof. intros c P H. apply eb_named; [exact H|apply eb_ok]. Qed.
Lemma eb_sub : forall c P, name c = "Sub" -> eb (parse_sub c) P.
Proof. intros c P H. apply eb_named; [exact H|apply eb_ok]. Qed.
Lemma eb_caption : forall e c, inside c e -> name c = "ArticleCaption" \/ name c = "ParagraphCaption" ->
  eb (parse_caption p c) (explained e).
Proof.
  intros e c Hi Hn. apply (eb_inside _ _ c _ Hi). apply eb_bind; [apply eb_children|]. intros t _.
  apply eb_bind; [|intros; apply eb_ok]. apply eb_flag_opt. destruct Hn as [-> | ->]; in_list.
Qed.
Lemma eb_arith : forall e c, inside c e -> name c = "ArithFormula" -> eb (parse_arith p c) (explained e).
Proof.
  intros e c Hi Hn. apply eb_bind.
  - apply (eb_inside _ _ c _ Hi). apply eb_integer_opt. rewrite Hn. in_list.
  - intros n _. apply eb_bind; [|intros; apply eb_ok]. apply eb_cont; [exact Hi|exact Hn].
Qed.
Lemma eb_fig : forall e c, inside c e -> name c = "Fig" -> eb (parse_fig c) (explained e).
Proof.
  intros e c Hi Hn. apply (eb_inside _ _ c _ Hi). unfold parse_fig. destruct (get c "src") eqn:G; [apply eb_ok|].
  apply eb_err, here. rewrite <- Hn. apply absent_attribute; [rewrite Hn; in_list|exact G].
Qed.

(** Rows. *)
Ltac row :=
  let Hn := fresh "Hn" in intros Hn; cbn [fst snd] in Hn |- *;
  repeat match goal with
  | |- eb (h_push _ _ _ _) _ => apply eb_push
  | |- eb (h_some _ _ _) _ => apply eb_some
  | |- eb (h_put _ _ _) _ => apply eb_put
  | |- eb (h_push_ok _ _ _ _) _ => apply eb_push_ok
  | |- eb (p_text p _) _ => apply eb_text
  | |- eb (parse_twm p _) _ => apply eb_twm
  | |- eb (parse_sup _) _ => apply eb_sup; exact Hn
  | |- eb (parse_sub _) _ => apply eb_sub; exact Hn
  | |- eb (parse_fig _) _ => apply eb_fig; [|exact Hn]
  | |- eb (parse_arith p _) _ => apply eb_arith; [|exact Hn]
  | |- eb (parse_caption p _) _ => apply eb_caption; [|auto]
  | |- eb (p (KCont _) _) _ => apply eb_cont; [|exact Hn]
  | |- eb (p _ _) _ => eapply eb_kid; [discriminate|reflexivity| |exact Hn|exact I]
  | |- inside _ _ => solve [eauto using inside_child, inside_grandchild]
  end.
Ltac rows := repeat match goal with
  | |- rows_ok _ _ (_ ++ _) => apply Forall_app; split
  | |- rows_ok _ _ (_ :: _) => apply Forall_cons
  | |- rows_ok _ _ [] => apply Forall_nil
  | |- Forall _ (_ ++ _) => apply Forall_app; split
  | |- Forall _ (_ :: _) => apply Forall_cons
  | |- Forall _ [] => apply Forall_nil
  | |- _ -> eb _ _ => row
  end.

Lemma item_own : forall l, own_tag (KItem l) = Some (item_tag l, item_tag l).
Proof. intros []; reflexivity. Qed.
Lemma items_ok : forall e c T inj, inside c e -> rows_ok e c (@item_rows K p T inj).
Proof.
  intros e c T inj Hi. unfold item_rows. apply Forall_forall. intros x Hx. apply in_map_iff in Hx as [l [<- _]].
  cbn [fst snd]. intros Hn. apply eb_push. eapply eb_kid; [discriminate|apply item_own|exact Hi|exact Hn|exact I].
Qed.
Lemma struct_rows_ok : forall e c S ix, inside c e -> rows_ok e c (@struct_rows K p S ix).
Proof. intros e c S ix Hi. unfold struct_rows. rows. Qed.


(** Whole-children loops of an element with a known name. *)
Ltac strict Hn := eapply eb_strict;
  [rewrite Hn; reflexivity|rewrite Hn; reflexivity|intros ? X; exact X|reflexivity|].

(** Cases of a loop step. *)
Ltac step_cases H := unfold lookup in H; cbn [assoc] in H;
  repeat match type of H with
  | context [String.eqb ?a ?b] => destruct (String.eqb_spec a b); cbn [assoc] in H
  end.
Ltac step_done H := first
  [ discriminate H
  | apply bind_ok in H as [? [_ H]]; injection H as <-; cbn [at0 at1 at2 at3 fst snd]; first [assumption|discriminate|idtac] ].

Lemma sct_eb : forall e c, inside c e -> assoc (name c) grammar = Some sentence_rules ->
  existsb (String.eqb (name c)) reported_otherwise = false ->
  In (name c, (["Sentence"; "Column"; "Table"], "Sentence or Column or Table")) needed ->
  eb (parse_sct p c) (explained e).
Proof.
  intros e c Hi Hg Hr Hm. apply (eb_inside _ _ c _ Hi). unfold parse_sct. apply eb_bind.
  - eapply eb_strict; [exact Hg|exact Hr|intros ? X; exact X|reflexivity|]. intros d Hd. rows.
  - intros [ss [cs [t u]]] H. destruct cs as [|x cs]; [|apply eb_ok]. destruct ss as [|x ss]; [|apply eb_ok].
    destruct t as [t|]; [apply eb_ok|]. apply eb_err, here. eapply missing_child; [exact Hm|].
    eapply (run_found _ _ _ _ _ (fun st => fst st <> [] \/ fst (snd st) <> [] \/ fst (snd (snd st)) <> None)); [exact H|..].
    + intros s x Hx. exact Hx.
    + intros d v x Hv Hx. step_cases Hv; step_done Hv.
      * left. destruct (fst x); discriminate.
      * destruct Hx as [X|[_|X]]; [left; exact X| |right; right; exact X].
        right. left. destruct (fst (snd x)); discriminate.
      * right. right. discriminate.
    + intros d v x Hd Hv. step_cases Hv; step_done Hv.
      * left. destruct (fst x); discriminate.
      * right. left. destruct (fst (snd x)); discriminate.
      * right. right. discriminate.
    + cbn. intuition.
Qed.

Lemma struct_eb : forall T B k n tn bn pt pb e,
  own_tag k = Some (n, n) -> assoc n grammar = Some (rules None [bn] [tn; "Remarks"]) ->
  existsb (String.eqb n) reported_otherwise = false ->
  In (n, ([bn], bn)) needed -> bn <> tn -> bn <> "Remarks" ->
  (forall c P, eb (pt c) P) -> (forall c, inside c e -> name c = bn -> eb (pb c) (explained e)) ->
  eb (@parse_struct K p T B n tn bn pt pb e) (fun er => misnamed k e er \/ explained e er).
Proof.
  intros T B k n tn bn pt pb e Ho Hg Hr Hm N1 N2 Ht Hb. unfold parse_struct. apply eb_with_name; [exact Ho|].
  intros Hn. apply eb_bind.
  - eapply eb_strict; [rewrite Hn; exact Hg|rewrite Hn; exact Hr|intros ? X; exact X| |].
    + unfold covers. cbn. rewrite !String.eqb_refl, !orb_true_r. reflexivity.
    + intros c Hc. apply Forall_cons; [|apply Forall_cons; [|apply Forall_cons; [|apply Forall_nil]]]; cbn [fst snd]; intros Hcn.
      * apply eb_some, Ht.
      * apply eb_bind; [apply eb_ok_|intros; apply eb_ok].
      * apply eb_some, Hb; [apply inside_child, Hc|exact Hcn].
  - intros [t [tr [b [br u]]]] H. destruct b as [b|]; [apply eb_ok|]. apply eb_err, here.
    eapply missing_child; [rewrite Hn; exact Hm|].
    eapply (run_found _ _ _ _ _ (fun st => fst (snd (snd st)) <> None)); [exact H|..].
    + intros s x Hx. exact Hx.
    + intros d v x Hv Hx. step_cases Hv.
      * step_done Hv.
      * unfold h_struct_remarks in Hv. apply bind_ok in Hv as [o [_ Hv]]. injection Hv as <-.
        destruct o; [|exact Hx]. destruct (fst (snd (snd x))) eqn:E; cbn; rewrite ?E; congruence.
      * step_done Hv.
      * discriminate Hv.
    + intros d v x Hd Hv. cbn in Hd. destruct Hd as [Hd|[]]. step_cases Hv; try congruence. step_done Hv.
    + cbn. congruence.
Qed.

Lemma list_eb : forall l e, eb (parse_list p l e) (fun er => misnamed (KList l) e er \/ explained e er).
Proof.
  intros l e. unfold parse_list. apply eb_with_name; [destruct l; reflexivity|]. intros Hn.
  assert (Hw : forall A, (forall c rest, children e = NElement c :: rest -> name c <> (list_tag l ++ "Sentence")%string) ->
    eb (@wrong_tag_name A e (list_expected l)) (explained e)).
  { intros A Hc. apply eb_err, here. eapply no_list_sentence; [|exact Hc]. rewrite Hn. destruct l; in_list. }
  destruct (children e) as [|[s|t|t] rest] eqn:Ec; try (apply Hw; intros; congruence).
  destruct (String.eqb_spec (name s) (list_tag l ++ "Sentence")) as [Es|N].
  2: { apply Hw. intros c r E. injection E as <- <-. exact N. }
  assert (Hs : In (NElement s) (children e)) by (rewrite Ec; left; reflexivity).
  apply eb_bind.
  - eapply (eb_part e s list_sentence_rules); [exact Hs|rewrite Hn, Es; destruct l; in_list|rewrite Es; destruct l; reflexivity|reflexivity|].
    intros c Hc. rows.
  - intros ss _. apply eb_bind; [|intros; apply eb_ok].
    assert (Hr : forall c, In (NElement c) rest -> In (NElement c) (children e)) by (intros c Hc; rewrite Ec; right; exact Hc).
    assert (Q : forall m t, own_tag (KList m) = Some (t, t) -> In (name e, t) uniform ->
      (exists r, assoc (name e) grammar = Some r /\ first r <> None) -> eb (parse_all (p (KList m)) rest) (explained e)).
    { intros m t Ho Hu [r [Hg Hf]]. apply eb_parse_all. intros c Hc er E.
      destruct (Hp (KList m) c ltac:(discriminate) I er E) as [[t' [u' [Ho' [Hn' ->]]]]|X].
      - rewrite Ho in Ho'. injection Ho' as <- <-. apply here. eapply other_than_uniform; [exact Hu|exact Hg| |exact Hn'].
        unfold further. destruct (first r); [|congruence]. rewrite Ec. exact Hc.
      - eapply explained_child; [apply Hr, Hc|exact X]. }
    destruct l; [apply (Q Sublist1 "Sublist1")|apply (Q Sublist2 "Sublist2")|apply (Q Sublist3 "Sublist3")|apply eb_ok];
      try reflexivity; rewrite Hn; try in_list; eexists; (split; [reflexivity|discriminate]).
Qed.

Lemma item_eb : forall l e, eb (parse_item p l e) (fun er => misnamed (KItem l) e er \/ explained e er).
Proof.
  intros l e. unfold parse_item. apply eb_with_name; [apply item_own|]. intros Hn.
  apply eb_bind; [apply eb_attribute; rewrite Hn; destruct l; in_list|]. intros n _.
  apply eb_bind; [apply eb_ok_|]. intros num _.
  apply eb_bind; [apply eb_flag; rewrite Hn; destruct l; in_list|]. intros dl _.
  apply eb_bind; [apply eb_flag; rewrite Hn; destruct l; in_list|]. intros hd _.
  apply eb_bind.
  - eapply (eb_strict e (item_rules (item_tag l) match sub_tag (sub_item l) with Some t => [t] | None => [] end));
      [rewrite Hn; destruct l; reflexivity|rewrite Hn; destruct l; reflexivity|intros ? X; exact X|destruct l; reflexivity|].
    intros c Hc. unfold item_table. apply Forall_app. split; [|apply Forall_app; split].
    + apply Forall_cons; [|apply Forall_cons; [|apply Forall_nil]]; cbn [fst snd]; intros Hcn.
      * apply eb_some, eb_text.
      * apply eb_some, sct_eb; [apply inside_child, Hc|..]; rewrite Hcn; destruct l; try reflexivity; in_list.
    + apply struct_rows_ok, inside_child, Hc.
    + destruct l; cbn [sub_tag sub_item]; rows.
  - intros [title [sen [structs [subs u]]]] H. destruct sen as [s|]; [apply eb_ok|]. apply eb_err, here.
    eapply (missing_child e [(item_tag l ++ "Sentence")%string]); [rewrite Hn; destruct l; in_list|].
    eapply (run_found _ _ _ _ _ (fun st => fst (snd st) <> None)); [exact H|..].
    + intros s x Hx. exact Hx.
    + intros d v x Hv Hx. destruct l; unfold item_table, struct_rows in Hv; cbn [app sub_tag sub_item] in Hv; step_cases Hv; step_done Hv.
    + intros d v x [Hd|[]] Hv. destruct l; unfold lookup, item_table in Hv; rewrite <- Hd in Hv; cbn in Hv; step_done Hv.
    + cbn. congruence.
Qed.

(** Children that may only be sentences. *)
Lemma sentences_eb : forall e c, inside c e -> In (name c, "Sentence") uniform ->
  (exists r, assoc (name c) grammar = Some r /\ first r = None) ->
  eb (parse_all (p KSentence) (children c)) (explained e).
Proof.
  intros e c Hi Hu [r [Hg Hf]]. apply (eb_inside _ _ c _ Hi). apply eb_parse_all. intros d Hd er E.
  destruct (Hp KSentence d ltac:(discriminate) I er E) as [[t [u [Ho [Hn ->]]]]|X].
  - injection Ho as <- <-. apply here. eapply other_than_uniform; [exact Hu|exact Hg| |exact Hn].
    unfold further. rewrite Hf. exact Hd.
  - eapply explained_child; eassumption.
Qed.

Lemma article_head_eb : forall e l cap title, (forall c, In (NElement c) l -> inside c e) ->
  eb (article_head p l cap title) (explained e).
Proof.
  intros e. induction l as [|[c|t|t] r IH]; intros cap title H; cbn.
  - apply eb_panic.
  - assert (Hr : forall d, In (NElement d) r -> inside d e) by (intros d Hd; apply H; right; exact Hd).
    destruct (String.eqb_spec (name c) "ArticleCaption") as [E|N]; [|destruct (String.eqb_spec (name c) "ArticleTitle") as [E|N']].
    + apply eb_bind; [apply eb_caption; [apply H; left; reflexivity|auto]|]. intros x _. apply IH, Hr.
    + apply eb_bind; [apply eb_text|]. intros x _. apply IH, Hr.
    + apply eb_ok.
  - apply IH. intros d Hd. apply H. right. exact Hd.
  - apply IH. intros d Hd. apply H. right. exact Hd.
Qed.
Lemma article_head_split : forall l cap title cap' title' rest,
  article_head p l cap title = Ok (cap', (title', rest)) ->
  exists before b after, l = before ++ rest /\ rest = NElement b :: after /\
    name b <> "ArticleCaption" /\ name b <> "ArticleTitle".
Proof.
  induction l as [|[c|t|t] r IH]; intros cap title cap' title' rest H; cbn in H.
  - discriminate.
  - destruct (String.eqb_spec (name c) "ArticleCaption") as [E|N]; [|destruct (String.eqb_spec (name c) "ArticleTitle") as [E|N']].
    + apply bind_ok in H as [x [_ H]]. destruct (IH _ _ _ _ _ H) as [bf [b [af [-> X]]]]. exists (NElement c :: bf), b, af. auto.
    + apply bind_ok in H as [x [_ H]]. destruct (IH _ _ _ _ _ H) as [bf [b [af [-> X]]]]. exists (NElement c :: bf), b, af. auto.
    + injection H as _ _ <-. exists [], c, r. auto.
  - destruct (IH _ _ _ _ _ H) as [bf [b [af [-> X]]]]. exists (NText t :: bf), b, af. auto.
  - destruct (IH _ _ _ _ _ H) as [bf [b [af [-> X]]]]. exists (NOther t :: bf), b, af. auto.
Qed.

Lemma article_eb : forall e, eb (parse_article p e) (fun er => misnamed KArticle e er \/ explained e er).
Proof.
  intros e. unfold parse_article. apply eb_with_name; [reflexivity|]. intros Hn.
  apply eb_bind; [apply eb_attribute; attrs Hn|]. intros n Hnum.
  apply eb_bind; [apply eb_num; [attrs Hn|exact Hnum]|]. intros num _.
  apply eb_bind; [apply eb_flag; attrs Hn|]. intros dl _.
  apply eb_bind; [apply eb_flag; attrs Hn|]. intros hd _.
  apply eb_bind; [apply article_head_eb; intros c Hc; apply inside_child, Hc|].
  intros [cap [title rest]] Hh. destruct (article_head_split _ _ _ _ _ _ Hh) as [bf [b [af [Hc [-> [N1 N2]]]]]].
  apply eb_bind; [|intros [ps [note u]] _; apply eb_ok].
  apply eb_run. intros c Hi. apply eb_lookup.
  - intros Hx. apply eb_err, here. rewrite Hn. cbn in Hx.
    assert (HA : In (NElement c) (children e)) by (rewrite Hc; apply in_or_app; right; exact Hi).
    destruct (String.eqb_spec (name c) "ArticleCaption") as [E|NC]; [|destruct (String.eqb_spec (name c) "ArticleTitle") as [E|NT]].
    + eapply late_title; [exact Hn|exact Hc|exact N1|exact N2| |left; auto]. destruct Hi as [Hi|Hi]; [congruence|exact Hi].
    + eapply late_title; [exact Hn|exact Hc|exact N1|exact N2| |right; left; auto]. destruct Hi as [Hi|Hi]; [congruence|exact Hi].
    + rewrite <- Hn. eapply unknown_child; [rewrite Hn; reflexivity|exact HA| |rewrite Hn; apply not_in_tags; reflexivity].
      rewrite Hn. eexists. split; [reflexivity|]. cbn. intuition congruence.
  - assert (HA : In (NElement c) (children e)) by (rewrite Hc; apply in_or_app; right; exact Hi). rows.
Qed.

Lemma head_eb : forall C k n tbl r e,
  own_tag k = Some (n, n) -> In n heading_tags -> assoc n grammar = Some r -> first r <> None ->
  existsb (String.eqb n) reported_otherwise = false -> covers (map fst tbl) r = true ->
  (forall c, inside c e -> rows_ok e c tbl) ->
  eb (@parse_head K p C n tbl e) (fun er => misnamed k e er \/ explained e er).
Proof.
  intros C k n tbl r e Ho Hh Hg Hf Hr Hc Ht. unfold parse_head. apply eb_with_name; [exact Ho|]. intros Hn.
  apply eb_bind; [apply eb_attribute; rewrite Hn; unfold required; apply in_or_app; right; apply (in_map (fun t => (t, "Num")) _ n), in_or_app; left; exact Hh|].
  intros ns Hnum.
  apply eb_bind; [apply eb_num; [rewrite Hn; apply in_or_app; right; exact Hh|exact Hnum]|]. intros num _.
  apply eb_bind; [apply eb_flag; rewrite Hn; unfold checked; apply in_or_app; right; apply in_or_app; left; apply (in_map (fun t => (t, ("Delete", VBool))) _ n); right; apply in_or_app; left; exact Hh|].
  intros dl _.
  apply eb_bind; [apply eb_flag; rewrite Hn; unfold checked; apply in_or_app; right; apply in_or_app; right; apply in_or_app; left; apply (in_map (fun t => (t, ("Hide", VBool))) _ n); right; apply in_or_app; left; exact Hh|].
  intros hd _. subst n.
  destruct (children e) as [|[t|t|t] rest] eqn:Ec.
  1, 3, 4: apply eb_err, here, missing_title; [exact Hh|]; rewrite Ec; intros m r' E [c X]; congruence.
  destruct (String.eqb_spec (name t) (name e ++ "Title")) as [Et|N].
  - apply eb_bind; [apply eb_text|]. intros title _. apply eb_bind; [|intros; apply eb_ok].
    eapply eb_strict; [exact Hg|exact Hr| |exact Hc|].
    + intros c Hi. unfold further. destruct (first r); [|congruence]. rewrite Ec. exact Hi.
    + intros c Hi. apply Ht, inside_child. rewrite Ec. right. exact Hi.
  - apply eb_err, here. eapply other_than_title; [exact Hh|exact Ec|exact N].
Qed.

Lemma appdx_eb : forall C k n rs r e,
  own_tag k = Some (n, n) -> assoc n grammar = Some r -> first r = None ->
  existsb (String.eqb n) reported_otherwise = false ->
  covers (map fst ([((n ++ "Title")%string, h_some at0 (parse_twm p)); ("RelatedArticleNum", h_some at1 (p_text p))] ++ rs
     ++ [("Remarks", h_some at3 (p KRemarks))])) r = true ->
  (forall c, inside c e -> rows_ok e c rs) ->
  eb (@parse_appdx_t K p C n rs e) (fun er => misnamed k e er \/ explained e er).
Proof.
  intros C k n rs r e Ho Hg Hf Hr Hc Ht. unfold parse_appdx_t. apply eb_with_name; [exact Ho|]. intros Hn. subst n.
  apply eb_bind; [apply eb_string_opt|]. intros num _. apply eb_bind; [|intros [a [b [c [d u]]]] _; apply eb_ok].
  eapply eb_strict; [exact Hg|exact Hr|intros c X; unfold further; rewrite Hf; exact X|exact Hc|].
  intros c Hi. apply Forall_app. split; [rows|]. apply Forall_app. split; [apply Ht, inside_child, Hi|rows].
Qed.

Lemma toc_head_eb : forall C k n tn rs r e,
  own_tag k = Some (n, n) -> In n toc_tags -> assoc n grammar = Some r -> first r = None ->
  existsb (String.eqb n) reported_otherwise = false ->
  covers (map fst ([(tn, h_put at0 (p_text p)); ("ArticleRange", h_some at1 (p_text p))] ++ rs)) r = true ->
  (forall c, inside c e -> rows_ok e c rs) ->
  eb (@parse_toc_head K p C n tn rs e) (fun er => misnamed k e er \/ explained e er).
Proof.
  intros C k n tn rs r e Ho Hh Hg Hf Hr Hc Ht. unfold parse_toc_head. apply eb_with_name; [exact Ho|]. intros Hn. subst n.
  apply eb_bind; [apply eb_number_attr|].
  { unfold required. apply in_or_app. right. apply (in_map (fun t => (t, "Num")) _ (name e)), in_or_app. right. apply in_or_app. left. exact Hh. }
  { unfold checked. do 3 (apply in_or_app; right). apply (in_map (fun t => (t, ("Num", VNumber))) _ (name e)). exact Hh. }
  intros num _. apply eb_bind; [apply eb_flag|].
  { unfold checked. apply in_or_app. right. apply in_or_app. left. apply (in_map (fun t => (t, ("Delete", VBool))) _ (name e)).
    right. apply in_or_app. right. apply in_or_app. left. exact Hh. }
  intros dl _. apply eb_bind; [|intros [a [b [c u]]] _; apply eb_ok].
  eapply eb_strict; [exact Hg|exact Hr|intros c X; unfold further; rewrite Hf; exact X|exact Hc|].
  intros c Hi. apply Forall_app. split; [rows|]. apply Ht, inside_child, Hi.
Qed.

Lemma suppl_ts_eb : forall C k n x tn ms cn dflt pc r e,
  own_tag k = Some (n, x) -> assoc n grammar = Some r -> first r = None ->
  covers [tn; "RelatedArticleNum"; cn] r = true ->
  In (n, ([tn], ms)) needed ->
  (name e = n -> forall c, In (NElement c) (children e) -> misplaced n c -> eb (dflt c) (explained e)) ->
  (forall c u, dflt c <> Ok u) ->
  (forall c, inside c e -> name c = cn -> eb (pc c) (explained e)) ->
  eb (@parse_suppl_ts K p C n x tn ms cn dflt pc e) (fun er => misnamed k e er \/ explained e er).
Proof.
  intros C k n x tn ms cn dflt pc r e Ho Hg Hf Hc Hm Hd Hno Hpc. unfold parse_suppl_ts. apply eb_with_name; [exact Ho|]. intros Hn.
  apply eb_bind; [apply eb_string_opt|]. intros num _. apply eb_bind.
  - apply eb_run. intros c Hi. apply eb_lookup.
    + intros Hx. apply Hd; [exact Hn|exact Hi|]. eapply covers_misplaced; eassumption.
    + apply Forall_cons; [|apply Forall_cons; [|apply Forall_cons; [|apply Forall_nil]]]; cbn [fst snd]; intros Hcn.
      * apply eb_some, eb_twm.
      * apply eb_some, eb_text.
      * apply eb_push, Hpc; [apply inside_child, Hi|exact Hcn].
  - intros [t [rel [cs u]]] H. destruct t as [t|]; [apply eb_ok|]. apply eb_err, here.
    eapply missing_child; [rewrite Hn; exact Hm|].
    eapply (run_found _ _ _ _ _ (fun st => fst st <> None)); [exact H|..].
    + intros s y Hy. exact Hy.
    + intros d v y Hv Hy. step_cases Hv; try (exfalso; exact (Hno _ _ Hv)); step_done Hv.
    + intros d v y [Hd'|[]] Hv. step_cases Hv; try congruence. step_done Hv.
    + cbn. congruence.
Qed.

Ltac at_ lem := match goal with
  | |- eb (bind _ _) _ => apply eb_bind; [lem|]
  end.
Ltac named Hn := apply eb_with_name; [reflexivity|intros Hn].
Ltac loop Hn := apply eb_bind; [strict Hn|].
Ltac done_ok := intros; repeat match goal with |- context [let '(_, _) := ?x in _] => destruct x end; apply eb_ok.

Lemma pstep_eb : forall k e, k <> KVoid -> tagged k e ->
  eb (pstep p k e) (fun er => misnamed k e er \/ explained e er).
Proof.
  intros k e Hk Ht. destruct k; cbn [pstep]; [contradiction|..].
  - unfold parse_ruby. named Hn. apply eb_bind; [|done_ok]. apply eb_run. intros c _.
    apply eb_lookup; [intros _; apply eb_ok|]. repeat constructor. intros _. apply eb_put, eb_ok.
  - unfold parse_line. named Hn.
    destruct (linestyle_of (get e "Style")) as [st|] eqn:L.
    + apply eb_bind; [|done_ok]. strict Hn. intros c Hc. unfold line_table. rows.
    + apply eb_err, here. rewrite <- Hn. apply (unselected_attribute e "Style" ["solid"; "none"; "dotted"; "double"]); [attrs Hn|].
      intros s G. rewrite G in L. cbn in L. cbn.
      repeat match type of L with context [String.eqb ?a ?b] => destruct (String.eqb_spec a b); [discriminate|] end.
      intuition congruence.
  - eapply eb_weaken; [intros er H; right; exact H|].
    assert (Hc : name e = cont_tag c) by (destruct c; exact Ht).
    unfold parse_cont. eapply (eb_strict e contents_rules);
      [rewrite Hc; destruct c; reflexivity|rewrite Hc; destruct c; reflexivity|intros ? X; exact X|reflexivity|].
    intros d Hd. unfold contents_table. rows. apply items_ok, inside_child, Hd.
  - unfold parse_sentence. named Hn. at_ ltac:(apply eb_integer_opt; attrs Hn). intros num _.
    at_ ltac:(apply eb_enum_opt; attrs Hn). intros fn _. at_ ltac:(apply eb_enum_opt; attrs Hn). intros ind _.
    apply eb_bind; [|done_ok]. strict Hn. intros c Hc. unfold sentence_table. rows.
  - unfold parse_column. named Hn. at_ ltac:(apply eb_integer_opt; attrs Hn). intros num _.
    at_ ltac:(apply eb_flag; attrs Hn). intros lb _. apply eb_bind; [|done_ok].
    apply sentences_eb; [constructor|attrs Hn|]. rewrite Hn. eexists. split; reflexivity.
  - unfold parse_table. named Hn. apply eb_bind; [|done_ok]. strict Hn. intros c Hc. rows.
    apply eb_named; [assumption|]. apply eb_run. intros d _. apply eb_lookup; [intros _; apply eb_ok|].
    repeat constructor. intros _. apply eb_push, eb_text.
  - unfold parse_table_row. named Hn. apply eb_run. intros c Hc. apply eb_lookup; [intros _; apply eb_ok|]. rows.
  - unfold parse_table_column. named Hn. do 2 (at_ ltac:(apply eb_string_opt); intros ? _).
    apply eb_bind; [|done_ok]. strict Hn. intros c Hc. unfold cell_table. rows. apply items_ok, inside_child, Hc.
  - unfold parse_remarks. named Hn. loop Hn.
    + intros c Hc. rows. apply (eb_inside _ _ c _ (inside_child _ _ Hc)).
      apply eb_named; [assumption|]. at_ ltac:(apply eb_flag; match goal with H : name c = _ |- _ => attrs H end).
      intros lb _. apply eb_bind; [apply eb_children|done_ok].
    + intros [l [c u]] H. destruct l as [l|]; [apply eb_ok|]. apply eb_err, here.
      eapply (missing_child e ["RemarksLabel"]); [attrs Hn|].
      eapply (run_found _ _ _ _ _ (fun st => fst st <> None)); [exact H|..].
      * intros s y Hy. exact Hy.
      * intros d v y Hv Hy. step_cases Hv; step_done Hv.
      * intros d v y [Hd|[]] Hv. step_cases Hv; try congruence. step_done Hv.
      * cbn. congruence.
  - unfold parse_cstruct. destruct s; (eapply struct_eb; [reflexivity|reflexivity|reflexivity|in_list|discriminate|discriminate| |];
      [intros; apply eb_text|intros c Hi Hc; apply eb_cont; [exact Hi|exact Hc]]).
  - eapply struct_eb; [reflexivity|reflexivity|reflexivity|in_list|discriminate|discriminate| |].
    + intros; apply eb_text.
    + intros c Hi Hc. apply eb_fig; assumption.
  - eapply struct_eb; [reflexivity|reflexivity|reflexivity|in_list|discriminate|discriminate| |].
    + intros; apply eb_twm.
    + intros c Hi Hc. eapply eb_kid; [discriminate|reflexivity|exact Hi|exact Hc|exact I].
  - apply list_eb.
  - unfold parse_class. named Hn. at_ ltac:(apply eb_attribute; attrs Hn). intros num _. loop Hn.
    + intros c Hc. rows. apply sct_eb; [apply inside_child, Hc|..]; match goal with H : name c = _ |- _ => rewrite H end;
        [reflexivity|reflexivity|in_list].
    + intros [t [s [i u]]] H. destruct s as [s|]; [apply eb_ok|]. apply eb_err, here.
      eapply (missing_child e ["ClassSentence"]); [attrs Hn|].
      eapply (run_found _ _ _ _ _ (fun st => fst (snd st) <> None)); [exact H|..].
      * intros s y Hy. exact Hy.
      * intros d v y Hv Hy. step_cases Hv; step_done Hv.
      * intros d v y [Hd|[]] Hv. step_cases Hv; try congruence. step_done Hv.
      * cbn. congruence.
  - apply item_eb.
  - unfold parse_paragraph. named Hn. at_ ltac:(apply eb_attribute; attrs Hn). intros n Hnum.
    at_ ltac:(apply eb_num; [attrs Hn|exact Hnum]). intros num _. do 3 (at_ ltac:(apply eb_flag; attrs Hn); intros ? _).
    apply eb_bind; [|done_ok]. strict Hn. intros c Hc. unfold paragraph_table. rows.
    + apply eb_bind; [|done_ok]. apply sentences_eb; [apply inside_child, Hc|..]; match goal with H : name c = _ |- _ => rewrite H end.
      * in_list.
      * eexists. split; reflexivity.
    + apply struct_rows_ok, inside_child, Hc.
  - apply article_eb.
  - eapply head_eb; try reflexivity; [in_list|discriminate|]. intros c Hc. unfold part_table. rows.
  - eapply head_eb; try reflexivity; [in_list|discriminate|]. intros c Hc. unfold chapter_table. rows.
  - eapply head_eb; try reflexivity; [in_list|discriminate|]. intros c Hc. unfold section_table. rows.
  - eapply head_eb; try reflexivity; [in_list|discriminate|]. intros c Hc. unfold subsection_table. rows.
  - eapply head_eb; try reflexivity; [in_list|discriminate|]. intros c Hc. unfold division_table. rows.
  - unfold parse_amend. named Hn. apply eb_bind; [|done_ok]. strict Hn. intros c Hc. rows.
    + unfold parse_amend_sentence. match goal with H : name c = _ |- _ => rename H into Hcn end.
      destruct (children c) as [|[s|t|t] rest] eqn:Ec.
      1, 3, 4: apply eb_err; (eapply explained_child; [exact Hc|]); apply here, missing_amend_sentence; [exact Hcn|];
        rewrite Ec; intros m r' E [d X]; congruence.
      intros er E. eapply explained_child; [exact Hc|].
      destruct (Hp KSentence s ltac:(discriminate) I er E) as [[t [u [Ho [Hns ->]]]]|X].
      * injection Ho as <- <-. apply here. eapply other_than_sentence; eassumption.
      * eapply explained_child; [rewrite Ec; left; reflexivity|exact X].
    + match goal with H : name c = _ |- _ => rename H into Hcn end.
      apply eb_bind; [|done_ok]. eapply eb_part; [exact Hc|rewrite Hn, Hcn; in_list|rewrite Hcn; reflexivity|reflexivity|].
      intros d Hd. unfold new_provision_table. assert (Hi : inside d e) by (eapply inside_grandchild; eassumption).
      rows. apply items_ok, Hi.
  - unfold parse_law_title. named Hn. do 3 (at_ ltac:(apply eb_string_opt); intros ? _).
    apply eb_bind; [apply eb_children|done_ok].
  - unfold parse_preamble. named Hn. apply eb_run. intros c Hc. apply eb_lookup; [intros _; apply eb_ok|]. rows.
  - unfold parse_main. named Hn. at_ ltac:(apply eb_flag_opt; attrs Hn). intros x _. apply eb_bind; [|done_ok].
    strict Hn. intros c Hc. unfold main_table. rows.
  - unfold parse_suppl. named Hn. apply eb_bind.
    + intros er E. destruct (get e "Type") as [s|] eqn:G; cbn in E; [|discriminate].
      destruct (String.eqb_spec s "New") as [|N1]; [discriminate|]. destruct (String.eqb_spec s "Amend") as [|N2]; [discriminate|].
      injection E as <-. apply here. eapply illegal_suppl_type; eassumption.
    + intros ty _. at_ ltac:(apply eb_flag_opt; attrs Hn). intros x _. apply eb_bind; [|done_ok].
      strict Hn. intros c Hc. unfold suppl_table. rows.
  - eapply suppl_ts_eb; try reflexivity; [in_list| | |].
    + intros Hn c Hc Hm. apply eb_err, here. apply unknown_in_suppl_table; [exact Hn|exact Hc|]. rewrite Hn. exact Hm.
    + discriminate.
    + intros c Hi Hc. eapply eb_kid; [discriminate|reflexivity|exact Hi|exact Hc|exact I].
  - eapply suppl_ts_eb; try reflexivity; [in_list| | |].
    + intros Hn c Hc Hm. apply eb_err, here. eapply unknown_child; [rewrite Hn; reflexivity|exact Hc|rewrite Hn; exact Hm|].
      rewrite Hn. apply not_in_tags. reflexivity.
    + discriminate.
    + intros c Hi Hc. eapply eb_kid; [discriminate|reflexivity|exact Hi|exact Hc|exact I].
  - unfold parse_suppl_appdx. named Hn. at_ ltac:(apply eb_string_opt). intros x _. apply eb_bind; [|done_ok].
    strict Hn. intros c Hc. rows.
  - eapply appdx_eb; try reflexivity. intros c Hc. unfold appdx_table_rows. rows.
  - eapply appdx_eb; try reflexivity. intros c Hc. unfold appdx_note_rows. rows.
  - eapply appdx_eb; try reflexivity. intros c Hc. unfold appdx_style_rows. rows.
  - eapply appdx_eb; try reflexivity. intros c Hc. unfold appdx_format_rows. rows.
  - unfold parse_appdx. named Hn. apply eb_bind; [|done_ok]. strict Hn. intros c Hc. rows.
  - unfold parse_appdx_fig. named Hn. at_ ltac:(apply eb_string_opt). intros x _. apply eb_bind; [|done_ok].
    strict Hn. intros c Hc. rows.
  - unfold parse_toc. named Hn. apply eb_bind; [|done_ok]. strict Hn. intros c Hc. rows.
  - eapply toc_head_eb; try reflexivity; [in_list|]. intros c Hc. unfold toc_part_rows. rows.
  - eapply toc_head_eb; try reflexivity; [in_list|]. intros c Hc. unfold toc_chapter_rows. rows.
  - eapply toc_head_eb; try reflexivity; [in_list|]. intros c Hc. unfold toc_section_rows. rows.
  - eapply toc_head_eb; try reflexivity; [in_list|]. intros c Hc. unfold toc_subsection_rows. rows.
  - eapply toc_head_eb; try reflexivity; [in_list|]. intros c Hc. rows.
  - unfold parse_toc_article. named Hn. at_ ltac:(apply eb_number_attr; attrs Hn). intros num _.
    at_ ltac:(apply eb_flag; attrs Hn). intros dl _. loop Hn.
    + intros c Hc. rows.
    + intros [t [s u]] H. destruct s as [s|]; [apply eb_ok|]. apply eb_err, here.
      eapply (missing_child e ["ArticleCaption"]); [attrs Hn|].
      eapply (run_found _ _ _ _ _ (fun st => fst (snd st) <> None)); [exact H|..].
      * intros s y Hy. exact Hy.
      * intros d v y Hv Hy. step_cases Hv; step_done Hv.
      * intros d v y [Hd|[]] Hv. step_cases Hv; try congruence. step_done Hv.
      * cbn. congruence.
  - unfold parse_toc_suppl. named Hn. apply eb_bind; [|done_ok]. strict Hn. intros c Hc. rows.
  - unfold parse_law_body. named Hn. at_ ltac:(apply eb_string_opt). intros x _. loop Hn.
    + intros c Hc. unfold law_body_table. rows.
    + intros st H. destruct st as [x0 [x1 [x2 [x3 [m xs]]]]]. do 7 destruct xs as [? xs].
      destruct m as [m|]; [apply eb_ok|]. apply eb_err, here.
      eapply (missing_child e ["MainProvision"]); [attrs Hn|].
      eapply (run_found _ _ _ _ _ (fun st => fst (snd (snd (snd (snd st)))) <> None)); [exact H|..].
      * intros s y Hy. exact Hy.
      * intros d v y Hv Hy. unfold law_body_table in Hv. step_cases Hv; step_done Hv.
      * intros d v y [Hd|[]] Hv. unfold law_body_table in Hv. step_cases Hv; try congruence. step_done Hv.
      * cbn. congruence.
Qed.
End Step.

Lemma parse_n_eb : forall n k e, k <> KVoid -> tagged k e ->
  eb (parse_n n k e) (fun er => misnamed k e er \/ explained e er).
Proof.
  induction n as [|n IH]; intros k e Hk Ht; cbn [parse_n]; [apply eb_panic|].
  apply eb_bind; [|intros; apply eb_ok]. apply pstep_eb; [exact IH|exact Hk|exact Ht].
Qed.

Theorem error_explained : forall k e er, k <> KVoid -> tagged k e -> parse k e = Err er ->
  misnamed k e er \/ explained e er.
Proof. intros k e er Hk Ht. exact (parse_n_eb (height e) k e Hk Ht er). Qed.

Theorem law_error_explained : forall e er, parse_law e = Err er ->
  (name e <> "Law" /\ er = WrongTagName (name e) "Law") \/ explained e er.
Proof.
  intros e. unfold parse_law, with_name. destruct (String.eqb_spec (name e) "Law") as [Hn|N].
  2: { intros er E. injection E as <-. left. auto. }
  intros er E. right. revert er E.
  change (forall er, ?x = Err er -> explained e er) with (eb x (explained e)).
  apply eb_bind; [apply eb_enum_req; attrs Hn|]. intros era _.
  apply eb_bind; [apply eb_integer; attrs Hn|]. intros year _.
  destruct (get e "Num") as [s|] eqn:G; [|apply eb_panic]. cbn [unwrap bind].
  apply eb_bind.
  { destruct (String.eqb_spec s "") as [|Ns]; [apply eb_ok|]. apply eb_bind; [|intros; apply eb_ok].
    apply eb_from_num; [attrs Hn|exact G|auto]. }
  intros num _.
  assert (D : forall a, In a ["PromulgateMonth"; "PromulgateDay"] -> eb (parse_date_attr (get e a)) (explained e)).
  { intros a Ha. destruct (get e a) as [t|] eqn:Ga; cbn; [|apply eb_ok].
    destruct (String.eqb_spec t "") as [|Nt]; [apply eb_ok|]. destruct (parse_usize t) eqn:P; [apply eb_ok|].
    apply eb_err, here. eapply illegal_date; [exact Hn|exact Ha|exact Ga|exact Nt|].
    intros n Hx. apply parse_usize_spec in Hx. congruence. }
  apply eb_bind; [apply D; in_list|]. intros mo _. apply eb_bind; [apply D; in_list|]. intros da _.
  apply eb_bind; [apply eb_enum_req; attrs Hn|]. intros ty _.
  apply eb_bind; [apply eb_enum_req; attrs Hn|]. intros la _.
  destruct (children e) as [|[t|t|t] rest] eqn:Ec.
  1, 3, 4: apply eb_err, here, missing_law_num; [exact Hn|]; rewrite Ec; intros m r' E [c X]; congruence.
  destruct (String.eqb_spec (name t) "LawNum") as [Et|Nt].
  2: { apply eb_err, here. eapply other_than_law_num; eassumption. }
  destruct rest as [|[b|x|x] rest].
  1, 3, 4: apply eb_err, here; (eapply missing_law_body; [exact Hn|exact Ec|exact Et|]); intros m r' E [c X]; congruence.
  apply eb_bind; [|intros; apply eb_ok]. intros er E.
  destruct (error_explained KLawBody b er ltac:(discriminate) I E) as [[t' [u' [Ho [Hb ->]]]]|X].
  - injection Ho as <- <-. apply here. eapply other_than_law_body; eassumption.
  - eapply explained_child; [rewrite Ec; right; left; reflexivity|exact X].
Qed.
