(** How every reading ends: numbers, determinism, and the steps of the readers. *)
From Coq Require Import String Ascii List Arith NArith Bool Lia.
From Verif Require Import Base NumStr NumStrSpec BaseFacts NumStrFacts Xml Ast XmlWrite XmlParse XmlSpec XmlSim
  GrammarSpec GrammarFacts ErrorSpec ErrorFacts ReadingSpec EndSpec.
Import ListNotations.
Open Scope string_scope.
Open Scope list_scope.

(** ** Numbers *)
Definition free (c : ascii) (w : string) : Prop := ~ In c (list_ascii_of_string w).
Lemma free_chars : forall c w, free c w -> all_chars (fun a => a <> c) w.
Proof.
  intros c w. unfold free. induction w as [|a w IH]; cbn; intros H; [exact I|]. split; [|apply IH; tauto].
  intros ->. apply H. left. reflexivity.
Qed.
Lemma chars_free : forall c w, all_chars (fun a => a <> c) w -> free c w.
Proof.
  intros c w. unfold free. induction w as [|a w IH]; cbn; intros H; [intros []|]. destruct H as [H1 H2].
  intros [X|X]; [contradiction|]. exact (IH H2 X).
Qed.
Lemma free_app : forall c a b, free c (a ++ b)%string <-> free c a /\ free c b.
Proof. intros c a b. unfold free. rewrite in_chars_app. tauto. Qed.

Lemma split_front : forall c u v h l, free c u -> split c v = h :: l -> split c (u ++ v) = (u ++ h)%string :: l.
Proof.
  intros c u v h l Hu Hv. apply free_chars in Hu. induction u as [|a u IH]; cbn; [exact Hv|].
  destruct Hu as [Ha Hu]. destruct (Ascii.eqb_spec a c); [contradiction|]. rewrite (IH Hu). reflexivity.
Qed.

Lemma bad_piece : forall s, (forall n, ~ usize_text s n) -> parse_piece s = Err (ParsingError "usize" s).
Proof.
  intros s H. unfold parse_piece. destruct (parse_usize s) as [n|] eqn:P; [|reflexivity].
  apply parse_usize_spec in P. destruct (H _ P).
Qed.
Lemma bad_head : forall w h, (forall n, ~ usize_text w n) -> free "_" w -> (h = "" \/ exists r, h = String "_" r) ->
  parse_pieces (split "_" (w ++ h)) = Err (ParsingError "usize" w).
Proof.
  intros w h Hw Hf Hh. assert (E : exists l, split "_" (w ++ h) = w :: l).
  { destruct Hh as [->|[r ->]].
    - rewrite append_nil_r_s. exists []. apply split_none, free_chars, Hf.
    - eexists. apply split_app, free_chars, Hf. }
  destruct E as [l ->]. cbn. rewrite (bad_piece _ Hw). reflexivity.
Qed.
Lemma bad_after : forall y ns w h, nums_text y ns -> (forall n, ~ usize_text w n) -> free "_" w ->
  (h = "" \/ exists r, h = String "_" r) ->
  parse_pieces (split "_" ((y ++ "_") ++ w ++ h)) = Err (ParsingError "usize" w).
Proof.
  intros y ns w h Hy Hw Hf Hh. induction Hy as [s n Hs|s n r ns Hs Hr IH].
  - rewrite append_assoc_s. cbn [append]. rewrite split_app.
    2:{ eapply all_chars_impl; [|exact (usize_text_chars _ _ Hs)]. cbn. tauto. }
    cbn. apply parse_piece_spec in Hs. rewrite Hs. cbn. rewrite (bad_head _ _ Hw Hf Hh). reflexivity.
  - rewrite !append_assoc_s in *. cbn [append] in *. rewrite split_app.
    2:{ eapply all_chars_impl; [|exact (usize_text_chars _ _ Hs)]. cbn. tauto. }
    cbn. apply parse_piece_spec in Hs. rewrite Hs. cbn. rewrite IH. reflexivity.
Qed.

Lemma head_of : forall a, (a = "" \/ exists c r, separator c /\ a = String c r) ->
  exists h l, split ":" a = h :: l /\ (h = "" \/ exists r, h = String "_" r).
Proof.
  intros a [->|(c & r & [-> | ->] & ->)].
  - exists "", []. split; [reflexivity|left; reflexivity].
  - cbn. destruct (split ":" r) as [|x l] eqn:E; [destruct (split_nonempty _ _ E)|].
    exists (String "_" x), l. split; [reflexivity|right; eauto].
  - cbn. exists "", (split ":" r). split; [reflexivity|left; reflexivity].
Qed.

Lemma nums_free : forall s ns, nums_text s ns -> free ":" s.
Proof. intros s ns H. apply chars_free. exact (nums_text_chars _ _ H). Qed.

Lemma first_bad_err : forall s w, first_bad s w -> from_num_str s = Err (ParsingError "usize" w).
Proof.
  intros s w (b & a & -> & Hb & Ha & Hf & Hw).
  destruct (head_of a Ha) as (h & l & Es & Hh).
  assert (Fc : free ":" w) by (apply Hf; right; reflexivity).
  assert (Fu : free "_" w) by (apply Hf; left; reflexivity).
  unfold from_num_str. destruct Hb as [->|[(x & ns & Hx & [-> | ->])|(x & y & ns & ms & Hx & Hy & ->)]].
  - cbn [append]. rewrite (split_front _ _ _ _ _ Fc Es). rewrite (bad_head _ _ Hw Fu Hh). reflexivity.
  - rewrite <- append_assoc_s. rewrite (split_front ":" ((x ++ "_") ++ w) a h l); [|..].
    + rewrite (append_assoc_s (x ++ "_")). rewrite (bad_after _ _ _ _ Hx Hw Fu Hh). reflexivity.
    + apply free_app. split; [|exact Fc]. apply free_app. split; [exact (nums_free _ _ Hx)|]. intros [X|[]]. discriminate.
    + exact Es.
  - rewrite append_assoc_s. cbn [append]. rewrite split_app by apply free_chars, (nums_free _ _ Hx).
    rewrite (split_front _ _ _ _ _ Fc Es).
    pose proof (proj2 (parse_pieces_spec _ _) Hx) as Px. rewrite Px. cbn [bind].
    destruct ns as [|n ns]; [destruct (nums_text_nonempty _ Hx)|].
    rewrite (bad_head _ _ Hw Fu Hh). reflexivity.
  - rewrite !append_assoc_s. cbn [append]. rewrite split_app by apply free_chars, (nums_free _ _ Hx).
    replace (y ++ String "_" (w ++ a))%string with (((y ++ "_") ++ w) ++ a)%string
      by (rewrite !append_assoc_s; reflexivity).
    rewrite (split_front ":" ((y ++ "_") ++ w) a h l); [|..].
    + pose proof (proj2 (parse_pieces_spec _ _) Hx) as Px. rewrite Px. cbn [bind].
      destruct ns as [|n ns]; [destruct (nums_text_nonempty _ Hx)|].
      rewrite (append_assoc_s (y ++ "_")). rewrite (bad_after _ _ _ _ Hy Hw Fu Hh). reflexivity.
    + apply free_app. split; [|exact Fc]. apply free_app. split; [exact (nums_free _ _ Hy)|]. intros [X|[]]. discriminate.
    + exact Es.
Qed.

Lemma pieces_bad : forall x er, parse_pieces (split "_" x) = Err er ->
  exists b w a, x = (b ++ w ++ a)%string /\ (b = "" \/ exists y ns, nums_text y ns /\ b = (y ++ "_")%string) /\
    (a = "" \/ exists r, a = String "_" r) /\ free "_" w /\ (forall n, ~ usize_text w n) /\
    er = ParsingError "usize" w.
Proof.
  intros x. remember (split "_" x) as l eqn:E. symmetry in E. revert x E.
  induction l as [|y l IH]; intros x E er H; [destruct (split_nonempty _ _ E)|]. cbn in H.
  apply split_inv in E. destruct E as [Hc E].
  destruct (parse_piece y) as [n|er'|] eqn:P; cbn in H; [| |].
  - apply parse_piece_spec in P. destruct E as [[-> ->]|(r & -> & Er)]; [discriminate H|].
    destruct (parse_pieces l) as [ns|er''|] eqn:Pl; cbn in H; try discriminate. injection H as <-.
    destruct (IH r Er er'' eq_refl) as (b & w & a & -> & Hb & Ha & Hf & Hw & ->).
    exists (y ++ "_" ++ b)%string, w, a. split; [rewrite !append_assoc_s; reflexivity|]. split; [|auto].
    right. destruct Hb as [->|(z & ns & Hz & ->)].
    + exists y, [n]. split; [constructor; exact P|]. reflexivity.
    + exists (y ++ "_" ++ z)%string, (n :: ns). split; [constructor; assumption|]. rewrite !append_assoc_s. reflexivity.
  - injection H as <-. unfold parse_piece in P. destruct (parse_usize y) as [n|] eqn:U; [discriminate|]. injection P as <-.
    assert (Hw : forall n, ~ usize_text y n) by (intros n Hn; apply parse_usize_spec in Hn; congruence).
    apply chars_free in Hc. destruct E as [[-> ->]|(r & -> & Er)].
    + exists "", y, "". rewrite append_nil_r_s. repeat split; auto.
    + exists "", y, (String "_" r). repeat split; eauto.
  - unfold parse_piece in P. destruct (parse_usize y); discriminate.
Qed.

Lemma err_first_bad : forall s er, from_num_str s = Err er -> exists w, er = ParsingError "usize" w /\ first_bad s w.
Proof.
  intros s er H. unfold from_num_str in H. destruct (split ":" s) as [|x l] eqn:E; [discriminate|].
  apply split_inv in E. destruct E as [Hx E]. apply chars_free in Hx.
  destruct (parse_pieces (split "_" x)) as [ns|er'|] eqn:P; cbn [bind] in H; try discriminate.
  - destruct ns as [|n ns]; [exfalso; exact (pieces_nonempty _ (split_nonempty _ _) P)|].
    destruct l as [|y l]; [discriminate|]. destruct E as [[X _]|(r & -> & Er)]; [discriminate|].
    apply split_inv in Er. destruct Er as [Hy Er]. apply chars_free in Hy.
    destruct (parse_pieces (split "_" y)) as [ms|er'|] eqn:Q; cbn [bind] in H; try discriminate. injection H as <-.
    apply parse_pieces_spec in P. destruct (pieces_bad _ _ Q) as (b & w & a & -> & Hb & Ha & Hf & Hw & ->).
    exists w. split; [reflexivity|].
    apply free_app in Hy. destruct Hy as [_ Hy]. apply free_app in Hy. destruct Hy as [Fw _].
    assert (X : exists t, r = (b ++ w ++ a ++ t)%string /\ (t = "" \/ exists q, t = String ":" q)).
    { destruct Er as [[_ ->]|(q & -> & _)].
      - exists "". rewrite append_nil_r_s. auto.
      - exists (String ":" q). rewrite !append_assoc_s. eauto. }
    destruct X as (t & -> & Ht).
    exists (x ++ ":" ++ b)%string, (a ++ t)%string. split; [rewrite !append_assoc_s; reflexivity|]. split; [|split; [|split; [|exact Hw]]].
    + right. destruct Hb as [->|(z & ms & Hz & ->)].
      * left. exists x, (n :: ns). split; [exact P|]. right. reflexivity.
      * right. exists x, z, (n :: ns), ms. auto.
    + destruct Ha as [->|[q ->]].
      * destruct Ht as [->|[q ->]]; [left; reflexivity|]. right. exists ":"%char, q. split; [right; reflexivity|reflexivity].
      * right. exists "_"%char, (q ++ t)%string. split; [left; reflexivity|reflexivity].
    + intros c [-> | ->]; assumption.
  - injection H as <-. destruct (pieces_bad _ _ P) as (b & w & a & -> & Hb & Ha & Hf & Hw & ->).
    exists w. split; [reflexivity|].
    apply free_app in Hx. destruct Hx as [_ Hx]. apply free_app in Hx. destruct Hx as [Fw _].
    assert (X : exists t, s = (b ++ w ++ a ++ t)%string /\ (t = "" \/ exists q, t = String ":" q)).
    { destruct E as [[_ ->]|(q & -> & _)].
      - exists "". rewrite append_nil_r_s. auto.
      - exists (String ":" q). rewrite !append_assoc_s. eauto. }
    destruct X as (t & -> & Ht).
    exists b, (a ++ t)%string. split; [reflexivity|]. split; [|split; [|split; [|exact Hw]]].
    + destruct Hb as [->|(z & ms & Hz & ->)]; [left; reflexivity|]. right. left. exists z, ms. auto.
    + destruct Ha as [->|[q ->]].
      * destruct Ht as [->|[q ->]]; [left; reflexivity|]. right. exists ":"%char, q. split; [right; reflexivity|reflexivity].
      * right. exists "_"%char, (q ++ t)%string. split; [left; reflexivity|reflexivity].
    + intros c [-> | ->]; assumption.
Qed.

(** ** The ending of a result *)
Definition eo {A} (x : R A) : ending :=
  match x with Ok _ => Fine | Err er => Fault er | Panic => Crash end.

Lemma number_eo : forall s, number_ends s (eo (from_num_str s)).
Proof.
  intros s. destruct (from_num_str s) as [a|er|] eqn:E; cbn.
  - left. split; [reflexivity|]. apply from_num_str_spec in E. eauto.
  - right. destruct (err_first_bad _ _ E) as (w & -> & H). eauto.
  - destruct (from_num_str_no_panic s E).
Qed.
Lemma number_det : forall s v w, number_ends s v -> number_ends s w -> v = w.
Proof.
  assert (X : forall s v, number_ends s v -> v = eo (from_num_str s)).
  { intros s v [[-> (b & ed & r & H)]|(p & -> & H)].
    - apply (from_num_str_spec s (mkAN b ed r)) in H. rewrite H. reflexivity.
    - rewrite (first_bad_err _ _ H). reflexivity. }
  intros s v w Hv Hw. rewrite (X _ _ Hv), (X _ _ Hw). reflexivity.
Qed.

(** ** Going through the checks has one ending *)
Lemma unless_det : forall P er v w, unless P er v -> unless P er w -> v = w.
Proof. intros P er v w [[H ->]|[H ->]] [[K ->]|[K ->]]; tauto || reflexivity. Qed.
Lemma alone_det : forall c e v w, alone c e v -> alone c e w -> v = w.
Proof.
  intros c e x y. destruct c; cbn; try contradiction; try apply unless_det.
  - destruct (get e a); congruence.
  - destruct (get e a); [apply number_det|congruence].
  - destruct (get e a) as [s|]; [|congruence].
    intros [[H ->]|[H Hv]] [[K ->]|[K Hw]]; try contradiction; [reflexivity|]. eapply number_det; eassumption.
  - destruct (get e a); [apply unless_det|congruence].
Qed.
Lemma element_at_det : forall i l c d, element_at i l c -> element_at i l d -> c = d.
Proof. unfold element_at. intros i l c d H K. rewrite H in K. injection K as ->. reflexivity. Qed.

Scheme ends_min := Minimality for ends Sort Prop
  with passes_min := Minimality for passes Sort Prop
  with nodes_min := Minimality for nodes_end Sort Prop
  with child_min := Minimality for child_ends Sort Prop
  with opening_min := Minimality for opening_ends Sort Prop.
Combined Scheme ending_min from ends_min, passes_min, nodes_min, child_min, opening_min.

Lemma ending_det :
  (forall l e v, ends l e v -> forall w, ends l e w -> v = w) /\
  (forall c e v, passes c e v -> forall w, passes c e w -> v = w) /\
  (forall r o l v, nodes_end r o l v -> forall w, nodes_end r o l w -> v = w) /\
  (forall r o c v, child_ends r o c v -> forall w, child_ends r o c w -> v = w) /\
  (forall h r o l v, opening_ends h r o l v -> forall w, opening_ends h r o l w -> v = w).
Proof.
  apply ending_min.
  - intros e w H. inversion H. reflexivity.
  - intros c l e v Hc IHc Hl IHl w H. inversion H; subst.
    + auto.
    + match goal with K : passes c e w |- _ => apply IHc in K end. subst w. contradiction.
  - intros c l e v Hc IHc Hv w H. inversion H; subst.
    + match goal with K : passes c e Fine |- _ => apply IHc in K end. contradiction.
    + auto.
  - intros c e v Ha w H. inversion H; subst; try (cbn in Ha; contradiction). eapply alone_det; eassumption.
  - intros k e v _ IH w H. inversion H; subst; [match goal with K : alone _ _ _ |- _ => destruct K end|]. auto.
  - intros k e v _ IH w H. inversion H; subst; [match goal with K : alone _ _ _ |- _ => destruct K end|].
    f_equal. auto.
  - intros i r o e v _ IH w H. inversion H; subst; [match goal with K : alone _ _ _ |- _ => destruct K end|]. auto.
  - intros i er l e c v Hc _ IH w H. inversion H; subst; [match goal with K : alone _ _ _ |- _ => destruct K end|..].
    + apply IH. match goal with K : element_at _ _ ?d |- ends _ c _ => rewrite (element_at_det _ _ _ _ Hc K) end. assumption.
    + match goal with K : forall c, ~ _ |- _ => destruct (K _ Hc) end.
  - intros i er l e Hc w H. inversion H; subst; [match goal with K : alone _ _ _ |- _ => destruct K end|..].
    + match goal with K : element_at _ _ _ |- _ => destruct (Hc _ K) end.
    + reflexivity.
  - intros h r o e v _ IH w H. inversion H; subst; [match goal with K : alone _ _ _ |- _ => destruct K end|]. auto.
  - intros r o w H. inversion H. reflexivity.
  - intros r o s l v _ IH w H. inversion H; subst; auto.
  - intros r o s l v _ IH w H. inversion H; subst; auto.
  - intros r o c l v _ IHc _ IHl w H. inversion H; subst; [auto|].
    match goal with K : child_ends _ _ _ w |- _ => apply IHc in K end. subst w. contradiction.
  - intros r o c l v _ IHc Hv w H. inversion H; subst; [|auto].
    match goal with K : child_ends _ _ _ Fine |- _ => apply IHc in K end. contradiction.
  - intros r o c l v Ha _ IH w H. inversion H; subst; try congruence.
    match goal with K : assoc _ _ = Some _ |- _ => rewrite Ha in K; injection K as <- end. auto.
  - intros r er c Ha w H. inversion H; subst; [congruence|reflexivity].
  - intros r l c v Ha _ IH w H. inversion H; subst; [congruence|auto].
  - intros h r o w H. inversion H. reflexivity.
  - intros h r o s l v _ IH w H. inversion H; subst; auto.
  - intros h r o s l v _ IH w H. inversion H; subst; auto.
  - intros h r o c l k v Ha _ IHc _ IHl w H. inversion H; subst; [auto| |congruence].
    match goal with K : assoc _ _ = Some _ |- _ => rewrite Ha in K; injection K as <- end.
    match goal with K : ends _ _ w |- _ => apply IHc in K end. subst w. contradiction.
  - intros h r o c l k v Ha _ IHc Hv w H. inversion H; subst; [| |congruence].
    + match goal with K : assoc _ _ = Some _ |- _ => rewrite Ha in K; injection K as <- end.
      match goal with K : ends _ _ Fine |- _ => apply IHc in K end. contradiction.
    + match goal with K : assoc _ _ = Some _ |- _ => rewrite Ha in K; injection K as <- end. auto.
  - intros h r o c l v Ha _ IH w H. inversion H; subst; [congruence|congruence|auto].
Qed.
Lemma ends_det : forall l e v w, ends l e v -> ends l e w -> v = w.
Proof. intros l e v w H K. exact (proj1 ending_det l e v H w K). Qed.
