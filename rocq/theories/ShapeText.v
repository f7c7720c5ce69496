(** The shapes for texts: a text gives a body exactly when the body has the shape, with lines that some
    text is classified as. *)
From Coq Require Import String List NArith Bool Arith Lia.
From Verif Require Import Base NumStr Ast Regex NumText NumTextSpec TextParse TextSpec TextFacts LineFacts ClassifyFacts
  ShapeSpec ShapeFacts ShapeLines.
Import ListNotations.
Open Scope list_scope.

Theorem image : forall ok title b,
  (exists lines fuel, Forall ok lines /\ parse_lines fuel title lines = Some (Ok b)) <-> body_shape ok title b.
Proof.
  intros ok title b. split.
  - intros (lines & fuel & F & E). exact (body_is_shaped ok fuel title lines b E F).
  - intros H. destruct (body_has_lines ok title b H) as (lines & F & E). exists lines, (S (length lines)). auto.
Qed.

Lemma join_lines : forall ls, Forall (fun l => ~ In 10%N l) ls -> exists text, joined ls text.
Proof. intros ls H. exists (concat (map (fun l => l ++ [10%N]) ls)). split; auto. Qed.

Theorem text_image : forall cd title b,
  (exists text fuel, parse_body cd fuel title text = Some (Ok b)) <-> body_shape (producible cd) title b.
Proof.
  intros cd title b. rewrite <- image. split.
  - intros (text & fuel & E). unfold parse_body in E. destruct (classify cd text) as [lines| |] eqn:C; try discriminate E.
    exists lines, fuel. split; [|exact E]. apply classify_ok in C. pose proof (text_is_joined text) as [F _]. clear E.
    induction C as [|l x ls xs C _ IH]; [constructor|]. apply Forall_cons_iff in F as [F1 F2].
    constructor; [exists l; auto|auto].
  - intros (lines & fuel & F & E).
    assert (X : exists ls, Forall (fun l => ~ In 10%N l) ls /\ Forall2 (fun l x => parse_line cd l = Ok x) ls lines).
    { clear E. induction F as [|x xs (w & W1 & W2) _ (ls & L1 & L2)]; [exists []; auto|]. exists (w :: ls). auto. }
    destruct X as (ls & L1 & L2). destruct (join_lines ls L1) as (text & J). exists text, fuel. unfold parse_body.
    assert (C : classify cd text = Ok lines) by (apply classify_ok; rewrite (text_lines_joined _ _ J); exact L2).
    rewrite C. exact E.
Qed.

Lemma no_space_line_feed : forall w, no_space w -> ~ In 10%N w.
Proof. intros w H I. unfold no_space in H. rewrite Forall_forall in H. specialize (H _ I). discriminate H. Qed.
Lemma labelled_no_feed : forall s t w, labelled s t w -> ~ In 10%N s -> ~ In 10%N w.
Proof. intros s t w (g & _ & _ & G & (_ & _ & T) & ->) H. rewrite !in_app_iff. tauto. Qed.
Lemma padded_no_feed : forall w l, padded w l -> ~ In 10%N w -> ~ In 10%N l.
Proof. intros w l (x & y & _ & _ & N & ->) H. rewrite !in_app_iff in *. tauto. Qed.
Theorem written_no_feed : forall cd x l, written cd x l -> ~ In 10%N l.
Proof.
  intros cd x l H. inversion H as [sfx mk a t w l' H1 H2 H3 H4|a t w l' H1 H2 H3 H4|p a s t w l' H1 H2 H3 H4 H5|v l' H1 H2 H3 H4|w l' H1 H2]; subst.
  - apply (padded_no_feed w); [exact H4|]. apply (labelled_no_feed _ _ _ H3), no_space_line_feed, heading_no_space; [exact (kind_suffix _ _ H1)|exact H2].
  - apply (padded_no_feed w); [exact H4|]. apply (labelled_no_feed _ _ _ H3), no_space_line_feed, label_no_space.
  - apply (padded_no_feed w); [exact H5|]. apply (labelled_no_feed _ _ _ H4), no_space_line_feed, (item_no_space cd p a s H2 H3).
  - apply (padded_no_feed _ _ H4). intros [E|I]; [vm_compute in E; discriminate E|]. apply in_app_iff in I as [I|[E|[]]]; [auto|vm_compute in E; discriminate E].
  - destruct H1 as (_ & N & _). apply (padded_no_feed _ _ H2 N).
Qed.
Theorem written_producible : forall cd x l, written cd x l -> producible cd x.
Proof. intros cd x l H. exists l. split; [exact (written_no_feed cd x l H)|exact (written_line cd x l H)]. Qed.
Theorem written_image : forall cd title b, body_shape (fun x => exists l, written cd x l) title b ->
  exists text, forall fuel, length (text_lines text) < fuel -> parse_body cd fuel title text = Some (Ok b).
Proof.
  intros cd title b H. destruct (body_has_lines _ title b H) as (lines & F & E).
  assert (X : exists ls, Forall2 (written cd) lines ls).
  { clear E. induction F as [|x xs (w & W) _ (ls & L)]; [exists []; auto|]. exists (w :: ls). auto. }
  destruct X as (ls & L). destruct (join_lines ls) as (text & J).
  { clear -L. induction L; constructor; [eapply written_no_feed; eassumption|assumption]. }
  exists text. intros fuel G. rewrite (text_lines_joined _ _ J) in G. rewrite (body_of_text cd lines ls text title fuel L J).
  apply E. assert (Q : length lines = length ls) by (clear -L; induction L; cbn; congruence). rewrite Q. exact G.
Qed.
