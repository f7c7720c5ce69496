(** What replacing an element does to the listing of articles. *)
From Coq Require Import String List NArith Bool.
From Verif Require Import Base NumStr Xml Ast XmlParse ReadSpec ReadingSpec ReadingFacts Utils UtilsSpec UtilsFacts DocTextSpec DocListSpec DocListFacts Serde LocalSpec.
Import ListNotations.
Open Scope string_scope.
Open Scope list_scope.

(** ** A listing is determined by the places *)
Lemma option_ext : forall A (o o' : option A), (forall n, o = Some n <-> o' = Some n) -> o = o'.
Proof.
  intros A [a|] [b|] H; [apply H; reflexivity| | |reflexivity].
  - symmetry. apply H. reflexivity.
  - apply H. reflexivity.
Qed.
Lemma noted_fun : forall x w w', noted_as x w -> noted_as x w' -> w = w'.
Proof.
  intros x w w' (A & D & B) (A' & D' & B').
  assert (H : forall r, noted w r = noted w' r).
  { intros r. apply option_ext. intros n. destruct r.
    5: rewrite D, D'; reflexivity.
    all: rewrite B, B' by discriminate; reflexivity. }
  destruct w, w'. pose proof (H RPart). pose proof (H RChapter). pose proof (H RSection).
  pose proof (H RSubsection). pose proof (H RDivision). cbn in *. congruence.
Qed.
Lemma trail_fun : forall w t t', same_trail w t -> same_trail w t' -> t = t'.
Proof.
  intros w t t' H. revert t'. induction H as [|[r a] [q n] w t [E N] _ IH]; intros t' H'; inversion H'; subst; [reflexivity|].
  destruct y as [q' n']. destruct H1 as [E' N']. cbn in *. subst. f_equal; [|apply IH; assumption].
  f_equal. eapply number_fun; eassumption.
Qed.
Lemma article_fun : forall p x y, article_for p x -> article_for p y -> x = y.
Proof.
  intros p [t a] [t' a'] [H1 H2] [H1' H2']. cbn in *. unfold reads in *. f_equal; [eapply trail_fun; eassumption|congruence].
Qed.
Lemma forall2_fun : forall A B (P : A -> B -> Prop), (forall a b b', P a b -> P a b' -> b = b') ->
  forall l m m', Forall2 P l m -> Forall2 P l m' -> m = m'.
Proof.
  intros A B P F l m m' H. revert m'. induction H; intros m' H'; inversion H'; subst; [reflexivity|].
  f_equal; [eapply F; eassumption|auto].
Qed.
Lemma listed_fun : forall l ws ws', listed l ws -> listed l ws' -> ws = ws'.
Proof.
  intros l ws ws' (xs & H1 & H2) (xs' & H1' & H2').
  assert (xs = xs') as <- by (eapply forall2_fun; [apply article_fun|eassumption|eassumption]).
  eapply forall2_fun; [apply noted_fun|eassumption|eassumption].
Qed.
Lemma listed_app : forall l m ws, listed (l ++ m) ws -> exists u v, ws = u ++ v /\ listed l u /\ listed m v.
Proof.
  intros l m ws (xs & H1 & H2). apply Forall2_app_inv_l in H1. destruct H1 as (x1 & x2 & A & B & ->).
  apply Forall2_app_inv_l in H2. destruct H2 as (u & v & C & D & ->).
  exists u, v. split; [reflexivity|]. split; eexists; split; eassumption.
Qed.

(** ** The places around a replaced element *)
Lemma elements_app : forall l r, elements (l ++ r) = elements l ++ elements r.
Proof. induction l as [|[c|s|s] l IH]; intros r; cbn [elements app]; rewrite ?IH; reflexivity. Qed.
Lemma flat_own : forall e, article_places e = flat_map own (elements (children e)).
Proof. intros e. unfold article_places, provision_places. rewrite filter_flat. reflexivity. Qed.

Lemma own_put : forall q t, around q = Some t ->
  exists A B, forall c, own (put q c) = A ++ articles_at t c ++ B.
Proof.
  induction q as [|n a l q IH r]; intros t H; cbn [around] in H.
  - injection H as <-. exists [], []. intros c. cbn [put app]. rewrite app_nil_r. unfold articles_at, own.
    generalize (filter (fun x : written_trail * Element => is_article (snd x)) (places c)). intros m.
    induction m as [|[w x] m IH]; [reflexivity|]. cbn [map]. rewrite <- IH. reflexivity.
  - destruct (heading_rank n) as [k|] eqn:K; [|discriminate]. destruct (around q) as [u|]; [|discriminate].
    injection H as <-. destruct (IH u eq_refl) as (A & B & E).
    set (g := fun x : written_trail * Element => ((k, Xml.assoc "Num" a) :: fst x, snd x)).
    exists (map g (flat_map own (elements l) ++ A)), (map g (B ++ flat_map own (elements r))). intros c. cbn [put].
    rewrite (own_heading _ k); [|cbn [name]; intros ->; discriminate|exact K].
    cbn [children]. rewrite elements_app. cbn [elements]. rewrite flat_map_app. cbn [flat_map]. rewrite E.
    change (fun x : written_trail * Element => ((k, get (mkElement n a (l ++ NElement (put q c) :: r)) "Num") :: fst x, snd x)) with g.
    rewrite !map_app, <- !app_assoc. repeat f_equal. unfold articles_at. rewrite map_map. reflexivity.
Qed.
Theorem places_put : forall n a l q r t, around q = Some t ->
  exists A B, forall c, article_places (put (Under n a l q r) c) = A ++ articles_at t c ++ B.
Proof.
  intros n a l q r t H. destruct (own_put q t H) as (A & B & E).
  exists (flat_map own (elements l) ++ A), (B ++ flat_map own (elements r)). intros c. rewrite flat_own. cbn [put children].
  rewrite elements_app. cbn [elements]. rewrite flat_map_app. cbn [flat_map]. rewrite E, <- !app_assoc. reflexivity.
Qed.

Lemma listing_put : forall n a l q r t c c' ws ws', around q = Some t ->
  listed (article_places (put (Under n a l q r) c)) ws -> listed (article_places (put (Under n a l q r) c')) ws' ->
  exists A M M' B, ws = A ++ M ++ B /\ ws' = A ++ M' ++ B /\ listed (articles_at t c) M /\ listed (articles_at t c') M'.
Proof.
  intros n a l q r t c c' ws ws' H L L'. destruct (places_put n a l q r t H) as (A & B & E). rewrite E in L, L'.
  apply listed_app in L, L'. destruct L as (u & v & -> & LA & L), L' as (u' & v' & -> & LA' & L').
  apply listed_app in L, L'. destruct L as (M & b & -> & LM & LB), L' as (M' & b' & -> & LM' & LB').
  rewrite (listed_fun _ _ _ LA' LA), (listed_fun _ _ _ LB' LB). exists u, M, M', b. auto.
Qed.
