(** What replacing an element does to the table of contents. *)
From Coq Require Import String List NArith Bool.
From Verif Require Import Base NumStr Xml Ast XmlParse ReadSpec ReadingSpec ReadingFacts Utils UtilsSpec UtilsFacts DocTextSpec DocListSpec DocListFacts Serde LocalSpec LocalList LocalTocSpec TocRowSpec TocRowFacts.
Import ListNotations.
Open Scope string_scope.
Open Scope list_scope.

(** ** An entry is determined by what its place shows *)
Lemma alike_refl : forall p, alike p p.
Proof. intros p. repeat split. Qed.
Lemma all_alike : forall l, Forall2 alike l l.
Proof. induction l; constructor; [apply alike_refl|assumption]. Qed.
Lemma entry_fun : forall p p' x x', alike p p' -> entry_for p x -> entry_for p' x' -> x = x'.
Proof.
  intros [w e] [w' e'] [t a s] [t' a' s'] (E1 & E2 & E3 & E4) (T & S & A) (T' & S' & A'). cbn in *. subst w' s s'.
  assert (t = t') as <- by (eapply trail_fun; eassumption).
  f_equal; [|exact E3]. rewrite E2, E4 in A.
  destruct a as [n|], a' as [n'|]; [|destruct A; congruence|destruct A'; congruence|reflexivity].
  destruct A as [_ A], A' as [_ A']. f_equal. eapply number_fun; eassumption.
Qed.

(** ** The places around a replaced element *)
Lemma flat_places : forall l r, flat_map places (elements (l ++ r)) = flat_map places (elements l) ++ flat_map places (elements r).
Proof. intros l r. rewrite elements_app, flat_map_app. reflexivity. Qed.

Lemma title_put : forall n a l q r c c', n <> "Article" -> elements l <> [] ->
  place_title (put (Under n a l q r) c) = place_title (put (Under n a l q r) c').
Proof.
  intros n a l q r c c' N H. unfold place_title, is_article. cbn [put name children].
  rewrite (proj2 (String.eqb_neq _ _) N). rewrite !elements_app. destruct (elements l); [contradiction|reflexivity].
Qed.

Lemma place_put : forall q t c c', around q = Some t -> titled q ->
  exists A A' B, Forall2 alike A A' /\
    places (put q c) = A ++ places_at t c ++ B /\ places (put q c') = A' ++ places_at t c' ++ B.
Proof.
  induction q as [|n a l q IH r]; intros t c c' H T; cbn [around] in H.
  - injection H as <-. exists [], [], []. split; [constructor|]. cbn [put app]. rewrite !app_nil_r.
    assert (E : forall c, places c = places_at [] c).
    { intros d. unfold places_at. generalize (places d). induction l as [|[w x] l IH]; [reflexivity|]. cbn [map]. rewrite <- IH. reflexivity. }
    split; apply E.
  - destruct (heading_rank n) as [k|] eqn:K; [|discriminate]. destruct (around q) as [u|]; [|discriminate].
    injection H as <-. destruct T as [Hl T]. destruct (IH u c c' eq_refl T) as (A & A' & B & F & E & E').
    assert (N : n <> "Article") by (intros ->; discriminate).
    set (g := fun x : written_trail * Element => ((k, Xml.assoc "Num" a) :: fst x, snd x)).
    exists (map g (([], put (Under n a l q r) c) :: flat_map places (elements l) ++ A)),
      (map g (([], put (Under n a l q r) c') :: flat_map places (elements l) ++ A')), (map g (B ++ flat_map places (elements r))).
    split.
    { cbn [map]. constructor.
      - unfold alike, g. cbn [fst snd]. split; [reflexivity|]. split; [reflexivity|]. split; [apply title_put; assumption|reflexivity].
      - rewrite !map_app. apply Forall2_app; [apply all_alike|].
        clear -F. induction F as [|x y A A' (F1 & F2) _ IH]; constructor; [|exact IH].
        unfold alike, g. cbn [fst snd]. split; [rewrite F1; reflexivity|exact F2]. }
    assert (G : forall d D, places (put q d) = D ++ places_at u d ++ B ->
      places (put (Under n a l q r) d) = map g (([], put (Under n a l q r) d) :: flat_map places (elements l) ++ D) ++
        places_at ((k, Xml.assoc "Num" a) :: u) d ++ map g (B ++ flat_map places (elements r))).
    { intros d D P. rewrite (places_heading (put (Under n a l q r) d) k N K).
      change (fun x : written_trail * Element => ((k, get (put (Under n a l q r) d) "Num") :: fst x, snd x)) with g.
      unfold provision_places. cbn [put children]. rewrite flat_places. cbn [elements flat_map]. rewrite P.
      cbn [map app]. rewrite !map_app, <- !app_assoc. f_equal. f_equal. f_equal.
      unfold places_at. rewrite map_map. reflexivity. }
    split; apply G; assumption.
Qed.
Theorem provision_put : forall n a l q r t c c', around q = Some t -> titled q ->
  exists A A' B, Forall2 alike A A' /\
    provision_places (put (Under n a l q r) c) = A ++ places_at t c ++ B ++ flat_map places (elements r) /\
    provision_places (put (Under n a l q r) c') = A' ++ places_at t c' ++ B ++ flat_map places (elements r).
Proof.
  intros n a l q r t c c' H T. destruct (place_put q t c c' H T) as (A & A' & B & F & E & E').
  exists (flat_map places (elements l) ++ A), (flat_map places (elements l) ++ A'), B.
  split; [apply Forall2_app; [apply all_alike|exact F]|].
  unfold provision_places. cbn [put children]. rewrite !flat_places. cbn [elements flat_map]. rewrite E, E', <- !app_assoc.
  split; reflexivity.
Qed.

Lemma shown_app : forall l m ts, shown (l ++ m) ts -> exists u v, ts = u ++ v /\ shown l u /\ shown m v.
Proof.
  intros l m ts (xs & H1 & H2). apply Forall2_app_inv_l in H1. destruct H1 as (x1 & x2 & A & B & ->).
  apply Forall2_app_inv_l in H2. destruct H2 as (u & v & C & D & ->).
  exists u, v. split; [reflexivity|]. split; eexists; split; eassumption.
Qed.
Lemma shown_alike : forall l l' ts ts', Forall2 alike l l' -> shown l ts -> shown l' ts' -> Forall2 same_row ts ts'.
Proof.
  intros l l' ts ts' F (xs & H1 & H2) (xs' & H1' & H2'). revert xs xs' ts ts' H1 H2 H1' H2'.
  induction F as [|p p' l l' E _ IH]; intros xs xs' ts ts' H1 H2 H1' H2'.
  - inversion H1; subst. inversion H2; subst. inversion H1'; subst. inversion H2'; subst. constructor.
  - inversion H1; subst. inversion H2; subst. inversion H1'; subst. inversion H2'; subst. constructor.
    + match goal with U : entry_for p ?x, V : entry_for p' ?y |- _ => assert (x = y) as <- by (eapply entry_fun; eassumption) end.
      eexists. split; eassumption.
    + eapply IH; eassumption.
Qed.
Lemma entries_fun : forall l l' xs xs', Forall2 alike l l' -> Forall2 entry_for l xs -> Forall2 entry_for l' xs' -> xs = xs'.
Proof.
  intros l l' xs xs' F. revert xs xs'. induction F as [|p p' l l' E _ IH]; intros xs xs' H H'; inversion H; subst; inversion H'; subst; [reflexivity|].
  f_equal; [eapply entry_fun; eassumption|apply IH; assumption].
Qed.
Lemma rows_first : forall xs ys ts, Forall2 toc_says (xs ++ ys) ts -> ts = rows (xs ++ ys) ->
  exists b, ts = rows xs ++ b /\ Forall2 toc_says xs (rows xs) /\ Forall2 toc_says ys b.
Proof.
  intros xs ys ts F ->. destruct (rows_app xs ys) as [c E]. rewrite E in *. exists c. split; [reflexivity|].
  pose proof (rows_length xs) as L.
  apply Forall2_app_inv_l in F. destruct F as (u & v & A & B & U).
  assert (N : length xs = length u) by (clear -A; induction A; cbn; congruence). assert (rows xs = u /\ c = v) as [-> ->]; [|split; assumption].
  rewrite N in L. clear -L U. revert u L U. generalize (rows xs). induction l as [|x l IH]; intros [|y u] L U; try discriminate L.
  - split; [reflexivity|exact U].
  - injection U as -> U. injection L as L. destruct (IH u L U) as [-> ->]. split; reflexivity.
Qed.
(** What is read in a provision. *)
Definition tabled (l : list (written_trail * Element)) (ts : list Toc) : Prop :=
  exists xs, Forall2 entry_for l xs /\ Forall2 toc_says xs ts /\ ts = rows xs.
Lemma places_first : forall l x, Forall2 entry_for (flat_map places l) x -> match x with e :: _ => outermost e | [] => True end.
Proof.
  induction l as [|[n a k] l IH]; intros x H; cbn [flat_map] in H; [inversion H; exact I|].
  destruct (String.eqb n "Article") eqn:E.
  - cbn [places] in H. rewrite E in H. cbn [app] in H. inversion H as [|p y ps ys (T & _ & U)]; subst.
    cbn [fst snd] in *. inversion T. unfold outermost. destruct y as [yt ya ys']. cbn [en_trail en_article] in *. subst yt.
    destruct ya; auto.
  - cbn [places] in H. rewrite E in H. destruct (heading_rank n) as [r|]; [|apply IH, H].
    cbn [app map] in H. inversion H as [|p y ps ys (T & _ & U)]; subst.
    cbn [fst snd] in *. unfold outermost, is_article in *. cbn [name] in U. rewrite E in U.
    destruct y as [yt ya ys']. cbn [en_trail en_article] in *.
    inversion T as [|? ? ? ? _ T']; subst. inversion T'; subst. destruct ya; [destruct U; discriminate|auto].
Qed.
Lemma toc_put : forall n a l q r t c c' ts ts', around q = Some t -> titled q ->
  tabled (provision_places (put (Under n a l q r) c)) ts -> tabled (provision_places (put (Under n a l q r) c')) ts' ->
  exists A M M' B B' C, ts = A ++ M ++ B ++ C /\ ts' = A ++ M' ++ B' ++ C /\ Forall2 same_row B B' /\
    shown (places_at t c) M /\ shown (places_at t c') M' /\ shown (flat_map places (elements r)) C.
Proof.
  intros n a l q r t c c' ts ts' H T (xs & L & S & R) (xs' & L' & S' & R').
  destruct (provision_put n a l q r t c c' H T) as (A & A' & B & F & E & E'). rewrite E in L. rewrite E' in L'.
  apply Forall2_app_inv_l in L, L'. destruct L as (x1 & x2 & LA & L & ->), L' as (x1' & x2' & LA' & L' & ->).
  assert (x1 = x1') as <- by (eapply entries_fun; eassumption).
  apply Forall2_app_inv_l in L, L'. destruct L as (x3 & x4 & LM & L & ->), L' as (x3' & x4' & LM' & L' & ->).
  assert (x4 = x4') as <- by (eapply entries_fun; [apply all_alike|eassumption..]). clear L'.
  apply Forall2_app_inv_l in L. destruct L as (x5 & x6 & LB & LC & ->).
  assert (G : forall y us, Forall2 toc_says (x1 ++ y ++ x5 ++ x6) us -> us = rows (x1 ++ y ++ x5 ++ x6) ->
    exists M d, us = rows x1 ++ M ++ d ++ rows x6 /\ Forall2 toc_says y M /\ Forall2 toc_says x5 d /\ Forall2 toc_says x6 (rows x6)).
  { intros y us Hs Hr.
    assert (V : us = rows (x1 ++ y ++ x5) ++ rows x6).
    { rewrite Hr. pose proof (places_first _ _ LC) as O. destruct x6 as [|e x6]; [rewrite !app_nil_r; reflexivity|].
      rewrite !app_assoc, <- (app_assoc _ x5), <- app_assoc. rewrite <- rows_anew by exact O. rewrite <- !app_assoc. reflexivity. }
    assert (Hs' : Forall2 toc_says ((x1 ++ y ++ x5) ++ x6) us) by (rewrite <- !app_assoc; exact Hs).
    destruct (rows_first _ _ us Hs') as (b & Eb & P1 & P2); [rewrite <- !app_assoc; exact Hr|].
    rewrite V in Eb. apply app_inv_head in Eb. subst b.
    destruct (rows_first _ _ _ P1 eq_refl) as (b & Eb & _ & P3).
    apply Forall2_app_inv_l in P3. destruct P3 as (M & d & PM & Pd & ->).
    exists M, d. rewrite V, Eb, <- !app_assoc. repeat (split; [first [reflexivity|assumption]|]). assumption. }
  destruct (G _ _ S R) as (M & d & -> & SM & Sd & SC). destruct (G _ _ S' R') as (M' & d' & -> & SM' & Sd' & _).
  exists (rows x1), M, M', d, d', (rows x6). repeat (split; [reflexivity|]).
  split; [|split; [exists x3; split; assumption|split; [exists x3'; split; assumption|exists x6; split; assumption]]].
  apply (shown_alike B B); [apply all_alike|exists x5; split; assumption|exists x5; split; assumption].
Qed.
Lemma toc_kept : forall n a l q r t c c' ts ts', around q = Some t -> titled q -> Forall2 alike (places c) (places c') ->
  tabled (provision_places (put (Under n a l q r) c)) ts -> tabled (provision_places (put (Under n a l q r) c')) ts' -> ts = ts'.
Proof.
  intros n a l q r t c c' ts ts' H T K (xs & L & _ & R) (xs' & L' & _ & R').
  destruct (provision_put n a l q r t c c' H T) as (A & A' & B & F & E & E'). rewrite E in L. rewrite E' in L'.
  assert (xs = xs') as <-; [|congruence]. eapply entries_fun; [|exact L|exact L'].
  apply Forall2_app; [exact F|]. apply Forall2_app; [|apply all_alike].
  clear -K. unfold places_at. induction K as [|x y A A' (F1 & F2) _ IH]; constructor; [|exact IH].
  split; [exact (f_equal (app t) F1)|exact F2].
Qed.
