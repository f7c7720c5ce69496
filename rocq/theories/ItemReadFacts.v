(** Item labels are read exactly as their specification says. *)
From Coq Require Import String List NArith ZArith Bool Arith Lia Sorted.
From Verif Require Import Base BaseFacts NumStr NumStrSpec NumStrFacts Regex RegexFacts NumText NumTextSpec NumTextFacts
  HeadingFacts LabelFacts ItemFacts ItemLabelFacts SplitFacts TextParse TextSpec TextLawFacts LineFacts ClassifyFacts NumberSpec NumberFacts ItemSpec.
Import ListNotations.
Open Scope string_scope.
Open Scope list_scope.

(** ** Kinds of letters *)
Definition cls_of (k : letters) : cls :=
  match k with
  | Katakana => CKata | Hiragana => CHira | Kanji => CKanji | WideDigits => CZen | WideUpper => CUp | WideLower => CLow
  end.
Lemma letter_cls : forall k c, letter_of k c <-> pred (cls_of k) c = true.
Proof.
  intros [] c; cbn [letter_of cls_of pred].
  - rewrite katakana_range. reflexivity.
  - rewrite hiragana_range. reflexivity.
  - symmetry. apply kanji_in.
  - rewrite zenkaku_range. unfold zenkaku_list. cbn [In]. lia.
  - rewrite upper_range. unfold upper_letters. cbn [In]. lia.
  - rewrite lower_range. unfold lower_letters. cbn [In]. lia.
Qed.
Lemma cls_onto : forall k, exists l, cls_of l = k.
Proof.
  intros []; [exists Katakana|exists Hiragana|exists Kanji|exists WideDigits|exists WideUpper|exists WideLower]; reflexivity.
Qed.
Lemma word_run : forall k w, word k w <-> run (cls_of k) w.
Proof.
  intros k w. unfold word, run. rewrite !Forall_forall.
  split; intros [H1 H2]; (split; [exact H1|]); intros c Hc; apply letter_cls, H2, Hc.
Qed.
Lemma one_run : forall s, one s <-> exists b k w, run k w /\ s = wrap b w.
Proof.
  intros s. split.
  - intros (b & k & w & Hw & ->). exists b, (cls_of k), w. split; [apply word_run, Hw|reflexivity].
  - intros (b & k & w & Hw & ->). destruct (cls_onto k) as [l <-]. exists b, l, w. split; [apply word_run, Hw|reflexivity].
Qed.

(** ** Matches, longest first *)
Definition longer (x y : result) : Prop := length (snd x) < length (snd y).
Definition longest_first (l : list result) : Prop := StronglySorted longer l.
Lemma lf_app : forall l1 l2, longest_first l1 -> longest_first l2 -> (forall x y, In x l1 -> In y l2 -> longer x y) ->
  longest_first (l1 ++ l2).
Proof.
  intros l1 l2 H1 H2 H. induction H1 as [|x l1 H1 IH Hx]; [exact H2|]. cbn. constructor.
  - apply IH. intros. apply H; [right|]; assumption.
  - apply Forall_app. split; [exact Hx|]. apply Forall_forall. intros y Hy. apply H; [left; reflexivity|exact Hy].
Qed.
Lemma lf_map : forall f l, (forall x, snd (f x) = snd x) -> longest_first l -> longest_first (map f l).
Proof.
  intros f l Hf H. induction H as [|x l H IH Hx]; [constructor|]. cbn. constructor; [exact IH|].
  apply Forall_forall. intros y Hy. apply in_map_iff in Hy as (z & <- & Hz). unfold longer. rewrite !Hf.
  rewrite Forall_forall in Hx. exact (Hx z Hz).
Qed.
(** A longer match comes earlier. *)
Lemma lf_before : forall l1 x l2 y, longest_first (l1 ++ x :: l2) -> In y (l1 ++ x :: l2) -> length (snd y) < length (snd x) -> In y l1.
Proof.
  intros l1 x l2 y H Hy L. induction l1 as [|z l1 IH]; cbn in H, Hy.
  - apply StronglySorted_inv in H as [_ H]. rewrite Forall_forall in H. destruct Hy as [<-|Hy]; [lia|].
    specialize (H y Hy). unfold longer in H. lia.
  - apply StronglySorted_inv in H as [H _]. destruct Hy as [->|Hy]; [left; reflexivity|]. right. apply IH; assumption.
Qed.
Lemma lf_star_chars : forall p s, longest_first (exec (Star (Chr p)) s).
Proof.
  intros p. induction s as [|c s IH]; rewrite star_unfold; cbn [exec flat_map app].
  - repeat constructor.
  - destruct (p c); cbn [flat_map app]; [|repeat constructor]. cbn [fst snd]. rewrite app_nil_r.
    replace (Nat.ltb (length s) (length (c :: s))) with true by (symmetry; apply Nat.ltb_lt; cbn; lia).
    apply lf_app; [apply lf_map; [reflexivity|exact IH]|repeat constructor|].
    intros x y Hx [<-|[]]. unfold after in Hx. apply in_map_iff in Hx as ([cx sx] & <- & Hx).
    apply (exec_suffix (Star (Chr p)) s) in Hx as [w ->]. unfold longer. cbn. rewrite app_length. lia.
Qed.
Lemma lf_chars : forall p s, longest_first (exec (chars p) s).
Proof.
  intros p [|c s]; unfold chars, Plus; cbn [exec flat_map]; [constructor|]. destruct (p c); cbn [flat_map]; [|constructor].
  rewrite app_nil_r. apply lf_map; [reflexivity|]. apply lf_star_chars.
Qed.
(** At most one class has matches. *)
Lemma lf_alt : forall a b s, longest_first (exec a s) -> longest_first (exec b s) -> exec a s = [] \/ exec b s = [] ->
  longest_first (exec (Alt a b) s).
Proof. intros a b s Ha Hb [H|H]; cbn [exec]; rewrite H; [exact Hb|rewrite app_nil_r; exact Ha]. Qed.
Lemma class_alone : forall k s, (exists c r, s = c :: r /\ pred k c = true) -> exec item_class s = exec (chars (pred k)) s.
Proof.
  intros k s (c & r & -> & H).
  assert (S : forall j, k <> j -> exec (chars (pred j)) (c :: r) = [])
    by (intros j Hj; apply plus_fails; exact (pred_disjoint k j c Hj H)).
  unfold item_class. cbn [Alts].
  change katakana with (pred CKata). change hiragana with (pred CHira). change kanji with (pred CKanji).
  change zenkaku with (pred CZen). change upper with (pred CUp). change lower with (pred CLow).
  repeat match goal with |- context [exec (Alt ?a ?b) ?s] => change (exec (Alt a b) s) with (exec a s ++ exec b s) end.
  destruct k;
    rewrite ?(S CKata), ?(S CHira), ?(S CKanji), ?(S CZen), ?(S CUp), ?(S CLow) by discriminate;
    rewrite ?app_nil_r; reflexivity.
Qed.
Lemma class_none : forall s, (forall c r k, s = c :: r -> pred k c = false) -> exec item_class s = [].
Proof.
  intros s H. unfold item_class. cbn [Alts].
  assert (S : forall k, exec (chars (pred k)) s = []) by (intros k; apply plus_fails; destruct s as [|c r]; [exact I|exact (H c r k eq_refl)]).
  change katakana with (pred CKata). change hiragana with (pred CHira). change kanji with (pred CKanji).
  change zenkaku with (pred CZen). change upper with (pred CUp). change lower with (pred CLow).
  repeat match goal with |- context [exec (Alt ?a ?b) ?s] => change (exec (Alt a b) s) with (exec a s ++ exec b s) end.
  rewrite (S CKata), (S CHira), (S CKanji), (S CZen), (S CUp), (S CLow). reflexivity.
Qed.
Lemma class_cases : forall s, (exists k, exists c r, s = c :: r /\ pred k c = true) \/ (forall c r k, s = c :: r -> pred k c = false).
Proof.
  intros [|c r]; [right; discriminate|].
  destruct (existsb (fun k => pred k c) [CKata; CHira; CKanji; CZen; CUp; CLow]) eqn:E.
  - left. apply existsb_exists in E as (k & _ & H). exists k, c, r. auto.
  - right. intros c' r' k H. injection H as <- _. destruct (pred k c) eqn:P; [|reflexivity].
    rewrite <- E. symmetry. apply existsb_exists. exists k. split; [destruct k; cbn; tauto|exact P].
Qed.
Lemma class_in : forall s c s', In (c, s') (exec item_class s) <-> c = [] /\ exists k w, run k w /\ s = w ++ s'.
Proof.
  intros s c s'. destruct (class_cases s) as [[k Hk]|Hn].
  - rewrite (class_alone k s Hk). split.
    + intros H. apply plus_chars_in in H as (-> & w & E & Hw & Hw'). split; [reflexivity|]. exists k, w. repeat split; assumption.
    + intros (-> & k' & w & [Hw Hw'] & ->). destruct Hk as (d & r & E & Hd). destruct w as [|d' w]; [contradiction|].
      cbn in E. injection E as -> _.
      assert (k' = k).
      { destruct (pred k' d) eqn:P; [|inversion Hw'; congruence].
        assert (X : k = k' \/ k <> k') by (destruct k, k'; (left; reflexivity) || (right; discriminate)).
        destruct X as [X|X]; [congruence|]. pose proof (pred_disjoint k k' d X Hd). congruence. }
      subst k'. apply SplitFacts.plus_chars_all; [discriminate|exact Hw'].
  - rewrite class_none by exact Hn. split; [intros []|]. intros (_ & k & w & [Hw Hw'] & ->).
    destruct Hw' as [|d w Hd Hw']; [contradiction|]. rewrite (Hn d (w ++ s') k eq_refl) in Hd. discriminate.
Qed.
Lemma lf_class : forall s, longest_first (exec item_class s).
Proof.
  intros s. destruct (class_cases s) as [[k Hk]|Hn]; [rewrite (class_alone k s Hk); apply lf_chars|].
  rewrite class_none by exact Hn. constructor.
Qed.
(** One number. *)
Lemma paren_in : forall s c s', In (c, s') (exec (Seq (Lit (u "（")) (Seq item_class (Lit (u "）")))) s) <->
  c = [] /\ exists k w, run k w /\ s = wrap true w ++ s'.
Proof.
  intros s c s'. split.
  - intros H. apply seq_in in H as (c1 & s1 & c2 & H1 & H2 & ->). apply lit_in in H1 as [-> ->].
    apply seq_in in H2 as (c3 & s3 & c4 & H3 & H4 & ->). apply class_in in H3 as (-> & k & w & Hw & ->).
    apply lit_in in H4 as [-> ->]. split; [reflexivity|]. exists k, w. split; [exact Hw|]. unfold wrap, paren.
    rewrite <- !app_assoc. reflexivity.
  - intros (-> & k & w & Hw & ->). unfold wrap, paren. rewrite <- !app_assoc.
    assert (L : forall v r, In ([], r) (exec (Lit v) (v ++ r))).
    { intros v r. destruct (starts_lit v r) as [l E]. rewrite E. left. reflexivity. }
    apply (SplitFacts.seq_in _ _ _ [] (w ++ u "）" ++ s') []); [apply L|].
    apply (SplitFacts.seq_in _ _ _ [] (u "）" ++ s') []); [|apply L].
    apply class_in. split; [reflexivity|]. exists k, w. auto.
Qed.
Lemma alt_iff : forall a b s x, In x (exec (Alt a b) s) <-> In x (exec a s) \/ In x (exec b s).
Proof. intros a b s x. cbn [exec]. apply in_app_iff. Qed.
Lemma one_in : forall s c s', In (c, s') (exec item_one s) <-> c = [] /\ exists w, one w /\ s = w ++ s'.
Proof.
  intros s c s'. unfold item_one. rewrite alt_iff, paren_in, class_in. split.
  - intros [(-> & k & w & Hw & E)|(-> & k & w & Hw & E)]; (split; [reflexivity|]).
    + exists (wrap true w). split; [apply one_run; exists true, k, w; auto|exact E].
    + exists w. split; [apply one_run; exists false, k, w; auto|exact E].
  - intros (-> & v & Hv & E). apply one_run in Hv as ([] & k & w & Hw & ->); [left|right]; (split; [reflexivity|]); exists k, w; auto.
Qed.
Lemma lit_cases : forall w s, exec (Lit w) s = [] \/ exists r, s = w ++ r /\ exec (Lit w) s = [([], r)].
Proof.
  induction w as [|c w IH]; intros s; cbn [Lit exec]; [right; exists s; auto|].
  destruct s as [|d s]; [left; reflexivity|]. destruct (N.eqb_spec c d) as [->|]; cbn [flat_map fst snd app]; [|left; reflexivity].
  rewrite app_nil_r. destruct (IH s) as [E|(r & -> & E)]; rewrite E; [left; reflexivity|right; exists r; auto].
Qed.
Lemma lf_seq_lit : forall w a s, longest_first (exec a s) -> longest_first (exec (Seq a (Lit w)) s).
Proof.
  intros w a s H. cbn [exec]. induction H as [|x l H IH Hx]; [constructor|]. cbn [flat_map].
  destruct (lit_cases w (snd x)) as [E|(r & Er & E)]; rewrite E; cbn [after map app]; [exact IH|].
  constructor; [exact IH|]. apply Forall_forall. intros y Hy. apply in_flat_map in Hy as (z & Hz & Hy).
  rewrite Forall_forall in Hx. specialize (Hx z Hz). destruct (lit_cases w (snd z)) as [E'|(r' & Er' & E')]; rewrite E' in Hy; [destruct Hy|].
  destruct Hy as [<-|[]]. unfold longer in *. cbn [snd]. rewrite Er, Er', !app_length in Hx. lia.
Qed.
Lemma lf_lit_seq : forall w a s, (forall r, longest_first (exec a r)) -> longest_first (exec (Seq (Lit w) a) s).
Proof.
  intros w a s H. cbn [exec]. destruct (lit_cases w s) as [E|(r & _ & E)]; rewrite E; cbn [flat_map]; [constructor|].
  rewrite app_nil_r. apply lf_map; [reflexivity|apply H].
Qed.
Lemma lf_one : forall s, longest_first (exec item_one s).
Proof.
  intros s. unfold item_one. apply lf_alt.
  - apply lf_lit_seq. intros r. apply lf_seq_lit, lf_class.
  - apply lf_class.
  - destruct (lit_cases (u "（") s) as [E|(r & -> & _)]; [left; apply seq_fails_l, E|right].
    apply class_none. intros c r' k E. injection E as <- _. apply mark_open.
Qed.

(** ** Branches *)
Definition branch_one : re := Seq (Lit (u "の")) item_one.
Lemma branch_one_in : forall s c s', In (c, s') (exec branch_one s) <-> c = [] /\ exists w, one w /\ s = u "の" ++ w ++ s'.
Proof.
  intros s c s'. split.
  - intros H. apply seq_in in H as (c1 & s1 & c2 & H1 & H2 & ->). apply lit_in in H1 as [-> ->].
    apply one_in in H2 as (-> & w & Hw & ->). split; [reflexivity|]. exists w. auto.
  - intros (-> & w & Hw & ->). apply (SplitFacts.seq_in _ _ _ [] (w ++ s') []).
    + destruct (starts_lit (u "の") (w ++ s')) as [l E]. rewrite E. left. reflexivity.
    + apply one_in. split; [reflexivity|]. exists w. auto.
Qed.
Lemma lf_branch_one : forall s, longest_first (exec branch_one s).
Proof. intros s. apply lf_lit_seq. intros r. apply lf_one. Qed.
(** The repetition without its bound: a branch is never empty. *)
Lemma star_branches : forall s, exec (Star branch_one) s =
  flat_map (fun x => after (fst x) (exec (Star branch_one) (snd x))) (exec branch_one s) ++ [([], s)].
Proof.
  intros s. rewrite star_unfold. f_equal. apply flat_map_eq. intros [c s'] H. cbn [fst snd].
  apply branch_one_in in H as (-> & w & _ & ->).
  replace (Nat.ltb (length s') (length (u "の" ++ w ++ s'))) with true; [reflexivity|].
  symmetry. apply Nat.ltb_lt. change (u "の") with [uc "の"]. cbn. rewrite app_length. lia.
Qed.
Lemma star_in : forall s c s', In (c, s') (exec (Star branch_one) s) <-> c = [] /\ exists e, branches_text e /\ s = e ++ s'.
Proof.
  intros s. remember (length s) as n eqn:En. revert s En. induction n as [n IH] using lt_wf_ind. intros s -> c s'.
  rewrite star_branches, in_app_iff, in_flat_map. split.
  - intros [([c1 s1] & H1 & H)|[E|[]]].
    + cbn [fst snd] in H. apply branch_one_in in H1 as (-> & w & Hw & ->). unfold after in H. apply in_map_iff in H as ([c2 s2] & E & H).
      cbn in E. injection E as <- <-. apply (IH (length s1)) in H as (-> & e & He & ->); [|change (u "の") with [uc "の"]; cbn; rewrite app_length; lia|reflexivity].
      split; [reflexivity|]. exists (u "の" ++ w ++ e). split; [constructor; assumption|]. rewrite <- !app_assoc. reflexivity.
    + injection E as <- <-. split; [reflexivity|]. exists []. split; [constructor|reflexivity].
  - intros (-> & e & He & E). destruct He as [|w e Hw He]; [right; left; rewrite E; reflexivity|]. left.
    rewrite <- !app_assoc in E. exists ([], e ++ s'). split; [apply branch_one_in; split; [reflexivity|]; exists w; auto|].
    cbn [fst snd]. apply in_map_iff. exists ([], s'). split; [reflexivity|].
    apply (IH (length (e ++ s'))); [|reflexivity|split; [reflexivity|exists e; auto]].
    rewrite E. change (u "の") with [uc "の"]. cbn. rewrite !app_length. lia.
Qed.

(** ** The first match has the longest branches *)
Definition hira_start (s : ustr) : Prop := forall c r, s = c :: r -> hiragana c = true.
Lemma range_hira : forall r, range_text r -> hira_start r.
Proof.
  intros r [-> |(w & e & _ & _ & ->)] c t E; [discriminate|]. injection E as <- _. vm_compute. reflexivity.
Qed.
Lemma branches_hira : forall e r, branches_text e -> range_text r -> hira_start (e ++ r).
Proof.
  intros e r [|w e' _ _] Hr; [apply range_hira, Hr|]. intros c t E. injection E as <- _. vm_compute. reflexivity.
Qed.
Lemma hira_alone : forall k c, hiragana c = true -> pred k c = true -> k = CHira.
Proof.
  intros k c Hh Hk. assert (X : CHira = k \/ CHira <> k) by (destruct k; (left; reflexivity) || (right; discriminate)).
  destruct X as [X|X]; [auto|]. pose proof (pred_disjoint CHira k c X Hh). congruence.
Qed.
(** Hiragana that reach into branches end before the rest, at the end of a word or within a word of
    hiragana. *)
Lemma cross : forall e y, branches_text e -> forall v s1, e ++ y = v ++ s1 -> Forall (fun c => hiragana c = true) v -> hira_start s1 ->
  length s1 <= length y \/
  exists v' e3, Forall (fun c => hiragana c = true) v' /\ branches_text e3 /\ s1 = v' ++ e3 ++ y.
Proof.
  intros e y He. induction He as [|x e Hx He IH]; intros v s1 E Hv Hs.
  - left. cbn in E. subst y. rewrite app_length. lia.
  - destruct Hv as [|c v Hc Hv]; [right; exists [], (u "の" ++ x ++ e); repeat split; [constructor|constructor; assumption|symmetry; exact E]|].
    rewrite <- !app_assoc in E. injection E as _ E. apply one_run in Hx as (b & k & w & [Hn Hw] & ->).
    assert (Y : hira_start (wrap b w ++ e ++ y)).
    { rewrite E. destruct Hv as [|d v Hd Hv]; [exact Hs|]. intros d' r' F. injection F as <- _. exact Hd. }
    destruct b; [specialize (Y (uc "（") _ eq_refl); discriminate Y|]. cbn [wrap] in *.
    assert (k = CHira) by (destruct Hw as [|d w Hd Hw]; [contradiction|]; apply (hira_alone k d); [exact (Y d _ eq_refl)|exact Hd]).
    subst k. clear Y Hn. revert v Hv E. induction Hw as [|d w Hd Hw IHw]; intros v Hv E.
    + apply (IH v); assumption.
    + destruct Hv as [|d' v Hd' Hv].
      * right. exists (d :: w), e. cbn in E. repeat split; [constructor; assumption|exact He|symmetry; exact E].
      * cbn in E. injection E as _ E. apply (IHw v); assumption.
Qed.
(** Of two numbers at the start of a text the longer one goes on with hiragana if the shorter one is
    followed by hiragana. *)
Lemma one_shorter : forall w1 s1 w t, one w1 -> one w -> w1 ++ s1 = w ++ t -> length s1 < length t -> hira_start t ->
  run CHira w1 /\ exists v2, Forall (fun c => hiragana c = true) v2 /\ t = v2 ++ s1.
Proof.
  intros w1 s1 w t H1 H E L Hh. apply one_run in H1 as (b1 & k1 & v1 & [N1 V1] & ->). apply one_run in H as (b & k & v & [N V] & ->).
  destruct b1, b; cbn [wrap] in E.
  - exfalso. unfold paren in E. rewrite <- !app_assoc in E. apply app_inv_head in E.
    clear N1 N. revert v V E. induction V1 as [|c v1 Hc V1 IH]; intros v V E.
    + destruct V as [|d v Hd V]; [cbn in E; injection E as ->; lia|]. injection E as <- _.
      pose proof (mark_close k) as M. change (uc "）") with 65289%N in M. congruence.
    + destruct V as [|d v Hd V].
      * injection E as -> _. pose proof (mark_close k1) as M. change (uc "）") with 65289%N in M. congruence.
      * injection E as _ E. exact (IH v V E).
  - exfalso. destruct V as [|d v Hd V]; [contradiction|]. injection E as <- _.
    pose proof (mark_open k) as M. change (uc "（") with 65288%N in M. congruence.
  - exfalso. destruct V1 as [|d v1 Hd V1]; [contradiction|]. injection E as -> _.
    pose proof (mark_open k1) as M. change (uc "（") with 65288%N in M. congruence.
  - apply app_eq_app in E as [m [[-> Et]|[-> Es]]]; [|rewrite Es, app_length in L; lia].
    pose proof V1 as V1'. apply Forall_app in V1 as [_ Vm]. destruct m as [|c m]; [cbn in Et; subst t; lia|].
    assert (k1 = CHira) by (inversion_clear Vm; apply (hira_alone k1 c); [exact (Hh c _ Et)|assumption]). subst k1.
    split; [split; assumption|]. exists (c :: m). auto.
Qed.
Lemma first_of : forall (f : result -> list result) l l1 x l2, flat_map f l = l1 ++ x :: l2 ->
  exists la z lb m1 m2, l = la ++ z :: lb /\ f z = m1 ++ x :: m2 /\ l1 = flat_map f la ++ m1.
Proof.
  intros f. induction l as [|z l IH]; intros l1 x l2 E; cbn in E; [destruct l1; discriminate|].
  apply app_eq_app in E as [m [[E1 E2]|[E1 E2]]].
  - destruct m as [|y m].
    + cbn in E2. rewrite app_nil_r in E1. destruct (IH [] x l2 (eq_sym E2)) as (la & z' & lb & m1 & m2 & -> & F & G).
      exists (z :: la), z', lb, m1, m2. repeat split; [exact F|]. cbn. rewrite <- app_assoc, <- G, app_nil_r. symmetry. exact E1.
    + cbn in E2. injection E2 as <- E2. exists [], z, l, l1, m. repeat split; exact E1.
  - destruct (IH m x l2 E2) as (la & z' & lb & m1 & m2 & -> & F & ->).
    exists (z :: la), z', lb, m1, m2. repeat split; [exact F|]. cbn. rewrite <- app_assoc. exact E1.
Qed.
Lemma star_longest : forall s l1 x l2, exec (Star branch_one) s = l1 ++ x :: l2 ->
  (forall z, In z l1 -> ~ range_text (snd z)) -> range_text (snd x) ->
  forall e y, branches_text e -> range_text y -> s = e ++ y -> length (snd x) <= length y.
Proof.
  intros s. remember (length s) as n eqn:En. revert s En. induction n as [n IH] using lt_wf_ind.
  intros s -> l1 x l2 E H1 Hx e y He Hy Es.
  assert (STOP : l1 = flat_map (fun x => after (fst x) (exec (Star branch_one) (snd x))) (exec branch_one s) -> length s <= length y).
  { intros E1. destruct He as [|w e Hw He]; [rewrite Es; reflexivity|]. exfalso.
    apply (H1 ([], y)); [|exact Hy]. rewrite E1. apply in_flat_map. rewrite <- !app_assoc in Es.
    exists ([], e ++ y). split; [apply branch_one_in; split; [reflexivity|]; exists w; auto|].
    cbn [fst snd]. apply in_map_iff. exists ([], y). split; [reflexivity|]. apply star_in. split; [reflexivity|]. exists e. auto. }
  rewrite star_branches in E. apply app_eq_app in E as [m [[E1 E2]|[E1 E2]]].
  - destruct m as [|x' m].
    + cbn in E2. injection E2 as -> _. apply STOP. rewrite E1, app_nil_r. reflexivity.
    + cbn in E2. injection E2 as <- E2. apply first_of in E1 as (la & [cz sz] & lb & m1 & m2 & El & Ez & ->).
      cbn [fst snd] in Ez. unfold after in Ez. apply map_eq_app in Ez as (k1 & k2 & Ek & F1 & F2).
      destruct k2 as [|x' k2]; [discriminate|]. cbn in F2. injection F2 as F2 F3.
      assert (Sx : snd x = snd x') by (rewrite <- F2; reflexivity).
      assert (Iz : In (cz, sz) (exec branch_one s)) by (rewrite El; apply in_elt).
      apply branch_one_in in Iz as (-> & w1 & Hw1 & Es1).
      assert (Lz : length sz < length s) by (rewrite Es1; change (u "の") with [uc "の"]; cbn; rewrite app_length; lia).
      assert (G1 : forall z, In z k1 -> ~ range_text (snd z)).
      { intros z Hz. apply (H1 (([] ++ fst z)%list, snd z)). apply in_or_app. right. rewrite <- F1. apply in_map_iff. exists z. auto. }
      assert (Ix : In x' (exec (Star branch_one) sz)) by (rewrite Ek; apply in_elt).
      destruct x' as [cx sx]. pose proof Ix as Ix'. apply star_in in Ix as (-> & ex & Hex & Esz).
      rewrite Sx in *. cbn [snd] in *.
      destruct He as [|w e Hw He]; [cbn in Es; subst y; rewrite Esz, app_length in Lz; lia|].
      rewrite <- !app_assoc in Es.
      assert (It : In ([], e ++ y) (exec branch_one s)) by (apply branch_one_in; split; [reflexivity|]; exists w; auto).
      (* no earlier match leads to the end *)
      assert (NB : forall c t e', In (c, t) la -> branches_text e' -> t <> e' ++ y).
      { intros c t e' Hi He' Et. apply (H1 (c, y)); [|exact Hy]. apply in_or_app. left. apply in_flat_map. exists (c, t). split; [exact Hi|].
        apply in_map_iff. exists ([], y). cbn. rewrite app_nil_r. split; [reflexivity|]. apply star_in. split; [reflexivity|]. exists e'. auto. }
      pose proof (lf_branch_one s) as LF. rewrite El in LF, It.
      destruct (lt_eq_lt_dec (length (e ++ y)) (length sz)) as [[L|L]|L].
      * exfalso. apply (NB [] (e ++ y) e); [|exact He|reflexivity]. exact (lf_before _ _ _ _ LF It L).
      * assert (Q : sz = e ++ y).
        { rewrite Es1 in Es. apply app_inv_head in Es. revert Es L. clear. revert w. induction w1 as [|a w1 IH]; intros [|b w] E L.
          - exact E.
          - exfalso. apply (f_equal (@length N)) in E. cbn in E. rewrite !app_length in *. lia.
          - exfalso. apply (f_equal (@length N)) in E. cbn in E. rewrite !app_length in *. lia.
          - cbn in E. injection E as _ E. exact (IH w E L). }
        apply (IH (length sz) Lz sz eq_refl k1 ([], sx) k2 Ek G1 Hx e y He Hy Q).
      * (* a shorter word *)
        assert (Hs : hira_start sz) by (rewrite Esz; apply branches_hira; assumption).
        rewrite Es1 in Es. apply app_inv_head in Es.
        assert (Ht : hira_start (e ++ y)) by (apply branches_hira; assumption).
        destruct (one_shorter w1 sz w (e ++ y) Hw1 Hw Es L Ht) as [[Rn Rw] (v2 & Hv2 & Ev)].
        destruct (cross e y He v2 sz Ev Hv2 Hs) as [G|(v' & e3 & Hv' & He3 & Eq)].
        -- rewrite Esz, app_length in G. lia.
        -- destruct v' as [|c v'].
           ++ apply (IH (length sz) Lz sz eq_refl k1 ([], sx) k2 Ek G1 Hx e3 y He3 Hy Eq).
           ++ exfalso. assert (I3 : In ([], e3 ++ y) (exec branch_one s)).
              { apply branch_one_in. split; [reflexivity|]. exists (w1 ++ c :: v'). split.
                - apply one_run. exists false, CHira, (w1 ++ c :: v'). split; [|reflexivity].
                  split; [destruct w1; discriminate|]. apply Forall_app. split; assumption.
                - rewrite Es1, Eq, <- app_assoc. reflexivity. }
              rewrite El in I3. apply (NB [] (e3 ++ y) e3); [|exact He3|reflexivity].
              apply (lf_before _ _ _ _ LF I3). rewrite Eq. cbn. rewrite !app_length. lia.
  - destruct m as [|x' m]; [|destruct m; discriminate]. cbn in E2. injection E2 as <- _. apply STOP. rewrite E1, app_nil_r. reflexivity.
Qed.
Lemma cap_text : forall n a s c s', In (c, s') (exec (Cap n a) s) ->
  exists c' w, c = (n, w) :: c' /\ s = w ++ s' /\ In (c', s') (exec a s).
Proof.
  intros n a s c s' H. apply cap_in_full in H as (c' & -> & H). destruct (exec_suffix _ _ _ _ H) as [w E].
  exists c', w. split; [|auto]. rewrite E, consumed_app. reflexivity.
Qed.
Definition opt_branches (n : string) : re := Opt (Cap n item_branches).
Lemma opt_branches_in : forall n s c s', In (c, s') (exec (opt_branches n) s) ->
  exists e, branches_text e /\ s = e ++ s' /\ c = match e with [] => [] | _ => [(n, e)] end.
Proof.
  intros n s c s' H. unfold opt_branches, Opt in H. apply alt_iff in H as [H|H].
  - apply cap_text in H as (c' & w & -> & -> & H). unfold item_branches, Plus in H. fold branch_one in H.
    apply seq_in in H as (c1 & s1 & c2 & H1 & H2 & ->). apply branch_one_in in H1 as (-> & v & Hv & E).
    apply star_in in H2 as (-> & e & He & ->). rewrite app_assoc in E. rewrite app_assoc in E. apply app_inv_tail in E. subst w.
    exists (u "の" ++ v ++ e). split; [constructor; assumption|]. rewrite <- !app_assoc. split; reflexivity.
  - destruct H as [E|[]]. injection E as <- <-. exists []. repeat split. constructor.
Qed.
Lemma opt_branches_some : forall n e s', branches_text e -> exists c, In (c, s') (exec (opt_branches n) (e ++ s')).
Proof.
  intros n e s' He. destruct He as [|w e Hw He]; [exists []; apply alt_iff; right; left; reflexivity|].
  exists [(n, u "の" ++ w ++ e)]. apply alt_iff. left. apply SplitFacts.cap_into. rewrite <- !app_assoc.
  apply (SplitFacts.seq_in _ _ _ [] (e ++ s') []); [apply branch_one_in; split; [reflexivity|exists w; auto]|].
  apply star_in. split; [reflexivity|]. exists e. auto.
Qed.
Lemma opt_longest : forall n s l1 x l2, exec (opt_branches n) s = l1 ++ x :: l2 ->
  (forall z, In z l1 -> ~ range_text (snd z)) -> range_text (snd x) ->
  forall e y, branches_text e -> range_text y -> s = e ++ y -> length (snd x) <= length y.
Proof.
  intros n s l1 x l2 E H1 Hx.
  assert (F : exists m1 x' m2, exec (Star branch_one) s = m1 ++ x' :: m2 /\ map snd m1 = map snd l1 /\ snd x' = snd x).
  { assert (M : map snd (exec (Star branch_one) s) = map snd (exec (opt_branches n) s)).
    { rewrite star_branches. unfold opt_branches, Opt. cbn [exec]. rewrite !map_app. f_equal. rewrite map_map. cbn [snd].
      unfold item_branches, Plus. fold branch_one. cbn [exec]. reflexivity. }
    rewrite E, map_app in M. apply map_eq_app in M as (m1 & m2 & -> & M1 & M2). destruct m2 as [|x' m2]; [discriminate|].
    cbn in M2. injection M2 as M2 _. exists m1, x', m2. auto. }
  destruct F as (m1 & x' & m2 & Em & M1 & M2). rewrite <- M2. apply (star_longest s m1 x' m2 Em).
  - intros z Hz. assert (In (snd z) (map snd l1)) by (rewrite <- M1; apply in_map, Hz). apply in_map_iff in H as (z' & <- & Hz').
    apply H1, Hz'.
  - rewrite M2. exact Hx.
Qed.
Definition tail_re : re :=
  Seq (Opt (Seq (Lit (u "から")) (Seq (Cap "base_number2" item_one) (Seq (opt_branches "eda_numbers2") (Lit (u "まで")))))) End.
Lemma re_item_eq : re_item = Seq (Cap "base_number" item_one) (Seq (opt_branches "eda_numbers") tail_re).
Proof. reflexivity. Qed.
Lemma lit_into : forall v r, In ([], r) (exec (Lit v) (v ++ r)).
Proof. intros v r. destruct (starts_lit v r) as [l E]. rewrite E. left. reflexivity. Qed.
Lemma tail_iff : forall r, (exists x, In x (exec tail_re r)) <-> range_text r.
Proof.
  intros r. split.
  - intros [[c s'] H]. apply seq_in in H as (c1 & s1 & c2 & H1 & H2 & _).
    assert (s1 = []) as -> by (destruct s1; [reflexivity|destruct H2]).
    apply alt_iff in H1 as [H1|[E|[]]]; [|injection E as _ ->; left; reflexivity].
    apply seq_in in H1 as (c3 & s3 & c4 & H3 & H4 & _). apply lit_in in H3 as [-> ->].
    apply seq_in in H4 as (c5 & s5 & c6 & H5 & H6 & _). apply cap_text in H5 as (c7 & w & -> & _ & H5).
    apply one_in in H5 as (_ & w' & Hw & ->). apply seq_in in H6 as (c8 & s8 & c9 & H8 & H9 & _).
    apply opt_branches_in in H8 as (e & He & -> & _). apply lit_in in H9 as [-> ->]. right. exists w', e. rewrite app_nil_r. auto.
  - intros [-> |(w & e & Hw & He & ->)].
    + exists ([], []). apply (SplitFacts.seq_in _ _ _ [] [] []); [apply alt_iff; right; left; reflexivity|left; reflexivity].
    + destruct (opt_branches_some "eda_numbers2" e (u "まで") He) as [c Hc].
      eexists (_, []). eapply (SplitFacts.seq_in _ _ _ _ [] []); [|left; reflexivity]. apply alt_iff. left.
      eapply SplitFacts.seq_in; [apply lit_into|]. eapply SplitFacts.seq_in.
      * apply SplitFacts.cap_into. apply one_in. split; [reflexivity|]. exists w. split; [exact Hw|]. reflexivity.
      * eapply SplitFacts.seq_in; [exact Hc|]. rewrite <- (app_nil_r (u "まで")). apply lit_into.
Qed.
Lemma divides_match : forall t b e, divides t b e -> exists x, In x (exec re_item t).
Proof.
  intros t b e (r & Hb & He & Hr & ->). rewrite re_item_eq. apply tail_iff in Hr as [[ct st] Ht].
  destruct (opt_branches_some "eda_numbers" e r He) as [c Hc]. eexists (_, st).
  eapply SplitFacts.seq_in; [apply SplitFacts.cap_into, one_in; split; [reflexivity|exists b; split; [exact Hb|reflexivity]]|].
  eapply SplitFacts.seq_in; [exact Hc|exact Ht].
Qed.
(** The first match of a sequence. *)
Lemma seq_first : forall a b s c s' l, exec (Seq a b) s = (c, s') :: l ->
  exists la ca sa lb cb m, exec a s = la ++ (ca, sa) :: lb /\ (forall z, In z la -> exec b (snd z) = []) /\
    exec b sa = (cb, s') :: m /\ c = ca ++ cb.
Proof.
  intros a b s c s' l E. cbn [exec] in E. destruct (first_of _ _ [] (c, s') l E) as (la & [ca sa] & lb & m1 & m2 & Ea & Ez & E0).
  symmetry in E0. apply app_eq_nil in E0 as [E0 ->]. cbn [fst snd app] in Ez.
  destruct (exec b sa) as [|[cb sb] m] eqn:Eb; [discriminate|]. cbn in Ez. injection Ez as E1 E2 _.
  exists la, ca, sa, lb, cb, m. subst sb. split; [exact Ea|]. split; [|split; [exact Eb|symmetry; exact E1]].
  intros z Hz. destruct (exec b (snd z)) as [|y m'] eqn:F; [reflexivity|]. exfalso.
  assert (H : @In result ((fst z ++ fst y)%list, snd y) []).
  { rewrite <- E0. apply in_flat_map. exists z. split; [exact Hz|]. rewrite F. left. reflexivity. }
  destruct H.
Qed.
Lemma app_prefix : forall (a b c d : ustr), a ++ b = c ++ d -> length a = length c -> a = c /\ b = d.
Proof.
  induction a as [|x a IH]; intros b [|y c] d E L; try discriminate L; [auto|]. cbn in E. injection E as -> E.
  destruct (IH b c d E) as [-> ->]; [injection L; auto|auto].
Qed.
Theorem item_match : forall t,
  match captures re_item t with
  | None => ~ exists b e, divides t b e
  | Some c => exists b e, division t b e /\ group "base_number" c = Some b /\
      group "eda_numbers" c = match e with [] => None | _ => Some e end
  end.
Proof.
  intros t. unfold captures. destruct (exec re_item t) as [|[c s'] l] eqn:E.
  - intros (b & e & H). apply divides_match in H as [x Hx]. rewrite E in Hx. destruct Hx.
  - cbn [fst]. rewrite re_item_eq in E. apply seq_first in E as (la & ca & sa & lb & cb & m & Ea & Fa & Eb & ->).
    assert (Ia : In (ca, sa) (exec (Cap "base_number" item_one) t)) by (rewrite Ea; apply in_elt).
    apply cap_text in Ia as (c' & b & -> & -> & Ib). apply one_in in Ib as (-> & b' & Hb & Eq). apply app_inv_tail in Eq. subst b'.
    apply seq_first in Eb as (le & ce & se & lf & ct & m' & Ee & Fe & Et & ->).
    assert (Ie : In (ce, se) (exec (opt_branches "eda_numbers") sa)) by (rewrite Ee; apply in_elt).
    apply opt_branches_in in Ie as (e & He & -> & ->).
    assert (Hr : range_text se) by (apply tail_iff; rewrite Et; eexists; left; reflexivity).
    exists b, e. split; [split; [exists se; auto|]|split; [reflexivity|]].
    + intros b' e' (r' & Hb' & He' & Hr' & Ed).
      assert (NL : ~ length (e' ++ r') < length (e ++ se)).
      { intros L. destruct (opt_branches_some "eda_numbers" e' r' He') as [c0 Hc0]. apply tail_iff in Hr' as [[c1 s1] Hc1].
        assert (LF : longest_first (exec (Cap "base_number" item_one) (b ++ e ++ se))).
        { cbn [exec]. apply lf_map; [reflexivity|apply lf_one]. }
        assert (In' : In (("base_number", b') :: [], e' ++ r') (exec (Cap "base_number" item_one) (b ++ e ++ se))).
        { rewrite Ed. apply SplitFacts.cap_into, one_in. split; [reflexivity|]. exists b'. auto. }
        rewrite Ea in LF, In'. pose proof (lf_before _ _ _ _ LF In' L) as Hi. apply Fa in Hi. cbn [snd] in Hi.
        assert (X : In (c0 ++ c1, s1) (exec (Seq (opt_branches "eda_numbers") tail_re) (e' ++ r'))) by (eapply SplitFacts.seq_in; eassumption).
        rewrite Hi in X. destruct X. }
      pose proof (f_equal (@length N) Ed) as Le. rewrite !app_length in Le. rewrite !app_length in NL.
      destruct (Nat.eq_dec (length b') (length b)) as [Lb|Lb]; [right|left; lia]. split; [exact Lb|].
      apply app_prefix in Ed as [_ Ed]; [|symmetry; exact Lb].
      pose proof (opt_longest "eda_numbers" _ _ _ _ Ee) as OL. cbn [snd] in OL. specialize (OL) as OL'.
      assert (L : length se <= length r').
      { apply (OL) with (e := e'); try assumption. intros z Hz Hrz. apply tail_iff in Hrz as [x Hx]. rewrite (Fe z Hz) in Hx. destruct Hx. }
      lia.
    + destruct e as [|x e]; [|reflexivity]. cbn [app group].
      assert (G : group "eda_numbers" ct = None); [|exact G].
      destruct (group "eda_numbers" ct) as [v|] eqn:G; [|reflexivity]. exfalso. apply group_in in G.
      assert (Hi : In (ct, s') (exec tail_re se)) by (rewrite Et; left; reflexivity).
      apply (exec_names tail_re se ct s' "eda_numbers" v Hi) in G. revert G. cbv. intuition discriminate.
Qed.

(** ** Values *)
Lemma place_some : forall poem c n, place poem c = Some n -> exists i, nth_error poem i = Some c /\ n = N.of_nat (S i).
Proof.
  induction poem as [|x poem IH]; intros c n H; [discriminate|]. cbn in H. destruct (N.eqb_spec x c) as [->|].
  - injection H as <-. exists 0. auto.
  - destruct (place poem c) as [m|] eqn:E; [|discriminate]. injection H as <-. destruct (IH c m E) as (i & Hi & ->).
    exists (S i). split; [exact Hi|]. lia.
Qed.
Lemma place_none : forall poem c, place poem c = None -> ~ In c poem.
Proof.
  induction poem as [|x poem IH]; intros c H; [tauto|]. cbn in H. destruct (N.eqb_spec x c) as [->|Hx]; [discriminate|].
  destruct (place poem c) eqn:E; [discriminate|]. intros [Hc|Hc]; [contradiction|exact (IH c E Hc)].
Qed.
Lemma iroha_same : forall poem (f : ustr -> option N), (forall s n, f s = Some n <-> iroha_number poem s n) ->
  forall w, f w = iroha_value poem w.
Proof.
  intros poem f Hf w. destruct (iroha_value poem w) as [n|] eqn:E.
  - apply Hf. destruct w as [|c [|d w]]; try discriminate. apply place_some in E as (i & Hi & ->). exists i, c. auto.
  - destruct (f w) as [n|] eqn:F; [|reflexivity]. exfalso. apply Hf in F as (i & c & Hi & -> & _). cbn in E.
    apply (place_none _ _ E). apply nth_error_In in Hi. exact Hi.
Qed.
Lemma all_in : forall (l : ustr) (P : N -> bool), forallb P l = true -> forall c, In c l -> P c = true.
Proof. intros l P H. apply forallb_forall, H. Qed.
Lemma letters_same : forall (first : N) (l w : ustr),
  forallb (fun c => ueqb (alphabet_digits c) (map (fun d => 48 + d)%N (place_digits first c)) && forallb (fun d => N.ltb d 10) (place_digits first c)) l = true ->
  w <> [] -> Forall (fun c => In c l) w -> parse_zenkaku_alphabet w = letters_value first w.
Proof.
  intros first l w Hl Hn Hw. unfold parse_zenkaku_alphabet, letters_value.
  rewrite forallb_forall in Hl.
  assert (H : forall c, In c w -> alphabet_digits c = map (fun d => 48 + d)%N (place_digits first c) /\ Forall (fun d => d < 10)%N (place_digits first c)).
  { intros c Hc. rewrite Forall_forall in Hw. specialize (Hl c (Hw c Hc)). apply andb_true_iff in Hl as [H1 H2].
    split; [apply ueqb_eq, H1|]. apply Forall_forall. intros d Hd. rewrite forallb_forall in H2. apply N.ltb_lt, H2, Hd. }
  assert (E : concat (map alphabet_digits w) = map (fun d => 48 + d)%N (flat_map (place_digits first) w)).
  { clear Hn Hw. induction w as [|c w IH]; [reflexivity|]. cbn [map concat flat_map]. rewrite map_app, IH by (intros; apply H; right; assumption).
    f_equal. apply H. left. reflexivity. }
  assert (D : Forall (fun d => d < 10)%N (flat_map (place_digits first) w)).
  { apply Forall_forall. intros d Hd. apply in_flat_map in Hd as (c & Hc & Hd). destruct (H c Hc) as [_ G]. rewrite Forall_forall in G. apply G, Hd. }
  rewrite E, uparse_ascii.
  - unfold decimal_value. do 2 f_equal. rewrite map_map. rewrite <- (map_id (flat_map (place_digits first) w)) at 2. apply map_ext_in. intros d Hd. change (uc "0") with 48%N. lia.
  - split; cbn [fst snd].
    + destruct w as [|c w]; [contradiction|]. cbn [flat_map]. unfold place_digits. destruct (_ <? 10)%N; discriminate.
    + apply Forall_forall. intros d Hd. apply in_map_iff in Hd as (e & <- & He). rewrite Forall_forall in D. specialize (D e He).
      apply (kind_class_in Ascii10). apply in_range_true. change (uc "0") with 48%N. change (uc "9") with 57%N. lia.
Qed.
Lemma roman_same : forall w, Forall (fun c => In c upper_letters) w \/ Forall (fun c => In c lower_letters) w ->
  roman_back w = map ascii_roman w /\ is_roman w = has_roman w.
Proof.
  intros w Hw.
  assert (H : Forall (fun c => In c (upper_letters ++ lower_letters)) w).
  { destruct Hw as [Hw|Hw]; revert Hw; apply Forall_impl; intros c Hc; apply in_or_app; auto. }
  clear Hw. rewrite Forall_forall in H. split.
  - unfold roman_back, replace. rewrite !map_map. apply map_ext_in. intros c Hc. specialize (H c Hc).
    apply N.eqb_eq. clear Hc. revert c H. apply all_in. vm_compute. reflexivity.
  - unfold is_roman, has_roman.
    assert (X : forall c, In c (upper_letters ++ lower_letters) -> one_of (u "ixvlcIXVLCｉｘｖｌｃＩＸＶＬＣ") c = existsb (N.eqb c) roman_letters).
    { intros c Hc. apply eqb_prop. revert c Hc. apply all_in. vm_compute. reflexivity. }
    induction w as [|c w IH]; [reflexivity|]. cbn [existsb]. rewrite IH by (intros; apply H; right; assumption).
    rewrite X by (apply H; left; reflexivity). reflexivity.
Qed.
Lemma read_plain_some : forall f p s, read_plain f p s = match f s with Some n => Ok (p, n) | None => Panic end.
Proof. intros f p s. unfold read_plain. destruct (f s); reflexivity. Qed.
Theorem reader_value : forall cd b k w, word k w -> reader cd b (cls_of k) w = word_reading cd b k w.
Proof.
  intros cd b k w [Hn Hw]. unfold word_reading.
  destruct k; cbn [cls_of word_value word_pattern letter_of] in *.
  - rewrite <- (iroha_same iroha_katakana parse_iroha_katakana katakana_number w).
    destruct b; cbn [reader]; rewrite read_plain_some; reflexivity.
  - rewrite <- (iroha_same iroha_hiragana parse_iroha_hiragana hiragana_number w).
    destruct b; cbn [reader]; rewrite read_plain_some; reflexivity.
  - destruct b; cbn [reader]; unfold read_kansuji, kansuji; destruct (unkan cd w); reflexivity.
  - rewrite <- zenkaku_wide by (split; [exact Hn|exact Hw]). destruct b; cbn [reader]; rewrite read_plain_some; reflexivity.
  - destruct (roman_same w (or_introl Hw)) as [R1 R2].
    assert (L : parse_zenkaku_alphabet w = letters_value (uc "Ａ") w) by (apply (letters_same _ upper_letters); [vm_compute; reflexivity|exact Hn|exact Hw]).
    assert (P : parse_roman cd w = roman_value cd w) by (unfold parse_roman, roman_value; fold (roman_back w); rewrite R1; reflexivity).
    destruct b; cbn [reader]; unfold read_letters; rewrite R2, !read_plain_some, L, P; destruct (has_roman w); reflexivity.
  - destruct (roman_same w (or_intror Hw)) as [R1 R2].
    assert (L : parse_zenkaku_alphabet w = letters_value (uc "ａ") w) by (apply (letters_same _ lower_letters); [vm_compute; reflexivity|exact Hn|exact Hw]).
    assert (P : parse_roman cd w = roman_value cd w) by (unfold parse_roman, roman_value; fold (roman_back w); rewrite R1; reflexivity).
    destruct b; cbn [reader]; unfold read_letters; rewrite R2, !read_plain_some, L, P; destruct (has_roman w); reflexivity.
Qed.

(** ** The start of a text *)
Definition named (name : cls -> string) : re :=
  Alts [Cap (name CKata) (chars katakana); Cap (name CHira) (chars hiragana); Cap (name CKanji) (chars kanji);
        Cap (name CZen) (chars zenkaku); Cap (name CUp) (chars upper); Cap (name CLow) (chars lower)].
Lemma re_item_base_eq : re_item_base = Cap "str" (Alt (Seq (Lit (u "（")) (Seq (named paren_name) (Lit (u "）")))) (named plain_name)).
Proof. reflexivity. Qed.
Lemma named_in : forall name s c s', In (c, s') (exec (named name) s) -> exists k w, run k w /\ s = w ++ s'.
Proof.
  intros name s c s' H. unfold named in H. cbn [Alts] in H.
  assert (X : forall k, In (c, s') (exec (Cap (name k) (chars (pred k))) s) -> exists k w, run k w /\ s = w ++ s').
  { intros k Hk. apply cap_in_full in Hk as (c' & _ & Hk). apply plus_chars_in in Hk as (_ & w & E & Hw & Hw'). exists k, w. repeat split; assumption. }
  repeat (apply alt_iff in H as [H|H]; [first [exact (X CKata H)|exact (X CHira H)|exact (X CKanji H)|exact (X CZen H)|exact (X CUp H)]|]).
  exact (X CLow H).
Qed.
Lemma base_start : forall cd b k w rest, run k w -> (b = false -> stops (pred k) rest) ->
  parse_item_number_base cd (wrap b w ++ rest) = rmap Some (reader cd b k w).
Proof.
  intros cd b k w rest Hw Hr. unfold parse_item_number_base.
  assert (C : captures re_item_base (wrap b w ++ rest) = Some [("str", wrap b w); (if b then paren_name k else plain_name k, w)]).
  { apply (starts_captures _ _ _ rest). rewrite re_item_base_eq. apply starts_cap. destruct b; cbn [wrap].
    - apply starts_alt_l. unfold paren. rewrite <- !app_assoc.
      apply (starts_seq _ _ _ [] (w ++ u "）" ++ rest) [(paren_name k, w)]); [apply starts_lit|].
      apply (starts_seq _ _ _ [(paren_name k, w)] (u "）" ++ rest) []); [|apply starts_lit].
      apply (starts_named paren_name k); [exact Hw|]. exact (mark_close k).
    - apply starts_alt_r.
      + change (Lit (u "（")) with (Lit (uc "（" :: [])). apply seq_fails_l, lit_fails.
        destruct Hw as [Hn Hw]. exact (run_stops_char k _ w rest (mark_open k) Hn Hw).
      + apply (starts_named plain_name k); [exact Hw|apply Hr; reflexivity]. }
  rewrite C. assert (F : first_reader (item_readers cd) [("str", wrap b w); (if b then paren_name k else plain_name k, w)] = reader cd b k w)
    by (destruct b, k; reflexivity).
  rewrite F. destruct (reader cd b k w); reflexivity.
Qed.
Lemma base_nothing : forall cd s, (forall b k w rest, run k w -> s <> wrap b w ++ rest) -> parse_item_number_base cd s = Ok None.
Proof.
  intros cd s H. unfold parse_item_number_base, captures. destruct (exec re_item_base s) as [|[c s'] l] eqn:E; [reflexivity|]. exfalso.
  assert (Hi : In (c, s') (exec re_item_base s)) by (rewrite E; left; reflexivity). clear E. rewrite re_item_base_eq in Hi.
  apply cap_in_full in Hi as (c' & _ & Hi). apply alt_iff in Hi as [Hi|Hi].
  - apply seq_in in Hi as (c1 & s1 & c2 & H1 & H2 & _). apply lit_in in H1 as [_ ->].
    apply seq_in in H2 as (c3 & s3 & c4 & H3 & H4 & _). apply named_in in H3 as (k & w & Hw & ->). apply lit_in in H4 as [_ ->].
    apply (H true k w s' Hw). unfold wrap, paren. rewrite <- !app_assoc. reflexivity.
  - apply named_in in Hi as (k & w & Hw & ->). exact (H false k w s' Hw eq_refl).
Qed.
Lemma letter_stops : forall k rest, (forall c r, rest = c :: r -> ~ letter_of k c) <-> stops (pred (cls_of k)) rest.
Proof.
  intros k [|c r]; cbn; split; intros H; try exact I; try discriminate.
  - specialize (H c r eq_refl). rewrite letter_cls in H. destruct (pred (cls_of k) c); congruence.
  - intros c' r' E. injection E as <- _. rewrite letter_cls. congruence.
Qed.
Lemma start_sound : forall cd s r, start_reading cd s r -> parse_item_number_base cd s = r.
Proof.
  intros cd s r [k w rest Hw E|k w rest Hw E Hr|H].
  - rewrite E. change (enclosed true w) with (wrap true w). rewrite (base_start cd true (cls_of k)); [|apply word_run, Hw|discriminate].
    rewrite reader_value by exact Hw. reflexivity.
  - rewrite E. change w with (wrap false w) at 1. rewrite (base_start cd false (cls_of k)); [|apply word_run, Hw|intros _; apply letter_stops, Hr].
    rewrite reader_value by exact Hw. reflexivity.
  - apply base_nothing. intros b k w rest Hw E. destruct (cls_onto k) as [l <-]. apply (H b l w rest); [apply word_run, Hw|exact E].
Qed.
Lemma run_at : forall k s, exists w rest, s = w ++ rest /\ Forall (fun c => pred k c = true) w /\ stops (pred k) rest.
Proof.
  intros k. induction s as [|c s (w & r & -> & Hw & Hr)]; [exists [], []; repeat split; constructor|].
  destruct (pred k c) eqn:E.
  - exists (c :: w), r. repeat split; [constructor; assumption|exact Hr].
  - exists [], (c :: w ++ r). repeat split; [constructor|exact E].
Qed.
Lemma start_total : forall cd s, exists r, start_reading cd s r.
Proof.
  intros cd s.
  assert (P : (exists k w rest, run k w /\ s = wrap true w ++ rest) \/ ~ (exists k w rest, run k w /\ s = wrap true w ++ rest)).
  { destruct (exec (Seq (Lit (u "（")) (Seq item_class (Lit (u "）")))) s) as [|[c s'] l] eqn:E.
    - right. intros (k & w & rest & Hw & Es). assert (X : In ([], rest) (exec (Seq (Lit (u "（")) (Seq item_class (Lit (u "）")))) s)).
      { apply paren_in. split; [reflexivity|]. exists k, w. auto. }
      rewrite E in X. destruct X.
    - left. assert (X : In (c, s') (exec (Seq (Lit (u "（")) (Seq item_class (Lit (u "）")))) s)) by (rewrite E; left; reflexivity).
      apply paren_in in X as (_ & k & w & Hw & Es). exists k, w, s'. auto. }
  destruct P as [(k & w & rest & Hw & Es)|NP].
  - destruct (cls_onto k) as [l <-]. eexists. eapply start_enclosed; [apply word_run, Hw|exact Es].
  - destruct (class_cases s) as [(k & c & r & Es & Hc)|Hn].
    + destruct (run_at k s) as (w & rest & Ew & Hw & Hr). destruct (cls_onto k) as [l <-]. eexists. eapply start_plain; [|exact Ew|apply letter_stops, Hr].
      apply word_run. split; [|exact Hw]. intros ->. cbn in Ew. subst rest. rewrite Es in Hr. cbn in Hr. congruence.
    + exists (Ok None). constructor. intros b k w rest Hw E. destruct b.
      * apply NP. exists (cls_of k), w, rest. split; [apply word_run, Hw|exact E].
      * apply word_run in Hw as [N0 Hw]. destruct Hw as [|c w Hc Hw]; [contradiction|]. rewrite (Hn c (w ++ rest) (cls_of k) E) in Hc. discriminate.
Qed.
Theorem start_exact : forall cd s r, parse_item_number_base cd s = r <-> start_reading cd s r.
Proof.
  intros cd s r. split; [|apply start_sound]. intros <-. destruct (start_total cd s) as [r H]. rewrite (start_sound cd s r H). exact H.
Qed.

(** ** Labels *)
Lemma usplit_cons : forall c s, exists h t, usplit c s = h :: t.
Proof.
  intros c. induction s as [|x s (h & t & E)]; cbn; [eauto|]. destruct (N.eqb x c); [eauto|]. rewrite E. eauto.
Qed.
Lemma cut_branches : forall s l, cut s l -> branches s = l.
Proof.
  intros s l H. induction H as [|s l H IH|p s l Hp Hn Hs H IH].
  - reflexivity.
  - unfold branches in *. cbn [usplit]. rewrite N.eqb_refl. cbn [filter non_empty]. exact IH.
  - unfold branches in *. rewrite usplit_app by exact Hn. destruct Hs as [-> |[r ->]].
    + cbn in IH |- *. rewrite app_nil_r. destruct p; [contradiction|]. rewrite <- IH. reflexivity.
    + cbn [usplit] in *. rewrite N.eqb_refl in *. rewrite app_nil_r. cbn [filter non_empty] in *. destruct p; [contradiction|]. rewrite IH. reflexivity.
Qed.
Lemma cut_total : forall s, exists l, cut s l.
Proof.
  intros s. remember (length s) as n eqn:En. revert s En. induction n as [n IH] using lt_wf_ind. intros s ->.
  destruct s as [|c s]; [exists []; constructor|]. destruct (N.eq_dec c (uc "の")) as [->|Hc].
  - destruct (IH (length s) ltac:(cbn; lia) s eq_refl) as [l H]. exists l. constructor. exact H.
  - assert (X : exists p r, c :: s = p ++ r /\ p <> [] /\ ~ In (uc "の") p /\ (r = [] \/ exists r', r = uc "の" :: r')).
    { assert (Y : forall s, exists p r, s = p ++ r /\ ~ In (uc "の") p /\ (r = [] \/ exists r', r = uc "の" :: r')).
      { clear. induction s as [|c s (p & r & -> & Hp & Hr)]; [exists [], []; auto|]. destruct (N.eq_dec c (uc "の")) as [->|Hc].
        - exists [], (uc "の" :: p ++ r). repeat split; [tauto|right; eauto].
        - exists (c :: p), r. repeat split; [|exact Hr]. intros [H|H]; [congruence|contradiction]. }
      destruct (Y s) as (p & r & -> & Hp & Hr). exists (c :: p), r. repeat split; [discriminate| |exact Hr]. intros [H|H]; [congruence|contradiction]. }
    destruct X as (p & r & E & Hp & Hn & Hr). destruct (IH (length r)) with (s := r) as [l H]; [|reflexivity|].
    + rewrite E. destruct p; [contradiction|]. cbn. rewrite app_length. lia.
    + exists (p :: l). rewrite E. constructor; assumption.
Qed.
Lemma collect_numbers : forall cd l rs, Forall2 (start_reading cd) l rs -> item_branch_numbers cd l = collect rs.
Proof.
  intros cd l rs H. induction H as [|s r l rs Hs H IH]; [reflexivity|]. cbn [item_branch_numbers collect]. rewrite IH, (start_sound cd s r Hs). reflexivity.
Qed.
Lemma division_unique : forall t b e b' e', division t b e -> division t b' e' -> b' = b /\ e' = e.
Proof.
  intros t b e b' e' [D M] [D' M']. pose proof (M _ _ D') as L. pose proof (M' _ _ D) as L'.
  destruct D as (r & _ & _ & _ & E). destruct D' as (r' & _ & _ & _ & E'). rewrite E in E'.
  apply app_prefix in E' as [-> E']; [|lia]. apply app_prefix in E' as [-> _]; [auto|lia].
Qed.
Lemma label_sound : forall cd s r, label_reading cd s r -> parse_item_number cd s = r.
Proof.
  intros cd s r (x & t & y & Hx & Hy & Ht & Es & H). unfold parse_item_number.
  assert (T : trim s = t) by (rewrite Es; apply trim_edge; assumption). rewrite T. pose proof (item_match t) as IM.
  destruct H as [[Hn ->]|(b & k & w & e & l & rs & Hw & Hd & Hc & Hf & ->)].
  - destruct (captures re_item t) as [c|]; [|reflexivity]. exfalso. destruct IM as (b & e & [D _] & _). apply Hn. exists b, e. exact D.
  - destruct (captures re_item t) as [c|] eqn:C; [|exfalso; apply IM; exists (enclosed b w), e; apply Hd].
    destruct IM as (b' & e' & D & Gb & Ge). destruct (division_unique _ _ _ _ _ Hd D) as [-> ->].
    unfold group_text. rewrite Gb. cbn [unwrap bind].
    rewrite (start_sound cd (enclosed b w) (rmap Some (word_reading cd b k w))).
    2:{ destruct b; [eapply start_enclosed with (rest := [])|eapply start_plain with (rest := [])]; try exact Hw; try (symmetry; apply app_nil_r). discriminate. }
    assert (G1 : group "base_number_2" c = None) by (eapply group_absent; [exact C|cbv; intuition discriminate]).
    assert (G2 : group "eda_number_2" c = None) by (eapply group_absent; [exact C|cbv; intuition discriminate]).
    rewrite G1, G2. unfold rmap. destruct (word_reading cd b k w) as [[p n]| |]; cbn [bind]; try reflexivity.
    assert (X : (match group "eda_numbers" c with Some m => item_branch_numbers cd (branches m) | None => Ok [] end) = collect rs).
    { rewrite Ge. rewrite <- (collect_numbers cd l rs Hf). rewrite <- (cut_branches e l Hc). destruct e; reflexivity. }
    rewrite X. reflexivity.
Qed.
Lemma label_total : forall cd s, exists r, label_reading cd s r.
Proof.
  intros cd s. destruct (trim_split s) as (x & y & Hx & Hy & Es).
  assert (C : (exists b e, division (trim s) b e) \/ ~ exists b e, divides (trim s) b e).
  { pose proof (item_match (trim s)) as IM. destruct (captures re_item (trim s)) as [c|]; [left|right; exact IM].
    destruct IM as (b & e & D & _). exists b, e. exact D. }
  destruct C as [(b & e & D)|N0].
  - destruct (cut_total e) as [l Hl]. assert (F : exists rs, Forall2 (start_reading cd) l rs).
    { clear. induction l as [|p l [rs IH]]; [exists []; constructor|]. destruct (start_total cd p) as [r Hr]. exists (r :: rs). constructor; assumption. }
    destruct F as [rs F]. pose proof D as D'. destruct D' as [(r & (bb & k & w & Hw & ->) & _) _].
    eexists. exists x, (trim s), y. repeat (split; [first [assumption|apply trim_no_edge]|]). right. exists bb, k, w, e, l, rs.
    repeat (split; [assumption|]). reflexivity.
  - exists (Ok None). exists x, (trim s), y. repeat (split; [first [assumption|apply trim_no_edge]|]). left. auto.
Qed.
Theorem label_exact : forall cd s r, parse_item_number cd s = r <-> label_reading cd s r.
Proof.
  intros cd s r. split; [|apply label_sound]. intros <-. destruct (label_total cd s) as [r H]. rewrite (label_sound cd s r H). exact H.
Qed.

(** ** Lines *)
Lemma kind_exists : forall s, exists mk, kind_of s mk.
Proof.
  intros s. unfold kind_of.
  assert (H : forall ks : list (ustr * (ArticleNumber -> ustr -> line)), Forall (fun p => exists c, fst p = [c]) ks ->
    (exists mk before k after, ks = before ++ (k, mk) :: after /\ incl k s /\ forall k' mk' c, In (k', mk') before -> In c k' -> ~ In c s) \/
    (forall k' mk' c, In (k', mk') ks -> In c k' -> ~ In c s)).
  { intros ks H. induction H as [|[k mk] ks [c Hc] H IH]; [right; intros k' mk' c []|]. cbn [fst] in Hc. subst k.
    destruct (in_dec N.eq_dec c s) as [Hi|Hi].
    - left. exists mk, [], [c], ks. split; [reflexivity|]. split; [intros x [<-|[]]; exact Hi|intros k' mk' x []].
    - destruct IH as [(mk' & b & k & a & -> & H1 & H2)|H1].
      + left. exists mk', (([c], mk) :: b), k, a. split; [reflexivity|]. split; [exact H1|].
        intros k' mk'' x [E|E] Hx; [injection E as <- <-; destruct Hx as [<-|[]]; exact Hi|exact (H2 _ _ _ E Hx)].
      + right. intros k' mk'' x [E|E] Hx; [injection E as <- <-; destruct Hx as [<-|[]]; exact Hi|exact (H1 _ _ _ E Hx)]. }
  destruct (H heading_kinds) as [(mk & b & k & a & E & H1 & H2)|H1].
  - repeat constructor; eexists; vm_compute; reflexivity.
  - exists mk. left. exists b, k, a. auto.
  - exists LParagraph. right. auto.
Qed.
Lemma word_line_sound : forall cd x w y s t r, blank x -> blank y -> first_word w s t -> ~ In 10%N t -> ~ caption_line w ->
  word_line cd w s t r -> parse_line cd (x ++ w ++ y) = r.
Proof.
  intros cd x w y s t r Hx Hy Hw Ht Hc H. rewrite (line_word cd x w y s t Hx Hy Hw Ht Hc).
  destruct H as [n mk Hn Hk|Hn|i Hn Hi|Hn Hi|Hn Hi]; apply number_exact in Hn; rewrite Hn; cbn [bind]; try reflexivity.
  - f_equal. exact (heading_of_spec s n t mk Hk).
  - apply label_exact in Hi. rewrite Hi. reflexivity.
  - apply label_exact in Hi. rewrite Hi. reflexivity.
  - apply label_exact in Hi. rewrite Hi. reflexivity.
Qed.
Lemma word_line_total : forall cd w s t, exists r, word_line cd w s t r.
Proof.
  intros cd w s t. destruct (parse_article_number cd s) as [[n|]|e|] eqn:E.
  - destruct (kind_exists s) as [mk Hk]. exists (Ok (mk n t)). apply line_number; [apply number_exact, E|exact Hk].
  - destruct (parse_item_number cd s) as [[i|]|e|] eqn:F.
    + exists (Ok (LItem i t)). apply line_item; [apply number_exact, E|apply label_exact, F].
    + exists (Ok (LText w)). apply line_no_number; [apply number_exact, E|apply label_exact, F].
    + exfalso. exact (item_number_fine cd s e F).
    + exists Panic. apply line_item_panic; [apply number_exact, E|apply label_exact, F].
  - exfalso. exact (article_number_fine cd s e E).
  - exists Panic. apply line_number_panic, number_exact, E.
Qed.
Lemma first_word_in : forall w s t, first_word w s t -> incl t w.
Proof.
  intros w s t [(g & -> & _)|(c & -> & _ & _ & ->)] x Hx; rewrite ?in_app_iff; auto.
Qed.
Lemma line_sound : forall cd l r, ~ In 10%N l -> line_reading cd l r -> parse_line cd l = r.
Proof.
  intros cd l r Hl (x & w & y & Hx & Hy & He & E & H).
  assert (T : trim l = w) by (rewrite E; apply trim_edge; assumption).
  destruct H as [(v & Hv & Hn & -> & ->)|[(Hc & Hs & ->)|(Hc & s & t & Hw & H)]].
  - unfold parse_line. rewrite T, (caption_captures v Hv Hn). reflexivity.
  - unfold parse_line. rewrite T, (not_caption w Hc), split_short by exact Hs. cbn [bind].
    destruct (captures re_suppl w) as [c|] eqn:F; [|reflexivity]. apply captures_in in F as [s' F]. apply suppl_long in F. lia.
  - rewrite E. apply (word_line_sound cd x w y s t r); try assumption. intros Hi. apply Hl. rewrite E, !in_app_iff. right. left.
    exact (first_word_in w s t Hw _ Hi).
Qed.
Lemma line_total : forall cd l, exists r, line_reading cd l r.
Proof.
  intros cd l. destruct (trim_split l) as (x & y & Hx & Hy & E). pose proof (trim_no_edge l) as He.
  assert (C : caption_line (trim l) \/ ~ caption_line (trim l)).
  { destruct (captures re_caption (trim l)) as [c|] eqn:F.
    - left. apply captures_in in F as [s' F]. apply caption_caps in F as (v & _ & _ & H1 & H2 & H3). exists v. auto.
    - right. intros (v & H1 & H2 & H3). rewrite H3, (caption_captures v H1 H2) in F. discriminate. }
  destruct C as [(v & H1 & H2 & H3)|C].
  - exists (Ok (LCaption v)), x, (trim l), y. repeat (split; [assumption|]). left. exists v. auto.
  - destruct (le_lt_dec 2 (length (trim l))) as [L|L].
    + destruct (first_word_exists (trim l) He L) as (s & t & Hw). destruct (word_line_total cd (trim l) s t) as [r Hr].
      exists r, x, (trim l), y. repeat (split; [assumption|]). right. right. split; [exact C|]. exists s, t. auto.
    + exists (Ok (LText (trim l))), x, (trim l), y. repeat (split; [assumption|]). right. left. split; [exact C|]. split; [lia|reflexivity].
Qed.
Theorem line_exact : forall cd l r, ~ In 10%N l -> (parse_line cd l = r <-> line_reading cd l r).
Proof.
  intros cd l r Hl. split; [|apply line_sound, Hl]. intros <-. destruct (line_total cd l) as [r H]. rewrite (line_sound cd l r Hl H). exact H.
Qed.
Theorem division_exists_unique : forall t, (exists b e, divides t b e) ->
  exists b e, division t b e /\ forall b' e', division t b' e' -> b' = b /\ e' = e.
Proof.
  intros t H. pose proof (item_match t) as IM. destruct (captures re_item t) as [c|]; [|contradiction].
  destruct IM as (b & e & D & _). exists b, e. split; [exact D|]. intros b' e' D'. exact (division_unique t b e b' e' D D').
Qed.
