(** Headings and labels are read exactly as their grammar says. *)
From Coq Require Import String List NArith ZArith Bool Arith Lia.
From Verif Require Import Base BaseFacts NumStr NumStrSpec NumStrFacts Regex RegexFacts NumText NumTextSpec NumTextFacts
  HeadingFacts LabelFacts NumberSpec.
Import ListNotations.
Open Scope string_scope.
Open Scope list_scope.

(** ** Characters *)
Definition kind_class (k : digits_kind) : N -> bool :=
  match k with Ascii10 => arabic | Wide10 => zenkaku | Kansuji => kanji end.
Lemma kind_class_in : forall k c, kind_class k c = true <-> In c (digit_chars k).
Proof.
  intros [] c; cbn [kind_class digit_chars].
  - unfold arabic. change (uc "0") with 48%N. change (uc "9") with 57%N. rewrite in_range_true. unfold ascii_list. cbn [In]. lia.
  - unfold zenkaku. change (uc "０") with 65296%N. change (uc "９") with 65305%N. rewrite in_range_true. unfold zenkaku_list. cbn [In]. lia.
  - apply kanji_in.
Qed.
Lemma kind_dec : forall k c, {In c (digit_chars k)} + {~ In c (digit_chars k)}.
Proof. intros k c. apply in_dec, N.eq_dec. Qed.
Lemma kinds_disjoint : forall k k' c, In c (digit_chars k) -> In c (digit_chars k') -> k = k'.
Proof.
  assert (X : forall k k' c, k <> k' -> In c (digit_chars k) -> In c (digit_chars k') -> False).
  { intros k k' c Hk H H'. apply kind_class_in in H'.
    assert (E : kind_class k' c = false); [|congruence]. revert H. apply not_class_of.
    destruct k, k'; try contradiction; vm_compute; reflexivity. }
  intros k k' c H H'. destruct k, k'; try reflexivity; exfalso; eapply X; [|exact H|exact H'| |exact H|exact H'| |exact H|exact H'| |exact H|exact H'| |exact H|exact H'| |exact H|exact H']; discriminate.
Qed.
Lemma class_forall : forall k w, Forall (fun c => In c (digit_chars k)) w <-> Forall (fun c => kind_class k c = true) w.
Proof. intros k w. rewrite !Forall_forall. split; intros H c Hc; apply kind_class_in, H, Hc. Qed.
Lemma class_stops : forall k s, not_followed_by (digit_chars k) s <-> stops (kind_class k) s.
Proof.
  intros k [|c s]; cbn; [tauto|]. rewrite <- kind_class_in. destruct (kind_class k c); split; intros H; try congruence; try discriminate.
Qed.
Lemma joint_cases : forall j, In j joints <-> j = uc "の" \/ j = uc "ノ".
Proof. intros j. change joints with [uc "の"; uc "ノ"]. cbn [In]. split; [intros [H|[H|[]]]|intros [H|H]]; auto. Qed.
Lemma digits_not : forall (l : ustr) k c, forallb (fun x => forallb (fun k => negb (kind_class k x)) all_kinds) l = true ->
  In c l -> ~ In c (digit_chars k).
Proof.
  intros l k c H Hc Hd. rewrite forallb_forall in H. specialize (H c Hc). rewrite forallb_forall in H.
  assert (Hk : In k all_kinds) by (destruct k; cbn; auto). specialize (H k Hk). apply kind_class_in in Hd. rewrite Hd in H. discriminate.
Qed.
Lemma joint_not_digit : forall j k, In j joints -> ~ In j (digit_chars k).
Proof. intros j k. apply digits_not. vm_compute. reflexivity. Qed.
Lemma unit_not_digit : forall x k, In x heading_units -> ~ In x (digit_chars k).
Proof. intros x k. apply digits_not. vm_compute. reflexivity. Qed.

(** ** Runs of digits *)
Lemma take_run : forall k s, exists w r, s = w ++ r /\ Forall (fun c => In c (digit_chars k)) w /\ not_followed_by (digit_chars k) r.
Proof.
  intros k. induction s as [|c s (w & r & -> & Hw & Hr)]; [exists [], []; repeat split; constructor|].
  destruct (kind_dec k c) as [H|H].
  - exists (c :: w), r. repeat split; [constructor; assumption|exact Hr].
  - exists [], (c :: w ++ r). repeat split; [constructor|exact H].
Qed.
Lemma scan : forall ks s,
  (exists k w r, In k ks /\ s = w ++ r /\ is_numtext (k, w) /\ not_followed_by (digit_chars k) r) \/
  not_followed_by (flat_map digit_chars ks) s.
Proof.
  intros ks [|c s]; [right; exact I|]. destruct (in_dec N.eq_dec c (flat_map digit_chars ks)) as [H|H]; [left|right; exact H].
  apply in_flat_map in H as (k & Hk & Hc). destruct (take_run k (c :: s)) as (w & r & E & Hw & Hr).
  exists k, w, r. split; [exact Hk|]. split; [exact E|]. split; [|exact Hr]. split; [|exact Hw].
  destruct w as [|d w]; [|discriminate]. cbn in E. subst r. contradiction.
Qed.
(** A shorter beginning of a run is followed by a digit. *)
Lemma run_prefix : forall k w r k' w' r', is_numtext (k, w) -> not_followed_by (digit_chars k) r ->
  is_numtext (k', w') -> w ++ r = w' ++ r' ->
  k' = k /\ (w' = w /\ r' = r \/ exists c t, r' = c :: t /\ In c (digit_chars k)).
Proof.
  intros k w r k' w' r' [Hn Hw] Hr [Hn' Hw'] E. cbn [fst snd] in *.
  assert (Hk : k' = k).
  { destruct w as [|c w]; [contradiction|]. destruct w' as [|c' w']; [contradiction|]. cbn in E. injection E as -> _.
    inversion_clear Hw. inversion_clear Hw'. eapply kinds_disjoint; eassumption. }
  split; [exact Hk|]. subst k'. clear Hn Hn'. revert w' Hw' E. induction Hw as [|c w Hc Hw IH]; intros w' Hw' E; cbn in E.
  - destruct Hw' as [|c' w' Hc' Hw']; [left; auto|]. subst r. cbn in Hr. contradiction.
  - destruct Hw' as [|c' w' Hc' Hw']; cbn in E.
    + right. exists c, (w ++ r). auto.
    + injection E as -> E. destruct (IH w' Hw' E) as [[-> ->]|H]; auto.
Qed.

(** ** Expressions for digits and branches *)
Definition digit_re (ks : list digits_kind) (D : re) : Prop :=
  (forall k w r, In k ks -> is_numtext (k, w) -> not_followed_by (digit_chars k) r -> starts D (w ++ r) [] r) /\
  (forall s c s', In (c, s') (exec D s) -> c = [] /\ exists k w, In k ks /\ s = w ++ s' /\ is_numtext (k, w)).
Lemma chars_run : forall k w r, is_numtext (k, w) -> not_followed_by (digit_chars k) r -> starts (chars (kind_class k)) (w ++ r) [] r.
Proof. intros k w r [Hn Hw] Hr. apply starts_plus_chars; [exact Hn|apply class_forall, Hw|apply class_stops, Hr]. Qed.
Lemma chars_in : forall k s c s', In (c, s') (exec (chars (kind_class k)) s) -> c = [] /\ exists w, s = w ++ s' /\ is_numtext (k, w).
Proof.
  intros k s c s' H. apply plus_chars_in in H as (-> & w & E & Hn & Hw). split; [reflexivity|]. exists w. split; [exact E|].
  split; [exact Hn|apply class_forall, Hw].
Qed.
Lemma chars_none : forall k k' w r, is_numtext (k, w) -> k' <> k -> exec (chars (kind_class k')) (w ++ r) = [].
Proof.
  intros k k' w r [Hn Hw] Hk. apply plus_fails. apply class_stops. cbn [fst snd] in *. destruct w as [|c w]; [contradiction|].
  cbn. intros H. apply Hk. inversion_clear Hw. eapply kinds_disjoint; eassumption.
Qed.
Lemma alt_in : forall a b s x, In x (exec (Alt a b) s) -> In x (exec a s) \/ In x (exec b s).
Proof. intros a b s x H. cbn [exec] in H. apply in_app_or, H. Qed.
Lemma all_digit_re : digit_re all_kinds (Alts [chars arabic; chars zenkaku; chars kanji]).
Proof.
  change (Alts [chars arabic; chars zenkaku; chars kanji]) with
    (Alt (chars (kind_class Ascii10)) (Alt (chars (kind_class Wide10)) (chars (kind_class Kansuji)))).
  split.
  - intros k w r _ Hw Hr. destruct k.
    + apply starts_alt_l, chars_run; assumption.
    + apply starts_alt_r; [eapply chars_none; [exact Hw|discriminate]|]. apply starts_alt_l, chars_run; assumption.
    + apply starts_alt_r; [eapply chars_none; [exact Hw|discriminate]|].
      apply starts_alt_r; [eapply chars_none; [exact Hw|discriminate]|]. apply chars_run; assumption.
  - intros s c s' H. apply alt_in in H as [H|H]; [|apply alt_in in H as [H|H]]; apply chars_in in H as (-> & w & E & Hw);
      (split; [reflexivity|]); eexists; exists w; (split; [|split; [exact E|exact Hw]]); cbn; auto.
Qed.
Lemma decimal_digit_re : digit_re decimal_kinds NumText.digits.
Proof.
  change NumText.digits with (Alt (chars (kind_class Wide10)) (chars (kind_class Ascii10))).
  split.
  - intros k w r Hk Hw Hr. destruct k.
    + apply starts_alt_r; [eapply chars_none; [exact Hw|discriminate]|]. apply chars_run; assumption.
    + apply starts_alt_l, chars_run; assumption.
    + destruct Hk as [Hk|[Hk|[]]]; discriminate.
  - intros s c s' H. apply alt_in in H as [H|H]; apply chars_in in H as (-> & w & E & Hw);
      (split; [reflexivity|]); eexists; exists w; (split; [|split; [exact E|exact Hw]]); cbn; auto.
Qed.

Lemma seq_in : forall a b s c s', In (c, s') (exec (Seq a b) s) ->
  exists c1 s1 c2, In (c1, s1) (exec a s) /\ In (c2, s') (exec b s1) /\ c = c1 ++ c2.
Proof.
  intros a b s c s' H. cbn [exec] in H. apply in_flat_map in H as [[c1 s1] [H1 H]]. cbn [fst snd] in H.
  unfold after in H. apply in_map_iff in H as [[c2 s2] [E H]]. cbn in E. injection E as <- <-. exists c1, s1, c2. auto.
Qed.

Definition branch_re (D : re) : re := Seq (Alt (Lit (u "の")) (Lit (u "ノ"))) D.
Lemma joint_starts : forall j s, In j joints -> starts (Alt (Lit (u "の")) (Lit (u "ノ"))) (j :: s) [] s.
Proof.
  intros j s H. apply joint_cases in H as [-> | ->].
  - apply starts_alt_l. exact (starts_lit (u "の") s).
  - apply starts_alt_r; [|exact (starts_lit (u "ノ") s)]. apply (lit_fails (uc "の") []). vm_compute. reflexivity.
Qed.
Lemma joint_in : forall s c s', In (c, s') (exec (Alt (Lit (u "の")) (Lit (u "ノ"))) s) -> c = [] /\ exists j, In j joints /\ s = j :: s'.
Proof.
  intros s c s' H. apply alt_in in H as [H|H]; apply lit_in in H as [-> E]; (split; [reflexivity|]).
  - exists (uc "の"). split; [vm_compute; auto|exact E].
  - exists (uc "ノ"). split; [vm_compute; auto|exact E].
Qed.
Lemma branch_in : forall ks D s c s', digit_re ks D -> In (c, s') (exec (branch_re D) s) ->
  c = [] /\ exists j k w, In j joints /\ In k ks /\ is_numtext (k, w) /\ s = j :: w ++ s'.
Proof.
  intros ks D s c s' [_ HD] H. apply seq_in in H as (c1 & s1 & c2 & H1 & H2 & ->).
  apply joint_in in H1 as (-> & j & Hj & ->). apply HD in H2 as (-> & k & w & Hk & -> & Hw). split; [reflexivity|].
  exists j, k, w. auto.
Qed.
Lemma nonempty_head : forall k w, is_numtext (k, w) -> exists c t, w = c :: t /\ In c (digit_chars k).
Proof. intros k w [Hn Hw]. cbn [fst snd] in *. destruct Hw as [|c t Hc _]; [contradiction|eauto]. Qed.
Lemma branch_none : forall ks D s, digit_re ks D ->
  (forall j c r, s = j :: c :: r -> In j joints -> ~ In c (flat_map digit_chars ks)) -> exec (branch_re D) s = [].
Proof.
  intros ks D s HD H. destruct (exec (branch_re D) s) as [|[c s'] l] eqn:E; [reflexivity|]. exfalso.
  assert (Hi : In (c, s') (exec (branch_re D) s)) by (rewrite E; left; reflexivity).
  apply (branch_in ks) in Hi as (_ & j & k & w & Hj & Hk & Hw & Es); [|exact HD].
  destruct (nonempty_head k w Hw) as (d & t & -> & Hd). apply (H j d (t ++ s')); [exact Es|exact Hj|].
  apply in_flat_map. exists k. auto.
Qed.
Lemma branches_start : forall ks D l s r, digit_re ks D -> branches_upto ks l s r -> starts (Star (branch_re D)) s [] r.
Proof.
  intros ks D l s r HD H. induction H as [s H|j k w l s r Hj Hk Hw Hs H IH].
  - apply starts_star_stop. eapply branch_none; eassumption.
  - apply (starts_star_step _ _ [] s []); [|cbn; rewrite app_length; lia|exact IH].
    apply (starts_seq _ _ _ [] (w ++ s) []); [apply joint_starts, Hj|]. destruct HD as [HD _]. apply (HD k); assumption.
Qed.
Lemma branches_total : forall ks s, exists l r, branches_upto ks l s r.
Proof.
  intros ks s. remember (length s) as n eqn:E. revert s E.
  induction n as [n IH] using lt_wf_ind. intros s ->.
  assert (N0 : (forall j c r, s = j :: c :: r -> In j joints -> ~ In c (flat_map digit_chars ks)) -> exists l r, branches_upto ks l s r).
  { intros H. exists [], s. constructor. exact H. }
  destruct s as [|j s]; [apply N0; intros; discriminate|].
  destruct (in_dec N.eq_dec j joints) as [Hj|Hj].
  2:{ apply N0. intros j' c r E Hj'. injection E as <- _. contradiction. }
  destruct (scan ks s) as [(k & w & r & Hk & -> & Hw & Hr)|Hs].
  - destruct (IH (length r) ltac:(cbn; rewrite app_length; lia) r eq_refl) as (l & r' & H).
    exists ((j, (k, w)) :: l), r'. constructor; assumption.
  - apply N0. intros j' c r E _. injection E as _ ->. exact Hs.
Qed.
(** Where the repetition may stop: at the end, or before a digit or joint. *)
Definition inner (ks : list digits_kind) (s : ustr) : Prop := exists c t, s = c :: t /\ (In c joints \/ exists k, In k ks /\ In c (digit_chars k)).
Lemma star_alone : forall a s c s', exec a s = [] -> In (c, s') (exec (Star a) s) -> c = [] /\ s' = s.
Proof. intros a s c s' H Hi. rewrite star_unfold, H in Hi. destruct Hi as [E|[]]. injection E as <- <-. auto. Qed.
Lemma digit_no_branch : forall ks D k c t, digit_re ks D -> In c (digit_chars k) -> exec (branch_re D) (c :: t) = [].
Proof.
  intros ks D k c t HD Hc. eapply branch_none; [exact HD|]. intros j d r E Hj. injection E as <- _.
  exfalso. exact (joint_not_digit _ k Hj Hc).
Qed.
Lemma branches_in : forall ks D l s r c s', digit_re ks D -> branches_upto ks l s r ->
  In (c, s') (exec (Star (branch_re D)) s) -> c = [] /\ (s' = r \/ inner ks s').
Proof.
  intros ks D l s r c s' HD H. revert c s'. induction H as [s H|j k w l s r Hj Hk Hw Hs H IH]; intros c s' Hi.
  - apply star_alone in Hi as [-> ->]; [auto|]. eapply branch_none; eassumption.
  - rewrite star_unfold in Hi. apply in_app_or in Hi as [Hi|[Hi|[]]].
    + apply in_flat_map in Hi as [[c1 s1] [H1 Hi]]. cbn [fst snd] in Hi.
      apply (branch_in ks) in H1 as (-> & j' & k' & w' & _ & Hk' & Hw' & E); [|exact HD]. injection E as <- E.
      destruct (Nat.ltb (length s1) (length (j :: w ++ s))); [|contradiction].
      unfold after in Hi. apply in_map_iff in Hi as [[c2 s2] [E2 Hi]]. cbn in E2. injection E2 as <- <-.
      destruct (run_prefix k w s k' w' s1 Hw Hs Hw' E) as [-> [[-> ->]|(d & t & -> & Hd)]].
      * apply IH, Hi.
      * apply star_alone in Hi as [-> ->]; [|eapply digit_no_branch; eassumption].
        split; [reflexivity|]. right. exists d, t. split; [reflexivity|]. right. exists k. auto.
    + injection Hi as <- <-. split; [reflexivity|]. right. exists j, (w ++ s). auto.
Qed.
Definition branch_text (l : list branch) : ustr := concat (map (fun x => fst x :: snd (snd x)) l).
Lemma branches_text : forall ks l s r, branches_upto ks l s r -> s = branch_text l ++ r.
Proof.
  intros ks l s r H. induction H as [s H|j k w l s r Hj Hk Hw Hs H IH]; [reflexivity|]. subst s.
  unfold branch_text. cbn [map concat fst snd app]. rewrite <- app_assoc. reflexivity.
Qed.
Lemma upto_not_inner : forall ks r, ~ inner ks (u "まで" ++ r).
Proof.
  intros ks r (c & t & E & H). change (u "まで") with (uc "ま" :: [uc "で"]) in E. cbn [app] in E. injection E as <- _.
  destruct H as [H|(k & _ & H)].
  - vm_compute in H. destruct H as [H|[H|[]]]; discriminate H.
  - revert H. apply (digits_not [uc "ま"]); [vm_compute; reflexivity|left; reflexivity].
Qed.

(** ** Headings *)
Definition kind_group (a z k : string) (d : digits_kind) : string := match d with Ascii10 => a | Wide10 => z | Kansuji => k end.
Definition head_digits (a z k : string) : re := Alts [Cap a (chars arabic); Cap z (chars zenkaku); Cap k (chars kanji)].
Lemma cap_in_full : forall n a s c s', In (c, s') (exec (Cap n a) s) -> exists c', c = (n, consumed s s') :: c' /\ In (c', s') (exec a s).
Proof.
  intros n a s c s' H. cbn [exec] in H. apply in_map_iff in H as [[c1 s1] [E H]]. cbn in E. injection E as <- <-. eauto.
Qed.
Lemma head_digits_start : forall a z k d w r, is_numtext (d, w) -> not_followed_by (digit_chars d) r ->
  starts (head_digits a z k) (w ++ r) [(kind_group a z k d, w)] r.
Proof.
  intros a z k d w r Hw Hr.
  change (head_digits a z k) with
    (Alt (Cap a (chars (kind_class Ascii10))) (Alt (Cap z (chars (kind_class Wide10))) (Cap k (chars (kind_class Kansuji))))).
  destruct d; cbn [kind_group].
  - apply starts_alt_l, starts_cap, (chars_run Ascii10); assumption.
  - apply starts_alt_r; [apply cap_fails; eapply chars_none; [exact Hw|discriminate]|]. apply starts_alt_l, starts_cap, (chars_run Wide10); assumption.
  - apply starts_alt_r; [apply cap_fails; eapply chars_none; [exact Hw|discriminate]|].
    apply starts_alt_r; [apply cap_fails; eapply chars_none; [exact Hw|discriminate]|]. apply starts_cap, (chars_run Kansuji); assumption.
Qed.
Lemma head_digits_in : forall a z k s c s', In (c, s') (exec (head_digits a z k) s) -> exists d w, is_numtext (d, w) /\ s = w ++ s'.
Proof.
  intros a z k s c s' H.
  change (head_digits a z k) with
    (Alt (Cap a (chars (kind_class Ascii10))) (Alt (Cap z (chars (kind_class Wide10))) (Cap k (chars (kind_class Kansuji))))) in H.
  apply alt_in in H as [H|H]; [|apply alt_in in H as [H|H]]; apply cap_in in H as [c' H]; apply chars_in in H as (_ & w & E & Hw); eauto.
Qed.
Lemma unit_start : forall x s, In x heading_units -> starts heading_suffix (x :: s) [] s.
Proof.
  intros x s H. change heading_units with [uc "編"; uc "章"; uc "節"; uc "款"; uc "目"; uc "条"; uc "項"; uc "号"] in H.
  repeat (destruct H as [<-|H]; [exists []; vm_compute; reflexivity|]). destruct H.
Qed.
Lemma unit_in : forall s c s', In (c, s') (exec heading_suffix s) -> exists x, In x heading_units /\ s = x :: s'.
Proof.
  intros s c s' H. change heading_suffix with
    (Alt (Lit (u "編")) (Alt (Lit (u "章")) (Alt (Lit (u "節")) (Alt (Lit (u "款")) (Alt (Lit (u "目")) (Alt (Lit (u "条")) (Alt (Lit (u "項")) (Lit (u "号"))))))))) in H.
  repeat (apply alt_in in H as [H|H]); apply lit_in in H as [_ ->]; eexists; (split; [|reflexivity]); vm_compute; tauto.
Qed.
Lemma head_branches_eq : heading_branches = Star (branch_re (Alts [chars arabic; chars zenkaku; chars kanji])).
Proof. reflexivity. Qed.
Definition part_re (a z k sf ed : string) : re :=
  Seq (head_digits a z k) (Seq (Cap sf heading_suffix) (Cap ed heading_branches)).

Lemma heading_part_start : forall a z k sf ed n l s r, heading_part n l s r -> exists x s1,
  starts (head_digits a z k) s [(kind_group a z k (fst n), snd n)] (x :: s1) /\
  starts (Cap sf heading_suffix) (x :: s1) [(sf, [x])] s1 /\
  starts (Cap ed heading_branches) s1 [(ed, branch_text l)] r.
Proof.
  intros a z k sf ed [d w] l s r (Hw & x & s' & Hx & -> & Hb). cbn [fst snd] in *. exists x, s'. repeat split.
  - apply head_digits_start; [exact Hw|]. apply unit_not_digit, Hx.
  - apply (starts_cap sf heading_suffix [x] [] s'). apply unit_start, Hx.
  - pose proof (branches_text _ _ _ _ Hb) as E. rewrite E. apply starts_cap. rewrite <- E, head_branches_eq.
    eapply branches_start; [exact all_digit_re|exact Hb].
Qed.
(** The other way: digits and a unit that match make a part. *)
Lemma heading_part_in : forall a z k sf s c1 s1 c2 s2, In (c1, s1) (exec (head_digits a z k) s) ->
  In (c2, s2) (exec (Cap sf heading_suffix) s1) ->
  forall l r, branches_upto all_kinds l s2 r -> exists n, heading_part n l s r.
Proof.
  intros a z k sf s c1 s1 c2 s2 H1 H2 l r Hb. apply head_digits_in in H1 as (d & w & Hw & ->).
  apply cap_in in H2 as [c' H2]. apply unit_in in H2 as (x & Hx & ->). exists (d, w). split; [exact Hw|]. exists x, s2. auto.
Qed.

(** The range. *)
Definition heading_range_re : re :=
  Seq (Lit (u "から")) (Seq (Seq (Lit (u "第")) (part_re "arabic_num_2" "zenkaku_num_2" "kansuji_2" "suffix_2" "eda_str_2")) (Lit (u "まで"))).
Lemma re_article_eq : re_article = Seq (Opt (Lit (u "第"))) (Seq (head_digits "arabic_num" "zenkaku_num" "kansuji")
  (Seq (Cap "suffix" heading_suffix) (Seq (Cap "eda_str" heading_branches) (Opt heading_range_re)))).
Proof. reflexivity. Qed.
Lemma heading_range_start : forall n l t r, heading_part n l t (u "まで" ++ r) -> exists x,
  starts heading_range_re (u "から第" ++ t)
    [(kind_group "arabic_num_2" "zenkaku_num_2" "kansuji_2" (fst n), snd n); ("suffix_2", [x]); ("eda_str_2", branch_text l)] r.
Proof.
  intros n l t r H. apply (heading_part_start "arabic_num_2" "zenkaku_num_2" "kansuji_2" "suffix_2" "eda_str_2") in H as (x & s1 & H1 & H2 & H3).
  exists x. change (u "から第" ++ t) with (u "から" ++ (u "第" ++ t)).
  apply (starts_seq _ _ _ [] (u "第" ++ t)); [apply starts_lit|].
  rewrite <- (app_nil_r [_; _; _]). apply (starts_seq _ _ _ _ (u "まで" ++ r)); [|apply starts_lit].
  apply (starts_seq _ _ _ [] t); [apply starts_lit|].
  apply (starts_seq _ _ _ [_] (x :: s1)); [exact H1|]. apply (starts_seq _ _ _ [_] s1); [exact H2|exact H3].
Qed.
Lemma heading_range_none : forall s, (forall n l t r, s = u "から第" ++ t -> ~ heading_part n l t (u "まで" ++ r)) -> exec heading_range_re s = [].
Proof.
  intros s H. destruct (exec heading_range_re s) as [|[c s'] l] eqn:E; [reflexivity|]. exfalso.
  assert (Hi : In (c, s') (exec heading_range_re s)) by (rewrite E; left; reflexivity). clear E.
  apply seq_in in Hi as (? & s1 & ? & H1 & Hi & _). apply lit_in in H1 as [_ ->].
  apply seq_in in Hi as (? & s2 & ? & Hi & H2 & _). apply lit_in in H2 as [_ ->].
  apply seq_in in Hi as (? & s3 & ? & H3 & Hi & _). apply lit_in in H3 as [_ ->].
  apply seq_in in Hi as (? & s4 & ? & H4 & Hi & _). apply seq_in in Hi as (? & s5 & ? & H5 & H6 & _).
  apply cap_in in H6 as [c6 H6]. destruct (branches_total all_kinds s5) as (l' & r' & Hb).
  rewrite head_branches_eq in H6.
  destruct (branches_in _ _ _ _ _ _ _ all_digit_re Hb H6) as [_ [<-|X]]; [|exact (upto_not_inner _ _ X)].
  destruct (heading_part_in _ _ _ _ _ _ _ _ _ H4 H5 _ _ Hb) as [n Hp].
  exact (H n l' s3 s' eq_refl Hp).
Qed.
Lemma heading_range_dec : forall s, (exists n l t r, s = u "から第" ++ t /\ heading_part n l t (u "まで" ++ r)) \/
  (forall n l t r, s = u "から第" ++ t -> ~ heading_part n l t (u "まで" ++ r)).
Proof.
  intros s. destruct (exec heading_range_re s) as [|[c s'] l] eqn:E.
  - right. intros n l t r -> Hp. destruct (heading_range_start _ _ _ _ Hp) as [x [l' Hs]]. rewrite E in Hs. discriminate.
  - left. assert (Hi : In (c, s') (exec heading_range_re s)) by (rewrite E; left; reflexivity). clear E.
    apply seq_in in Hi as (? & s1 & ? & H1 & Hi & _). apply lit_in in H1 as [_ ->].
    apply seq_in in Hi as (? & s2 & ? & Hi & H2 & _). apply lit_in in H2 as [_ ->].
    apply seq_in in Hi as (? & s3 & ? & H3 & Hi & _). apply lit_in in H3 as [_ ->].
    apply seq_in in Hi as (? & s4 & ? & H4 & Hi & _). apply seq_in in Hi as (? & s5 & ? & H5 & H6 & _).
    apply cap_in in H6 as [c6 H6]. destruct (branches_total all_kinds s5) as (l' & r' & Hb).
    rewrite head_branches_eq in H6.
    destruct (branches_in _ _ _ _ _ _ _ all_digit_re Hb H6) as [_ [<-|X]]; [|destruct (upto_not_inner _ _ X)].
    destruct (heading_part_in _ _ _ _ _ _ _ _ _ H4 H5 _ _ Hb) as [n Hp].
    exists n, l', s3, s'. auto.
Qed.

Definition end_groups (a z k sf ed : string) (x : N) (e : option (numtext * list branch)) : caps :=
  match e with
  | None => []
  | Some (n, l) => [(kind_group a z k (fst n), snd n); (sf, [x]); (ed, branch_text l)]
  end.
Definition heading_groups (h : numbered) (x y : N) : caps :=
  (kind_group "arabic_num" "zenkaku_num" "kansuji" (fst (nb_first h)), snd (nb_first h)) :: ("suffix", [x]) ::
  ("eda_str", branch_text (nb_branches h)) ::
  end_groups "arabic_num_2" "zenkaku_num_2" "kansuji_2" "suffix_2" "eda_str_2" y (nb_end h).
Lemma heading_tail_start : forall s h, number_form heading_part (u "から第") s h -> exists x y r,
  starts (Seq (head_digits "arabic_num" "zenkaku_num" "kansuji")
    (Seq (Cap "suffix" heading_suffix) (Seq (Cap "eda_str" heading_branches) (Opt heading_range_re)))) s (heading_groups h x y) r.
Proof.
  intros s [n l e] (s' & Hp & He). unfold heading_groups. cbn [nb_first nb_branches nb_end] in *.
  apply (heading_part_start "arabic_num" "zenkaku_num" "kansuji" "suffix" "eda_str") in Hp as (x & s1 & H1 & H2 & H3).
  assert (X : exists y r, starts (Opt heading_range_re) s' (end_groups "arabic_num_2" "zenkaku_num_2" "kansuji_2" "suffix_2" "eda_str_2" y e) r).
  { destruct e as [[m k]|].
    - destruct He as (t & r & -> & Hp). destruct (heading_range_start _ _ _ _ Hp) as [y Hy]. exists y, r. apply starts_alt_l, Hy.
    - exists 0%N, s'. apply starts_opt_skip, heading_range_none, He. }
  destruct X as (y & r & Hy). exists x, y, r.
  apply (starts_seq _ _ _ [_] (x :: s1)); [exact H1|]. apply (starts_seq _ _ _ [_] s1); [exact H2|].
  apply (starts_seq _ _ _ [_] s'); [exact H3|exact Hy].
Qed.
Lemma part_not_prefix : forall s n l r, ~ heading_part n l (u "第" ++ s) r.
Proof.
  intros s [k w] l r (Hw & x & s' & _ & E & _). cbn [snd] in E. destruct (nonempty_head k w Hw) as (c & t & -> & Hc).
  change (u "第") with [uc "第"] in E. cbn [app] in E. injection E as <- _.
  revert Hc. apply (digits_not [uc "第"]); [vm_compute; reflexivity|left; reflexivity].
Qed.
Lemma heading_form_captures : forall s h, heading_form s h -> exists x y, captures re_article s = Some (heading_groups h x y).
Proof.
  intros s h [H|(s' & -> & H)]; destruct (heading_tail_start _ _ H) as (x & y & r & Hs); exists x, y; rewrite re_article_eq;
    apply starts_captures with (s' := r).
  - apply (starts_seq _ _ _ [] s); [|exact Hs]. apply starts_opt_skip. apply lit_absent. intros t ->.
    destruct H as (s' & Hp & _). exact (part_not_prefix _ _ _ _ Hp).
  - apply (starts_seq _ _ _ [] s'); [|exact Hs]. apply starts_alt_l, starts_lit.
Qed.
Lemma no_heading_form : forall s, ~ (exists h, heading_form s h) -> captures re_article s = None.
Proof.
  intros s H. unfold captures. destruct (exec re_article s) as [|[c s'] l] eqn:E; [reflexivity|]. exfalso. apply H.
  assert (Hi : In (c, s') (exec re_article s)) by (rewrite E; left; reflexivity). clear E.
  rewrite re_article_eq in Hi. apply seq_in in Hi as (? & s1 & ? & H1 & Hi & _).
  apply seq_in in Hi as (? & s2 & ? & H2 & Hi & _). apply seq_in in Hi as (? & s3 & ? & H3 & Hi & _).
  destruct (branches_total all_kinds s3) as (l' & r' & Hb).
  destruct (heading_part_in _ _ _ _ _ _ _ _ _ H2 H3 _ _ Hb) as [n Hp].
  assert (X : exists h, number_form heading_part (u "から第") s1 h).
  { destruct (heading_range_dec r') as [(m & k & t & r & -> & Hm)|Hn].
    - exists (mkNumbered n l' (Some (m, k))). exists (u "から第" ++ t). split; [exact Hp|]. exists t, r. auto.
    - exists (mkNumbered n l' None). exists r'. split; [exact Hp|exact Hn]. }
  destruct X as [h Hh]. exists h. apply opt_in in H1 as [H1|[_ ->]].
  - apply lit_in in H1 as [_ ->]. right. eauto.
  - left. exact Hh.
Qed.

(** ** Labels *)
Definition label_range : re :=
  Seq (Lit (u "から")) (Seq (Cap "num_2" NumText.digits) (Seq (Cap "eda_str_2" paragraph_branches) (Lit (u "まで")))).
Lemma re_paragraph_eq : re_paragraph = Seq (Cap "num" NumText.digits) (Seq (Cap "eda_str" paragraph_branches) (Opt label_range)).
Proof. reflexivity. Qed.
Lemma par_branches_eq : paragraph_branches = Star (branch_re NumText.digits).
Proof. reflexivity. Qed.
Lemma label_part_start : forall nm ed n l s r, label_part n l s r -> exists s1,
  starts (Cap nm NumText.digits) s [(nm, snd n)] s1 /\ starts (Cap ed paragraph_branches) s1 [(ed, branch_text l)] r.
Proof.
  intros nm ed [k w] l s r (Hw & Hk & s' & -> & Hs & Hb). cbn [fst snd] in *. exists s'. split.
  - apply starts_cap. destruct decimal_digit_re as [HD _]. apply (HD k); assumption.
  - pose proof (branches_text _ _ _ _ Hb) as E. rewrite E. apply starts_cap. rewrite <- E, par_branches_eq.
    eapply branches_start; [exact decimal_digit_re|exact Hb].
Qed.
Lemma label_part_total : forall s c s', In (c, s') (exec NumText.digits s) -> exists n l r, label_part n l s r.
Proof.
  intros s c s' H. destruct decimal_digit_re as [_ HD]. apply HD in H as (_ & k & w & Hk & -> & Hw).
  destruct (nonempty_head k w Hw) as (d & t & -> & Hd).
  destruct (take_run k ((d :: t) ++ s')) as (w' & r' & E & Hw' & Hr').
  destruct (branches_total decimal_kinds r') as (l & r & Hb). exists (k, w'), l, r.
  split; [split; [|exact Hw']|].
  - cbn [snd]. intros ->. cbn in E. rewrite <- E in Hr'. cbn in Hr'. contradiction.
  - split; [exact Hk|]. exists r'. auto.
Qed.
Lemma label_range_start : forall n l t r, label_part n l t (u "まで" ++ r) ->
  starts label_range (u "から" ++ t) [("num_2", snd n); ("eda_str_2", branch_text l)] r.
Proof.
  intros n l t r H. apply (label_part_start "num_2" "eda_str_2") in H as (s1 & H1 & H2).
  apply (starts_seq _ _ _ [] t); [apply starts_lit|]. apply (starts_seq _ _ _ [_] s1); [exact H1|].
  rewrite <- (app_nil_r [_]). apply (starts_seq _ _ _ [_] (u "まで" ++ r)); [exact H2|apply starts_lit].
Qed.
Lemma label_range_in : forall s c s', In (c, s') (exec label_range s) ->
  exists n l t, s = u "から" ++ t /\ label_part n l t (u "まで" ++ s').
Proof.
  intros s c s' Hi. apply seq_in in Hi as (? & s1 & ? & H1 & Hi & _). apply lit_in in H1 as [_ ->].
  apply seq_in in Hi as (? & s2 & ? & H2 & Hi & _). apply seq_in in Hi as (? & s3 & ? & H3 & H4 & _).
  apply lit_in in H4 as [_ ->]. apply cap_in in H2 as [? H2]. apply cap_in in H3 as [? H3].
  pose proof H2 as H2'. apply label_part_total in H2' as ([k w] & l & r & Hp). exists (k, w), l, s1. split; [reflexivity|].
  destruct Hp as (Hw & Hk & s4 & -> & Hs & Hb). cbn [fst snd] in *.
  destruct decimal_digit_re as [_ HD]. apply HD in H2 as (_ & k' & w' & _ & E & Hw').
  rewrite par_branches_eq in H3.
  destruct (run_prefix k w s4 k' w' s2 Hw Hs Hw' E) as [-> [[-> ->]|(d & t & -> & Hd)]].
  - destruct (branches_in _ _ _ _ _ _ _ decimal_digit_re Hb H3) as [_ [<-|X]]; [|destruct (upto_not_inner _ _ X)].
    split; [exact Hw|]. split; [exact Hk|]. exists s4. auto.
  - apply star_alone in H3 as [_ H3]; [|eapply digit_no_branch; [exact decimal_digit_re|exact Hd]].
    exfalso. apply (upto_not_inner decimal_kinds s'). exists d, t. split; [exact H3|]. right. exists k. auto.
Qed.
Definition label_groups (h : numbered) : caps :=
  ("num", snd (nb_first h)) :: ("eda_str", branch_text (nb_branches h)) ::
  match nb_end h with None => [] | Some (n, l) => [("num_2", snd n); ("eda_str_2", branch_text l)] end.
Lemma label_form_captures : forall s h, label_form s h -> captures re_paragraph s = Some (label_groups h).
Proof.
  intros s [n l e] (s' & Hp & He). unfold label_groups. cbn [nb_first nb_branches nb_end] in *.
  apply (label_part_start "num" "eda_str") in Hp as (s1 & H1 & H2). rewrite re_paragraph_eq.
  assert (X : exists r, starts (Opt label_range) s' match e with None => [] | Some (n, l) => [("num_2", snd n); ("eda_str_2", branch_text l)] end r).
  { destruct e as [[m k]|].
    - destruct He as (t & r & -> & Hp). exists r. apply starts_alt_l, label_range_start, Hp.
    - exists s'. apply starts_opt_skip. destruct (exec label_range s') as [|[c s2] q] eqn:E; [reflexivity|].
      assert (Hi : In (c, s2) (exec label_range s')) by (rewrite E; left; reflexivity).
      apply label_range_in in Hi as (m & k & t & -> & Hm). destruct (He m k t s2 eq_refl Hm). }
  destruct X as (r & Hr). apply starts_captures with (s' := r).
  apply (starts_seq _ _ _ [_] s1); [exact H1|]. apply (starts_seq _ _ _ [_] s'); [exact H2|exact Hr].
Qed.
Lemma no_label_form : forall s, ~ (exists h, label_form s h) -> captures re_paragraph s = None.
Proof.
  intros s H. unfold captures. destruct (exec re_paragraph s) as [|[c s'] l] eqn:E; [reflexivity|]. exfalso. apply H.
  assert (Hi : In (c, s') (exec re_paragraph s)) by (rewrite E; left; reflexivity). clear E.
  rewrite re_paragraph_eq in Hi. apply seq_in in Hi as (? & s1 & ? & H1 & Hi & _). apply cap_in in H1 as [? H1].
  apply label_part_total in H1 as (n & l' & r & Hp).
  destruct (exec label_range r) as [|[c1 s2] q] eqn:E.
  - exists (mkNumbered n l' None). exists r. split; [exact Hp|]. cbn [nb_end]. intros m k t r' -> Hm.
    destruct (label_range_start _ _ _ _ Hm) as [l0 Hs]. rewrite E in Hs. discriminate.
  - assert (Hj : In (c1, s2) (exec label_range r)) by (rewrite E; left; reflexivity).
    apply label_range_in in Hj as (m & k & t & -> & Hm).
    exists (mkNumbered n l' (Some (m, k))). exists (u "から" ++ t). split; [exact Hp|]. exists t, s2. auto.
Qed.

(** ** Values *)
Lemma uparse_ascii : forall w, is_numtext (Ascii10, w) -> uparse w = decimal_value (uc "0") w.
Proof.
  intros w [Hn Hw]. cbn [fst snd] in *. change (uc "0") with 48%N.
  assert (Hd : Forall (fun d => d < 10)%N (map (fun c => c - 48)%N w)).
  { apply Forall_forall. intros d Hd. apply in_map_iff in Hd as (c & <- & Hc). rewrite Forall_forall in Hw. specialize (Hw c Hc).
    apply kind_class_in in Hw. apply in_range_true in Hw. change (uc "0") with 48%N in Hw. change (uc "9") with 57%N in Hw. lia. }
  assert (E : w = map (fun d => 48 + d)%N (map (fun c => c - 48)%N w)).
  { rewrite map_map. rewrite <- (map_id w) at 1. apply map_ext_in. intros c Hc. rewrite Forall_forall in Hw. specialize (Hw c Hc).
    apply kind_class_in in Hw. apply in_range_true in Hw. change (uc "0") with 48%N in Hw. lia. }
  rewrite E at 1. rewrite uparse_digits by exact Hd. unfold decimal_value. rewrite string_of_digits_text.
  assert (Hm : map (fun c => c - 48)%N w <> []) by (intros X; apply map_eq_nil in X; contradiction).
  revert Hd Hm. generalize (map (fun c => (c - 48)%N) w). clear. intros ds Hd Hm.
  destruct (parse_usize (dec_text ds)) as [n|] eqn:E.
  - apply parse_usize_spec in E as (es & _ & He & Hv & Hb & [Ht|Ht]).
    + assert (X : Some ds = Some es).
      { rewrite <- (digits_of_string_of_digits _ Hd), <- (digits_of_string_of_digits _ He). congruence. }
      injection X as <-. unfold fits. rewrite Hv. apply N.ltb_lt in Hb. rewrite Hb. reflexivity.
    + exfalso. exact (dec_text_not_plus ds (dec_text es) Hd Ht).
  - unfold fits. destruct (N.ltb (dec_value ds) (2 ^ 64)) eqn:Eb; [|reflexivity]. apply N.ltb_lt in Eb.
    assert (X : parse_usize (dec_text ds) = Some (dec_value ds)).
    { apply parse_usize_spec. exists ds. repeat split; auto. }
    congruence.
Qed.
Lemma zenkaku_wide : forall w, is_numtext (Wide10, w) -> parse_zenkaku_num w = decimal_value (uc "０") w.
Proof.
  intros w [Hn Hw]. cbn [fst snd] in *. rewrite parse_zenkaku_map. change (uc "０") with 65296%N.
  assert (R : forall c, In c w -> (65296 <= c <= 65305)%N).
  { intros c Hc. rewrite Forall_forall in Hw. specialize (Hw c Hc). apply kind_class_in in Hw. apply in_range_true in Hw. exact Hw. }
  rewrite uparse_ascii.
  - unfold decimal_value. do 2 f_equal. rewrite map_map. apply map_ext_in. intros c Hc. specialize (R c Hc).
    unfold unz. replace (in_range 65296 65305 c) with true by (symmetry; apply in_range_true; lia). change (uc "0") with 48%N. lia.
  - split; cbn [fst snd]; [intros X; apply map_eq_nil in X; contradiction|]. apply Forall_forall. intros d Hd.
    apply in_map_iff in Hd as (c & <- & Hc). specialize (R c Hc). apply (kind_class_in Ascii10). apply in_range_true.
    change (uc "0") with 48%N. change (uc "9") with 57%N. unfold unz.
    replace (in_range 65296 65305 c) with true by (symmetry; apply in_range_true; lia). lia.
Qed.
Lemma zenkaku_ascii : forall w, is_numtext (Ascii10, w) -> parse_zenkaku_num w = uparse w.
Proof.
  intros w [_ Hw]. cbn [fst snd] in *. rewrite parse_zenkaku_map. f_equal. rewrite <- (map_id w) at 2. apply map_ext_in.
  intros c Hc. rewrite Forall_forall in Hw. specialize (Hw c Hc). apply kind_class_in in Hw. apply in_range_true in Hw.
  change (uc "0") with 48%N in Hw. change (uc "9") with 57%N in Hw. unfold unz.
  replace (in_range 65296 65305 c) with false by (symmetry; apply in_range_false; lia). reflexivity.
Qed.
Lemma high_none : forall c w, In c w -> (128 <= c)%N -> unz c = c -> uparse w = None /\ parse_zenkaku_num w = None.
Proof.
  intros c w Hc Hh Hz. split; [eapply uparse_high; eassumption|]. rewrite parse_zenkaku_map. apply (uparse_high c); [exact Hh|].
  apply in_map_iff. eauto.
Qed.
Lemma kansuji_none : forall w, is_numtext (Kansuji, w) -> uparse w = None /\ parse_zenkaku_num w = None.
Proof.
  intros w Hw. destruct (nonempty_head _ _ Hw) as (c & t & -> & Hc). apply (kind_class_in Kansuji) in Hc.
  destruct (kanji_high c Hc) as [H1 H2]. apply (high_none c); [left; reflexivity|exact H1|exact H2].
Qed.
Lemma wide_none : forall w, is_numtext (Wide10, w) -> uparse w = None.
Proof.
  intros w Hw. destruct (nonempty_head _ _ Hw) as (c & t & -> & Hc). apply (kind_class_in Wide10) in Hc. apply in_range_true in Hc.
  change (uc "０") with 65296%N in Hc. apply (uparse_high c); [lia|left; reflexivity].
Qed.
Lemma joined_none : forall w, In (uc "ノ") w -> uparse w = None /\ parse_zenkaku_num w = None.
Proof. intros w H. apply (high_none _ w H); [vm_compute; discriminate|reflexivity]. Qed.

Lemma branch_number_value : forall cd t, is_numtext t -> branch_number cd (snd t) = branch_value cd t.
Proof.
  intros cd [k w] H. unfold branch_number, branch_value, decimal. cbn [fst snd] in *. destruct k.
  - rewrite (zenkaku_ascii w H), (uparse_ascii w H). destruct (decimal_value (uc "0") w); reflexivity.
  - rewrite (wide_none w H), (zenkaku_wide w H). reflexivity.
  - destruct (kansuji_none w H) as [-> ->]. reflexivity.
Qed.
Lemma branch_number_joined : forall cd w, In (uc "ノ") w -> branch_number cd w = kansuji cd w.
Proof. intros cd w H. unfold branch_number. destruct (joined_none w H) as [-> ->]. reflexivity. Qed.
Lemma label_number_value : forall t, is_numtext t -> In (fst t) decimal_kinds -> label_number (snd t) = unwrap (decimal t).
Proof.
  intros [k w] H Hk. unfold label_number, decimal. cbn [fst snd] in *. destruct k.
  - rewrite (zenkaku_ascii w H), (uparse_ascii w H). destruct (decimal_value (uc "0") w); reflexivity.
  - rewrite (wide_none w H), (zenkaku_wide w H). reflexivity.
  - destruct Hk as [Hk|[Hk|[]]]; discriminate.
Qed.
Lemma label_number_joined : forall w, In (uc "ノ") w -> label_number w = Panic.
Proof. intros w H. unfold label_number. destruct (joined_none w H) as [-> ->]. reflexivity. Qed.

(** ** Pieces *)
Definition good_branches (ks : list digits_kind) (l : list branch) : Prop :=
  Forall (fun x => In (fst x) joints /\ In (fst (snd x)) ks /\ is_numtext (snd x)) l.
Lemma branches_good : forall ks l s r, branches_upto ks l s r -> good_branches ks l.
Proof. intros ks l s r H. induction H as [s H|j k w l s r Hj Hk Hw Hs H IH]; constructor; auto. Qed.
Definition piece_text (p : piece) : ustr := match p with Plain t => snd t | Joined w => w end.
Definition good_piece (ks : list digits_kind) (p : piece) : Prop :=
  match p with Plain t => In (fst t) ks /\ is_numtext t | Joined w => In (uc "ノ") w end.
Lemma numtext_no : forall k w, is_numtext (k, w) -> ~ In (uc "の") w.
Proof.
  intros k w [_ H] Hi. cbn [fst snd] in *. rewrite Forall_forall in H. apply (joint_not_digit (uc "の") k); [vm_compute; auto|].
  apply H, Hi.
Qed.
Lemma usplit_cons : forall c d s, usplit c s = d -> d <> [].
Proof. intros c d s <-. destruct s as [|x s]; cbn; [discriminate|]. destruct (N.eqb x c); [discriminate|]. destruct (usplit c s); discriminate. Qed.
Lemma glue_split : forall ks l, good_branches ks l ->
  usplit (uc "の") (branch_text l) = fst (glue l) :: map piece_text (snd (glue l)) /\
  Forall (good_piece ks) (snd (glue l)) /\ (fst (glue l) = [] \/ In (uc "ノ") (fst (glue l))).
Proof.
  intros ks l H. induction H as [|[j [k w]] l (Hj & Hk & Hw) H (E & F & G)]; [repeat split; [constructor|left; reflexivity]|].
  cbn [glue fst snd] in *. change (branch_text ((j, (k, w)) :: l)) with (j :: w ++ branch_text l).
  destruct (glue l) as [lead ps]. cbn [fst snd] in *.
  pose proof (numtext_no k w Hw) as Hno.
  apply joint_cases in Hj as [-> | ->].
  - replace (N.eqb (uc "の") (uc "ノ")) with false by reflexivity. cbn [usplit fst snd]. rewrite N.eqb_refl.
    rewrite usplit_app by exact Hno. rewrite E. split; [|split; [|left; reflexivity]].
    + cbn [map]. do 2 f_equal. destruct lead; cbn [piece_text snd]; [apply app_nil_r|reflexivity].
    + constructor; [|exact F]. destruct lead as [|c lead]; [split; [exact Hk|exact Hw]|].
      cbn [good_piece]. destruct G as [G|G]; [discriminate|]. apply in_or_app. right. exact G.
  - replace (N.eqb (uc "ノ") (uc "ノ")) with true by reflexivity. cbn [fst snd].
    change (uc "ノ" :: w ++ branch_text l) with ((uc "ノ" :: w) ++ branch_text l).
    rewrite usplit_app.
    + rewrite E. split; [reflexivity|]. split; [exact F|]. right. left. reflexivity.
    + intros [X|X]; [vm_compute in X; discriminate X|exact (Hno X)].
Qed.
Lemma good_nonempty : forall ks p, good_piece ks p -> piece_text p <> [].
Proof. intros ks [[k w]|w] H; cbn in *; [destruct H as [_ [H _]]; exact H|intros ->; destruct H]. Qed.
Lemma filter_all : forall A (f : A -> bool) l, Forall (fun x => f x = true) l -> filter f l = l.
Proof. intros A f l H. induction H as [|x l Hx H IH]; cbn; [reflexivity|]. rewrite Hx, IH. reflexivity. Qed.
Lemma branches_pieces : forall ks l, good_branches ks l ->
  branches (branch_text l) = map piece_text (pieces l) /\ Forall (good_piece ks) (pieces l).
Proof.
  intros ks l H. destruct (glue_split ks l H) as (E & F & G). unfold branches, pieces. rewrite E. destruct (glue l) as [lead ps].
  cbn [fst snd] in *. cbn [filter].
  assert (X : filter non_empty (map piece_text ps) = map piece_text ps).
  { apply filter_all. apply Forall_forall. intros s Hs. apply in_map_iff in Hs as (p & <- & Hp). rewrite Forall_forall in F.
    pose proof (good_nonempty ks p (F p Hp)) as Hn. destruct (piece_text p); [contradiction|reflexivity]. }
  rewrite X. destruct lead as [|c lead]; cbn [non_empty]; [split; [reflexivity|exact F]|].
  split; [reflexivity|]. constructor; [|exact F]. destruct G as [G|G]; [discriminate|exact G].
Qed.
Lemma replaced_branches : forall ks l, good_branches ks l ->
  branches (replace (uc "ノ") (uc "の") (branch_text l)) = map (fun x : branch => snd (snd x)) l.
Proof.
  intros ks l H.
  assert (E : usplit (uc "の") (replace (uc "ノ") (uc "の") (branch_text l)) = [] :: map (fun x : branch => snd (snd x)) l).
  { induction H as [|[j [k w]] l (Hj & Hk & Hw) H IH]; [reflexivity|]. cbn [fst snd] in *.
    change (branch_text ((j, (k, w)) :: l)) with (j :: w ++ branch_text l). unfold replace in *. cbn [map].
    replace (if N.eqb j (uc "ノ") then uc "の" else j) with (uc "の").
    2:{ apply joint_cases in Hj as [-> | ->]; reflexivity. }
    cbn [usplit]. rewrite N.eqb_refl, map_app. fold (replace (uc "ノ") (uc "の") w). rewrite replace_absent.
    - rewrite usplit_app by (eapply numtext_no; exact Hw). rewrite IH, app_nil_r. reflexivity.
    - intros Hi. destruct Hw as [_ Hw]. cbn [fst snd] in Hw. rewrite Forall_forall in Hw.
      apply (joint_not_digit (uc "ノ") k); [vm_compute; auto|]. apply Hw, Hi. }
  unfold branches. rewrite E. cbn [filter non_empty]. apply filter_all. apply Forall_forall. intros s Hs.
  apply in_map_iff in Hs as ([j [k w]] & <- & Hi). unfold good_branches in H. rewrite Forall_forall in H. specialize (H _ Hi) as (_ & _ & [Hn _]).
  cbn [fst snd] in *. destruct w; [contradiction|reflexivity].
Qed.
Lemma all_some_sequence : forall A B (f : B -> option N) (g : A -> option N) (h : A -> B) l,
  (forall x, In x l -> f (h x) = g x) -> all_some f (map h l) = sequence (map g l).
Proof.
  intros A B f g h l. induction l as [|x l IH]; intros H; [reflexivity|]. cbn [map all_some sequence].
  rewrite (H x) by (left; reflexivity). rewrite IH by (intros; apply H; right; assumption).
  destruct (g x); [|reflexivity]. destruct (sequence (map g l)); reflexivity.
Qed.
Lemma all_ok_sequence : forall A B (f : B -> R N) (g : A -> option N) (h : A -> B) l,
  (forall x, In x l -> f (h x) = unwrap (g x)) -> all_ok f (map h l) = unwrap (sequence (map g l)).
Proof.
  intros A B f g h l. induction l as [|x l IH]; intros H; [reflexivity|]. cbn [map all_ok sequence].
  rewrite (H x) by (left; reflexivity). destruct (g x) as [n|]; [|reflexivity]. cbn [unwrap bind].
  rewrite IH by (intros; apply H; right; assumption). destruct (sequence (map g l)); reflexivity.
Qed.

Lemma heading_number_value : forall cd a z k t c, is_numtext t ->
  group a c = (match fst t with Ascii10 => Some (snd t) | _ => None end) ->
  group z c = (match fst t with Wide10 => Some (snd t) | _ => None end) ->
  group k c = (match fst t with Kansuji => Some (snd t) | _ => None end) ->
  heading_number cd c a z k = first_value cd t.
Proof.
  intros cd a z k [d w] c H Ha Hz Hk. unfold heading_number, first_value, decimal. cbn [fst snd] in *. rewrite Ha, Hz, Hk. destruct d.
  - rewrite (uparse_ascii w H). destruct (decimal_value (uc "0") w); reflexivity.
  - rewrite (zenkaku_wide w H). destruct (decimal_value (uc "０") w); reflexivity.
  - reflexivity.
Qed.
(** What a form says about its parts. *)
Definition good_numbered (ks : list digits_kind) (h : numbered) : Prop :=
  is_numtext (nb_first h) /\ In (fst (nb_first h)) ks /\ good_branches ks (nb_branches h) /\
  forall n l, nb_end h = Some (n, l) -> is_numtext n /\ In (fst n) ks /\ good_branches ks l.
Lemma heading_value_read : forall cd h x y, good_numbered all_kinds h -> read_heading cd (heading_groups h x y) = heading_value cd h.
Proof.
  intros cd [t l e] x y (Ht & _ & Hl & He). unfold read_heading, heading_value, heading_groups. cbn [nb_first nb_branches nb_end] in *.
  rewrite (heading_number_value cd _ _ _ t); [|exact Ht|destruct (fst t); destruct e as [[[[] ?] ?]|]; reflexivity ..].
  destruct (first_value cd t) as [[b|]|er|]; [|reflexivity|reflexivity|reflexivity]. cbn [bind].
  assert (E : forall A (f : ustr -> R A), (e0 <- group_text "eda_str"
    ((kind_group "arabic_num" "zenkaku_num" "kansuji" (fst t), snd t) :: ("suffix", [x]) :: ("eda_str", branch_text l) ::
      end_groups "arabic_num_2" "zenkaku_num_2" "kansuji_2" "suffix_2" "eda_str_2" y e); f e0) = f (branch_text l)).
  { intros A f. unfold group_text. destruct (fst t); reflexivity. }
  rewrite E. clear E. rewrite (replaced_branches all_kinds l Hl).
  rewrite (all_some_sequence _ _ (branch_number cd) (fun x : branch => branch_value cd (snd x)) (fun x : branch => snd (snd x)) l).
  2:{ intros [j s] Hi. apply branch_number_value. unfold good_branches in Hl. rewrite Forall_forall in Hl. apply (Hl _ Hi). }
  destruct (sequence (map (fun x0 : branch => branch_value cd (snd x0)) l)) as [es|]; [|reflexivity].
  destruct e as [[n l2]|].
  - destruct (He n l2 eq_refl) as (Hn & _ & Hl2).
    rewrite (heading_number_value cd _ _ _ n); [|exact Hn|destruct n as [kn wn]; destruct (fst t); destruct kn; reflexivity ..].
    destruct (branches_pieces all_kinds l2 Hl2) as [Eb Hp].
    assert (Eg : group "eda_str_2" ((kind_group "arabic_num" "zenkaku_num" "kansuji" (fst t), snd t) :: ("suffix", [x]) :: ("eda_str", branch_text l) ::
      end_groups "arabic_num_2" "zenkaku_num_2" "kansuji_2" "suffix_2" "eda_str_2" y (Some (n, l2))) = Some (branch_text l2)).
    { destruct n as [kn wn]; destruct (fst t), kn; reflexivity. }
    rewrite Eg, Eb.
    rewrite (all_some_sequence _ _ (branch_number cd) (heading_piece cd) piece_text (pieces l2)).
    2:{ intros p Hi. rewrite Forall_forall in Hp. specialize (Hp p Hi). destruct p as [s|w]; cbn [piece_text heading_piece good_piece] in *.
        - apply branch_number_value, Hp.
        - apply branch_number_joined, Hp. }
    assert (Ec : match group "arabic_num_2" ((kind_group "arabic_num" "zenkaku_num" "kansuji" (fst t), snd t) :: ("suffix", [x]) :: ("eda_str", branch_text l) ::
      end_groups "arabic_num_2" "zenkaku_num_2" "kansuji_2" "suffix_2" "eda_str_2" y (Some (n, l2))),
      group "zenkaku_num_2" ((kind_group "arabic_num" "zenkaku_num" "kansuji" (fst t), snd t) :: ("suffix", [x]) :: ("eda_str", branch_text l) ::
      end_groups "arabic_num_2" "zenkaku_num_2" "kansuji_2" "suffix_2" "eda_str_2" y (Some (n, l2))),
      group "kansuji_2" ((kind_group "arabic_num" "zenkaku_num" "kansuji" (fst t), snd t) :: ("suffix", [x]) :: ("eda_str", branch_text l) ::
      end_groups "arabic_num_2" "zenkaku_num_2" "kansuji_2" "suffix_2" "eda_str_2" y (Some (n, l2))) with None, None, None => False | _, _, _ => True end).
    { destruct n as [kn wn]; destruct (fst t), kn; exact I. }
    destruct (group "arabic_num_2" _); [|destruct (group "zenkaku_num_2" _); [|destruct (group "kansuji_2" _); [|contradiction Ec]]]; clear Ec;
      (destruct (first_value cd n) as [[m|]|er|]; [|reflexivity|reflexivity|reflexivity]); cbn [bind option_map];
      destruct (sequence (map (heading_piece cd) (pieces l2))); reflexivity.
  - destruct (fst t); reflexivity.
Qed.
Lemma label_value_read : forall h, good_numbered decimal_kinds h -> read_label (label_groups h) = label_value h.
Proof.
  intros [t l e] (Ht & Htk & Hl & He). unfold read_label, label_value, label_groups. cbn [nb_first nb_branches nb_end] in *.
  change (group_text "num" (("num", snd t) :: ("eda_str", branch_text l) :: match e with None => [] | Some (n, l) => [("num_2", snd n); ("eda_str_2", branch_text l)] end)) with (Ok (snd t)).
  change (group_text "eda_str" (("num", snd t) :: ("eda_str", branch_text l) :: match e with None => [] | Some (n, l) => [("num_2", snd n); ("eda_str_2", branch_text l)] end)) with (Ok (branch_text l)).
  cbn [bind]. rewrite (label_number_value t Ht Htk). destruct (decimal t) as [b|]; [|reflexivity]. cbn [unwrap bind].
  destruct (branches_pieces decimal_kinds l Hl) as [-> Hp].
  rewrite (all_ok_sequence _ _ label_number label_piece piece_text (pieces l)).
  2:{ intros p Hi. rewrite Forall_forall in Hp. specialize (Hp p Hi). destruct p as [s|w]; cbn [piece_text label_piece good_piece] in *.
      - apply label_number_value; apply Hp.
      - apply label_number_joined, Hp. }
  destruct (sequence (map label_piece (pieces l))) as [es|]; [|reflexivity]. cbn [unwrap bind].
  destruct e as [[[k w] l2]|]; [|reflexivity]. destruct (He _ l2 eq_refl) as (Hn & Hk & _). cbn [fst snd] in *.
  change (group "num_2" [("num", snd t); ("eda_str", branch_text l); ("num_2", w); ("eda_str_2", branch_text l2)]) with (Some w).
  unfold decimal. cbn [fst snd]. destruct k.
  - rewrite (zenkaku_ascii w Hn), (uparse_ascii w Hn). destruct (decimal_value (uc "0") w); reflexivity.
  - rewrite (wide_none w Hn), (zenkaku_wide w Hn). destruct (decimal_value (uc "０") w); reflexivity.
  - destruct Hk as [Hk|[Hk|[]]]; discriminate.
Qed.

Lemma kind_all : forall k, In k all_kinds.
Proof. intros []; cbn; auto. Qed.
Lemma heading_form_good : forall s h, heading_form s h -> good_numbered all_kinds h.
Proof.
  assert (P : forall n l s r, heading_part n l s r -> is_numtext n /\ In (fst n) all_kinds /\ good_branches all_kinds l).
  { intros n l s r (Hn & x & s' & _ & _ & Hb). split; [exact Hn|]. split; [apply kind_all|eapply branches_good, Hb]. }
  assert (X : forall s h, number_form heading_part (u "から第") s h -> good_numbered all_kinds h).
  { intros s [n l e] (s' & Hp & He). cbn [nb_first nb_branches nb_end] in *. apply P in Hp as (H1 & H2 & H3).
    split; [exact H1|]. split; [exact H2|]. split; [exact H3|]. cbn [nb_end]. intros m k ->. destruct He as (t & r & _ & Hm). eapply P, Hm. }
  intros s h [H|(s' & _ & H)]; eapply X, H.
Qed.
Lemma label_form_good : forall s h, label_form s h -> good_numbered decimal_kinds h.
Proof.
  assert (P : forall n l s r, label_part n l s r -> is_numtext n /\ In (fst n) decimal_kinds /\ good_branches decimal_kinds l).
  { intros n l s r (Hn & Hk & s' & _ & _ & Hb). split; [exact Hn|]. split; [exact Hk|eapply branches_good, Hb]. }
  intros s [n l e] (s' & Hp & He). cbn [nb_first nb_branches nb_end] in *. apply P in Hp as (H1 & H2 & H3).
  split; [exact H1|]. split; [exact H2|]. split; [exact H3|]. cbn [nb_end]. intros m k ->. destruct He as (t & r & _ & Hm). eapply P, Hm.
Qed.
Lemma heading_form_dec : forall s, (exists h, heading_form s h) \/ ~ (exists h, heading_form s h).
Proof.
  intros s. destruct (captures re_article s) as [c|] eqn:E.
  - left. unfold captures in E. destruct (exec re_article s) as [|[c' s'] l] eqn:Ex; [discriminate|].
    assert (Hi : In (c', s') (exec re_article s)) by (rewrite Ex; left; reflexivity). clear E Ex.
    rewrite re_article_eq in Hi. apply seq_in in Hi as (? & s1 & ? & H1 & Hi & _).
    apply seq_in in Hi as (? & s2 & ? & H2 & Hi & _). apply seq_in in Hi as (? & s3 & ? & H3 & Hi & _).
    destruct (branches_total all_kinds s3) as (l' & r' & Hb).
    destruct (heading_part_in _ _ _ _ _ _ _ _ _ H2 H3 _ _ Hb) as [n Hp].
    assert (X : exists h, number_form heading_part (u "から第") s1 h).
    { destruct (heading_range_dec r') as [(m & k & t & r & -> & Hm)|Hn].
      - exists (mkNumbered n l' (Some (m, k))). exists (u "から第" ++ t). split; [exact Hp|]. exists t, r. auto.
      - exists (mkNumbered n l' None). exists r'. split; [exact Hp|exact Hn]. }
    destruct X as [h Hh]. exists h. apply opt_in in H1 as [H1|[_ ->]].
    + apply lit_in in H1 as [_ ->]. right. eauto.
    + left. exact Hh.
  - right. intros [h H]. destruct (heading_form_captures s h H) as (x & y & Hc). congruence.
Qed.
Lemma label_form_dec : forall s, (exists h, label_form s h) \/ ~ (exists h, label_form s h).
Proof.
  intros s. destruct (captures re_paragraph s) as [c|] eqn:E.
  - left. unfold captures in E. destruct (exec re_paragraph s) as [|[c' s'] l] eqn:Ex; [discriminate|].
    assert (Hi : In (c', s') (exec re_paragraph s)) by (rewrite Ex; left; reflexivity). clear E Ex.
    rewrite re_paragraph_eq in Hi. apply seq_in in Hi as (? & s1 & ? & H1 & Hi & _). apply cap_in in H1 as [? H1].
    apply label_part_total in H1 as (n & l' & r & Hp).
    destruct (exec label_range r) as [|[c1 s2] q] eqn:E.
    + exists (mkNumbered n l' None). exists r. split; [exact Hp|]. cbn [nb_end]. intros m k t r' -> Hm.
      destruct (label_range_start _ _ _ _ Hm) as [l0 Hs]. rewrite E in Hs. discriminate.
    + assert (Hj : In (c1, s2) (exec label_range r)) by (rewrite E; left; reflexivity).
      apply label_range_in in Hj as (m & k & t & -> & Hm).
      exists (mkNumbered n l' (Some (m, k))). exists (u "から" ++ t). split; [exact Hp|]. exists t, s2. auto.
  - right. intros [h H]. rewrite (label_form_captures s h H) in E. discriminate.
Qed.
Lemma heading_read_exact : forall cd s h, heading_form s h -> parse_article_number cd s = heading_value cd h.
Proof.
  intros cd s h H. destruct (heading_form_captures s h H) as (x & y & Hc). unfold parse_article_number. rewrite Hc.
  apply heading_value_read. eapply heading_form_good, H.
Qed.
Lemma label_read_exact : forall cd s h, ~ (exists h, heading_form s h) -> label_form s h -> parse_article_number cd s = label_value h.
Proof.
  intros cd s h Hn H. unfold parse_article_number. rewrite (no_heading_form s Hn), (label_form_captures s h H).
  apply label_value_read. eapply label_form_good, H.
Qed.
Theorem number_exact : forall cd s r, parse_article_number cd s = r <-> number_reading cd s r.
Proof.
  intros cd s r. split.
  - intros <-. destruct (heading_form_dec s) as [[h H]|H]; [left; exists h; split; [exact H|apply heading_read_exact, H]|].
    destruct (label_form_dec s) as [[h Hl]|Hl].
    + right. left. split; [exact H|]. exists h. split; [exact Hl|apply label_read_exact; assumption].
    + right. right. split; [exact H|]. split; [exact Hl|]. unfold parse_article_number.
      rewrite (no_heading_form s H), (no_label_form s Hl). reflexivity.
  - intros [(h & H & ->)|[(Hn & h & H & ->)|(Hn & Hl & ->)]].
    + apply heading_read_exact, H.
    + apply label_read_exact; assumption.
    + unfold parse_article_number. rewrite (no_heading_form s Hn), (no_label_form s Hl). reflexivity.
Qed.

(** ** The kinds of headings *)
Lemma unit_unique : forall k k' w w' x x' r r', is_numtext (k, w) -> is_numtext (k', w') ->
  In x heading_units -> In x' heading_units -> w ++ x :: r = w' ++ x' :: r' -> x = x'.
Proof.
  intros k k' w w' x x' r r' Hw Hw' Hx Hx' E.
  destruct (run_prefix k w (x :: r) k' w' (x' :: r') Hw (unit_not_digit x k Hx) Hw' E) as [_ [[_ H]|(c & t & H & Hc)]].
  - injection H as -> _. reflexivity.
  - injection H as -> _. destruct (unit_not_digit _ _ Hx' Hc).
Qed.
Lemma numeral_numtext : forall cd n, numeral cd n -> is_numtext (Kansuji, kan cd n).
Proof. intros cd n (H1 & H2 & _). split; assumption. Qed.
Lemma heading_texts_unit : forall cd x f a, In (x, f) (heading_texts cd) ->
  exists r, f a = u "第" ++ kan cd (base_number a) ++ x :: r.
Proof.
  intros cd x f a H. unfold heading_texts in H. cbn [In] in H.
  repeat (destruct H as [H|H]; [injection H as <- <-; eexists; reflexivity|]). destruct H.
Qed.
Theorem heading_kinds_differ : forall cd x f y g a b, In (x, f) (heading_texts cd) -> In (y, g) (heading_texts cd) ->
  numeral cd (base_number a) -> numeral cd (base_number b) -> f a = g b -> x = y.
Proof.
  intros cd x f y g a b Hf Hg Ha Hb E.
  destruct (heading_texts_unit cd x f a Hf) as [r Er]. destruct (heading_texts_unit cd y g b Hg) as [r' Er'].
  rewrite Er, Er' in E. apply app_inv_head in E.
  assert (U : forall z h, In (z, h) (heading_texts cd) -> In z heading_units).
  { intros z h H. unfold heading_texts in H. cbn [In] in H.
    repeat (destruct H as [H|H]; [injection H as <- _; vm_compute; tauto|]). destruct H. }
  eapply unit_unique; [apply numeral_numtext, Ha|apply numeral_numtext, Hb|eapply U, Hf|eapply U, Hg|exact E].
Qed.
