(** From a text to classified lines, and the plain-text parser as a whole. *)
From Coq Require Import String Ascii List NArith ZArith Bool Arith Lia.
From Verif Require Import Base BaseFacts NumStr Ast Regex RegexFacts NumText NumTextSpec NumTextFacts HeadingFacts LabelFacts
  ItemFacts ItemLabelFacts SplitFacts TextParse TextSpec TextFacts OutlineFacts TextLawFacts LineFacts.
Import ListNotations.
Open Scope string_scope.
Open Scope list_scope.

(** ** Trimmed text *)
Lemma trim_start_first : forall s c r, trim_start s = c :: r -> is_space c = false.
Proof.
  induction s as [|d s IH]; intros c r H; [discriminate H|]. cbn [trim_start] in H. destruct (is_space d) eqn:E; [exact (IH c r H)|].
  injection H as <- _. exact E.
Qed.
Lemma trim_no_edge : forall s, no_edge (trim s).
Proof.
  intros s. unfold trim. split.
  - intros c r E. destruct (trim_start_split (rev (trim_start s))) as [x [_ Ex]].
    assert (E1 : trim_start s = c :: r ++ rev x).
    { rewrite <- (rev_involutive (trim_start s)), Ex, rev_app_distr, E. reflexivity. }
    exact (trim_start_first _ _ _ E1).
  - intros r c E. apply (f_equal (@rev N)) in E. rewrite rev_involutive, rev_app_distr in E. cbn [rev app] in E.
    exact (trim_start_first _ _ _ E).
Qed.
Lemma trim_trim : forall s, trim (trim s) = trim s.
Proof.
  intros s. pose proof (trim_edge [] (trim s) [] (Forall_nil _) (Forall_nil _) (trim_no_edge s)) as H.
  cbn [app] in H. rewrite app_nil_r in H. exact H.
Qed.
Lemma parse_line_trim : forall cd s, parse_line cd (trim s) = parse_line cd s.
Proof. intros cd s. unfold parse_line. rewrite trim_trim. reflexivity. Qed.
Lemma in_trim : forall s c, In c (trim s) -> In c s.
Proof.
  intros s c H. destruct (trim_split s) as [x [y [_ [_ E]]]]. rewrite E. rewrite !in_app_iff. auto.
Qed.

(** ** Every line of two characters or more has a first word *)
Lemma span_word : forall w, exists s r, w = s ++ r /\ no_space s /\ (r = [] \/ exists c r', r = c :: r' /\ is_space c = true).
Proof.
  induction w as [|c w [s [r [-> [Hs Hr]]]]]; [exists [], []; repeat split; [constructor|auto]|].
  destruct (is_space c) eqn:E.
  - exists [], (c :: s ++ r). split; [reflexivity|]. split; [constructor|]. right. eauto.
  - exists (c :: s), r. split; [reflexivity|]. split; [constructor; assumption|exact Hr].
Qed.
Lemma first_word_exists : forall w, no_edge w -> 2 <= length w -> exists s t, first_word w s t.
Proof.
  intros w He Hl. destruct (span_word w) as [s [r [-> [Hs [->|[c [r' [-> Hc]]]]]]]].
  - rewrite app_nil_r in *. destruct (@exists_last _ s) as [s' [c ->]]; [intros ->; cbn in Hl; lia|].
    exists s', [c]. right. exists c. split; [reflexivity|]. split; [|auto].
    intros ->. cbn in Hl. lia.
  - assert (S0 : s <> []) by (intros ->; destruct He as [H _]; specialize (H c r' eq_refl); congruence).
    destruct (trim_start_split (c :: r')) as [g [Hg Eg]]. set (t := trim_start (c :: r')) in *.
    assert (T : t <> []).
    { intros E. rewrite E, app_nil_r in Eg. destruct He as [_ H].
      destruct (@exists_last _ (c :: r')) as [q [d Ed]]; [discriminate|]. rewrite Ed in *. specialize (H (s ++ q) d).
      rewrite <- app_assoc in H. specialize (H eq_refl). rewrite <- Eg in Hg. apply Forall_app in Hg as [_ Hg].
      inversion_clear Hg as [|? ? X _]. congruence. }
    exists s, t. left. exists g. split; [rewrite Eg; reflexivity|]. split; [exact S0|]. split.
    { intros ->. cbn [app] in Eg. pose proof (trim_start_first (c :: r') c r') as X. fold t in X. rewrite <- Eg in X. specialize (X eq_refl). congruence. }
    split; [exact Hg|]. split; [exact Hs|]. split; [exact T|]. split.
    + intros d q E. exact (trim_start_first _ _ _ E).
    + intros q d E. destruct He as [_ H]. apply (H (s ++ g ++ q) d). rewrite Eg, E, !app_assoc. reflexivity.
Qed.

(** ** Supplementary provisions *)
Lemma suppl_long : forall w c s', In (c, s') (exec re_suppl w) -> 2 <= length w.
Proof.
  intros w c s' H. unfold re_suppl in H. apply seq_out in H as [c1 [s1 [c2 [H1 [H _]]]]]. apply lit_in in H1 as [_ ->].
  apply seq_out in H as [c3 [s3 [c4 [H3 [H _]]]]]. apply exec_suffix in H3 as [v ->].
  apply seq_out in H as [c5 [s5 [c6 [H5 [H _]]]]]. apply lit_in in H5 as [_ ->]. cbn [app length].
  change (length (u "附" ++ v ++ u "則" ++ s5)) with (S (length (v ++ u "則" ++ s5))).
  rewrite app_length. change (length (u "則" ++ s5)) with (S (length s5)). lia.
Qed.
Theorem line_not_suppl : forall cd l o, ~ In 10%N l -> parse_line cd l <> Ok (LSuppl o).
Proof.
  intros cd l o Hl H. unfold parse_line in H.
  destruct (captures re_caption (trim l)) as [c|] eqn:Ec.
  { destruct (group_text "caption" c); discriminate H. }
  assert (T : ~ In 10%N (trim l)) by (intros Hi; apply Hl, in_trim, Hi).
  destruct (le_lt_dec 2 (length (trim l))) as [L|L].
  - destruct (first_word_exists (trim l) (trim_no_edge l) L) as [s [t Hw]].
    assert (Ht : ~ In 10%N t).
    { intros Hi. apply T. destruct Hw as [[g [-> _]]|[d [-> [_ [_ ->]]]]]; rewrite ?in_app_iff; auto. }
    rewrite (split_first _ _ _ Hw Ht) in H. cbn [bind] in H.
    destruct (parse_article_number cd s) as [[n|]| |]; cbn [bind] in H; try discriminate H.
    + repeat match type of H with context [if ?b then _ else _] => destruct b end; discriminate H.
    + destruct (parse_item_number cd s) as [[i|]| |]; discriminate H.
  - rewrite split_short in H by lia. cbn [bind] in H. destruct (captures re_suppl (trim l)) as [c|] eqn:E; [|discriminate H].
    apply captures_in in E as [s' E]. apply suppl_long in E. lia.
Qed.
(** Lines that start with 附 are text. *)
Theorem suppl_line_is_text : forall cd r x y, no_edge (uc "附" :: r) -> ~ In 10%N r -> blank x -> blank y ->
  parse_line cd (x ++ (uc "附" :: r) ++ y) = Ok (LText (uc "附" :: r)).
Proof.
  intros cd r x y He Hl Hx Hy. apply text_line; try assumption. split; [exact He|].
  split; [intros [H|H]; [vm_compute in H; discriminate H|contradiction]|].
  split; [apply not_caption_first; vm_compute; discriminate|].
  destruct (le_lt_dec 2 (length (uc "附" :: r))) as [L|L]; [right|left; lia].
  destruct (first_word_exists _ He L) as [s [t Hw]]. exists s, t, (uc "附"). split; [exact Hw|].
  assert (E : exists q, s = uc "附" :: q).
  { destruct Hw as [[g [E [H _]]]|[d [E [H _]]]]; (destruct s as [|c s]; [contradiction|]); injection E as <- _; eauto. }
  split; [exact E|]. split.
  - intros H. apply one_of_in in H. vm_compute in H. discriminate H.
  - destruct E as [q ->]. constructor. intros [[_ H]|[[_ H]|H]]; [exact (H eq_refl)|exact (H eq_refl)|].
    apply one_of_in in H. vm_compute in H. discriminate H.
Qed.

(** ** Lines of a text *)
Lemma usplit_free : forall l, ~ In 10%N l -> usplit 10 l = [l].
Proof.
  induction l as [|c l IH]; intros H; [reflexivity|]. cbn [usplit].
  destruct (N.eqb_spec c 10) as [->|]; [destruct H; left; reflexivity|]. rewrite IH by (intros X; apply H; right; exact X). reflexivity.
Qed.
Lemma usplit_cut : forall l r, ~ In 10%N l -> usplit 10 (l ++ 10%N :: r) = l :: usplit 10 r.
Proof.
  induction l as [|c l IH]; intros r H; [reflexivity|]. cbn [usplit app].
  destruct (N.eqb_spec c 10) as [->|]; [destruct H; left; reflexivity|]. rewrite IH by (intros X; apply H; right; exact X). reflexivity.
Qed.
Lemma usplit_lines : forall ls r, Forall (fun l => ~ In 10%N l) ls ->
  usplit 10 (concat (map (fun l => l ++ [10%N]) ls) ++ r) = ls ++ usplit 10 r.
Proof.
  intros ls r H. induction H as [|l ls Hl _ IH]; [reflexivity|]. cbn [map concat app]. rewrite <- !app_assoc.
  cbn [app]. rewrite usplit_cut by exact Hl. rewrite IH. reflexivity.
Qed.
Lemma usplit_pieces : forall s l, In l (usplit 10 s) -> ~ In 10%N l.
Proof.
  induction s as [|c s IH]; intros l H.
  - destruct H as [<-|[]]. intros [].
  - cbn [usplit] in H. destruct (N.eqb_spec c 10) as [->|N0].
    + destruct H as [<-|H]; [intros []|exact (IH l H)].
    + destruct (usplit 10 s) as [|h t]; [destruct H as [<-|[]]; intros [X|[]]; congruence|].
      destruct H as [<-|H]; [|apply IH; right; exact H]. intros [X|X]; [congruence|]. exact (IH h (or_introl eq_refl) X).
Qed.
Lemma drop_last_in : forall ls l, In l (drop_last_empty ls) -> In l ls.
Proof.
  induction ls as [|x ls IH]; intros l H; [exact H|]. cbn [drop_last_empty] in H. destruct x as [|c x]; destruct ls as [|y ls];
    try (destruct H as [H|H]; [left; exact H|right; apply IH, H]). destruct H.
Qed.
Lemma drop_last_snoc : forall ls, drop_last_empty (ls ++ [[]]) = ls.
Proof.
  induction ls as [|x ls IH]; [reflexivity|]. cbn [app drop_last_empty]. rewrite IH. destruct x; destruct ls; reflexivity.
Qed.
Lemma drop_last_keep : forall ls l, l <> [] -> drop_last_empty (ls ++ [l]) = ls ++ [l].
Proof.
  induction ls as [|x ls IH]; intros l H; [destruct l; [contradiction|reflexivity]|]. cbn [app drop_last_empty].
  rewrite (IH l H). destruct x; destruct ls; reflexivity.
Qed.
Theorem text_lines_joined : forall ls text, joined ls text -> text_lines text = ls.
Proof.
  intros ls text [H [->|[ls' [l [-> [Hl ->]]]]]]; unfold text_lines.
  - pose proof (usplit_lines ls [] H) as E. rewrite app_nil_r in E. rewrite E. apply drop_last_snoc.
  - apply Forall_app in H as [H1 H2]. inversion_clear H2 as [|? ? H3 _]. rewrite (usplit_lines ls' l H1), (usplit_free l H3).
    apply drop_last_keep, Hl.
Qed.
(** Every text is its lines joined. *)
Lemma usplit_join : forall s, exists ls l, usplit 10 s = ls ++ [l] /\ s = concat (map (fun l => l ++ [10%N]) ls) ++ l.
Proof.
  induction s as [|c s [ls [l [E1 E2]]]]; [exists [], []; split; reflexivity|]. cbn [usplit]. destruct (N.eqb_spec c 10) as [->|].
  - exists ([] :: ls), l. rewrite E1, E2 at 1. split; reflexivity.
  - rewrite E1. destruct ls as [|h ls]; cbn [app].
    + exists [], (c :: l). split; [reflexivity|]. rewrite E2. reflexivity.
    + exists ((c :: h) :: ls), l. split; [reflexivity|]. rewrite E2. reflexivity.
Qed.
Theorem text_is_joined : forall text, joined (text_lines text) text.
Proof.
  intros text. destruct (usplit_join text) as [ls [l [E1 E2]]].
  assert (F : forall x, In x (ls ++ [l]) -> ~ In 10%N x) by (intros x Hx; rewrite <- E1 in Hx; exact (usplit_pieces text x Hx)).
  unfold joined, text_lines. rewrite E1. destruct l as [|c l].
  - rewrite drop_last_snoc. split; [apply Forall_forall; intros x Hx; apply F, in_or_app; left; exact Hx|].
    left. rewrite app_nil_r in E2. exact E2.
  - rewrite drop_last_keep by discriminate. split; [apply Forall_forall; exact F|]. right. exists ls, (c :: l).
    split; [reflexivity|]. split; [discriminate|exact E2].
Qed.

(** ** Classification *)
Lemma map_r_ok : forall A B (f : A -> R B) l r, map_r f l = Ok r <-> Forall2 (fun a b => f a = Ok b) l r.
Proof.
  induction l as [|a l IH]; intros r.
  - cbn [map_r]. split; [intros H; injection H as <-; constructor|intros H; inversion H; reflexivity].
  - cbn [map_r]. split.
    + intros H. destruct (f a) as [b| |] eqn:E; cbn [bind] in H; try discriminate H.
      destruct (map_r f l) as [c| |] eqn:E2; cbn [bind] in H; try discriminate H. injection H as <-. constructor; [exact E|apply IH; reflexivity].
    + intros H. inversion H as [|? b ? c H1 H2]; subst. apply IH in H2. rewrite H1, H2. reflexivity.
Qed.
Theorem classify_ok : forall cd text lines, classify cd text = Ok lines <->
  Forall2 (fun l x => parse_line cd l = Ok x) (text_lines text) lines.
Proof.
  intros cd text lines. unfold classify. rewrite map_r_ok. split; intros H; induction H; constructor; try assumption.
  - rewrite <- parse_line_trim. assumption.
  - rewrite parse_line_trim. assumption.
Qed.
Theorem written_line : forall cd x l, written cd x l -> parse_line cd l = Ok x.
Proof.
  intros cd x l H. inversion H as [sfx mk a t w l' H1 H2 H3 H4|a t w l' H1 H2 H3 H4|p a s t w l' H1 H2 H3 H4 H5|v l' H1 H2 H3 H4|w l' H1 H2]; subst.
  - destruct H4 as [p [q [Hp [Hq [_ ->]]]]]. exact (heading_line cd sfx mk a t w p q H1 H2 H3 Hp Hq).
  - destruct H4 as [p [q [Hp [Hq [_ ->]]]]]. rewrite (label_line cd a t w p q H1 H3 Hp Hq). destruct a as [b e [|n [|m r]]]; try reflexivity.
    cbn in H2. lia.
  - destruct H5 as [p' [q [Hp [Hq [_ ->]]]]]. exact (item_line cd p a s t w p' q H1 H2 H3 H4 Hp Hq).
  - destruct H4 as [p [q [Hp [Hq [_ ->]]]]]. exact (caption_line_read cd v p q H1 H2 Hp Hq).
  - destruct H2 as [p [q [Hp [Hq [_ ->]]]]]. exact (text_line cd w p q H1 Hp Hq).
Qed.
Theorem classify_written : forall cd xs ls text, Forall2 (written cd) xs ls -> joined ls text -> classify cd text = Ok xs.
Proof.
  intros cd xs ls text H J. apply classify_ok. rewrite (text_lines_joined _ _ J). clear J. induction H as [|x l xs ls H _ IH]; [constructor|].
  constructor; [exact (written_line cd x l H)|exact IH].
Qed.
(** No text has a supplementary provision. *)
Theorem classify_no_suppl : forall cd text lines o, classify cd text = Ok lines -> ~ In (LSuppl o) lines.
Proof.
  intros cd text lines o H Hi. apply classify_ok in H. pose proof (text_is_joined text) as [F _].
  induction H as [|l x ls xs H _ IH]; [exact Hi|]. inversion_clear F as [|? ? Hl Hls]. destruct Hi as [->|Hi]; [|exact (IH Hi Hls)].
  exact (line_not_suppl cd l o Hl H).
Qed.

(** ** The whole parser *)
Theorem body_of_text : forall cd xs ls text title fuel, Forall2 (written cd) xs ls -> joined ls text ->
  parse_body cd fuel title text = parse_lines fuel title xs.
Proof.
  intros cd xs ls text title fuel H J. unfold parse_body. rewrite (classify_written cd xs ls text H J). reflexivity.
Qed.
Theorem text_read : forall cd xs ls text title, Forall2 (written cd) xs ls -> joined ls text -> readable xs ->
  exists b, (forall fuel, length xs < fuel -> parse_body cd fuel title text = Some (Ok b)) /\
    flat_map entry_content (list_body b) = content xs.
Proof.
  intros cd xs ls text title H J R. destruct (body_exists title xs R) as [b [E L]]. exists b. split.
  - intros fuel F. rewrite (body_of_text cd xs ls text title fuel H J). apply E, F.
  - rewrite L. destruct (readable_outline _ R) as [es E']. rewrite E'. destruct (outline_content _ _ _ _ _ E') as [a' [Ea C]].
    rewrite app_nil_r in Ea. subst a'. exact C.
Qed.
Theorem text_loops : forall cd title text,
  (forall fuel, parse_body cd fuel title text = None) <->
  exists a h s b, classify cd text = Ok (a ++ h :: LText s :: b) /\ readable (a ++ [h]) /\ heading_or_caption h.
Proof.
  intros cd title text. unfold parse_body. destruct (classify cd text) as [lines|e|] eqn:E.
  - rewrite loops_iff. split.
    + intros [a [l [b [-> [R S]]]]]. destruct l; try destruct S.
      * destruct (classify_no_suppl cd text _ o E). apply in_or_app. right. left. reflexivity.
      * destruct H as [h [-> H]]. exists x, h, s, b. split; [f_equal; rewrite <- app_assoc; reflexivity|]. auto.
    + intros [a [h [s [b [X [R H]]]]]]. injection X as ->. exists (a ++ [h]), (LText s), b. rewrite <- app_assoc.
      split; [reflexivity|]. split; [exact R|]. exists a, h. auto.
  - split; [intros H; discriminate (H 0)|]. intros [a [h [s [b [X _]]]]]. discriminate X.
  - split; [intros H; discriminate (H 0)|]. intros [a [h [s [b [X _]]]]]. discriminate X.
Qed.
(** The result never has supplementary provisions. *)
Theorem text_plain : forall cd fuel title text b, parse_body cd fuel title text = Some (Ok b) -> plain_body title b.
Proof.
  intros cd fuel title text b H. unfold parse_body in H. destruct (classify cd text) as [lines| |]; try discriminate H.
  destruct (parsed _ _ _ _ H) as [P _]. exact P.
Qed.

(** ** Lines that make the parser panic *)
Lemma map_r_panic : forall A B (f : A -> R B) l, (forall a e, f a <> Err e) ->
  (map_r f l = Panic <-> exists a, In a l /\ f a = Panic).
Proof.
  intros A B f l HE. induction l as [|a l IH]; [split; [discriminate|intros [x [[] _]]]|]. cbn [map_r].
  destruct (f a) as [b|e|] eqn:E; cbn [bind].
  - destruct (map_r f l) as [c|e|] eqn:E2; cbn [bind].
    + split; [discriminate|]. intros [x [[<-|Hx] X]]; [congruence|]. assert (Y : Ok c = Panic) by (apply IH; eauto). discriminate Y.
    + split; [discriminate|]. intros [x [[<-|Hx] X]]; [congruence|]. assert (Y : Err e = Panic) by (apply IH; eauto). discriminate Y.
    + split; [|reflexivity]. intros _. destruct (proj1 IH eq_refl) as [x [Hx X]]. exists x. split; [right; exact Hx|exact X].
  - destruct (HE a e E).
  - split; [|reflexivity]. intros _. exists a. split; [left; reflexivity|exact E].
Qed.

Definition fine {A} (r : R A) : Prop := forall e, r <> Err e.
Lemma fine_ok : forall A (a : A), fine (Ok a). Proof. intros A a e. discriminate. Qed.
Lemma fine_panic : forall A, fine (@Panic A). Proof. intros A e. discriminate. Qed.
Lemma fine_bind : forall A B (r : R A) (f : A -> R B), fine r -> (forall a, fine (f a)) -> fine (bind r f).
Proof. intros A B [a|e|] f H1 H2; cbn [bind]; [apply H2|destruct (H1 e eq_refl)|apply fine_panic]. Qed.
Lemma fine_unwrap : forall A (o : option A), fine (unwrap o).
Proof. intros A [a|]; [apply fine_ok|apply fine_panic]. Qed.
Lemma fine_all_ok : forall A B (f : A -> R B) l, (forall a, fine (f a)) -> fine (all_ok f l).
Proof.
  intros A B f l H. induction l as [|a l IH]; [apply fine_ok|]. cbn [all_ok]. apply fine_bind; [apply H|]. intros b.
  apply fine_bind; [exact IH|]. intros c. apply fine_ok.
Qed.
Ltac fine := repeat first
  [apply fine_ok|apply fine_panic|apply fine_unwrap|apply fine_bind; [|intros ?]|apply fine_all_ok; intros ?
  |match goal with |- fine (match ?x with _ => _ end) => destruct x end].
Lemma article_number_fine : forall cd s, fine (parse_article_number cd s).
Proof.
  intros cd s. unfold parse_article_number. destruct (captures re_article s) as [c|].
  - unfold read_heading, heading_number, group_text. fine.
  - destruct (captures re_paragraph s) as [c|]; [|fine]. unfold read_label, group_text, label_number. fine.
Qed.
Lemma item_base_fine : forall cd s, fine (parse_item_number_base cd s).
Proof.
  intros cd s. unfold parse_item_number_base. destruct (captures re_item_base s) as [c|]; [|fine]. apply fine_bind; [|intros; fine].
  unfold item_readers. cbn [first_reader].
  unfold read_plain, read_kansuji, read_letters, read_plain. fine.
Qed.
Lemma item_branch_fine : forall cd l, fine (item_branch_numbers cd l).
Proof.
  intros cd l. induction l as [|s l IH]; [apply fine_ok|]. cbn [item_branch_numbers]. apply fine_bind; [apply item_base_fine|].
  intros x. apply fine_bind; [exact IH|]. intros; fine.
Qed.
Lemma item_number_fine : forall cd s, fine (parse_item_number cd s).
Proof.
  intros cd s. unfold parse_item_number, group_text.
  repeat first [apply item_base_fine|apply item_branch_fine|progress fine].
Qed.
Theorem line_fine : forall cd l e, parse_line cd l <> Err e.
Proof.
  intros cd l. change (fine (parse_line cd l)). unfold parse_line, group_text.
  destruct (captures re_caption (trim l)) as [c|]; [fine|]. apply fine_bind; [intros e; apply split_total|].
  intros [[s t]|]; [|fine]. apply fine_bind; [apply article_number_fine|]. intros [n|]; [fine|].
  apply fine_bind; [apply item_number_fine|]. intros; fine.
Qed.
Theorem classify_panics : forall cd text, classify cd text = Panic <-> exists l, In l (text_lines text) /\ parse_line cd l = Panic.
Proof.
  intros cd text. unfold classify. rewrite map_r_panic by (intros a e; apply line_fine).
  split; intros [l [H1 H2]]; exists l; (split; [exact H1|]); [rewrite parse_line_trim in H2|rewrite parse_line_trim]; exact H2.
Qed.
Theorem text_never_errs : forall cd fuel title text e, parse_body cd fuel title text <> Some (Err e).
Proof.
  intros cd fuel title text e H. unfold parse_body in H. destruct (classify cd text) as [lines|e'|] eqn:E.
  - exact (no_error _ _ _ _ H).
  - clear H. revert E. unfold classify. generalize (text_lines text). intros l. revert e'. induction l as [|a l IH]; intros e' E; [discriminate E|].
    cbn [map_r] in E. pose proof (line_fine cd (trim a)) as F. destruct (parse_line cd (trim a)) as [b|x|]; cbn [bind] in E.
    + destruct (map_r (fun l => parse_line cd (trim l)) l) as [c|x|]; cbn [bind] in E; try discriminate E. exact (IH _ eq_refl).
    + exact (F x eq_refl).
    + discriminate E.
  - discriminate H.
Qed.
(** A word of kana that is no letter of the iroha poem. *)
Theorem kana_line_panics : forall cd x w y b v t, blank x -> blank y -> first_word w (enclosed b v) t -> ~ In 10%N t -> ~ caption_line w ->
  v <> [] ->
  (Forall is_katakana_letter v /\ (forall n, ~ iroha_number iroha_katakana v n)) \/
  (Forall is_hiragana_letter v /\ (forall n, ~ iroha_number iroha_hiragana v n)) ->
  parse_line cd (x ++ w ++ y) = Panic.
Proof.
  intros cd x w y b v t Hx Hy Hw Ht Hc Hv H.
  rewrite (line_word cd x w y _ t Hx Hy Hw Ht Hc).
  assert (K : exists k, (k = CKata \/ k = CHira) /\ Forall (fun c => pred k c = true) v).
  { destruct H as [[H _]|[H _]]; [exists CKata|exists CHira]; (split; [auto|]); (eapply Forall_impl; [|exact H]); intros c X;
      apply in_range_true; exact X. }
  destruct K as [k [Hk K]].
  assert (A : parse_article_number cd (enclosed b v) = Ok None).
  { destruct b; [apply no_article_number; vm_compute; reflexivity|]. cbn [enclosed]. destruct v as [|c v]; [contradiction|].
    apply no_article_number. inversion K as [|? ? X _]; subst. apply (class_start k c X); destruct Hk as [->| ->]; discriminate. }
  rewrite A. cbn [bind].
  pose proof (iroha_label_panics cd b v [] [] (Forall_nil _) (Forall_nil _) Hv) as P. cbn [app] in P. rewrite app_nil_r in P.
  change (wrap b v) with (enclosed b v) in P. rewrite P; [reflexivity|].
  destruct H as [[H1 H2]|[H1 H2]]; [left|right]; (split; [|exact H2]); (eapply Forall_impl; [|exact H1]); intros c X; apply in_range_true; exact X.
Qed.
Theorem kana_text_panics : forall cd fuel title text l, In l (text_lines text) -> parse_line cd l = Panic ->
  parse_body cd fuel title text = Some Panic.
Proof.
  intros cd fuel title text l H1 H2. unfold parse_body. assert (E : classify cd text = Panic) by (apply classify_panics; eauto).
  rewrite E. reflexivity.
Qed.
