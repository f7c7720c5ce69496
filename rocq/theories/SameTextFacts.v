(** When two texts give the same law body. *)
From Coq Require Import String List NArith Bool Arith Lia.
From Verif Require Import Base NumStr Ast Regex NumText NumTextSpec TextParse TextSpec TextFacts ApiSpec ClassifyFacts ItemSpec ItemReadFacts
  OutlineFacts SameLinesSpec SameLinesFacts.
Import ListNotations.
Open Scope list_scope.

Lemma line_words : forall cd l x, ~ In 10%N l -> parse_line cd l = Ok x -> incl (words_of x) l.
Proof.
  intros cd l x Hl H. apply line_exact in H; [|exact Hl]. destruct H as (p & w & q & _ & _ & _ & -> & H).
  assert (W : incl w (p ++ w ++ q)) by (intros c Hc; rewrite !in_app_iff; auto). destruct H as [(v & _ & _ & -> & E)|[(_ & _ & E)|(_ & s & t & F & E)]].
  - injection E as ->. cbn [words_of]. intros c Hc. apply W. right. apply in_app_iff. auto.
  - injection E as ->. exact W.
  - assert (T : incl t (p ++ w ++ q)) by (intros c Hc; apply W, (first_word_in _ _ _ F), Hc).
    inversion E as [n mk _ K| |i| |]; subst; try exact T; try exact W.
    assert (Z : words_of (mk n t) = t); [|rewrite Z; exact T]. destruct K as [(b & k & a & Hk & _)|[-> _]]; [|reflexivity].
    assert (I : In (k, mk) heading_kinds) by (rewrite Hk; apply in_app_iff; right; left; reflexivity).
    unfold heading_kinds in I. cbn [In] in I.
    repeat (destruct I as [I|I]; [injection I as _ <-; reflexivity|]). destruct I.
Qed.
Lemma joined_in : forall ls text l, joined ls text -> In l ls -> incl l text.
Proof.
  assert (C : forall ls l, In l ls -> incl l (concat (map (fun l => l ++ [10%N]) ls))).
  { intros ls l H c Hc. apply in_concat. exists (l ++ [10%N]). split; [apply in_map_iff; eauto|apply in_app_iff; auto]. }
  intros ls text l [_ [->|(ls' & l' & -> & _ & ->)]] H c Hc; [exact (C _ _ H _ Hc)|].
  apply in_app_iff. apply in_app_iff in H as [H|[<-|[]]]; [left; exact (C _ _ H _ Hc)|right; exact Hc].
Qed.
Lemma classified_scalar : forall cd text ls, Forall scalar text -> classify cd text = Ok ls -> Forall scalar_line ls.
Proof.
  intros cd text ls S H. apply classify_ok in H. pose proof (text_is_joined text) as J.
  assert (I : forall l, In l (text_lines text) -> ~ In 10%N l /\ Forall scalar l).
  { intros l Hl. split; [destruct J as [J _]; rewrite Forall_forall in J; apply J, Hl|].
    apply Forall_forall. intros c Hc. rewrite Forall_forall in S. apply S. exact (joined_in _ _ _ J Hl _ Hc). }
  clear J S. induction H as [|l x ls xs H Hs IH]; constructor.
  - destruct (I l (or_introl eq_refl)) as [I1 I2]. unfold scalar_line. apply Forall_forall. intros c Hc. rewrite Forall_forall in I2.
    apply I2. exact (line_words _ _ _ I1 H _ Hc).
  - apply IH. intros l' Hl'. apply I. right. exact Hl'.
Qed.
Theorem texts_same : forall cd title title' fuel fuel' text text' ls ls' b b', Forall scalar (title ++ text) -> Forall scalar (title' ++ text') ->
  classify cd text = Ok ls -> classify cd text' = Ok ls' ->
  parse_body cd fuel title text = Some (Ok b) -> parse_body cd fuel' title' text' = Some (Ok b') ->
  exists a a', read_part ls a /\ read_part ls' a' /\ (b = b' <-> title = title' /\ same_lines a a').
Proof.
  intros cd title title' fuel fuel' text text' ls ls' b b' S S' C C' E E'. apply Forall_app in S as [S1 S2]. apply Forall_app in S' as [S1' S2'].
  unfold parse_body in E, E'. rewrite C in E. rewrite C' in E'.
  exact (bodies_same title title' fuel fuel' ls ls' b b' S1 S1' (classified_scalar _ _ _ S2 C) (classified_scalar _ _ _ S2' C') E E').
Qed.
Lemma like_equivalence : forall x y z, like x x /\ (like x y -> like y x) /\ (like x y -> like y z -> like x z).
Proof.
  intros x y z. split; [destruct x; cbn; auto|]. split.
  - destruct x, y; cbn [like]; intros H; try discriminate H; try (symmetry; exact H). intuition congruence.
  - destruct x, y; cbn [like]; intros H; try discriminate H; try (rewrite H; auto). destruct z; cbn [like]; intros H'; try discriminate H'. intuition congruence.
Qed.
Theorem read_part_one : forall ls a a', read_part ls a -> read_part ls a' -> a = a'.
Proof.
  assert (X : forall a l c, readable a -> misplaced a l -> ~ readable (a ++ l :: c)).
  { intros a l c R M R'. destruct (outline_after a l c R) as [Z _]. destruct (Z M) as [Z1 _]. destruct (readable_outline _ R') as [es E].
    rewrite E in Z1. discriminate Z1. }
  intros ls a a' (r & -> & R & H) (r' & E & R' & H'). apply app_eq_app in E as [c [[-> ->]|[-> ->]]].
  - destruct c as [|l c]; [rewrite app_nil_r; reflexivity|]. destruct H' as [H'|(l' & r1 & H' & M)]; [discriminate H'|].
    injection H' as <- _. destruct (X _ _ _ R' M R).
  - destruct c as [|l c]; [rewrite app_nil_r; reflexivity|]. destruct H as [H|(l' & r1 & H & M)]; [discriminate H|].
    injection H as <- _. destruct (X _ _ _ R M R').
Qed.
Theorem laws_same : forall cd cal fuel fuel' text text' y y' m m' d d' ty ty' lang lang' num num' law_num law_num' title title' ls ls' l l',
  Forall scalar (title ++ text) -> Forall scalar (title' ++ text') -> classify cd text = Ok ls -> classify cd text' = Ok ls' ->
  parse_text cd cal fuel text y m d ty lang num law_num title = Some (Ok l) ->
  parse_text cd cal fuel' text' y' m' d' ty' lang' num' law_num' title' = Some (Ok l') ->
  exists a a', read_part ls a /\ read_part ls' a' /\
    (l = l' <-> (y, m, d) = (y', m', d') /\ (ty, lang, num, law_num) = (ty', lang', num', law_num') /\ title = title' /\ same_lines a a').
Proof.
  intros cd cal fuel fuel' text text' y y' m m' d d' ty ty' lang lang' num num' law_num law_num' title title' ls ls' l l' S S' C C' E E'.
  unfold parse_text in E, E'. destruct (date_era cal y m d) as [e| |] eqn:D; try discriminate E. destruct (date_era cal y' m' d') as [e'| |] eqn:D'; try discriminate E'.
  destruct (parse_body cd fuel title text) as [[b| |]|] eqn:B; cbn [then_ done] in E; try discriminate E.
  destruct (parse_body cd fuel' title' text') as [[b'| |]|] eqn:B'; cbn [then_ done] in E'; try discriminate E'.
  injection E as <-. injection E' as <-.
  destruct (texts_same cd title title' fuel fuel' text text' ls ls' b b' S S' C C' B B') as (a & a' & P & P' & X). exists a, a'.
  split; [exact P|]. split; [exact P'|]. rewrite <- X. split.
  - intros Z. injection Z as _ -> -> -> -> -> -> -> ->. auto.
  - intros (Z1 & Z2 & ->). injection Z1 as -> -> ->. injection Z2 as -> -> -> ->. rewrite D in D'. injection D' as ->. reflexivity.
Qed.
