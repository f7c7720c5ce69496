(** Facts about heading numbers and paragraph labels. *)
From Coq Require Import String Ascii List NArith ZArith Bool Arith Lia.
From Verif Require Import Base BaseFacts NumStr NumStrSpec NumStrFacts Regex RegexFacts NumText NumTextSpec NumTextFacts.
Import ListNotations.
Open Scope string_scope.
Open Scope list_scope.

(** ** Splitting branch numbers *)
Lemma usplit_app : forall c w s, ~ In c w ->
  usplit c (w ++ s) = match usplit c s with h :: t => (w ++ h) :: t | [] => [w] end.
Proof.
  intros c w s. induction w as [|x w IH]; intros H; cbn [app usplit].
  - destruct (usplit c s) eqn:E; [|reflexivity]. destruct s as [|y s]; cbn in E; [discriminate|].
    destruct (N.eqb y c); [discriminate|]. destruct (usplit c s); discriminate.
  - destruct (N.eqb_spec x c) as [->|_]; [exfalso; apply H; left; reflexivity|].
    rewrite IH by (intros Hi; apply H; right; exact Hi). destruct (usplit c s); reflexivity.
Qed.
Lemma usplit_concat : forall c (f : N -> ustr) l, (forall n, In n l -> ~ In c (f n)) ->
  usplit c (concat (map (fun n => [c] ++ f n) l)) = [] :: map f l.
Proof.
  intros c f l. induction l as [|n l IH]; intros H; [reflexivity|]. cbn [map concat app].
  cbn [usplit]. rewrite N.eqb_refl. f_equal. rewrite usplit_app by (apply H; left; reflexivity).
  change (fun n0 => c :: f n0) with (fun n0 => [c] ++ f n0).
  rewrite IH by (intros; apply H; right; assumption). rewrite app_nil_r. reflexivity.
Qed.
Lemma branches_concat : forall (f : N -> ustr) l, (forall n, In n l -> ~ In (uc "の") (f n)) ->
  (forall n, In n l -> f n <> []) ->
  branches (concat (map (fun n => u "の" ++ f n) l)) = map f l.
Proof.
  intros f l H Hn. unfold branches. change (u "の") with [uc "の"]. rewrite usplit_concat by exact H.
  cbn [filter non_empty]. clear H. induction l as [|n l IH]; [reflexivity|]. cbn [map filter].
  destruct (f n) eqn:E; [exfalso; apply (Hn n); [left; reflexivity|exact E]|]. cbn [non_empty].
  rewrite IH by (intros; apply Hn; right; assumption). reflexivity.
Qed.
Lemma replace_absent : forall a b s, ~ In a s -> replace a b s = s.
Proof.
  intros a b s H. unfold replace. induction s as [|c s IH]; [reflexivity|]. cbn [map].
  destruct (N.eqb_spec c a) as [->|_]; [exfalso; apply H; left; reflexivity|].
  f_equal. apply IH. intros Hi. apply H. right. exact Hi.
Qed.
Lemma concat_absent : forall c d (f : N -> ustr) l, c <> d -> (forall n, In n l -> ~ In c (f n)) ->
  ~ In c (concat (map (fun n => [d] ++ f n) l)).
Proof.
  intros c d f l Hd H Hi. apply in_concat in Hi as [x [Hx Hc]]. apply in_map_iff in Hx as [n [<- Hn]].
  destruct Hc as [Hc|Hc]; [congruence|]. exact (H n Hn Hc).
Qed.

(** ** Characters *)
Lemma one_of_in : forall l c, one_of l c = true <-> In c l.
Proof.
  intros l c. unfold one_of. rewrite existsb_exists. split.
  - intros [x [Hx E]]. apply N.eqb_eq in E. subst. exact Hx.
  - intros H. exists c. split; [exact H|apply N.eqb_refl].
Qed.
Lemma class_of : forall l (q : N -> bool), forallb q l = true -> forall c, In c l -> q c = true.
Proof. intros l q H c Hc. rewrite forallb_forall in H. exact (H c Hc). Qed.
Lemma not_class_of : forall l (q : N -> bool), forallb (fun c => negb (q c)) l = true ->
  forall c, In c l -> q c = false.
Proof. intros l q H c Hc. apply negb_true_iff. exact (class_of _ _ H c Hc). Qed.

Lemma kanji_in : forall c, kanji c = true <-> In c kanji_list.
Proof. exact (one_of_in kanji_list). Qed.
Lemma numeral_kanji : forall cd n, numeral cd n -> Forall (fun c => kanji c = true) (kan cd n).
Proof.
  intros cd n [_ [H _]]. eapply Forall_impl; [|exact H]. intros c Hc. apply kanji_in. exact Hc.
Qed.
Lemma numeral_absent : forall cd n c, numeral cd n -> kanji c = false -> ~ In c (kan cd n).
Proof.
  intros cd n c H Hc Hi. pose proof (numeral_kanji _ _ H) as F. rewrite Forall_forall in F.
  specialize (F c Hi). congruence.
Qed.
Lemma numeral_head : forall cd n, numeral cd n -> exists c s, kan cd n = c :: s /\ In c kanji_list.
Proof.
  intros cd n [Hn [H _]]. destruct H as [|c s Hc _]; [contradiction|]. eauto.
Qed.
Definition high (c : N) : bool := N.leb 128 c && N.eqb (unz c) c.
Lemma kanji_list_high : forallb high kanji_list = true.
Proof. vm_compute. reflexivity. Qed.
Lemma kanji_high : forall c, kanji c = true -> (128 <= c)%N /\ unz c = c.
Proof.
  intros c H. apply kanji_in in H. pose proof (class_of kanji_list high kanji_list_high c H) as X.
  apply andb_true_iff in X as [X1 X2]. apply N.leb_le in X1. apply N.eqb_eq in X2. auto.
Qed.
Lemma branch_number_numeral : forall cd n, numeral cd n -> branch_number cd (kan cd n) = Some n.
Proof.
  intros cd n H. pose proof H as [Hne [Hk [Hu Hb]]]. unfold branch_number.
  destruct (kan cd n) as [|c s] eqn:E; [contradiction|].
  assert (Hc : kanji c = true) by (apply kanji_in; inversion Hk; assumption).
  apply kanji_high in Hc as [Hh Hz].
  rewrite (uparse_high c) by (auto; left; reflexivity).
  rewrite parse_zenkaku_map. cbn [map]. rewrite Hz. rewrite (uparse_high c) by (auto; left; reflexivity).
  rewrite Hu. cbn [option_map]. unfold as_usize. rewrite N.mod_small by exact Hb. reflexivity.
Qed.
Lemma all_some_map : forall A B (f : A -> option B) (g : B -> A) l, (forall n, In n l -> f (g n) = Some n) ->
  all_some f (map g l) = Some l.
Proof.
  intros A B f g l. induction l as [|n l IH]; intros H; [reflexivity|]. cbn [map all_some].
  rewrite H by (left; reflexivity). rewrite IH by (intros; apply H; right; assumption). reflexivity.
Qed.
Lemma all_ok_map : forall A B (f : A -> R B) (g : B -> A) l, (forall n, In n l -> f (g n) = Ok n) ->
  all_ok f (map g l) = Ok l.
Proof.
  intros A B f g l. induction l as [|n l IH]; intros H; [reflexivity|]. cbn [map all_ok].
  rewrite H by (left; reflexivity). cbn [bind]. rewrite IH by (intros; apply H; right; assumption). reflexivity.
Qed.

(** ** Matching a heading *)
Lemma starts_suffix : forall sfx s, In sfx heading_suffixes -> starts heading_suffix (sfx ++ s) [] s.
Proof.
  intros sfx s H. repeat (destruct H as [<-|H]; [exists []; vm_compute; reflexivity|]). destruct H.
Qed.
Lemma suffix_fails : forall s, stops (one_of (u "編章節款目条項号")) s -> exec heading_suffix s = [].
Proof.
  intros [|c s] H; [reflexivity|]. cbn [stops] in H.
  assert (X : forall k, In k (u "編章節款目条項号") -> N.eqb k c = false).
  { intros k Hk. destruct (N.eqb_spec k c) as [->|]; [|reflexivity]. apply one_of_in in Hk. congruence. }
  unfold heading_suffix. cbn [map Alts].
  repeat apply alt_fails;
    match goal with |- exec (Lit ?l) _ = [] =>
      let v := eval vm_compute in l in change l with v end; apply lit_fails; cbn [stops]; apply X; vm_compute; tauto.
Qed.
Lemma lit_in : forall w s c s', In (c, s') (exec (Lit w) s) -> c = [] /\ s = w ++ s'.
Proof.
  induction w as [|x w IH]; intros s c s' H; cbn [Lit] in H.
  - destruct H as [H|[]]. injection H as <- <-. auto.
  - cbn [exec] in H. apply in_flat_map in H as [[c1 s1] [H1 H]]. destruct s as [|y s]; [destruct H1|].
    destruct (N.eqb_spec x y) as [<-|]; [|destruct H1]. destruct H1 as [H1|[]]. injection H1 as E1 E2. subst c1 s1.
    cbn [fst snd] in H. unfold after in H. apply in_map_iff in H as [[c2 s2] [E H]]. cbn in E. injection E as <- <-.
    destruct (IH _ _ _ H) as [-> ->]. auto.
Qed.
Lemma lit_absent : forall w s, (forall r, s <> w ++ r) -> exec (Lit w) s = [].
Proof.
  intros w s H. destruct (exec (Lit w) s) as [|[c s'] l] eqn:E; [reflexivity|]. exfalso.
  assert (Hi : In (c, s') (exec (Lit w) s)) by (rewrite E; left; reflexivity).
  apply lit_in in Hi as [_ Hi]. exact (H _ Hi).
Qed.
Lemma numeral_chars : forall cd n s, numeral cd n -> stops kanji s ->
  starts (chars kanji) (kan cd n ++ s) [] s.
Proof.
  intros cd n s H Hs. apply starts_plus_chars; [destruct H; assumption|apply numeral_kanji, H|exact Hs].
Qed.
Lemma numeral_not_class : forall cd n s (q : N -> bool), numeral cd n ->
  forallb (fun c => negb (q c)) kanji_list = true -> stops q (kan cd n ++ s).
Proof.
  intros cd n s q H Hq. destruct (numeral_head _ _ H) as [c [r [-> Hc]]]. cbn.
  exact (not_class_of _ _ Hq c Hc).
Qed.

Definition heading_branch : re :=
  Seq (Alt (Lit (u "の")) (Lit (u "ノ"))) (Alts [chars arabic; chars zenkaku; chars kanji]).
Lemma starts_branch : forall cd n s, numeral cd n -> stops kanji s ->
  starts heading_branch (u "の" ++ kan cd n ++ s) [] s.
Proof.
  intros cd n s H Hs. apply (starts_seq _ _ _ [] (kan cd n ++ s) []).
  - apply starts_alt_l, starts_lit.
  - cbn [Alts]. apply starts_alt_r.
    + apply plus_fails. apply numeral_not_class; [exact H|vm_compute; reflexivity].
    + apply starts_alt_r; [|apply numeral_chars; assumption].
      apply plus_fails. apply numeral_not_class; [exact H|vm_compute; reflexivity].
Qed.
Lemma branches_stop : forall s, stops (one_of (u "のノ")) s -> exec heading_branch s = [].
Proof.
  intros s H. apply seq_fails_l. apply alt_fails.
  - change (Lit (u "の")) with (Lit (uc "の" :: [])). apply lit_fails. destruct s as [|c s]; [exact I|]. cbn [stops] in *.
    destruct (N.eqb_spec (uc "の") c) as [<-|]; [|reflexivity]. vm_compute in H. discriminate.
  - change (Lit (u "ノ")) with (Lit (uc "ノ" :: [])). apply lit_fails. destruct s as [|c s]; [exact I|]. cbn [stops] in *.
    destruct (N.eqb_spec (uc "ノ") c) as [<-|]; [|reflexivity]. vm_compute in H. discriminate.
Qed.
Lemma stops_branches : forall (q : N -> bool) (f : N -> ustr) l s, q (uc "の") = false -> stops q s ->
  stops q (concat (map (fun n => u "の" ++ f n) l) ++ s).
Proof. intros q f [|n l] s Hq Hs; [exact Hs|]. cbn [map concat]. exact Hq. Qed.
Lemma starts_branches : forall cd l s, Forall (numeral cd) l -> stops kanji s -> stops (one_of (u "のノ")) s ->
  starts heading_branches (concat (map (fun n => u "の" ++ kan cd n) l) ++ s) [] s.
Proof.
  intros cd l s H Hk Hn. induction H as [|n l H Hl IH].
  - apply starts_star_stop. exact (branches_stop s Hn).
  - cbn [map concat]. rewrite <- !app_assoc.
    apply (starts_star_step _ _ [] (concat (map (fun n => u "の" ++ kan cd n) l) ++ s) []).
    + apply starts_branch; [exact H|]. apply stops_branches; [vm_compute; reflexivity|exact Hk].
    + change (u "の") with [uc "の"]. rewrite !app_length. cbn [length]. lia.
    + exact IH.
Qed.

Lemma starts_numeral : forall cd a z k n s, numeral cd n -> stops kanji s ->
  starts (Alts [Cap a (chars arabic); Cap z (chars zenkaku); Cap k (chars kanji)]) (kan cd n ++ s)
    [(k, kan cd n)] s.
Proof.
  intros cd a z k n s H Hs. cbn [Alts]. apply starts_alt_r.
  - apply cap_fails, plus_fails, numeral_not_class; [exact H|vm_compute; reflexivity].
  - apply starts_alt_r.
    + apply cap_fails, plus_fails, numeral_not_class; [exact H|vm_compute; reflexivity].
    + apply starts_cap. apply numeral_chars; assumption.
Qed.
Lemma suffix_stops : forall (q : N -> bool) sfx s, In sfx heading_suffixes ->
  forallb (fun c => negb (q c)) (concat heading_suffixes) = true -> stops q (sfx ++ s).
Proof.
  intros q sfx s H Hq.
  assert (X : exists c, sfx = [c] /\ In c (concat heading_suffixes)).
  { repeat (destruct H as [<-|H]; [eexists; split; [vm_compute; reflexivity|vm_compute; tauto]|]). destruct H. }
  destruct X as [c [-> Hc]]. cbn. exact (not_class_of _ _ Hq c Hc).
Qed.

Definition range_re : re :=
  Seq (Lit (u "から"))
    (Seq (Seq (Lit (u "第"))
         (Seq (Alts [Cap "arabic_num_2" (chars arabic); Cap "zenkaku_num_2" (chars zenkaku);
                     Cap "kansuji_2" (chars kanji)])
         (Seq (Cap "suffix_2" heading_suffix)
              (Cap "eda_str_2" heading_branches))))
    (Lit (u "まで"))).

Lemma starts_range : forall cd sfx n l s, In sfx heading_suffixes -> numeral cd n -> Forall (numeral cd) l ->
  starts range_re
    (u "から" ++ u "第" ++ kan cd n ++ sfx ++ concat (map (fun n => u "の" ++ kan cd n) l) ++ u "まで" ++ s)
    [("kansuji_2", kan cd n); ("suffix_2", sfx); ("eda_str_2", concat (map (fun n => u "の" ++ kan cd n) l))] s.
Proof.
  intros cd sfx n l s Hs Hn Hl. unfold range_re.
  eapply (starts_seq _ _ _ []); [apply starts_lit|].
  rewrite <- (app_nil_r [("kansuji_2", _); _; _]). eapply starts_seq; [|apply starts_lit].
  eapply (starts_seq _ _ _ []); [apply starts_lit|].
  eapply (starts_seq _ _ _ [("kansuji_2", kan cd n)]).
  - apply starts_numeral; [exact Hn|]. apply suffix_stops; [exact Hs|vm_compute; reflexivity].
  - eapply (starts_seq _ _ _ [("suffix_2", sfx)]); [apply starts_cap, starts_suffix, Hs|].
    apply starts_cap. apply starts_branches; [exact Hl|vm_compute; reflexivity|vm_compute; reflexivity].
Qed.

Definition range_caps (cd : codec) (sfx : ustr) (r : list N) : caps :=
  match r with
  | [] => []
  | n :: l => [("kansuji_2", kan cd n); ("suffix_2", sfx); ("eda_str_2", concat (map (fun n => u "の" ++ kan cd n) l))]
  end.
Lemma not_followed_stops : forall l s (q : N -> bool), not_followed_by l s -> (forall c, q c = true -> In c l) -> stops q s.
Proof.
  intros l [|c s] q H Hq; cbn in *; [exact I|]. destruct (q c) eqn:E; [|reflexivity]. exfalso. exact (H (Hq c E)).
Qed.
Lemma sub_list : forall l m c, forallb (one_of m) l = true -> one_of l c = true -> In c m.
Proof. intros l m c H Hc. apply one_of_in in Hc. apply one_of_in. exact (class_of _ _ H c Hc). Qed.

Lemma heading_captures : forall cd sfx a rest, In sfx heading_suffixes -> Forall (numeral cd) (numbers a) ->
  (range_end_numbers a = [] -> heading_follow rest) ->
  captures re_article (gen_articles_text cd sfx a ++ rest) =
  Some (("kansuji", kan cd (base_number a)) :: ("suffix", sfx)
        :: ("eda_str", concat (map (fun n => u "の" ++ kan cd n) (eda_numbers a)))
        :: range_caps cd sfx (range_end_numbers a)).
Proof.
  intros cd sfx [b e r] rest Hs Hn Hf. cbn [base_number eda_numbers range_end_numbers] in *.
  unfold numbers in Hn. cbn [base_number eda_numbers range_end_numbers] in Hn.
  inversion_clear Hn as [|? ? Hb Her]. apply Forall_app in Her as [He Hr].
  unfold gen_articles_text. cbn [base_number eda_numbers range_end_numbers]. rewrite <- !app_assoc.
  set (tail := match r with [] => [] | n :: l => _ end ++ rest).
  assert (Ht : stops kanji tail /\ stops (one_of (u "のノ")) tail).
  { destruct r as [|n l]; subst tail.
    - destruct (Hf eq_refl) as [Hf1 _]. cbn [app]. split; eapply not_followed_stops; try exact Hf1.
      + intros c. apply sub_list. vm_compute. reflexivity.
      + intros c. apply sub_list. vm_compute. reflexivity.
    - split; vm_compute; reflexivity. }
  apply (starts_captures _ _ _ rest).
  unfold re_article. eapply (starts_seq _ _ _ []); [apply starts_alt_l, starts_lit|].
  eapply (starts_seq _ _ _ [("kansuji", _)]).
  { apply starts_numeral; [exact Hb|]. apply suffix_stops; [exact Hs|vm_compute; reflexivity]. }
  eapply (starts_seq _ _ _ [("suffix", sfx)]); [apply starts_cap, starts_suffix, Hs|].
  eapply (starts_seq _ _ _ [("eda_str", _)]); [apply starts_cap, starts_branches; [exact He|apply Ht|apply Ht]|].
  destruct r as [|n l]; subst tail.
  - cbn [range_caps app]. apply starts_opt_skip. apply seq_fails_r. intros c s' Hi. apply lit_in in Hi as [_ ->].
    apply seq_fails_l. apply seq_fails_l. apply lit_absent. intros w E. destruct (Hf eq_refl) as [_ H].
    apply (H w). change (u "から第") with (u "から" ++ u "第"). rewrite <- app_assoc, E. reflexivity.
  - cbn [range_caps]. apply starts_alt_l. inversion_clear Hr. change (u "から第") with (u "から" ++ u "第").
    rewrite <- !app_assoc. exact (starts_range cd sfx n l rest Hs H H0).
Qed.
Lemma absent_no : forall cd n, numeral cd n -> ~ In (uc "の") (kan cd n).
Proof. intros. apply numeral_absent; [assumption|vm_compute; reflexivity]. Qed.

Theorem heading_roundtrip : forall cd sfx a rest, In sfx heading_suffixes -> Forall (numeral cd) (numbers a) ->
  (range_end_numbers a = [] -> heading_follow rest) ->
  parse_article_number cd (gen_articles_text cd sfx a ++ rest) = Ok (Some a).
Proof.
  intros cd sfx a rest Hs Hn Hf. unfold parse_article_number.
  rewrite (heading_captures cd sfx a rest Hs Hn Hf). destruct a as [b e r].
  cbn [base_number eda_numbers range_end_numbers] in *.
  unfold numbers in Hn. cbn [base_number eda_numbers range_end_numbers] in Hn.
  inversion_clear Hn as [|? ? Hb Her]. apply Forall_app in Her as [He Hr]. rewrite Forall_forall in He.
  pose proof Hb as [_ [_ [Hub Hbb]]].
  assert (Xr : forall g, group g (range_caps cd sfx r) =
     match r with [] => None | n :: l => group g [("kansuji_2", kan cd n); ("suffix_2", sfx); ("eda_str_2", concat (map (fun n => u "の" ++ kan cd n) l))] end)
    by (intros g; destruct r; reflexivity).
  unfold read_heading, heading_number, group_text. cbn [group String.eqb Ascii.eqb Bool.eqb].
  rewrite !Xr. rewrite Hub.
  assert (Xe : all_some (branch_number cd) (branches (replace (uc "ノ") (uc "の")
     (concat (map (fun n => u "の" ++ kan cd n) e)))) = Some e).
  { rewrite replace_absent.
    - rewrite branches_concat; [|intros; apply absent_no; auto|intros n Hi; destruct (He n Hi); assumption].
      apply all_some_map. intros n Hi. apply branch_number_numeral. auto.
    - change (u "の") with [uc "の"]. apply concat_absent; [vm_compute; discriminate|].
      intros n Hi. apply numeral_absent; [auto|vm_compute; reflexivity]. }
  destruct r as [|n l].
  - cbn [bind option_map unwrap]. rewrite Xe. cbn [bind].
    unfold as_usize. rewrite N.mod_small by exact Hbb. reflexivity.
  - inversion_clear Hr as [|? ? Hn Hl]. rewrite Forall_forall in Hl. pose proof Hn as [_ [_ [Hun Hnb]]].
    cbn [bind option_map unwrap group String.eqb Ascii.eqb Bool.eqb]. rewrite Xe. cbn [bind]. rewrite Hun. cbn [option_map bind].
    rewrite branches_concat; [|intros; apply absent_no; auto|intros m Hi; destruct (Hl m Hi); assumption].
    rewrite all_some_map by (intros m Hi; apply branch_number_numeral; auto).
    unfold as_usize. rewrite !N.mod_small by assumption. reflexivity.
Qed.
