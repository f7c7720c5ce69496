(** Facts about item labels. *)
From Coq Require Import String Ascii List NArith ZArith Bool Arith Lia.
From Verif Require Import Base BaseFacts NumStr NumStrSpec NumStrFacts Regex RegexFacts NumText NumTextSpec NumTextFacts HeadingFacts LabelFacts.
Import ListNotations.
Open Scope string_scope.
Open Scope list_scope.

(** ** No range *)
Theorem item_no_range : forall cd s i, parse_item_number cd s = Ok (Some i) -> inum_range i = [].
Proof.
  intros cd s i H. unfold parse_item_number in H. destruct (captures re_item (trim s)) as [c|] eqn:E; [|discriminate].
  assert (G1 : group "base_number_2" c = None) by (eapply group_absent; [exact E|cbv; intuition discriminate]).
  assert (G2 : group "eda_number_2" c = None) by (eapply group_absent; [exact E|cbv; intuition discriminate]).
  rewrite G1, G2 in H. destruct (group_text "base_number" c) as [b| |]; try discriminate. cbn [bind] in H.
  destruct (parse_item_number_base cd b) as [[[pat base]|]| |]; try discriminate. cbn [bind] in H.
  destruct (match group "eda_numbers" c with Some m => _ | None => _ end) as [e| |]; try discriminate.
  cbn [bind app] in H. injection H as <-. reflexivity.
Qed.
Theorem item_keeps_text : forall cd s i, parse_item_number cd s = Ok (Some i) -> inum_str i = s.
Proof.
  intros cd s i H. unfold parse_item_number in H. destruct (captures re_item (trim s)) as [c|]; [|discriminate].
  destruct (group_text "base_number" c) as [b| |]; try discriminate. cbn [bind] in H.
  destruct (parse_item_number_base cd b) as [[[pat base]|]| |]; try discriminate. cbn [bind] in H.
  destruct (match group "eda_numbers" c with Some m => _ | None => _ end) as [e| |]; try discriminate. cbn [bind] in H.
  destruct (match group "base_number_2" c with Some m => _ | None => _ end) as [r1| |]; try discriminate. cbn [bind] in H.
  destruct (match group "eda_number_2" c with Some m => _ | None => _ end) as [r2| |]; try discriminate.
  cbn [bind] in H. injection H as <-. reflexivity.
Qed.

(** ** Character classes *)
Lemma katakana_range : forall c, katakana c = true <-> (12450 <= c <= 12531)%N.
Proof. intros c. exact (in_range_true 12450 12531 c). Qed.
Lemma hiragana_range : forall c, hiragana c = true <-> (12354 <= c <= 12435)%N.
Proof. intros c. exact (in_range_true 12354 12435 c). Qed.
Lemma zenkaku_range : forall c, zenkaku c = true <-> (65296 <= c <= 65305)%N.
Proof. intros c. exact (in_range_true 65296 65305 c). Qed.
Lemma upper_range : forall c, upper c = true <-> (65313 <= c <= 65338)%N.
Proof. intros c. exact (in_range_true 65313 65338 c). Qed.
Lemma lower_range : forall c, lower c = true <-> (65345 <= c <= 65370)%N.
Proof. intros c. exact (in_range_true 65345 65370 c). Qed.
Definition kanji_span (c : N) : bool := in_range 19968 30334 c.
Lemma kanji_list_span : forallb kanji_span kanji_list = true.
Proof. vm_compute. reflexivity. Qed.
Lemma kanji_range : forall c, kanji c = true -> (19968 <= c <= 30334)%N.
Proof.
  intros c H. apply kanji_in in H. apply (class_of _ _ kanji_list_span) in H. apply in_range_true in H. exact H.
Qed.

Inductive cls := CKata | CHira | CKanji | CZen | CUp | CLow.
Definition pred (k : cls) : N -> bool :=
  match k with CKata => katakana | CHira => hiragana | CKanji => kanji | CZen => zenkaku | CUp => upper | CLow => lower end.
Lemma pred_range : forall k c, pred k c = true ->
  match k with
  | CKata => 12450 <= c <= 12531 | CHira => 12354 <= c <= 12435 | CKanji => 19968 <= c <= 30334
  | CZen => 65296 <= c <= 65305 | CUp => 65313 <= c <= 65338 | CLow => 65345 <= c <= 65370
  end%N.
Proof.
  intros [] c H; cbn [pred] in H.
  - apply katakana_range, H.
  - apply hiragana_range, H.
  - apply kanji_range, H.
  - apply zenkaku_range, H.
  - apply upper_range, H.
  - apply lower_range, H.
Qed.
Lemma pred_disjoint : forall k j c, k <> j -> pred k c = true -> pred j c = false.
Proof.
  intros k j c Hkj H. destruct (pred j c) eqn:E; [|reflexivity]. exfalso.
  apply pred_range in H. apply pred_range in E. destruct k, j; try (apply Hkj; reflexivity); lia.
Qed.
Lemma run_stops : forall k j w t, k <> j -> w <> [] -> Forall (fun c => pred k c = true) w -> stops (pred j) (w ++ t).
Proof.
  intros k j w t Hkj Hn Hw. destruct Hw as [|c w Hc _]; [contradiction|]. cbn. exact (pred_disjoint k j c Hkj Hc).
Qed.
Lemma run_stops_char : forall k x w t, pred k x = false -> w <> [] -> Forall (fun c => pred k c = true) w ->
  stops (N.eqb x) (w ++ t).
Proof.
  intros k x w t Hx Hn Hw. destruct Hw as [|c w Hc _]; [contradiction|]. cbn.
  destruct (N.eqb_spec x c) as [->|]; [congruence|reflexivity].
Qed.

Definition plain_name (k : cls) : string :=
  match k with
  | CKata => "no_paren_iroha_katakana" | CHira => "no_paren_iroha_hiragana" | CKanji => "no_paren_kansuji"
  | CZen => "no_paren_zenkaku_num" | CUp => "no_paren_zenkaku_upper" | CLow => "no_paren_zenkaku_lower"
  end.
Definition paren_name (k : cls) : string :=
  match k with
  | CKata => "paren_iroha_katakana" | CHira => "paren_iroha_hiragana" | CKanji => "paren_kansuji"
  | CZen => "paren_zenkaku_num" | CUp => "paren_zenkaku_upper" | CLow => "paren_zenkaku_lower"
  end.
Definition run (k : cls) (w : ustr) : Prop := w <> [] /\ Forall (fun c => pred k c = true) w.

Ltac skip_class k Hw Hn :=
  match goal with
  | |- starts (Alt (chars ?p) _) _ _ _ => apply starts_alt_r; [apply plus_fails|]
  | |- starts (Alt (Cap _ (chars ?p)) _) _ _ _ => apply starts_alt_r; [apply cap_fails, plus_fails|]
  end.

Lemma starts_class : forall k w t, run k w -> stops (pred k) t -> starts item_class (w ++ t) [] t.
Proof.
  intros k w t [Hn Hw] Ht. unfold item_class. cbn [Alts].
  assert (S : forall j, k <> j -> exec (chars (pred j)) (w ++ t) = [])
    by (intros j Hj; apply plus_fails; exact (run_stops k j w t Hj Hn Hw)).
  pose proof (starts_plus_chars (pred k) w t Hn Hw Ht) as Y.
  destruct k.
  - apply starts_alt_l. exact Y.
  - apply starts_alt_r; [apply (S CKata); discriminate|]. apply starts_alt_l. exact Y.
  - apply starts_alt_r; [apply (S CKata); discriminate|]. apply starts_alt_r; [apply (S CHira); discriminate|].
    apply starts_alt_l. exact Y.
  - apply starts_alt_r; [apply (S CKata); discriminate|]. apply starts_alt_r; [apply (S CHira); discriminate|].
    apply starts_alt_r; [apply (S CKanji); discriminate|]. apply starts_alt_l. exact Y.
  - apply starts_alt_r; [apply (S CKata); discriminate|]. apply starts_alt_r; [apply (S CHira); discriminate|].
    apply starts_alt_r; [apply (S CKanji); discriminate|]. apply starts_alt_r; [apply (S CZen); discriminate|].
    apply starts_alt_l. exact Y.
  - apply starts_alt_r; [apply (S CKata); discriminate|]. apply starts_alt_r; [apply (S CHira); discriminate|].
    apply starts_alt_r; [apply (S CKanji); discriminate|]. apply starts_alt_r; [apply (S CZen); discriminate|].
    apply starts_alt_r; [apply (S CUp); discriminate|]. exact Y.
Qed.
Lemma starts_named : forall (name : cls -> string) k w t, run k w -> stops (pred k) t ->
  starts (Alts [Cap (name CKata) (chars katakana); Cap (name CHira) (chars hiragana);
                Cap (name CKanji) (chars kanji); Cap (name CZen) (chars zenkaku);
                Cap (name CUp) (chars upper); Cap (name CLow) (chars lower)]) (w ++ t) [(name k, w)] t.
Proof.
  intros name k w t [Hn Hw] Ht. cbn [Alts].
  assert (S : forall j, k <> j -> exec (Cap (name j) (chars (pred j))) (w ++ t) = [])
    by (intros j Hj; apply cap_fails, plus_fails; exact (run_stops k j w t Hj Hn Hw)).
  pose proof (starts_cap (name k) _ w [] t (starts_plus_chars (pred k) w t Hn Hw Ht)) as Y.
  destruct k.
  - apply starts_alt_l. exact Y.
  - apply starts_alt_r; [apply (S CKata); discriminate|]. apply starts_alt_l. exact Y.
  - apply starts_alt_r; [apply (S CKata); discriminate|]. apply starts_alt_r; [apply (S CHira); discriminate|].
    apply starts_alt_l. exact Y.
  - apply starts_alt_r; [apply (S CKata); discriminate|]. apply starts_alt_r; [apply (S CHira); discriminate|].
    apply starts_alt_r; [apply (S CKanji); discriminate|]. apply starts_alt_l. exact Y.
  - apply starts_alt_r; [apply (S CKata); discriminate|]. apply starts_alt_r; [apply (S CHira); discriminate|].
    apply starts_alt_r; [apply (S CKanji); discriminate|]. apply starts_alt_r; [apply (S CZen); discriminate|].
    apply starts_alt_l. exact Y.
  - apply starts_alt_r; [apply (S CKata); discriminate|]. apply starts_alt_r; [apply (S CHira); discriminate|].
    apply starts_alt_r; [apply (S CKanji); discriminate|]. apply starts_alt_r; [apply (S CZen); discriminate|].
    apply starts_alt_r; [apply (S CUp); discriminate|]. exact Y.
Qed.

(** The characters around numbers are in no class but the hiragana. *)
Lemma mark_open : forall k, pred k (uc "（") = false.
Proof. intros []; vm_compute; reflexivity. Qed.
Lemma mark_close : forall k, pred k (uc "）") = false.
Proof. intros []; vm_compute; reflexivity. Qed.
Lemma mark_no : forall k, k <> CHira -> pred k (uc "の") = false.
Proof. intros [] H; try (vm_compute; reflexivity). contradiction. Qed.
Lemma mark_ka : forall k, k <> CHira -> pred k (uc "か") = false.
Proof. intros [] H; try (vm_compute; reflexivity). contradiction. Qed.
Lemma mark_ma : forall k, k <> CHira -> pred k (uc "ま") = false.
Proof. intros [] H; try (vm_compute; reflexivity). contradiction. Qed.

(** ** One number *)
Definition wrap (b : bool) (w : ustr) : ustr := if b then paren w else w.
Lemma starts_one : forall b k w t, run k w -> (b = false -> stops (pred k) t) ->
  starts item_one (wrap b w ++ t) [] t.
Proof.
  intros [] k w t Hw Ht; unfold item_one, wrap.
  - apply starts_alt_l. unfold paren. rewrite <- !app_assoc.
    apply (starts_seq _ _ _ [] (w ++ u "）" ++ t) []); [apply starts_lit|].
    apply (starts_seq _ _ _ [] (u "）" ++ t) []); [|apply starts_lit].
    apply (starts_class k); [exact Hw|]. exact (mark_close k).
  - apply starts_alt_r; [|apply (starts_class k); auto].
    change (Lit (u "（")) with (Lit (uc "（" :: [])). apply seq_fails_l, lit_fails.
    destruct Hw as [Hn Hw]. exact (run_stops_char k _ w t (mark_open k) Hn Hw).
Qed.

Definition reader (cd : codec) (b : bool) (k : cls) : ustr -> R (ItemPattern * N) :=
  match k, b with
  | CKata, false => read_plain parse_iroha_katakana NoParenIrohaKatakana
  | CHira, false => read_plain parse_iroha_hiragana NoParenIrohaHiragana
  | CKanji, false => read_kansuji cd NoParenKansuji
  | CZen, false => read_plain parse_zenkaku_num NoParenZenkakuNum
  | CUp, false => read_letters cd NoParenZenkakuRomanUpper NoParenZenkakuUpper
  | CLow, false => read_letters cd NoParenZenkakuRomanLower NoParenZenkakuLower
  | CKata, true => read_plain parse_iroha_katakana ParenIrohaKatakana
  | CHira, true => read_plain parse_iroha_hiragana ParenIrohaHiragana
  | CKanji, true => read_kansuji cd ParenKansuji
  | CZen, true => read_plain parse_zenkaku_num ParenZenkakuNum
  | CUp, true => read_letters cd ParenZenkakuRomanUpper ParenZenkakuUpper
  | CLow, true => read_letters cd ParenZenkakuRomanLower ParenZenkakuLower
  end.
Lemma base_read : forall cd b k w, run k w ->
  parse_item_number_base cd (wrap b w) = rmap Some (reader cd b k w).
Proof.
  intros cd b k w Hw. unfold parse_item_number_base.
  assert (C : captures re_item_base (wrap b w) = Some [("str", wrap b w); (if b then paren_name k else plain_name k, w)]).
  { apply (starts_captures _ _ _ []). rewrite <- (app_nil_r (wrap b w)) at 1. unfold re_item_base. apply starts_cap.
    rewrite app_nil_r. destruct b; unfold wrap.
    - apply starts_alt_l. unfold paren.
      apply (starts_seq _ _ _ [] (w ++ u "）") [(paren_name k, w)]); [apply starts_lit|].
      rewrite <- (app_nil_r (u "）")).
      apply (starts_seq _ _ _ [(paren_name k, w)] (u "）" ++ []) []); [|apply starts_lit].
      apply (starts_named paren_name k); [exact Hw|]. exact (mark_close k).
    - rewrite <- (app_nil_r w). apply starts_alt_r.
      + change (Lit (u "（")) with (Lit (uc "（" :: [])). apply seq_fails_l, lit_fails.
        destruct Hw as [Hn Hw]. exact (run_stops_char k _ w [] (mark_open k) Hn Hw).
      + rewrite app_nil_r at 2. apply (starts_named plain_name k); [exact Hw|exact I]. }
  rewrite C. assert (F : first_reader (item_readers cd) [("str", wrap b w); (if b then paren_name k else plain_name k, w)] = reader cd b k w)
    by (destruct b, k; reflexivity).
  rewrite F. destruct (reader cd b k w); reflexivity.
Qed.

(** ** A whole label *)
Definition branch_text (ws : list ustr) : ustr := concat (map (fun w => u "の" ++ w) ws).
Lemma starts_item_branches : forall k ws t, k <> CHira -> Forall (run k) ws -> stops (pred k) t -> stops (N.eqb (uc "の")) t ->
  starts (Star (Seq (Lit (u "の")) item_one)) (branch_text ws ++ t) [] t.
Proof.
  intros k ws t Hk Hws Ht Hn. unfold branch_text. induction Hws as [|w ws Hw Hws IH].
  - apply starts_star_stop, seq_fails_l. change (Lit (u "の")) with (Lit (uc "の" :: [])). apply lit_fails, Hn.
  - cbn [map concat]. rewrite <- !app_assoc.
    apply (starts_star_step _ _ [] (concat (map (fun w => u "の" ++ w) ws) ++ t) []).
    + apply (starts_seq _ _ _ [] (w ++ concat (map (fun w => u "の" ++ w) ws) ++ t) []); [apply starts_lit|].
      apply (starts_one false k); [exact Hw|]. intros _. destruct ws as [|w' ws]; [exact Ht|].
      exact (mark_no k Hk).
    + change (u "の") with [uc "の"]. rewrite !app_length. cbn [length]. lia.
    + exact IH.
Qed.
Definition eda_caps (n : string) (ws : list ustr) : caps :=
  match ws with [] => [] | _ => [(n, branch_text ws)] end.
Lemma starts_opt_branches : forall n k ws t, k <> CHira -> Forall (run k) ws -> stops (pred k) t -> stops (N.eqb (uc "の")) t ->
  starts (Opt (Cap n item_branches)) (branch_text ws ++ t) (eda_caps n ws) t.
Proof.
  intros n k [|w ws] t Hk Hws Ht Hn.
  - apply starts_opt_skip, cap_fails. unfold item_branches, Plus. apply seq_fails_l, seq_fails_l.
    change (Lit (u "の")) with (Lit (uc "の" :: [])). apply lit_fails, Hn.
  - inversion_clear Hws as [|? ? Hw Hws']. apply starts_alt_l. cbn [eda_caps]. apply starts_cap.
    unfold item_branches, Plus.
    change (branch_text (w :: ws)) with ((u "の" ++ w) ++ branch_text ws). rewrite <- !app_assoc.
    apply (starts_seq _ _ _ [] (branch_text ws ++ t) []).
    + apply (starts_seq _ _ _ [] (w ++ branch_text ws ++ t) []); [apply starts_lit|].
      apply (starts_one false k); [exact Hw|]. intros _. destruct ws as [|w' ws]; [exact Ht|]. exact (mark_no k Hk).
    + apply (starts_item_branches k); assumption.
Qed.

(** A label: base number, branch numbers, and perhaps the end of a range. *)
Definition range_text (r : option (ustr * list ustr)) : ustr :=
  match r with None => [] | Some (b, ws) => u "から" ++ b ++ branch_text ws ++ u "まで" end.
Definition base_run (k : cls) (x : ustr) : Prop := exists b w, run k w /\ x = wrap b w.

Lemma stops_range : forall k r, k <> CHira -> stops (pred k) (range_text r).
Proof. intros k [[b ws]|] H; [exact (mark_ka k H)|exact I]. Qed.
Lemma range_caps_names : forall r : option (ustr * list ustr), exists c : caps,
  c = match r with None => [] | Some (b, ws) => ("base_number2", b) :: eda_caps "eda_numbers2" ws end.
Proof. eauto. Qed.
Lemma label_match : forall k1 k2 x ws r, k1 <> CHira -> k2 <> CHira -> base_run k1 x -> Forall (run k2) ws ->
  match r with None => True | Some (y, vs) => base_run k1 y /\ Forall (run k2) vs end ->
  captures re_item (x ++ branch_text ws ++ range_text r) =
  Some (("base_number", x) :: eda_caps "eda_numbers" ws
        ++ match r with None => [] | Some (y, vs) => ("base_number2", y) :: eda_caps "eda_numbers2" vs end).
Proof.
  intros k1 k2 x ws r H1 H2 [b [w [Hw ->]]] Hws Hr. apply (starts_captures _ _ _ []). unfold re_item.
  assert (S : forall k ws t, k <> CHira -> stops (pred k) t -> stops (pred k) (branch_text ws ++ t)).
  { intros k [|v vs] t Hk Ht; [exact Ht|]. exact (mark_no k Hk). }
  apply (starts_seq _ _ _ [("base_number", wrap b w)] (branch_text ws ++ range_text r)).
  { apply starts_cap, (starts_one b k1); [exact Hw|]. intros _. apply S; [exact H1|]. apply stops_range, H1. }
  apply (starts_seq _ _ _ (eda_caps "eda_numbers" ws) (range_text r)).
  { apply (starts_opt_branches _ k2); try assumption; [apply stops_range, H2|]. destruct r as [[y vs]|]; [vm_compute; reflexivity|exact I]. }
  rewrite <- (app_nil_r (match r with None => [] | Some _ => _ end)).
  eapply starts_seq; [|apply starts_end]. destruct r as [[y vs]|].
  - destruct Hr as [[b' [w' [Hw' ->]]] Hvs]. apply starts_alt_l. cbn [range_text].
    apply (starts_seq _ _ _ [] (wrap b' w' ++ branch_text vs ++ u "まで")); [apply starts_lit|].
    apply (starts_seq _ _ _ [("base_number2", wrap b' w')] (branch_text vs ++ u "まで")).
    { apply starts_cap, (starts_one b' k1); [exact Hw'|]. intros _. apply S; [exact H1|]. exact (mark_ma k1 H1). }
    rewrite <- (app_nil_r (eda_caps "eda_numbers2" vs)).
    apply (starts_seq _ _ _ (eda_caps "eda_numbers2" vs) (u "まで")).
    { apply (starts_opt_branches _ k2); try assumption; [exact (mark_ma k2 H2)|vm_compute; reflexivity]. }
    rewrite <- (app_nil_r (u "まで")). apply starts_lit.
  - apply starts_opt_skip. reflexivity.
Qed.

Lemma branches_text : forall k ws, k <> CHira -> Forall (run k) ws -> branches (branch_text ws) = ws.
Proof.
  intros k ws Hk H. unfold branch_text, branches. change (u "の") with [uc "の"].
  assert (E : usplit (uc "の") (concat (map (fun w => [uc "の"] ++ w) ws)) = [] :: ws).
  { clear -Hk H. induction H as [|w ws [Hn Hw] Hws IH]; [reflexivity|]. cbn [map concat app usplit].
    rewrite N.eqb_refl. f_equal. change (fun w0 => uc "の" :: w0) with (fun w0 => [uc "の"] ++ w0). rewrite usplit_app.
    - rewrite IH, app_nil_r. reflexivity.
    - intros Hi. rewrite Forall_forall in Hw. specialize (Hw _ Hi). rewrite (mark_no k Hk) in Hw. discriminate. }
  rewrite E. cbn [filter non_empty]. clear E. induction H as [|w ws [Hn Hw] Hws IH]; [reflexivity|]. cbn [filter].
  destruct w; [contradiction|]. cbn [non_empty]. f_equal. exact IH.
Qed.

(** White space around a label. *)
Lemma trim_start_pad : forall p s, Forall (fun c => is_space c = true) p -> trim_start (p ++ s) = trim_start s.
Proof. intros p s H. induction H as [|c p Hc _ IH]; [reflexivity|]. cbn. rewrite Hc. exact IH. Qed.
Lemma trim_start_id : forall s, Forall (fun c => is_space c = false) s -> trim_start s = s.
Proof. intros s H. destruct H as [|c s Hc _]; [reflexivity|]. cbn. rewrite Hc. reflexivity. Qed.
Lemma trim_pad : forall p s q, Forall (fun c => is_space c = true) p -> Forall (fun c => is_space c = true) q ->
  Forall (fun c => is_space c = false) s -> trim (p ++ s ++ q) = s.
Proof.
  intros p s q Hp Hq Hs. unfold trim. rewrite trim_start_pad by exact Hp.
  destruct s as [|c s].
  - cbn [app]. rewrite <- (app_nil_r q) at 1. rewrite trim_start_pad by exact Hq. reflexivity.
  - assert (E : trim_start ((c :: s) ++ q) = (c :: s) ++ q).
    { inversion_clear Hs as [|? ? Hc _]. cbn. rewrite Hc. reflexivity. }
    rewrite E, rev_app_distr. rewrite trim_start_pad by (apply Forall_rev, Hq).
    rewrite trim_start_id by (apply Forall_rev, Hs). apply rev_involutive.
Qed.

Definition space_free (c : N) : bool := negb (is_space c).
Lemma not_space : forall c, (12288 < c)%N -> is_space c = false.
Proof.
  intros c H. unfold is_space, in_range.
  repeat match goal with
  | |- context [N.eqb c ?k] => replace (N.eqb c k) with false by (symmetry; apply N.eqb_neq; lia)
  | |- context [N.leb ?k c && N.leb c ?m] => replace (N.leb k c && N.leb c m) with false
      by (symmetry; apply andb_false_iff; right; apply N.leb_gt; lia)
  end. reflexivity.
Qed.
Lemma run_no_space : forall k w, Forall (fun c => pred k c = true) w -> Forall (fun c => is_space c = false) w.
Proof.
  intros k w H. eapply Forall_impl; [|exact H]. intros c Hc. apply pred_range in Hc.
  apply not_space; destruct k; lia.
Qed.
Lemma literal_no_space : forall s, forallb space_free s = true -> Forall (fun c => is_space c = false) s.
Proof.
  intros s H. rewrite forallb_forall in H. apply Forall_forall. intros c Hc. apply negb_true_iff. exact (H c Hc).
Qed.
Lemma base_no_space : forall k x, base_run k x -> Forall (fun c => is_space c = false) x.
Proof.
  intros k x [[] [w [[_ Hw] ->]]]; unfold wrap; [unfold paren; apply Forall_app; split; [apply literal_no_space; vm_compute; reflexivity|]|].
  - apply Forall_app. split; [apply (run_no_space k), Hw|apply literal_no_space; vm_compute; reflexivity].
  - apply (run_no_space k), Hw.
Qed.
Lemma branches_no_space : forall k ws, Forall (run k) ws -> Forall (fun c => is_space c = false) (branch_text ws).
Proof.
  intros k ws H. unfold branch_text. induction H as [|w ws [_ Hw] _ IH]; [constructor|]. cbn [map concat].
  apply Forall_app. split; [apply Forall_app; split|exact IH].
  - apply literal_no_space. vm_compute. reflexivity.
  - apply (run_no_space k), Hw.
Qed.
Lemma range_no_space : forall k1 k2 r,
  match r with None => True | Some (y, vs) => base_run k1 y /\ Forall (run k2) vs end ->
  Forall (fun c => is_space c = false) (range_text r).
Proof.
  intros k1 k2 [[y vs]|] H; [|constructor]. destruct H as [H1 H2]. cbn [range_text]. apply Forall_app. split.
  - apply literal_no_space. vm_compute. reflexivity.
  - apply Forall_app. split; [apply (base_no_space k1), H1|]. apply Forall_app. split.
    + apply (branches_no_space k2), H2.
    + apply literal_no_space. vm_compute. reflexivity.
Qed.

(** What a label is read as. *)
Theorem label_reads : forall cd k1 k2 b w ws es r pat n p q, k1 <> CHira -> k2 <> CHira -> run k1 w ->
  reader cd b k1 w = Ok (pat, n) ->
  Forall (run k2) ws -> map (fun v => reader cd false k2 v) ws = map (fun x : ItemPattern * N => Ok x) es ->
  match r with None => True | Some (y, vs) => base_run k1 y /\ Forall (run k2) vs end ->
  Forall (fun c => is_space c = true) p -> Forall (fun c => is_space c = true) q ->
  let s := p ++ (wrap b w ++ branch_text ws ++ range_text r) ++ q in
  parse_item_number cd s = Ok (Some (mkIN s n (map snd es) [] pat)).
Proof.
  intros cd k1 k2 b w ws es r pat n p q H1 H2 Hw Hb Hws Hes Hr Hp Hq s.
  assert (Hx : base_run k1 (wrap b w)) by (exists b, w; auto).
  unfold parse_item_number. unfold s at 1. rewrite trim_pad; [|exact Hp|exact Hq|].
  2: { apply Forall_app. split; [apply (base_no_space k1), Hx|]. apply Forall_app.
       split; [apply (branches_no_space k2), Hws|apply (range_no_space k1 k2), Hr]. }
  rewrite (label_match k1 k2 _ _ _ H1 H2 Hx Hws Hr). unfold group_text.
  set (c := ("base_number", wrap b w) :: _).
  assert (G0 : group "base_number" c = Some (wrap b w)) by reflexivity.
  assert (G1 : group "eda_numbers" c = match ws with [] => None | _ => Some (branch_text ws) end).
  { subst c. destruct ws; [|reflexivity]. destruct r as [[y [|v vs]]|]; reflexivity. }
  assert (G2 : group "base_number_2" c = None) by (subst c; destruct ws; destruct r as [[y [|v vs]]|]; reflexivity).
  assert (G3 : group "eda_number_2" c = None) by (subst c; destruct ws; destruct r as [[y [|v vs]]|]; reflexivity).
  rewrite G0, G1, G2, G3. cbn [unwrap bind]. rewrite (base_read cd b k1 w Hw), Hb. cbn [rmap bind].
  assert (E : match (match ws with [] => None | _ => Some (branch_text ws) end) with
              | Some m => item_branch_numbers cd (branches m) | None => Ok [] end = Ok (map snd es)).
  { assert (F : item_branch_numbers cd ws = Ok (map snd es)).
    { clear -Hws Hes. revert es Hes. induction Hws as [|v vs Hv Hvs IH]; intros [|[pt m] es] Hes; try discriminate; [reflexivity|].
      cbn [map] in Hes. injection Hes as E1 E2. cbn [item_branch_numbers map snd].
      change v with (wrap false v). rewrite (base_read cd false k2 v Hv), E1. cbn [rmap bind].
      rewrite (IH es E2). reflexivity. }
    destruct ws as [|v vs]; [destruct es; [reflexivity|discriminate]|].
    rewrite (branches_text k2) by assumption. exact F. }
  rewrite E. reflexivity.
Qed.
