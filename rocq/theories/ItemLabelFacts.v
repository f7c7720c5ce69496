(** Facts about writing and reading item labels. *)
From Coq Require Import String Ascii List NArith ZArith Bool Arith Lia.
From Verif Require Import Base BaseFacts NumStr NumStrSpec NumStrFacts Regex RegexFacts NumText NumTextSpec NumTextFacts HeadingFacts LabelFacts ItemFacts.
Import ListNotations.
Open Scope string_scope.
Open Scope list_scope.

(** ** Writing one number *)
Lemma iroha_run : forall poem k s n, forallb (pred k) poem = true -> iroha_number poem s n -> run k s.
Proof.
  intros poem k s n H [i [c [Hi [-> _]]]]. split; [discriminate|]. constructor; [|constructor].
  rewrite forallb_forall in H. apply H. eapply nth_error_In, Hi.
Qed.
Lemma katakana_poem : forallb (pred CKata) iroha_katakana = true.
Proof. vm_compute. reflexivity. Qed.
Lemma hiragana_poem : forallb (pred CHira) iroha_hiragana = true.
Proof. vm_compute. reflexivity. Qed.

Definition roman_up (c : N) : N :=
  if N.eqb c 73 then 65321%N else if N.eqb c 88 then 65336%N else if N.eqb c 76 then 65324%N
  else if N.eqb c 67 then 65315%N else c.
Definition roman_low (c : N) : N :=
  if N.eqb c 73 then 65353%N else if N.eqb c 88 then 65368%N else if N.eqb c 76 then 65356%N
  else if N.eqb c 67 then 65347%N else c.
Lemma roman_up_map : forall s,
  replace (uc "C") (uc "Ｃ") (replace (uc "L") (uc "Ｌ") (replace (uc "X") (uc "Ｘ") (replace (uc "I") (uc "Ｉ") s))) = map roman_up s.
Proof.
  intros s. rewrite !map_replace, !map_map. apply map_ext. intros c.
  change (uc "C") with 67%N. change (uc "L") with 76%N. change (uc "X") with 88%N. change (uc "I") with 73%N.
  change (uc "Ｃ") with 65315%N. change (uc "Ｌ") with 65324%N. change (uc "Ｘ") with 65336%N. change (uc "Ｉ") with 65321%N.
  unfold roman_up.
  destruct (N.eqb_spec c 73) as [->|]; [reflexivity|]. destruct (N.eqb_spec c 88) as [->|]; [reflexivity|].
  destruct (N.eqb_spec c 76) as [->|]; [reflexivity|]. destruct (N.eqb_spec c 67) as [->|]; reflexivity.
Qed.
Lemma roman_low_map : forall s,
  replace (uc "C") (uc "ｃ") (replace (uc "L") (uc "ｌ") (replace (uc "X") (uc "ｘ") (replace (uc "I") (uc "ｉ") s))) = map roman_low s.
Proof.
  intros s. rewrite !map_replace, !map_map. apply map_ext. intros c.
  change (uc "C") with 67%N. change (uc "L") with 76%N. change (uc "X") with 88%N. change (uc "I") with 73%N.
  change (uc "ｃ") with 65347%N. change (uc "ｌ") with 65356%N. change (uc "ｘ") with 65368%N. change (uc "ｉ") with 65353%N.
  unfold roman_low.
  destruct (N.eqb_spec c 73) as [->|]; [reflexivity|]. destruct (N.eqb_spec c 88) as [->|]; [reflexivity|].
  destruct (N.eqb_spec c 76) as [->|]; [reflexivity|]. destruct (N.eqb_spec c 67) as [->|]; reflexivity.
Qed.
Definition roman_back (s : ustr) : ustr :=
  replace (uc "Ｃ") (uc "C") (replace (uc "Ｌ") (uc "L")
    (replace (uc "Ｘ") (uc "X") (replace (uc "Ｉ") (uc "I")
    (replace (uc "ｃ") (uc "C") (replace (uc "ｌ") (uc "L")
    (replace (uc "ｘ") (uc "X") (replace (uc "ｉ") (uc "I")
    (replace (uc "c") (uc "C") (replace (uc "l") (uc "L")
    (replace (uc "x") (uc "X") (replace (uc "i") (uc "I") s))))))))))).
Lemma ixlc_cases : forall c, In c (u "IXLC") -> c = 73%N \/ c = 88%N \/ c = 76%N \/ c = 67%N.
Proof. intros c H. change (u "IXLC") with [73; 88; 76; 67]%N in H. cbn [In] in H. intuition. Qed.
Lemma roman_back_up : forall s, Forall (fun c => In c (u "IXLC")) s -> roman_back (map roman_up s) = s.
Proof.
  intros s H. unfold roman_back, replace. rewrite !map_map. rewrite <- (map_id s) at 2. apply map_ext_in. intros c Hc.
  rewrite Forall_forall in H. specialize (H c Hc). apply ixlc_cases in H.
  destruct H as [->|[->|[->| ->]]]; vm_compute; reflexivity.
Qed.
Lemma roman_back_low : forall s, Forall (fun c => In c (u "IXLC")) s -> roman_back (map roman_low s) = s.
Proof.
  intros s H. unfold roman_back, replace. rewrite !map_map. rewrite <- (map_id s) at 2. apply map_ext_in. intros c Hc.
  rewrite Forall_forall in H. specialize (H c Hc). apply ixlc_cases in H.
  destruct H as [->|[->|[->| ->]]]; vm_compute; reflexivity.
Qed.
Lemma as_i32_small : forall n, (n < 2 ^ 31)%N -> as_i32 n = Z.of_N n.
Proof.
  intros n H. unfold as_i32.
  assert (E : (Z.of_N n mod 2 ^ 32 = Z.of_N n)%Z) by (apply Z.mod_small; lia).
  rewrite E. destruct (Z.ltb_spec (Z.of_N n) (2 ^ 31)); lia.
Qed.
Lemma as_i32_machine : forall n z, machine_i32 n z <-> z = as_i32 n.
Proof.
  intros n z. unfold machine_i32, as_i32. change (2 ^ 32)%Z with 4294967296%Z. change (2 ^ 31)%Z with 2147483648%Z.
  pose proof (Z.div_mod (Z.of_N n) 4294967296 ltac:(discriminate)) as D. pose proof (Z.mod_pos_bound (Z.of_N n) 4294967296 ltac:(reflexivity)) as M.
  set (q := (Z.of_N n / 4294967296)%Z) in *. set (r := (Z.of_N n mod 4294967296)%Z) in *. clearbody q r.
  destruct (Z.ltb_spec r 2147483648); split.
  - intros [B [k E]]. lia.
  - intros ->. split; [lia|]. exists q. lia.
  - intros [B [k E]]. lia.
  - intros ->. split; [lia|]. exists (q + 1)%Z. lia.
Qed.
Lemma i32_usize_small : forall n, (n < 2 ^ 31)%N -> i32_as_usize (Z.of_N n) = n.
Proof. intros n H. unfold i32_as_usize. rewrite Z.mod_small by lia. apply N2Z.id. Qed.
Lemma roman_up_class : forall s, s <> [] -> Forall (fun c => In c (u "IXLC")) s -> run CUp (map roman_up s) /\ is_roman (map roman_up s) = true.
Proof.
  intros s Hn H. split.
  - split; [intros E; apply map_eq_nil in E; contradiction|]. apply Forall_forall. intros x Hx.
    apply in_map_iff in Hx as [c [<- Hc]]. rewrite Forall_forall in H. specialize (H c Hc). apply ixlc_cases in H.
    destruct H as [->|[->|[->| ->]]]; vm_compute; reflexivity.
  - destruct s as [|c s]; [contradiction|]. inversion_clear H as [|? ? Hc _]. apply ixlc_cases in Hc.
    destruct Hc as [->|[->|[->| ->]]]; vm_compute; reflexivity.
Qed.
Lemma roman_low_class : forall s, s <> [] -> Forall (fun c => In c (u "IXLC")) s -> run CLow (map roman_low s) /\ is_roman (map roman_low s) = true.
Proof.
  intros s Hn H. split.
  - split; [intros E; apply map_eq_nil in E; contradiction|]. apply Forall_forall. intros x Hx.
    apply in_map_iff in Hx as [c [<- Hc]]. rewrite Forall_forall in H. specialize (H c Hc). apply ixlc_cases in H.
    destruct H as [->|[->|[->| ->]]]; vm_compute; reflexivity.
  - destruct s as [|c s]; [contradiction|]. inversion_clear H as [|? ? Hc _]. apply ixlc_cases in Hc.
    destruct Hc as [->|[->|[->| ->]]]; vm_compute; reflexivity.
Qed.
Lemma roman_upper_text : forall cd n, roman_numeral cd n -> exists w, to_zenkaku_roman_upper cd n = Some w /\
  run CUp w /\ is_roman w = true /\ parse_roman cd w = Some n.
Proof.
  intros cd n [Hb [s [Ht [Hn [Hc Hf]]]]]. exists (map roman_up s). unfold to_zenkaku_roman_upper.
  rewrite as_i32_small by exact Hb. rewrite Ht. cbn [option_map]. rewrite roman_up_map. split; [reflexivity|].
  destruct (roman_up_class s Hn Hc) as [H1 H2]. split; [exact H1|]. split; [exact H2|].
  unfold parse_roman. fold (roman_back (map roman_up s)). rewrite roman_back_up by exact Hc. rewrite Hf. cbn [option_map].
  rewrite i32_usize_small by exact Hb. reflexivity.
Qed.
Lemma roman_lower_text : forall cd n, roman_numeral cd n -> exists w, to_zenkaku_roman_lower cd n = Some w /\
  run CLow w /\ is_roman w = true /\ parse_roman cd w = Some n.
Proof.
  intros cd n [Hb [s [Ht [Hn [Hc Hf]]]]]. exists (map roman_low s). unfold to_zenkaku_roman_lower.
  rewrite as_i32_small by exact Hb. rewrite Ht. cbn [option_map]. rewrite roman_low_map. split; [reflexivity|].
  destruct (roman_low_class s Hn Hc) as [H1 H2]. split; [exact H1|]. split; [exact H2|].
  unfold parse_roman. fold (roman_back (map roman_low s)). rewrite roman_back_low by exact Hc. rewrite Hf. cbn [option_map].
  rewrite i32_usize_small by exact Hb. reflexivity.
Qed.

(** The classes of the base number and of the branch numbers. *)
Definition base_class (p : ItemPattern) : cls :=
  match p with
  | NoParenKansuji | ParenKansuji => CKanji
  | NoParenIrohaKatakana | ParenIrohaKatakana => CKata
  | NoParenIrohaHiragana | ParenIrohaHiragana => CHira
  | NoParenZenkakuNum | ParenZenkakuNum => CZen
  | NoParenZenkakuRomanUpper | NoParenZenkakuUpper | ParenZenkakuRomanLower | ParenZenkakuUpper => CUp
  | NoParenZenkakuRomanLower | NoParenZenkakuLower | ParenZenkakuRomanUpper | ParenZenkakuLower => CLow
  end.
Definition branch_class (p : ItemPattern) : cls :=
  match p with
  | ParenZenkakuRomanUpper => CUp
  | ParenZenkakuRomanLower => CLow
  | _ => base_class p
  end.
Lemma katakana_text : forall n, (1 <= n <= 47)%N -> exists w, to_iroha_katakana n = Some w /\ run CKata w /\
  parse_iroha_katakana w = Some n.
Proof.
  intros n H. assert (L : length iroha_katakana = 47) by (vm_compute; reflexivity).
  apply (iroha_domain iroha_katakana n L) in H as [w Hw]. exists w. split; [apply katakana_letter, Hw|].
  split; [exact (iroha_run _ CKata w n katakana_poem Hw)|apply katakana_number, Hw].
Qed.
Lemma hiragana_text : forall n, (1 <= n <= 47)%N -> exists w, to_iroha_hiragana n = Some w /\ run CHira w /\
  parse_iroha_hiragana w = Some n /\ iroha_number iroha_hiragana w n.
Proof.
  intros n H. assert (L : length iroha_hiragana = 47) by (vm_compute; reflexivity).
  apply (iroha_domain iroha_hiragana n L) in H as [w Hw]. exists w. split; [apply hiragana_letter, Hw|].
  split; [exact (iroha_run _ CHira w n hiragana_poem Hw)|]. split; [apply hiragana_number, Hw|exact Hw].
Qed.
Lemma kanji_text : forall cd n, numeral cd n -> run CKanji (kan cd n) /\
  (forall p, read_kansuji cd p (kan cd n) = Ok (p, n)).
Proof.
  intros cd n H. pose proof H as [Hn [_ [Hu Hb]]]. split; [split; [exact Hn|exact (numeral_kanji cd n H)]|].
  intros p. unfold read_kansuji. rewrite Hu. cbn [unwrap bind]. unfold as_usize. rewrite N.mod_small by exact Hb. reflexivity.
Qed.
Lemma zenkaku_text : forall n, (n < 2 ^ 64)%N -> run CZen (to_zenkaku_num n) /\
  parse_zenkaku_num (to_zenkaku_num n) = Some n.
Proof.
  intros n H. split; [split; [apply to_zenkaku_nonempty|apply zenkaku_digits_class]|apply zenkaku_roundtrip, H].
Qed.

Lemma base_text : forall cd p n, writable cd p n -> exists w,
  num_to_str cd p n = Ok (wrap (in_paren p) w) /\ run (base_class p) w /\
  reader cd (in_paren p) (base_class p) w = Ok (read_as p, n).
Proof.
  intros cd p n H. destruct p; cbn [writable] in H; try contradiction; cbn [num_to_str in_paren base_class reader read_as].
  - exists (kan cd n). destruct (kanji_text cd n H) as [H1 H2]. split; [reflexivity|]. split; [exact H1|apply H2].
  - destruct (katakana_text n H) as [w [H1 [H2 H3]]]. exists w. rewrite H1. split; [reflexivity|]. split; [exact H2|].
    unfold read_plain. rewrite H3. reflexivity.
  - exists (to_zenkaku_num n). destruct (zenkaku_text n H) as [H1 H2]. split; [reflexivity|]. split; [exact H1|].
    unfold read_plain. rewrite H2. reflexivity.
  - destruct (roman_upper_text cd n H) as [w [H1 [H2 [H3 H4]]]]. exists w. rewrite H1. split; [reflexivity|]. split; [exact H2|].
    unfold read_letters, read_plain. rewrite H3, H4. reflexivity.
  - destruct (roman_lower_text cd n H) as [w [H1 [H2 [H3 H4]]]]. exists w. rewrite H1. split; [reflexivity|]. split; [exact H2|].
    unfold read_letters, read_plain. rewrite H3, H4. reflexivity.
  - exists (kan cd n). destruct (kanji_text cd n H) as [H1 H2]. split; [reflexivity|]. split; [exact H1|apply H2].
  - destruct (katakana_text n H) as [w [H1 [H2 H3]]]. exists w. rewrite H1. split; [reflexivity|]. split; [exact H2|].
    unfold read_plain. rewrite H3. reflexivity.
  - exists (to_zenkaku_num n). destruct (zenkaku_text n H) as [H1 H2]. split; [reflexivity|]. split; [exact H1|].
    unfold read_plain. rewrite H2. reflexivity.
  - destruct (roman_lower_text cd n H) as [w [H1 [H2 [H3 H4]]]]. exists w. rewrite H1. split; [reflexivity|]. split; [exact H2|].
    unfold read_letters, read_plain. rewrite H3, H4. reflexivity.
  - destruct (roman_upper_text cd n H) as [w [H1 [H2 [H3 H4]]]]. exists w. rewrite H1. split; [reflexivity|]. split; [exact H2|].
    unfold read_letters, read_plain. rewrite H3, H4. reflexivity.
Qed.
Lemma branch_one : forall cd p n, writable cd p n -> exists w pat,
  num_to_str_no_paren cd p n = Ok w /\ run (branch_class p) w /\
  reader cd false (branch_class p) w = Ok (pat, n).
Proof.
  intros cd p n H. destruct p; cbn [writable] in H; try contradiction; cbn [num_to_str_no_paren base_class branch_class reader].
  - exists (kan cd n). destruct (kanji_text cd n H) as [H1 H2]. eexists. split; [reflexivity|]. split; [exact H1|apply H2].
  - destruct (katakana_text n H) as [w [H1 [H2 H3]]]. exists w. rewrite H1. eexists. split; [reflexivity|]. split; [exact H2|].
    unfold read_plain. rewrite H3. reflexivity.
  - exists (to_zenkaku_num n). destruct (zenkaku_text n H) as [H1 H2]. eexists. split; [reflexivity|]. split; [exact H1|].
    unfold read_plain. rewrite H2. reflexivity.
  - destruct (roman_upper_text cd n H) as [w [H1 [H2 [H3 H4]]]]. exists w. rewrite H1. eexists. split; [reflexivity|]. split; [exact H2|].
    unfold read_letters, read_plain. rewrite H3, H4. reflexivity.
  - destruct (roman_lower_text cd n H) as [w [H1 [H2 [H3 H4]]]]. exists w. rewrite H1. eexists. split; [reflexivity|]. split; [exact H2|].
    unfold read_letters, read_plain. rewrite H3, H4. reflexivity.
  - exists (kan cd n). destruct (kanji_text cd n H) as [H1 H2]. eexists. split; [reflexivity|]. split; [exact H1|apply H2].
  - destruct (katakana_text n H) as [w [H1 [H2 H3]]]. exists w. rewrite H1. eexists. split; [reflexivity|]. split; [exact H2|].
    unfold read_plain. rewrite H3. reflexivity.
  - exists (to_zenkaku_num n). destruct (zenkaku_text n H) as [H1 H2]. eexists. split; [reflexivity|]. split; [exact H1|].
    unfold read_plain. rewrite H2. reflexivity.
  - destruct (roman_upper_text cd n H) as [w [H1 [H2 [H3 H4]]]]. exists w. rewrite H1. eexists. split; [reflexivity|]. split; [exact H2|].
    unfold read_letters, read_plain. rewrite H3, H4. reflexivity.
  - destruct (roman_lower_text cd n H) as [w [H1 [H2 [H3 H4]]]]. exists w. rewrite H1. eexists. split; [reflexivity|]. split; [exact H2|].
    unfold read_letters, read_plain. rewrite H3, H4. reflexivity.
Qed.
Lemma branch_all : forall cd p l, Forall (writable cd p) l -> exists ws es,
  branch_texts (num_to_str_no_paren cd p) l = Ok (branch_text ws) /\ Forall (run (branch_class p)) ws /\
  map (fun v => reader cd false (branch_class p) v) ws = map (fun x : ItemPattern * N => Ok x) es /\ map snd es = l.
Proof.
  intros cd p l H. induction H as [|n l Hn Hl [ws [es [H1 [H2 [H3 H4]]]]]].
  - exists [], []. repeat (split; [first [reflexivity|constructor]|]). reflexivity.
  - destruct (branch_one cd p n Hn) as [w [pat [E1 [E2 E3]]]]. exists (w :: ws), ((pat, n) :: es).
    cbn [branch_texts]. rewrite E1, H1. cbn [bind]. split; [unfold branch_text; cbn [map concat]; rewrite app_assoc; reflexivity|].
    split; [constructor; assumption|]. cbn [map snd]. rewrite E3, H3, H4. auto.
Qed.
Lemma writable_not_hira : forall cd p n, writable cd p n -> base_class p <> CHira /\ branch_class p <> CHira.
Proof. intros cd p n H. destruct p; cbn in H; try contradiction; cbn; split; discriminate. Qed.

Theorem item_label_roundtrip : forall cd p a, Forall (writable cd p) (numbers a) ->
  exists s, item_text cd p a = Ok s /\ forall x y, blank x -> blank y ->
  parse_item_number cd (x ++ s ++ y) = Ok (Some (mkIN (x ++ s ++ y) (base_number a) (eda_numbers a) [] (read_as p))).
Proof.
  intros cd p [b e r] H. unfold numbers in H. cbn [base_number eda_numbers range_end_numbers] in *.
  inversion_clear H as [|? ? Hb Her]. apply Forall_app in Her as [He Hr].
  destruct (writable_not_hira cd p b Hb) as [K1 K2].
  destruct (base_text cd p b Hb) as [w [B1 [B2 B3]]].
  destruct (branch_all cd p e He) as [ws [es [E1 [E2 [E3 E4]]]]].
  unfold item_text. cbn [base_number eda_numbers range_end_numbers]. rewrite B1, E1. cbn [bind].
  assert (X : exists rr, match r with [] => Ok [] | n :: l =>
       t <- num_to_str cd p n; b0 <- branch_texts (num_to_str_no_paren cd p) l; Ok (u "から" ++ t ++ b0 ++ u "まで") end
       = Ok (range_text rr) /\
       match rr with None => True | Some (y, vs) => base_run (base_class p) y /\ Forall (run (branch_class p)) vs end).
  { destruct r as [|n l]; [exists None; split; [reflexivity|exact I]|]. inversion_clear Hr as [|? ? Hn Hl].
    destruct (base_text cd p n Hn) as [v [V1 [V2 _]]]. destruct (branch_all cd p l Hl) as [vs [fs [F1 [F2 _]]]].
    exists (Some (wrap (in_paren p) v, vs)). rewrite V1, F1. cbn [bind range_text]. split; [reflexivity|].
    split; [exists (in_paren p), v; auto|exact F2]. }
  destruct X as [rr [X1 X2]]. rewrite X1. cbn [bind]. eexists. split; [reflexivity|].
  intros x y Hx Hy. rewrite <- E4.
  exact (label_reads cd (base_class p) (branch_class p) (in_paren p) w ws es rr (read_as p) b x y K1 K2 B2 B3 E2 E3 X2 Hx Hy).
Qed.

(** ** Labels of one number, whatever the characters *)
Theorem single_label : forall cd k b w x y, run k w -> blank x -> blank y ->
  let s := x ++ wrap b w ++ y in
  parse_item_number cd s = (v <- reader cd b k w; Ok (Some (mkIN s (snd v) [] [] (fst v)))).
Proof.
  intros cd k b w x y Hw Hx Hy s. unfold parse_item_number. unfold s at 1.
  rewrite trim_pad; [|exact Hx|exact Hy|apply (base_no_space k); exists b, w; auto].
  rewrite (starts_captures _ _ [("base_number", wrap b w)] []).
  - unfold group_text. cbn [group String.eqb Ascii.eqb Bool.eqb unwrap bind].
    rewrite (base_read cd b k w Hw). destruct (reader cd b k w) as [[pt n]| |]; reflexivity.
  - rewrite <- (app_nil_r (wrap b w)) at 1. unfold re_item.
    apply (starts_seq _ _ _ [("base_number", wrap b w)] [] []); [apply starts_cap, (starts_one b k); [exact Hw|intros _; exact I]|].
    apply (starts_seq _ _ _ [] [] []); [apply starts_opt_skip; reflexivity|].
    apply (starts_seq _ _ _ [] [] []); [apply starts_opt_skip; reflexivity|apply starts_end].
Qed.

(** ** Panics *)
Theorem iroha_label_panics : forall cd b w x y, blank x -> blank y -> w <> [] ->
  (Forall (fun c => katakana c = true) w /\ (forall n, ~ iroha_number iroha_katakana w n)) \/
  (Forall (fun c => hiragana c = true) w /\ (forall n, ~ iroha_number iroha_hiragana w n)) ->
  parse_item_number cd (x ++ wrap b w ++ y) = Panic.
Proof.
  intros cd b w x y Hx Hy Hn [[Hw H]|[Hw H]].
  - rewrite (single_label cd CKata b w x y (conj Hn Hw) Hx Hy).
    assert (E : parse_iroha_katakana w = None).
    { destruct (parse_iroha_katakana w) as [n|] eqn:E; [|reflexivity]. exfalso. exact (H n (proj1 (katakana_number w n) E)). }
    destruct b; cbn [reader]; unfold read_plain; rewrite E; reflexivity.
  - rewrite (single_label cd CHira b w x y (conj Hn Hw) Hx Hy).
    assert (E : parse_iroha_hiragana w = None).
    { destruct (parse_iroha_hiragana w) as [n|] eqn:E; [|reflexivity]. exfalso. exact (H n (proj1 (hiragana_number w n) E)). }
    destruct b; cbn [reader]; unfold read_plain; rewrite E; reflexivity.
Qed.
Lemma alphabet_panics_at : forall off n, (10 <= off)%N -> alphabet_chars off (ushow n) = Panic.
Proof.
  intros off n H. rewrite ushow_digits. pose proof (digits_nonempty n) as Hn. pose proof (digits_lt n) as Hl.
  destruct Hl as [|d l Hd _]; [contradiction|]. cbn [map alphabet_chars].
  assert (E : uparse [(48 + d)%N] = Some d).
  { change [(48 + d)%N] with (map (fun d => (48 + d)%N) [d]). rewrite uparse_digits by (constructor; [exact Hd|constructor]).
    apply parse_usize_spec. exists [d]. split; [discriminate|]. split; [constructor; [exact Hd|constructor]|].
    split; [cbn; lia|]. split; [lia|]. left. apply string_of_digits_text. }
  rewrite E. cbn [unwrap bind]. unfold from_digit. replace (N.ltb (d + off) 10) with false by (symmetry; apply N.ltb_ge; lia).
  reflexivity.
Qed.
Theorem alphabet_text_panics : forall cd p a, is_alphabet p = true -> item_text cd p a = Panic.
Proof.
  intros cd p a H. unfold item_text.
  destruct p; try discriminate H; cbn [num_to_str]; unfold to_zenkaku_alphabet_upper, to_zenkaku_alphabet_lower;
    rewrite alphabet_panics_at by (vm_compute; discriminate); reflexivity.
Qed.

(** ** Hiragana *)
Lemma hira_lit : forall s, forallb hiragana s = true -> Forall (fun c => hiragana c = true) s.
Proof. intros s H. apply Forall_forall. rewrite forallb_forall in H. exact H. Qed.
Lemma hiragana_branches : forall l, Forall (fun n => 1 <= n <= 47)%N l -> exists ws,
  branch_texts (fun n => unwrap (to_iroha_hiragana n)) l = Ok (branch_text ws) /\
  Forall2 (fun w n => iroha_number iroha_hiragana w n /\ run CHira w) ws l.
Proof.
  intros l H. induction H as [|n l Hn Hl [ws [H1 H2]]]; [exists []; split; [reflexivity|constructor]|].
  destruct (hiragana_text n Hn) as [w [E1 [E2 [_ E4]]]]. exists (w :: ws). cbn [branch_texts]. rewrite E1. cbn [unwrap bind].
  rewrite H1. cbn [bind]. split; [unfold branch_text; cbn [map concat]; rewrite app_assoc; reflexivity|].
  constructor; [split; assumption|exact H2].
Qed.
Lemma hira_branch_class : forall ws l, Forall2 (fun w n => iroha_number iroha_hiragana w n /\ run CHira w) ws l ->
  Forall (fun c => hiragana c = true) (branch_text ws).
Proof.
  intros ws l H. unfold branch_text. induction H as [|w n ws l [_ [_ Hw]] _ IH]; [constructor|]. cbn [map concat].
  apply Forall_app. split; [apply Forall_app; split; [apply hira_lit; vm_compute; reflexivity|exact Hw]|exact IH].
Qed.

(** Without parentheses, anything after the first letter makes reading panic. *)
Lemma long_not_iroha : forall poem w n, 2 <= length w -> ~ iroha_number poem w n.
Proof. intros poem w n H [i [c [_ [-> _]]]]. cbn in H. lia. Qed.
Theorem plain_hiragana_panics : forall cd a, Forall (fun n => 1 <= n <= 47)%N (numbers a) ->
  (eda_numbers a <> [] \/ range_end_numbers a <> []) ->
  exists s, item_text cd NoParenIrohaHiragana a = Ok s /\ parse_item_number cd s = Panic.
Proof.
  intros cd [b e r] H Hl. unfold numbers in H. cbn [base_number eda_numbers range_end_numbers] in *.
  inversion_clear H as [|? ? Hb Her]. apply Forall_app in Her as [He Hr].
  destruct (hiragana_text b Hb) as [w [B1 [[Bn B2] _]]].
  destruct (hiragana_branches e He) as [ws [E1 E2]].
  unfold item_text. cbn [base_number eda_numbers range_end_numbers num_to_str num_to_str_no_paren]. rewrite B1.
  cbn [unwrap bind].
  change (branch_texts (num_to_str_no_paren cd NoParenIrohaHiragana)) with (branch_texts (fun n => unwrap (to_iroha_hiragana n))).
  rewrite E1. cbn [bind].
  assert (X : exists t, match r with [] => Ok [] | n :: l =>
       t <- unwrap (to_iroha_hiragana n); b0 <- branch_texts (fun n => unwrap (to_iroha_hiragana n)) l; Ok (u "から" ++ t ++ b0 ++ u "まで") end
       = Ok t /\ Forall (fun c => hiragana c = true) t /\ (r <> [] -> 1 <= length t)).
  { destruct r as [|n l]; [exists []; split; [reflexivity|]; split; [constructor|contradiction]|]. inversion_clear Hr as [|? ? Hn Hll].
    destruct (hiragana_text n Hn) as [v [V1 [[_ V2] _]]]. destruct (hiragana_branches l Hll) as [vs [F1 F2]].
    rewrite V1, F1. cbn [unwrap bind]. eexists. split; [reflexivity|]. split.
    - apply Forall_app. split; [apply hira_lit; vm_compute; reflexivity|]. apply Forall_app. split; [exact V2|].
      apply Forall_app. split; [exact (hira_branch_class vs l F2)|apply hira_lit; vm_compute; reflexivity].
    - intros _. rewrite app_length. change (length (u "から")) with 2. lia. }
  destruct X as [t [X1 [X2 X3]]]. rewrite X1. cbn [bind]. eexists. split; [reflexivity|].
  rewrite <- (app_nil_r (w ++ branch_text ws ++ t)).
  change ((w ++ branch_text ws ++ t) ++ []) with ([] ++ wrap false (w ++ branch_text ws ++ t) ++ []).
  apply iroha_label_panics; [constructor|constructor| |].
  - intros E. apply app_eq_nil in E as [E _]. contradiction.
  - right. split.
    + apply Forall_app. split; [exact B2|]. apply Forall_app. split; [exact (hira_branch_class ws e E2)|exact X2].
    + intros n. apply long_not_iroha. rewrite !app_length. assert (1 <= length w) by (destruct w; [contradiction|cbn; lia]).
      destruct Hl as [Hl|Hl].
      * destruct E2 as [|v m ws' e' _ _]; [contradiction|]. unfold branch_text. cbn [map concat]. rewrite !app_length.
        change (length (u "の")) with 1. lia.
      * specialize (X3 Hl). lia.
Qed.

(** With parentheses, the branch number written [の] is lost. *)
Lemma hira_split : forall ws l, Forall2 (fun w n => iroha_number iroha_hiragana w n /\ run CHira w) ws l ->
  exists t, usplit (uc "の") (branch_text ws) = [] :: t /\
  exists vs, filter non_empty t = vs /\ Forall2 (fun w n => iroha_number iroha_hiragana w n /\ run CHira w) vs (filter (fun n => negb (N.eqb n 26)) l).
Proof.
  intros ws l H. induction H as [|w n ws l [Hi Hr] _ [t [E [vs [F G]]]]].
  - exists []. split; [reflexivity|]. exists []. split; [reflexivity|constructor].
  - pose proof Hi as [i [c [Hc [-> ->]]]].
    change (branch_text ([c] :: ws)) with (uc "の" :: c :: branch_text ws). cbn [usplit]. rewrite N.eqb_refl, E.
    destruct (N.eqb_spec c (uc "の")) as [->|Hne].
    + exists ([] :: [] :: t). split; [reflexivity|]. exists vs. cbn [filter non_empty]. split; [exact F|].
      replace (negb (N.eqb (N.of_nat (S i)) 26)) with false; [exact G|].
      assert (Y : i = 25); [|subst i; reflexivity].
      assert (ND : NoDup iroha_hiragana) by (apply nodup_b_spec; vm_compute; reflexivity).
      rewrite NoDup_nth_error in ND. apply ND; [apply nth_error_Some; congruence|]. rewrite Hc. vm_compute. reflexivity.
    + exists ([c] :: t). split; [reflexivity|]. exists ([c] :: vs). cbn [filter non_empty]. split; [rewrite F; reflexivity|].
      replace (negb (N.eqb (N.of_nat (S i)) 26)) with true; [constructor; [split; assumption|exact G]|].
      destruct (N.eqb_spec (N.of_nat (S i)) 26) as [Y|]; [|reflexivity]. exfalso. apply Hne.
      assert (i = 25) by lia. subst i. vm_compute in Hc. injection Hc as <-. vm_compute. reflexivity.
Qed.
Lemma hira_numbers : forall cd ws l, Forall2 (fun w n => iroha_number iroha_hiragana w n /\ run CHira w) ws l ->
  item_branch_numbers cd ws = Ok l.
Proof.
  intros cd ws l H. induction H as [|w n ws l [Hi Hr] _ IH]; [reflexivity|]. cbn [item_branch_numbers].
  change w with (wrap false w). rewrite (base_read cd false CHira w Hr). cbn [reader]. unfold read_plain.
  rewrite (proj2 (hiragana_number w n) Hi). cbn [unwrap bind rmap]. rewrite IH. reflexivity.
Qed.
Theorem paren_hiragana_read : forall cd b e x y, Forall (fun n => 1 <= n <= 47)%N (b :: e) -> blank x -> blank y ->
  exists s, item_text cd ParenIrohaHiragana (mkAN b e []) = Ok s /\
  parse_item_number cd (x ++ s ++ y) =
  Ok (Some (mkIN (x ++ s ++ y) b (filter (fun n => negb (N.eqb n 26)) e) [] ParenIrohaHiragana)).
Proof.
  intros cd b e x y H Hx Hy. inversion_clear H as [|? ? Hb He].
  destruct (hiragana_text b Hb) as [w [B1 [B2 [B3 _]]]].
  destruct (hiragana_branches e He) as [ws [E1 E2]].
  unfold item_text. cbn [base_number eda_numbers range_end_numbers num_to_str num_to_str_no_paren]. rewrite B1.
  cbn [unwrap bind rmap].
  change (branch_texts (num_to_str_no_paren cd ParenIrohaHiragana)) with (branch_texts (fun n => unwrap (to_iroha_hiragana n))).
  rewrite E1. cbn [bind]. eexists. split; [reflexivity|]. rewrite app_nil_r.
  change (paren w) with (wrap true w).
  pose proof (hira_branch_class ws e E2) as Hcl.
  unfold parse_item_number. rewrite trim_pad; [|exact Hx|exact Hy|].
  2: { apply Forall_app. split; [apply (base_no_space CHira); exists true, w; auto|apply (run_no_space CHira), Hcl]. }
  rewrite (starts_captures re_item _ (("base_number", wrap true w) :: eda_caps "eda_numbers" ws) []).
  - unfold group_text. cbn [group String.eqb Ascii.eqb Bool.eqb unwrap bind].
    rewrite (base_read cd true CHira w B2). cbn [reader]. unfold read_plain. rewrite B3. cbn [unwrap bind rmap].
    destruct (hira_split ws e E2) as [t [T1 [vs [T2 T3]]]].
    destruct ws as [|v vs'].
    + inversion E2. subst e. reflexivity.
    + cbn [eda_caps group String.eqb Ascii.eqb Bool.eqb]. unfold branches. rewrite T1. cbn [filter non_empty]. rewrite T2.
      rewrite (hira_numbers cd vs _ T3). reflexivity.
  - unfold re_item. apply (starts_seq _ _ _ [("base_number", wrap true w)] (branch_text ws)).
    { apply starts_cap, (starts_one true CHira); [exact B2|discriminate]. }
    rewrite <- (app_nil_r (eda_caps "eda_numbers" ws)).
    apply (starts_seq _ _ _ (eda_caps "eda_numbers" ws) [] []).
    2: { apply (starts_seq _ _ _ [] [] []); [apply starts_opt_skip; reflexivity|apply starts_end]. }
    destruct ws as [|v vs]; [apply starts_opt_skip; reflexivity|]. apply starts_alt_l. cbn [eda_caps].
    rewrite <- (app_nil_r (branch_text (v :: vs))) at 1. apply starts_cap. rewrite app_nil_r.
    unfold item_branches, Plus. apply (starts_seq _ _ _ [] [] []); [|apply starts_star_stop; reflexivity].
    change (branch_text (v :: vs)) with ((u "の" ++ v) ++ branch_text vs). rewrite <- app_assoc.
    apply (starts_seq _ _ _ [] (v ++ branch_text vs) []); [apply starts_lit|].
    rewrite <- (app_nil_r (v ++ branch_text vs)).
    apply (starts_one false CHira (v ++ branch_text vs) []); [|intros _; exact I]. split.
    + inversion E2 as [|? ? ? ? [_ [Hv _]] _]. intros E. apply app_eq_nil in E as [E _]. contradiction.
    + change (branch_text (v :: vs)) with ((u "の" ++ v) ++ branch_text vs) in Hcl. rewrite <- app_assoc in Hcl.
      apply Forall_app in Hcl as [_ Hcl]. exact Hcl.
Qed.

(** ** Roman numerals with letters that are not converted *)
Fixpoint accepts (r : re) (c : N) : bool :=
  match r with
  | Eps | End => false
  | Chr p => p c
  | Seq a b | Alt a b => accepts a c || accepts b c
  | Star a | Cap _ a => accepts a c
  end.
Lemma exec_accepts : forall r s c s', In (c, s') (exec r s) -> exists w, s = w ++ s' /\ Forall (fun x => accepts r x = true) w.
Proof.
  induction r as [| |p|a IHa b IHb|a IHa b IHb|a IHa|n a IHa]; intros s c s' H.
  - destruct H as [H|[]]. injection H as <- <-. exists []. auto.
  - destruct s; [|destruct H]. destruct H as [H|[]]. injection H as <- <-. exists []. auto.
  - destruct s as [|x s]; [destruct H|]. cbn [exec] in H. destruct (p x) eqn:E; [|destruct H].
    destruct H as [H|[]]. injection H as <- <-. exists [x]. auto.
  - cbn [exec] in H. apply in_flat_map in H as [[c1 s1] [H1 H]]. unfold after in H.
    apply in_map_iff in H as [[c2 s2] [E H2]]. cbn [fst snd] in *. injection E as <- <-.
    destruct (IHa _ _ _ H1) as [w1 [-> F1]]. destruct (IHb _ _ _ H2) as [w2 [-> F2]].
    exists (w1 ++ w2). split; [apply app_assoc|]. apply Forall_app. split; (eapply Forall_impl; [|eassumption]); intros x Hx; cbn [accepts]; rewrite Hx; [reflexivity|apply orb_true_r].
  - cbn [exec] in H. apply in_app_or in H as [H|H].
    + destruct (IHa _ _ _ H) as [w [-> F]]. exists w. split; [reflexivity|]. eapply Forall_impl; [|exact F]. intros x Hx; cbn [accepts]; rewrite Hx; reflexivity.
    + destruct (IHb _ _ _ H) as [w [-> F]]. exists w. split; [reflexivity|]. eapply Forall_impl; [|exact F]. intros x Hx; cbn [accepts]; rewrite Hx; apply orb_true_r.
  - rewrite exec_star in H. remember (length s) as k eqn:Ek. clear Ek. revert s c s' H.
    induction k as [|k IH]; intros s c s' H; cbn [star_n] in H.
    + destruct H as [H|[]]. injection H as <- <-. exists []. auto.
    + apply in_app_or in H as [H|[H|[]]]; [|injection H as <- <-; exists []; auto].
      apply in_flat_map in H as [[c1 s1] [H1 H]]. cbn [fst snd] in H.
      destruct (Nat.ltb (length s1) (length s)); [|destruct H]. unfold after in H. apply in_map_iff in H as [[c2 s2] [E H2]].
      cbn [fst snd] in E. injection E as <- <-. destruct (IHa _ _ _ H1) as [w1 [-> F1]]. destruct (IH _ _ _ H2) as [w2 [-> F2]].
      exists (w1 ++ w2). split; [apply app_assoc|]. apply Forall_app. split; assumption.
  - cbn [exec] in H. apply in_map_iff in H as [[c1 s1] [E H]]. cbn [fst snd] in E. injection E as <- <-. exact (IHa _ _ _ H).
Qed.
Lemma re_item_end : forall s c s', In (c, s') (exec re_item s) -> s' = [].
Proof.
  intros s c s' H. unfold re_item in H. cbn [exec] in H.
  apply in_flat_map in H as [[c1 s1] [_ H]]. cbn [fst snd] in H. apply in_map_iff in H as [[c1' s1'] [E H]]. cbn [fst snd] in E. injection E as _ <-.
  apply in_flat_map in H as [[c2 s2] [_ H]]. cbn [fst snd] in H. apply in_map_iff in H as [[c2' s2'] [E H]]. cbn [fst snd] in E. injection E as _ <-.
  apply in_flat_map in H as [[c3 s3] [_ H]]. cbn [fst snd] in H. apply in_map_iff in H as [[c3' s3'] [E H]]. cbn [fst snd] in E. injection E as _ <-.
  destruct s3; [|destruct H]. destruct H as [H|[]]. injection H as _ <-. reflexivity.
Qed.
Theorem item_bad_char : forall cd s c, In c (trim s) -> accepts re_item c = false -> parse_item_number cd s = Ok None.
Proof.
  intros cd s c Hi Hc. unfold parse_item_number, captures.
  destruct (exec re_item (trim s)) as [|[c1 s1] l] eqn:E; [reflexivity|]. exfalso.
  assert (H : In (c1, s1) (exec re_item (trim s))) by (rewrite E; left; reflexivity).
  pose proof (re_item_end _ _ _ H) as ->. destruct (exec_accepts _ _ _ _ H) as [w [Ew F]]. rewrite app_nil_r in Ew.
  rewrite Ew in Hi. rewrite Forall_forall in F. specialize (F c Hi). congruence.
Qed.
