(** Numbers, deletion marks and dates of laws that are read from plain text. *)
From Coq Require Import String Ascii List NArith ZArith Bool Arith Lia.
From Verif Require Import Base BaseFacts NumStr Ast Regex RegexFacts NumText NumTextSpec NumTextFacts ItemFacts ItemLabelFacts SplitFacts
  TextParse TextSpec TextFacts OutlineFacts.
Import ListNotations.
Open Scope string_scope.
Open Scope list_scope.

(** C44. *)
Theorem body_counted : forall fuel title lines b, parse_lines fuel title lines = Some (Ok b) -> counted 0 (list_body b).
Proof.
  intros fuel title lines b E. destruct (parsed _ _ _ _ E) as [_ [rest O]].
  pose proof (outline_counted lines [] (MPre 0) 0%N) as H. unfold outline in O. rewrite O in H. apply H. intros; discriminate.
Qed.
Theorem body_preamble : forall fuel title lines b, parse_lines fuel title lines = Some (Ok b) ->
  preamble_numbers (list_body b) = map (fun i => mkAN (N.of_nat i) [] []) (seq 0 (leading_texts lines)).
Proof.
  intros fuel title lines b E. destruct (parsed _ _ _ _ E) as [_ [rest O]].
  pose proof (outline_preamble lines [] (MPre 0)) as H. unfold outline in O. rewrite O in H. exact H.
Qed.

(** C45. *)
Lemma trim_start_split : forall s, exists x, blank x /\ s = x ++ trim_start s.
Proof.
  induction s as [|c s [x [Hx E]]]; [exists []; split; [constructor|reflexivity]|]. cbn [trim_start].
  destruct (is_space c) eqn:Ec.
  - exists (c :: x). split; [constructor; assumption|]. cbn [app]. rewrite <- E. reflexivity.
  - exists []. split; [constructor|reflexivity].
Qed.
Lemma trim_split : forall s, exists x y, blank x /\ blank y /\ s = x ++ trim s ++ y.
Proof.
  intros s. destruct (trim_start_split s) as [x [Hx Ex]]. destruct (trim_start_split (rev (trim_start s))) as [y [Hy Ey]].
  exists x, (rev y). split; [exact Hx|]. split; [apply Forall_rev, Hy|]. rewrite Ex at 1. f_equal. unfold trim.
  rewrite <- (rev_involutive (trim_start s)) at 1. rewrite Ey at 1. rewrite rev_app_distr. reflexivity.
Qed.
Lemma trim_solid : forall x w y, blank x -> blank y -> forallb space_free w = true -> trim (x ++ w ++ y) = w.
Proof.
  intros x w y Hx Hy Hw. apply trim_pad; try assumption. apply Forall_forall. intros c Hc.
  rewrite forallb_forall in Hw. apply negb_true_iff. apply (Hw c Hc).
Qed.
Lemma says_deleted_iff : forall t, says_deleted t = true <-> says_only t.
Proof.
  intros t. unfold says_deleted, says_only. cbn [existsb]. rewrite orb_false_r, orb_true_iff, !ueqb_eq. split.
  - intros H. destruct (trim_split t) as [x [y [Hx [Hy E]]]]. exists x, (trim t), y. auto.
  - intros [x [w [y [Hx [Hy [[-> | ->] ->]]]]]]; [left|right]; apply trim_solid; try assumption; vm_compute; reflexivity.
Qed.
Definition piece_marks (p : piece) : list bool :=
  match p with PHead _ _ _ d | PArticle _ d | PItem _ d => [d] | _ => [] end.
Lemma entry_marks : forall es, flat_map marks es = flat_map piece_marks (flat_map entry_content es).
Proof.
  induction es as [|e es IH]; [reflexivity|]. cbn [flat_map]. rewrite flat_map_app, <- IH. f_equal.
  destruct e as [d r t n del h|d [c|] t no n del h|[|] p|l t st n del h|s|]; reflexivity.
Qed.
Lemma content_marks : forall a, flat_map piece_marks (content a) = map says_deleted (flat_map markable a).
Proof.
  induction a as [|l a IH]; [reflexivity|].
  destruct l; cbn [content flat_map markable app line_content]; rewrite ?flat_map_app; cbn [flat_map piece_marks app map];
    rewrite ?IH; try reflexivity.
  destruct a as [|[] a]; cbn [flat_map piece_marks app]; rewrite ?IH; reflexivity.
Qed.
Theorem body_marks : forall fuel title lines b, parse_lines fuel title lines = Some (Ok b) ->
  exists a rest, lines = a ++ rest /\ (rest = [] \/ exists l r, rest = l :: r /\ misplaced a l) /\
    Forall2 (fun t m => m = true <-> says_only t) (flat_map markable a) (flat_map marks (list_body b)).
Proof.
  intros fuel title lines b E. destruct (body_contents _ _ _ _ E) as [_ [a [rest [El [_ [Hr C]]]]]].
  exists a, rest. split; [exact El|]. split; [exact Hr|]. rewrite entry_marks, C, content_marks.
  induction (flat_map markable a) as [|t l IH]; [constructor|]. cbn [map]. constructor; [apply says_deleted_iff|exact IH].
Qed.

(** C46. *)
Lemma era_of_spec : forall name, (exists e, In (name, e) known_eras /\ era_of name = Ok e) \/
  (~ (exists e, In (name, e) known_eras) /\ era_of name = Panic).
Proof.
  intros name. unfold era_of, known_eras.
  repeat match goal with |- context [ueqb name ?x] =>
    let H := fresh in destruct (ueqb name x) eqn:H; [apply ueqb_eq in H; subst name; left; eexists; split; [cbn [In]; tauto|reflexivity]|] end.
  right. split; [|reflexivity]. intros [e I0]. cbn [In] in I0.
  repeat (destruct I0 as [I0|I0]; [injection I0 as <- _; match goal with X : ueqb ?a ?a = false |- _ =>
    rewrite (proj2 (ueqb_eq a a) eq_refl) in X; discriminate X end|]). destruct I0.
Qed.
Lemma as_u32_machine : forall n m, machine_u32 n m <-> m = as_u32 n.
Proof.
  intros n m. unfold machine_u32, as_u32. change (2 ^ 32)%N with 4294967296%N.
  pose proof (N.div_mod n 4294967296 ltac:(discriminate)) as D. pose proof (N.mod_lt n 4294967296 ltac:(discriminate)) as M.
  set (q := (n / 4294967296)%N) in *. set (r := (n mod 4294967296)%N) in *. clearbody q r. split.
  - intros [B [k E]]. lia.
  - intros ->. split; [exact M|]. exists q. lia.
Qed.
Lemma dated_iff : forall cal year month day e, dated cal year month day e <->
  exists d name, from_ymd cal (as_i32 year) (as_u32 (or_first month)) (as_u32 (or_first day)) = Some d /\
    era_name cal d = Some name /\ In (name, e) known_eras.
Proof.
  intros cal year month day e. split.
  - intros (y & m & dd & d & name & Hy & Hm & Hd & H). apply as_i32_machine in Hy. apply as_u32_machine in Hm, Hd. subst. eauto.
  - intros (d & name & H). exists (as_i32 year), (as_u32 (or_first month)), (as_u32 (or_first day)), d, name.
    split; [apply as_i32_machine; reflexivity|]. split; [apply as_u32_machine; reflexivity|]. split; [apply as_u32_machine; reflexivity|exact H].
Qed.
Lemma date_era_spec : forall cal y m d, (exists e, dated cal y m d e /\ date_era cal y m d = Ok e) \/
  (~ (exists e, dated cal y m d e) /\ date_era cal y m d = Panic).
Proof.
  intros cal y m d.
  assert (X : forall P, (exists e, dated cal y m d e /\ P e) <-> (exists e, (exists d' name, from_ymd cal (as_i32 y) (as_u32 (or_first m)) (as_u32 (or_first d)) = Some d' /\
    era_name cal d' = Some name /\ In (name, e) known_eras) /\ P e)) by (intros P; split; intros [e [H HP]]; exists e; (split; [apply dated_iff; exact H|exact HP])).
  assert (Y : (exists e, dated cal y m d e) <-> (exists e d' name, from_ymd cal (as_i32 y) (as_u32 (or_first m)) (as_u32 (or_first d)) = Some d' /\
    era_name cal d' = Some name /\ In (name, e) known_eras)) by (split; intros [e H]; exists e; apply dated_iff; exact H).
  rewrite (X (fun e => date_era cal y m d = Ok e)), Y. clear X Y.
  unfold date_era. fold (or_first m). fold (or_first d).
  destruct (from_ymd cal (as_i32 y) (as_u32 (or_first m)) (as_u32 (or_first d))) as [dt|] eqn:E.
  2:{ right. split; [|reflexivity]. intros [e [d' [n [X _]]]]. discriminate X. }
  cbn [unwrap bind]. destruct (era_name cal dt) as [name|] eqn:En.
  2:{ right. split; [|reflexivity]. intros [e [d' [n [X [Y _]]]]]. injection X as <-. rewrite En in Y. discriminate Y. }
  cbn [unwrap bind]. destruct (era_of_spec name) as [[e [H1 H2]]|[H1 H2]].
  - left. exists e. split; [|exact H2]. eauto 6.
  - right. split; [|exact H2]. intros [e [d' [n [X [Y H]]]]]. injection X as <-. rewrite En in Y. injection Y as <-.
    apply H1. eauto.
Qed.
Section Law.
  Variables (cd : codec) (cal : calendar) (fuel : nat) (text : ustr) (year : N) (month day : option N).
  Variables (ty : LawType) (lang : Lang) (num : option ArticleNumber) (law_num : string) (title : ustr).
  Let run := parse_text cd cal fuel text year month day ty lang num law_num title.
  Theorem text_panics_iff : run = Some Panic <->
    ~ (exists e, dated cal year month day e) \/ parse_body cd fuel title text = Some Panic.
  Proof.
    unfold run, parse_text. destruct (date_era_spec cal year month day) as [[e [D ->]]|[D ->]].
    - destruct (parse_body cd fuel title text) as [[b|x|]|]; cbn [then_ done]; split; intros H; try discriminate H.
      + destruct H as [H|H]; [destruct H; eauto|discriminate H].
      + destruct H as [H|H]; [destruct H; eauto|discriminate H].
      + right. reflexivity.
      + reflexivity.
      + destruct H as [H|H]; [destruct H; eauto|discriminate H].
    - split; [intros _; left; exact D|reflexivity].
  Qed.
  Theorem text_law : forall law, run = Some (Ok law) <->
    exists e b, dated cal year month day e /\ parse_body cd fuel title text = Some (Ok b) /\
      law = mkLaw e year num month day ty lang law_num b.
  Proof.
    intros law. unfold run, parse_text. destruct (date_era_spec cal year month day) as [[e [D ->]]|[D ->]].
    - destruct (parse_body cd fuel title text) as [[b|x|]|]; cbn [then_ done]; split; intros H; try discriminate H.
      + injection H as <-. eauto 6.
      + destruct H as [e' [b' [D' [X ->]]]]. injection X as <-.
        apply dated_iff in D, D'. destruct D as [d [n [H1 [H2 H3]]]]. destruct D' as [d' [n' [H1' [H2' H3']]]]. rewrite H1 in H1'. injection H1' as <-.
        rewrite H2 in H2'. injection H2' as <-. do 3 f_equal.
        clear -H3 H3'. unfold known_eras in *. cbn [In] in *.
        repeat (destruct H3 as [H3|H3]; [injection H3 as <- <-;
          repeat (destruct H3' as [H3'|H3']; [try (injection H3' as <-; reflexivity); exfalso; injection H3' as X _; vm_compute in X; discriminate X|]);
          destruct H3'|]). destruct H3.
      + destruct H as [e' [b' [D' [X _]]]]. discriminate X.
      + destruct H as [e' [b' [D' [X _]]]]. discriminate X.
      + destruct H as [e' [b' [D' [X _]]]]. discriminate X.
    - split; [discriminate|]. intros [e [b [X _]]]. destruct D. eauto.
  Qed.
  Theorem text_loops_iff : (exists e, dated cal year month day e) ->
    (run = None <-> parse_body cd fuel title text = None).
  Proof.
    intros [e D]. unfold run, parse_text. destruct (date_era_spec cal year month day) as [[e' [_ ->]]|[D' _]]; [|destruct D'; eauto].
    destruct (parse_body cd fuel title text) as [[b|x|]|]; cbn [then_ done]; split; intros H; try discriminate H; reflexivity.
  Qed.
End Law.
(** The year counts modulo 2^32 only. *)
Theorem year_wraps : forall cal y m d k, date_era cal (y + k * 2 ^ 32) m d = date_era cal y m d.
Proof.
  intros cal y m d k. unfold date_era. replace (as_i32 (y + k * 2 ^ 32)) with (as_i32 y); [reflexivity|].
  unfold as_i32. rewrite N2Z.inj_add, N2Z.inj_mul. change (Z.of_N (2 ^ 32)) with (2 ^ 32)%Z.
  rewrite Z.mod_add by discriminate. reflexivity.
Qed.
