(** Property C99: what reading plain text prints. *)
From Coq Require Import String List NArith ZArith Bool Arith Lia.
From Verif Require Import Base NumStr Ast Regex NumText NumTextSpec NumberSpec TextParse TextSpec TextLawFacts ClassifyFacts ItemSpec ItemReadFacts
  CodecSample Stdout StdoutSpec StdoutFacts.
Import ListNotations.
Open Scope string_scope.
Open Scope list_scope.

(** The results are those of the model without output. *)
Theorem C99_result : forall cd cal fuel text y m d ty lang num ln title,
  snd (out_text cd cal fuel text y m d ty lang num ln title) = parse_text cd cal fuel text y m d ty lang num ln title.
Proof. exact text_result. Qed.
Print Assumptions C99_result.

(** What is printed for a line. *)
Theorem C99_line : forall cd l o, ~ In 10%N l -> (fst (out_line cd l) = o <-> line_output cd l o).
Proof. exact output_exact. Qed.
Print Assumptions C99_line.

Theorem C99_item : forall cd s r o, label_reading cd s r ->
  (fst (out_item_number cd s) = o <-> o = match r with Ok None => [u "err!!"] | _ => [u "ok!!!"] end).
Proof. intros cd s r o H. apply label_exact in H. rewrite item_printed, H. split; intros <-; reflexivity. Qed.
Print Assumptions C99_item.

(** What is printed for a text: without a date nothing; else all that its lines give up to the first one that panics,
    whatever else is given, and also if the parser never ends. *)
Theorem C99_no_date : forall cd cal fuel text y m d ty lang num ln title, ~ (exists e, dated cal y m d e) ->
  fst (out_text cd cal fuel text y m d ty lang num ln title) = [].
Proof.
  intros cd cal fuel text y m d ty lang num ln title H. unfold out_text.
  destruct (date_era_spec cal y m d) as [[e [D _]]|[_ ->]]; [exfalso; apply H; exists e; exact D|reflexivity].
Qed.
Print Assumptions C99_no_date.
Theorem C99_text : forall cd cal y m d e ls text fuel ty lang num ln title o, dated cal y m d e -> joined ls text ->
  (fst (out_text cd cal fuel text y m d ty lang num ln title) = o <-> text_output cd ls o).
Proof.
  intros cd cal y m d e ls text fuel ty lang num ln title o D J. unfold out_text.
  destruct (date_era_spec cal y m d) as [[e' [_ ->]]|[N _]]; [|exfalso; apply N; exists e; exact D].
  rewrite (text_lines_joined ls text J). cbn [fst]. apply lines_exact. exact (proj1 J).
Qed.
Print Assumptions C99_text.

(** Nothing is printed exactly for texts of captions and lines of at most one character; there are at most three lines
    for each line of the text. *)
Theorem C99_silent : forall cd cal y m d e ls text fuel ty lang num ln title, dated cal y m d e -> joined ls text ->
  (fst (out_text cd cal fuel text y m d ty lang num ln title) = [] <-> Forall silent_line ls).
Proof.
  intros cd cal y m d e ls text fuel ty lang num ln title D J.
  rewrite (C99_text cd cal y m d e ls text fuel ty lang num ln title [] D J). split.
  - intros H. apply (text_output_silent cd ls [] (proj1 J) H). reflexivity.
  - intros H. destruct (text_output_total cd ls (proj1 J)) as [o Ho].
    assert (o = []) as -> by (apply (text_output_silent cd ls o (proj1 J) Ho), H). exact Ho.
Qed.
Print Assumptions C99_silent.
Theorem C99_bound : forall cd cal y m d ls text fuel ty lang num ln title, joined ls text ->
  length (fst (out_text cd cal fuel text y m d ty lang num ln title)) <= 3 * length ls.
Proof.
  intros cd cal y m d ls text fuel ty lang num ln title J. unfold out_text.
  destruct (date_era cal y m d) as [e| |] eqn:E; try (cbn; lia).
  rewrite (text_lines_joined ls text J). cbn [fst]. apply (text_output_bound cd). apply lines_exact; [exact (proj1 J)|reflexivity].
Qed.
Print Assumptions C99_bound.

(** If standard output fails after [n] lines, the law is read only if no more lines are printed; a text that can be
    read panics exactly if more are printed. *)
Theorem C99_failing : forall cd cal y m d e ls text fuel ty lang num ln title o n, dated cal y m d e -> joined ls text ->
  text_output cd ls o ->
  let run := out_text cd cal fuel text y m d ty lang num ln title in
  (length o <= n -> taking n run = (o, parse_text cd cal fuel text y m d ty lang num ln title)) /\
  (n < length o -> taking n run = (firstn n o, Some Panic)).
Proof.
  intros cd cal y m d e ls text fuel ty lang num ln title o n D J O run.
  assert (E : run = (o, parse_text cd cal fuel text y m d ty lang num ln title)).
  { rewrite <- (C99_result cd cal fuel text y m d ty lang num ln title).
    rewrite <- (proj2 (C99_text cd cal y m d e ls text fuel ty lang num ln title o D J) O). apply surjective_pairing. }
  rewrite E. unfold taking. cbn [fst]. split; intros H.
  - rewrite (proj2 (Nat.leb_le _ _) H). reflexivity.
  - rewrite (proj2 (Nat.leb_gt _ _) H). reflexivity.
Qed.
Print Assumptions C99_failing.
(** So whether a law can be read depends on what is at the other end of standard output. *)
Theorem C99_output_ignored_refuted : exists cd cal text y title l,
  parse_text cd cal 100 text y None None Act Ja None "" title = Some (Ok l) /\
  snd (taking 0 (out_text cd cal 100 text y None None Act Ja None "" title)) = Some Panic.
Proof.
  eexists sample_codec, sample_calendar, (u "第一条　目的"), 2020%N, (u "法"), _. split; vm_compute; reflexivity.
Qed.
Print Assumptions C99_output_ignored_refuted.

Definition feed : ustr := [10%N].
Example C99_case :
  fst (out_text sample_codec sample_calendar 100
    (u "第一章　総則" ++ feed ++ u "（目的）" ++ feed ++ u "第一条　この法律は、" ++ feed ++ u "一　次の者" ++ feed ++ u "前項 の者" ++ feed ++ u "ただし、" ++ feed ++ u "第二条　者")
    2020 None None Act Ja None "" (u "法")) =
  [u "第一章: 総則"; u "第一条: この法律は、"; u "一: 次の者"; u "ok!!!"; u "前項: の者"; u "err!!"; u "text!!!前項: の者"; u "ただし: 、"; u "ok!!!"] /\
  snd (out_text sample_codec sample_calendar 100 (u "ただし、") 2020 None None Act Ja None "" (u "法")) = Some Panic /\
  out_text sample_codec sample_calendar 100 (u "第一条　目的") 2023 (Some 2%N) (Some 29%N) Act Ja None "" (u "法") = ([], Some Panic).
Proof. vm_compute. repeat split. Qed.
Example C99_case_silent : Forall silent_line [u "（目的）"; u "　"; u "イ"] /\ joined [u "（目的）"; u "　"; u "イ"] (u "（目的）" ++ feed ++ u "　" ++ feed ++ u "イ").
Proof.
  assert (B : blank []) by constructor.
  assert (E : forall w, trim w = w -> no_edge w) by (intros w <-; apply trim_no_edge). split.
  - repeat constructor.
    + exists [], (u "（目的）"), []. split; [exact B|]. split; [exact B|]. split; [apply E; vm_compute; reflexivity|]. split; [reflexivity|].
      left. exists (u "目的"). split; [discriminate|]. split; [vm_compute; intros [H|[H|[]]]; discriminate H|reflexivity].
    + exists (u "　"), [], []. split; [repeat constructor|]. split; [exact B|]. split; [apply E; reflexivity|]. split; [reflexivity|]. right. cbn. lia.
    + exists [], (u "イ"), []. split; [exact B|]. split; [exact B|]. split; [apply E; vm_compute; reflexivity|]. split; [reflexivity|]. right. vm_compute. lia.
  - split.
    + repeat constructor; vm_compute; intros H; repeat (destruct H as [H|H]; [discriminate H|]); exact H.
    + right. exists [u "（目的）"; u "　"], (u "イ"). split; [reflexivity|]. split; [discriminate|vm_compute; reflexivity].
Qed.
