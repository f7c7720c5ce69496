(** Properties C67 and C68: item labels and lines. *)
From Coq Require Import String List NArith ZArith Bool.
From Verif Require Import Base NumStr Regex NumText NumTextSpec NumberSpec TextParse TextSpec ItemSpec ItemReadFacts CodecSample.
Import ListNotations.
Open Scope string_scope.
Open Scope list_scope.

(** C67.  A text is read as an item label exactly when it can be divided into a number, branches and
    the end of a range; the longest number and then the longest branches count, the end of the range
    has no effect, and a word without a number is a panic. *)
Theorem C67_exact : forall cd s r, parse_item_number cd s = r <-> label_reading cd s r.
Proof. exact label_exact. Qed.
Print Assumptions C67_exact.

(** A single number is read from the start of a text, whatever comes after it. *)
Theorem C67_start : forall cd s r, parse_item_number_base cd s = r <-> start_reading cd s r.
Proof. exact start_exact. Qed.
Print Assumptions C67_start.

(** There is only one division that counts, and there is one if there is any. *)
Theorem C67_division : forall t, (exists b e, divides t b e) ->
  exists b e, division t b e /\ forall b' e', division t b' e' -> b' = b /\ e' = e.
Proof. exact division_exists_unique. Qed.
Print Assumptions C67_division.

Example C67_case : divides (u "二の三から五まで") (u "二") (u "の三") /\
  label_reading sample_codec (u "　二の三から五まで ")
    (Ok (Some (mkIN (u "　二の三から五まで ") 2 [3] [] NoParenKansuji)%N)).
Proof.
  split; [|apply C67_exact; vm_compute; reflexivity]. exists (u "から五まで").
  assert (K : forall c, existsb (N.eqb c) kanji_list = true -> In c kanji_list).
  { intros c H. apply existsb_exists in H as (x & Hx & E). apply N.eqb_eq in E. subst x. exact Hx. }
  assert (W : forall c, In c kanji_list -> one [c]).
  { intros c Hc. exists false, Kanji, [c]. split; [split; [discriminate|constructor; [exact Hc|constructor]]|reflexivity]. }
  split; [apply W; apply K; vm_compute; reflexivity|]. split; [|split; [|vm_compute; reflexivity]].
  - apply (add_branch (u "三") []); [apply W; apply K; vm_compute; reflexivity|constructor].
  - right. exists (u "五"), []. split; [apply W; apply K; vm_compute; reflexivity|]. split; [constructor|vm_compute; reflexivity].
Qed.
(** Hiragana can be divided in several ways: "いのろ" is one word and has no number, but "（い）のろ" has a
    branch; in "（い）のろのは" the branches are "ろ" and "は" although "ろのは" could be one word. *)
Example C67_case_hiragana :
  label_reading sample_codec (u "いのろ") Panic /\
  label_reading sample_codec (u "（い）のろのは") (Ok (Some (mkIN (u "（い）のろのは") 1 [2; 3] [] ParenIrohaHiragana)%N)) /\
  label_reading sample_codec (u "（い）の") (Ok None).
Proof. repeat split; apply C67_exact; vm_compute; reflexivity. Qed.
Example C67_case_letters :
  label_reading sample_codec (u "ＡＢ") (Ok (Some (mkIN (u "ＡＢ") 12 [] [] NoParenZenkakuUpper)%N)) /\
  label_reading sample_codec (u "ａｉ") Panic /\
  label_reading sample_codec (u "ガ") Panic /\
  label_reading sample_codec (u "二、") (Ok None).
Proof. repeat split; apply C67_exact; vm_compute; reflexivity. Qed.

(** C68.  A line is classified exactly by these rules: a text in parentheses is a caption; otherwise the
    word before the first white space (or all but the last character) decides by its number or label. *)
Theorem C68_exact : forall cd l r, ~ In 10%N l -> (parse_line cd l = r <-> line_reading cd l r).
Proof. exact line_exact. Qed.
Print Assumptions C68_exact.

Example C68_case : ~ In 10%N (u "第二章　総則") /\
  line_reading sample_codec (u "第二章　総則") (Ok (LChapter (mkAN 2 [] []) (u "総則"))) /\
  line_reading sample_codec (u "　一　次に掲げる者") (Ok (LItem (mkIN (u "一") 1 [] [] NoParenKansuji) (u "次に掲げる者"))) /\
  line_reading sample_codec (u "（目的）") (Ok (LCaption (u "目的"))) /\
  line_reading sample_codec (u "附　則") (Ok (LText (u "附　則"))) /\
  line_reading sample_codec (u "この法律は、") (Ok (LText (u "この法律は、"))) /\
  line_reading sample_codec (u "ただし、") Panic.
Proof.
  assert (H : forall s, existsb (N.eqb 10) s = false -> ~ In 10%N s).
  { intros s E Hi. assert (X : existsb (N.eqb 10) s = true) by (apply existsb_exists; exists 10%N; split; [exact Hi|reflexivity]). congruence. }
  split; [apply H; vm_compute; reflexivity|].
  repeat match goal with |- _ /\ _ => split end; (apply C68_exact; [apply H; vm_compute; reflexivity|vm_compute; reflexivity]).
Qed.
