(** Properties of the lines of plain text: how they are classified, and what whole texts give. *)
From Coq Require Import String List NArith ZArith Bool Arith Lia.
From Verif Require Import Base NumStr Ast Regex NumText NumTextSpec TextParse TextSpec TextFacts OutlineFacts TextLawFacts
  LineFacts ClassifyFacts CodecSample.
Import ListNotations.
Open Scope string_scope.
Open Scope list_scope.

(** Literals as lists of numbers. *)
Local Ltac lits := repeat match goal with |- context [u ?s] =>
  let v := eval vm_compute in (u s) in replace (u s) with v by (vm_compute; reflexivity) end.

Definition lf (s : ustr) : ustr := s ++ [10%N].

(** C40, for texts: the parser runs for ever exactly when the lines are classified and a line of text
    follows directly after a heading or caption, with readable lines before. *)
Theorem C40_text_loops_iff : forall cd title text,
  (forall fuel, parse_body cd fuel title text = None) <->
  exists a h s b, classify cd text = Ok (a ++ h :: LText s :: b) /\ readable (a ++ [h]) /\ heading_or_caption h.
Proof. exact text_loops. Qed.
Print Assumptions C40_text_loops_iff.

Example C40_text_case : classify sample_codec (lf (u "第一章　総則") ++ lf (u "この法律は、次のとおり。")) =
    Ok [LChapter (mkAN 1 [] []) (u "総則"); LText (u "この法律は、次のとおり。")] /\
  parse_body sample_codec 300 (u "法") (lf (u "第一章　総則") ++ lf (u "この法律は、次のとおり。")) = None.
Proof. split; vm_compute; reflexivity. Qed.

(** C54.  Supplementary provisions are never recognised: every line that starts with 附 is text, no
    text has a line for a supplementary provision, and no result has one. *)
Theorem C54_line_is_text : forall cd r x y, no_edge (uc "附" :: r) -> ~ In 10%N r -> blank x -> blank y ->
  parse_line cd (x ++ (uc "附" :: r) ++ y) = Ok (LText (uc "附" :: r)).
Proof. exact suppl_line_is_text. Qed.
Print Assumptions C54_line_is_text.

Theorem C54_never_classified : forall cd text lines o, classify cd text = Ok lines -> ~ In (LSuppl o) lines.
Proof. exact classify_no_suppl. Qed.
Print Assumptions C54_never_classified.

Theorem C54_none_in_result : forall cd fuel title text b, parse_body cd fuel title text = Some (Ok b) -> plain_body title b.
Proof. exact text_plain. Qed.
Print Assumptions C54_none_in_result.

Example C54_case : captures re_suppl (u "附　則") = Some [] /\
  classify sample_codec (lf (u "　　　附　則") ++ lf (u "（施行期日）") ++ lf (u "第一条　この法律は、公布の日から施行する。")) =
  Ok [LText (u "附　則"); LCaption (u "施行期日"); LArticle (mkAN 1 [] []) (u "この法律は、公布の日から施行する。")] /\
  parse_line sample_codec (u "附 則a" ++ [10%N] ++ u "b") = Ok (LSuppl None) /\
  parse_line sample_codec (u "附 則（a）" ++ [10%N] ++ u "b") = Ok (LSuppl (Some (u "a"))).
Proof. split; [|split; [|split]]; vm_compute; reflexivity. Qed.

(** C55.  Headings, articles, paragraphs and items with generated labels, captions and other text are
    classified as such, with any white space around and after the label; and a text of such lines is
    read as a whole, each line once and in order. *)
Theorem C55_lines : forall cd x l, written cd x l -> parse_line cd l = Ok x.
Proof. exact written_line. Qed.
Print Assumptions C55_lines.

Theorem C55_classified : forall cd xs ls text, Forall2 (written cd) xs ls -> joined ls text -> classify cd text = Ok xs.
Proof. exact classify_written. Qed.
Print Assumptions C55_classified.

Theorem C55_read : forall cd xs ls text title, Forall2 (written cd) xs ls -> joined ls text -> readable xs ->
  exists b, (forall fuel, length xs < fuel -> parse_body cd fuel title text = Some (Ok b)) /\
    flat_map entry_content (list_body b) = content xs.
Proof. exact text_read. Qed.
Print Assumptions C55_read.

(** Every text is the join of its lines. *)
Theorem C55_joined : forall text ls, joined ls text <-> ls = text_lines text.
Proof. exact (fun text ls => conj (fun J => eq_sym (text_lines_joined ls text J)) (fun E => eq_ind_r (fun l => joined l text) (text_is_joined text) E)). Qed.
Print Assumptions C55_joined.

Example C55_case : written sample_codec (LArticle (mkAN 12 [3]%N []) (u "略")) (u "  第十二条の三　略 ") /\
  written sample_codec (LText (u "この限りでない。")) (u "　この限りでない。") /\
  classify sample_codec (lf (u "第一条　略") ++ lf (u "２　略する") ++ lf (u "　一　甲") ++ lf (u "　　イ　乙") ++ u "この限りでない。") =
  Ok [LArticle (mkAN 1 [] []) (u "略"); LParagraph (mkAN 2 [] []) (u "略する");
      LItem (mkIN (u "一") 1 [] [] NoParenKansuji) (u "甲"); LItem (mkIN (u "イ") 1 [] [] NoParenIrohaKatakana) (u "乙");
      LText (u "この限りでない。")].
Proof.
  split; [|split; [|vm_compute; reflexivity]].
  - apply (W_heading sample_codec (u "条") LArticle (mkAN 12 [3]%N []) (u "略") (u "第十二条の三　略")).
    + vm_compute. tauto.
    + apply Forall_cons; [|apply Forall_cons; [|apply Forall_nil]]; apply sample_numeral; vm_compute; split; congruence.
    + exists (u "　"). split; [discriminate|]. split; [constructor; [vm_compute; reflexivity|constructor]|].
      split; [vm_compute; intros [H|[]]; discriminate H|]. split; [|vm_compute; reflexivity].
      split; [discriminate|]. split; [apply no_space_edge; constructor; [vm_compute; reflexivity|constructor]|].
      vm_compute. intros [H|[]]. discriminate H.
    + exists (u "  "), (u " "). split; [repeat (constructor; [vm_compute; reflexivity|]); constructor|].
      split; [repeat (constructor; [vm_compute; reflexivity|]); constructor|].
      split; [vm_compute; intros H; repeat (destruct H as [H|H]; [discriminate H|]); exact H|vm_compute; reflexivity].
  - assert (NS : no_space (u "この限りでない。")).
    { apply Forall_forall. intros c Hc. destruct (is_space c) eqn:E; [|reflexivity]. exfalso.
      vm_compute in Hc. repeat (destruct Hc as [<-|Hc]; [vm_compute in E; discriminate E|]). exact Hc. }
    assert (NL : ~ In 10%N (u "この限りでない。")) by (vm_compute; intros H; repeat (destruct H as [H|H]; [discriminate H|]); exact H).
    apply (W_text sample_codec (u "この限りでない。")).
    + split; [apply no_space_edge, NS|]. split; [exact NL|]. split; [lits; apply not_caption_first; vm_compute; discriminate|].
      right. exists (u "この限りでない"), (u "。"), (uc "こ"). split; [right; exists (uc "。"); split; [vm_compute; reflexivity|];
        split; [discriminate|]; split; [exact NS|reflexivity]|]. split; [eexists; vm_compute; reflexivity|]. split.
      * vm_compute. intros H. repeat (destruct H as [H|H]; [discriminate H|]). exact H.
      * apply Exists_exists. exists (uc "限"). split; [vm_compute; tauto|]. intros [[_ H]|[[_ H]|H]]; [exact (H eq_refl)|exact (H eq_refl)|].
        vm_compute in H. repeat (destruct H as [H|H]; [discriminate H|]). exact H.
    + exists (u "　"), []. split; [constructor; [vm_compute; reflexivity|constructor]|]. split; [constructor|].
      split; [vm_compute; intros [H|[]]; discriminate H|vm_compute; reflexivity].
Qed.

(** C56.  Text that starts with the number of a provision is taken for a heading, article or paragraph
    with that number: the words after the number up to the first white space are lost, or all but the
    last character when there is no white space.  The kind is that of the first of 編章節款目条 that
    occurs anywhere in the word. *)
Theorem C56_reference_is_heading : forall cd sfx a rest x w y t mk, In sfx heading_suffixes -> Forall (numeral cd) (numbers a) ->
  (range_end_numbers a = [] -> heading_follow rest) -> blank x -> blank y ->
  first_word w (gen_articles_text cd sfx a ++ rest) t -> ~ In 10%N t -> kind_of (gen_articles_text cd sfx a ++ rest) mk ->
  parse_line cd (x ++ w ++ y) = Ok (mk a t).
Proof. exact heading_word. Qed.
Print Assumptions C56_reference_is_heading.

Theorem C56_number_is_paragraph : forall cd a rest x w y t mk, Forall (fun n => n < 2 ^ 64)%N (numbers a) ->
  (range_end_numbers a = [] -> label_follow rest) -> blank x -> blank y ->
  first_word w (paragraph_text a ++ rest) t -> ~ In 10%N t -> kind_of (paragraph_text a ++ rest) mk ->
  parse_line cd (x ++ w ++ y) = Ok (mk (mkAN (base_number a) (eda_numbers a) (firstn 1 (range_end_numbers a))) t).
Proof. exact label_word. Qed.
Print Assumptions C56_number_is_paragraph.

Example C56_case :
  let rest := u "及び第二章の規定は、準用しない" in
  first_word (u "第一条及び第二章の規定は、準用しない。") (gen_articles_text sample_codec (u "条") (mkAN 1 [] []) ++ rest) (u "。") /\
  heading_follow rest /\ kind_of (gen_articles_text sample_codec (u "条") (mkAN 1 [] []) ++ rest) LChapter /\
  parse_line sample_codec (u "第一条及び第二章の規定は、準用しない。") = Ok (LChapter (mkAN 1 [] []) (u "。")).
Proof.
  intros rest. split; [|split; [|split; [|vm_compute; reflexivity]]].
  - right. exists (uc "。"). split; [vm_compute; reflexivity|]. split; [discriminate|]. split; [|reflexivity].
    apply Forall_forall. intros c Hc. destruct (is_space c) eqn:E; [|reflexivity]. exfalso.
    vm_compute in Hc. repeat (destruct Hc as [<-|Hc]; [vm_compute in E; discriminate E|]). exact Hc.
  - split.
    + vm_compute. intros H. repeat (destruct H as [H|H]; [discriminate H|]). exact H.
    + intros r H. vm_compute in H. discriminate H.
  - left. exists [(u "編", LPart)], (u "章"), [(u "節", LSection); (u "款", LSubsection); (u "目", LDivision); (u "条", LArticle)].
    split; [reflexivity|]. split.
    + intros c [<-|[]]. vm_compute. tauto.
    + intros k' mk' c [E|[]] Hc. injection E as <- _. destruct Hc as [<-|[]]. vm_compute. intros H.
      repeat (destruct H as [H|H]; [discriminate H|]). exact H.
Qed.

(** C57.  Items labelled with full-width digits without parentheses have the labels of paragraphs, and
    are always read as paragraphs. *)
Theorem C57_same_label : forall cd a, item_text cd NoParenZenkakuNum a = Ok (paragraph_text a).
Proof. exact zenkaku_item_text. Qed.
Print Assumptions C57_same_label.

Theorem C57_item_is_paragraph : forall cd a s t w x y, Forall (writable cd NoParenZenkakuNum) (numbers a) ->
  item_text cd NoParenZenkakuNum a = Ok s -> labelled s t w -> blank x -> blank y ->
  parse_line cd (x ++ w ++ y) = Ok (LParagraph (mkAN (base_number a) (eda_numbers a) (firstn 1 (range_end_numbers a))) t).
Proof. exact zenkaku_item_line. Qed.
Print Assumptions C57_item_is_paragraph.

Example C57_case : item_text sample_codec NoParenZenkakuNum (mkAN 3 [2] [])%N = Ok (u "３の２") /\
  parse_line sample_codec (u "　３の２　甲") = Ok (LParagraph (mkAN 3 [2] [])%N (u "甲")).
Proof. split; vm_compute; reflexivity. Qed.

(** C58.  The parser never returns an error; it panics while it classifies lines exactly when one of
    them does, such as every line whose first word is kana but no single letter of the iroha poem. *)
Theorem C58_never_errs : forall cd fuel title text e, parse_body cd fuel title text <> Some (Err e).
Proof. exact text_never_errs. Qed.
Print Assumptions C58_never_errs.

Theorem C58_panics_iff : forall cd text, classify cd text = Panic <-> exists l, In l (text_lines text) /\ parse_line cd l = Panic.
Proof. exact classify_panics. Qed.
Print Assumptions C58_panics_iff.

Theorem C58_line_panics_text : forall cd fuel title text l, In l (text_lines text) -> parse_line cd l = Panic ->
  parse_body cd fuel title text = Some Panic.
Proof. exact kana_text_panics. Qed.
Print Assumptions C58_line_panics_text.

Theorem C58_kana_line : forall cd x w y b v t, blank x -> blank y -> first_word w (enclosed b v) t -> ~ In 10%N t -> ~ caption_line w ->
  v <> [] ->
  (Forall is_katakana_letter v /\ (forall n, ~ iroha_number iroha_katakana v n)) \/
  (Forall is_hiragana_letter v /\ (forall n, ~ iroha_number iroha_hiragana v n)) ->
  parse_line cd (x ++ w ++ y) = Panic.
Proof. exact kana_line_panics. Qed.
Print Assumptions C58_kana_line.

Example C58_case : first_word (u "アメリカ　合衆国") (enclosed false (u "アメリカ")) (u "合衆国") /\
  ~ caption_line (u "アメリカ　合衆国") /\ Forall is_katakana_letter (u "アメリカ") /\
  parse_body sample_codec 100 (u "法") (lf (u "第一条　略") ++ u "アメリカ　合衆国") = Some Panic.
Proof.
  split; [|split; [|split; [|vm_compute; reflexivity]]].
  - left. exists (u "　"). split; [vm_compute; reflexivity|]. split; [discriminate|]. split; [discriminate|].
    split; [constructor; [vm_compute; reflexivity|constructor]|]. split.
    + repeat (constructor; [vm_compute; reflexivity|]). constructor.
    + split; [discriminate|]. apply no_space_edge. repeat (constructor; [vm_compute; reflexivity|]). constructor.
  - lits. apply not_caption_first. vm_compute. discriminate.
  - repeat (constructor; [vm_compute; split; discriminate|]). constructor.
Qed.
