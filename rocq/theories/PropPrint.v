(** Property of printing a law body line by line, with the labels that the crate generates, and reading
    the text. *)
From Coq Require Import String List NArith ZArith Bool Arith Lia.
From Verif Require Import Base NumStr Ast Regex NumText NumTextSpec TextParse TextSpec TextFacts LineFacts ClassifyFacts CodecSample
  ArticleText ShapeSpec ShapeFacts ShapeLines ShapeText ListingFacts PrintSpec PrintFacts PropShape.
Import ListNotations.
Open Scope string_scope.
Open Scope list_scope.

(** C78.  A law body that lines can give at all is given by its own lines, with any labelling patterns for
    the levels of items of which neighbouring three differ; and it has such lines. *)
Theorem C78_read : forall pattern title b lines, scheme pattern -> body_shape (fun _ => True) title b ->
  prints pattern (list_body b) lines -> forall fuel, length lines < fuel -> parse_lines fuel title lines = Some (Ok b).
Proof. exact print_read. Qed.
Print Assumptions C78_read.

Theorem C78_printable : forall pattern title b, body_shape (fun _ => True) title b -> exists lines, prints pattern (list_body b) lines.
Proof. exact print_any. Qed.
Print Assumptions C78_printable.

(** So a law body that was read, printed and read again is the same. *)
Theorem C78_again : forall pattern title b fuel ls lines, scheme pattern -> parse_lines fuel title ls = Some (Ok b) ->
  prints pattern (list_body b) lines -> forall fuel, length lines < fuel -> parse_lines fuel title lines = Some (Ok b).
Proof. exact print_again. Qed.
Print Assumptions C78_again.

(** The same for texts, with generated labels and any white space around and after them. *)
Theorem C78_text : forall cd pattern title b lines ls text, scheme pattern -> body_shape (fun _ => True) title b ->
  prints pattern (list_body b) lines -> Forall2 (written cd) lines ls -> joined ls text ->
  forall fuel, length lines < fuel -> parse_body cd fuel title text = Some (Ok b).
Proof. exact print_text. Qed.
Print Assumptions C78_text.

(** The labels of headings and articles are those of [number_text]. *)
Theorem C78_number_text : forall cd t w l, padded w l ->
  (forall x, Forall (numeral cd) (numbers (hd_num (un KPart x))) -> labelled (part_number_text cd x) t w ->
    parse_line cd l = Ok (LPart (hd_num (un KPart x)) t)) /\
  (forall x, Forall (numeral cd) (numbers (hd_num (un KChapter x))) -> labelled (chapter_number_text cd x) t w ->
    parse_line cd l = Ok (LChapter (hd_num (un KChapter x)) t)) /\
  (forall x, Forall (numeral cd) (numbers (hd_num (un KSection x))) -> labelled (section_number_text cd x) t w ->
    parse_line cd l = Ok (LSection (hd_num (un KSection x)) t)) /\
  (forall x, Forall (numeral cd) (numbers (hd_num (un KSubsection x))) -> labelled (subsection_number_text cd x) t w ->
    parse_line cd l = Ok (LSubsection (hd_num (un KSubsection x)) t)) /\
  (forall x, Forall (numeral cd) (numbers (hd_num (un KDivision x))) -> labelled (division_number_text cd x) t w ->
    parse_line cd l = Ok (LDivision (hd_num (un KDivision x)) t)) /\
  (forall x, Forall (numeral cd) (numbers (art_num (un KArticle x))) -> labelled (article_number_text cd x) t w ->
    parse_line cd l = Ok (LArticle (art_num (un KArticle x)) t)).
Proof. exact number_text_lines. Qed.
Print Assumptions C78_number_text.

(** The usual patterns: 一, イ, （１）, and so on in turn. *)
Definition usual (k : nat) : ItemPattern :=
  match Nat.modulo k 3 with 0 => NoParenKansuji | 1 => NoParenIrohaKatakana | _ => ParenZenkakuNum end.
Definition printed_one : list line :=
  [LArticle (mkAN 1 [] []) (u "次のとおり"); LItem (mkIN (u "一") 1 [] [] NoParenKansuji) (u "甲");
   LItem (mkIN (u "イ") 1 [] [] NoParenIrohaKatakana) (u "乙"); LItem (mkIN (u "（１）") 1 [] [] ParenZenkakuNum) (u "丙");
   LItem (mkIN (u "ロ") 2 [] [] NoParenIrohaKatakana) (u "丁")].
Definition article_one : Knot KArticle :=
  mkArticle (mkArticleF None (as_text []) [] None (mkAN 12 [3]%N []) false false).

Example C78_case : scheme usual /\ body_shape (fun _ => True) (u "法") (one_article returns_one) /\
  prints usual (list_body (one_article returns_one)) printed_one /\
  parse_body sample_codec 9 (u "法") (u "第一条　次のとおり" ++ [10%N] ++ u "　一　甲" ++ [10%N] ++ u "　　イ　乙" ++ [10%N] ++
    u "　　　（１）　丙" ++ [10%N] ++ u "　　ロ　丁") = Some (Ok (one_article returns_one)) /\
  article_number_text sample_codec article_one = u "第十二条の三".
Proof.
  split; [|split; [exact (proj1 C77_case)|split; [|split; vm_compute; reflexivity]]].
  - intros k H. do 10 (destruct k as [|k]; [split; [vm_compute; discriminate|intros _; vm_compute; discriminate]|]). lia.
  - apply (prints_article usual 0 None (mkAN 1 [] []) (u "次のとおり")).
    apply (prints_item usual 0 (mkIN (u "一") 1 [] [] NoParenKansuji) (u "甲")); [reflexivity|].
    apply (prints_item usual 1 (mkIN (u "イ") 1 [] [] NoParenIrohaKatakana) (u "乙")); [reflexivity|].
    apply (prints_item usual 2 (mkIN (u "（１）") 1 [] [] ParenZenkakuNum) (u "丙")); [reflexivity|].
    apply (prints_item usual 1 (mkIN (u "ロ") 2 [] [] NoParenIrohaKatakana) (u "丁")); [reflexivity|]. constructor.
Qed.
