(** Properties of the listings of a law that was read from plain text. *)
From Coq Require Import String List NArith Bool Arith.
From Verif Require Import Base NumStr Ast Regex NumText TextParse TextSpec Utils UtilsSpec UtilsFacts PlainListSpec PlainListFacts.
Import ListNotations.
Open Scope string_scope.
Open Scope list_scope.

(** C79.  What the listings of a law say that was read from classified lines, line by line: the articles, paragraphs
    and items with their places and texts; the headings and articles; and the headings around each article. *)
Theorem C79_texts : forall fuel title lines b, parse_lines fuel title lines = Some (Ok b) ->
  exists a rest, lines = a ++ rest /\ readable a /\ (rest = [] \/ exists l r, rest = l :: r /\ misplaced a l) /\
    map (fun x => (art_num (un KArticle x), text_info_list_from_paragraph (art_paragraph (un KArticle x))))
      (fst (article_list_from_main_provision (lb_main_provision (un KLawBody b)))) = article_rows a.
Proof. intros fuel title lines b E. destruct (plain_lists _ _ _ _ E) as (a & r & H1 & H2 & H3 & H4 & _). exists a, r. auto. Qed.
Print Assumptions C79_texts.

Theorem C79_toc : forall fuel title lines b, parse_lines fuel title lines = Some (Ok b) ->
  exists a rest, lines = a ++ rest /\ readable a /\ (rest = [] \/ exists l r, rest = l :: r /\ misplaced a l) /\
    Forall2 toc_says (line_entries [] a) (toc_list_from_main_provision (lb_main_provision (un KLawBody b))).
Proof.
  intros fuel title lines b E. destruct (plain_lists _ _ _ _ E) as (a & r & H1 & H2 & H3 & _ & H5 & _). exists a, r.
  split; [exact H1|]. split; [exact H2|]. split; [exact H3|]. rewrite <- H5. apply main_toc_says.
Qed.
Print Assumptions C79_toc.

Theorem C79_trails : forall fuel title lines b, parse_lines fuel title lines = Some (Ok b) ->
  let m := lb_main_provision (un KLawBody b) in
  exists a rest, lines = a ++ rest /\ readable a /\ (rest = [] \/ exists l r, rest = l :: r /\ misplaced a l) /\
    Forall2 noted_as (main_trails m) (fst (with_number_article_list_from_main_provision m)) /\
    map (fun x => (fst x, art_num (un KArticle (snd x)))) (main_trails m) = line_trails a.
Proof.
  intros fuel title lines b E. destruct (plain_lists _ _ _ _ E) as (a & r & H1 & H2 & H3 & _ & _ & H6). exists a, r.
  split; [exact H1|]. split; [exact H2|]. split; [exact H3|]. split; [apply main_noted|exact H6].
Qed.
Print Assumptions C79_trails.

Definition l_an (n : N) : ArticleNumber := mkAN n [] [].
Definition l_item (p : ItemPattern) (n : N) (t : string) : line := LItem (mkIN [] n [] [] p) (u t).
Definition l_lines : list line :=
  [LText (u "前文"); LPart (l_an 1) (u "総則"); LChapter (l_an 1) (u "通則"); LCaption (u "目的"); LArticle (l_an 1) (u "この法律は");
   LText (u "続き"); LParagraph (l_an 2) (u "前項の"); l_item NoParenKansuji 1 "甲"; l_item NoParenIrohaKatakana 1 "乙"; LText (u "但書");
   l_item NoParenKansuji 2 "丙"; LChapter (l_an 2) (u "削除"); LSection (l_an 1) (u "節"); LArticle (l_an 2) (u "雑");
   LPart (l_an 2) (u "附"); LArticle (l_an 3) (u "末"); LSubsection (l_an 1) (u "款")].
Example C79_case : exists b, parse_lines 100 (u "法") l_lines = Some (Ok b) /\
  article_rows (firstn 16 l_lines) =
    [(l_an 1, [(mkTI (l_an 1) [], "この法律は続き"); (mkTI (l_an 2) [], "前項の"); (mkTI (l_an 2) [Some (l_an 1)], "甲");
       (mkTI (l_an 2) [Some (l_an 1); Some (l_an 1)], "乙但書"); (mkTI (l_an 2) [Some (l_an 2)], "丙")]);
     (l_an 2, [(mkTI (l_an 1) [], "雑")]); (l_an 3, [(mkTI (l_an 1) [], "末")])] /\
  map (fun e => (map fst (en_trail e), option_map base_number (en_article e), en_title e)) (line_entries [] (firstn 16 l_lines)) =
    [([RPart], None, "総則"); ([RPart; RChapter], None, "通則"); ([RPart; RChapter], Some 1%N, ""); ([RPart; RChapter], None, "削除");
     ([RPart; RChapter; RSection], None, "節"); ([RPart; RChapter; RSection], Some 2%N, ""); ([RPart], None, "附"); ([RPart], Some 3%N, "")] /\
  length (toc_list_from_main_provision (lb_main_provision (un KLawBody b))) = 8 /\
  line_trails (firstn 16 l_lines) = [([(RPart, l_an 1); (RChapter, l_an 1)], l_an 1);
    ([(RPart, l_an 1); (RChapter, l_an 2); (RSection, l_an 1)], l_an 2); ([(RPart, l_an 2)], l_an 3)].
Proof. eexists. split; [vm_compute; reflexivity|]. repeat split; vm_compute; reflexivity. Qed.
