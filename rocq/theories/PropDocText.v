(** Properties of the texts listed for a document that was read. *)
From Coq Require Import String List NArith Bool.
From Verif Require Import Base NumStr Xml Ast XmlWrite XmlParse ReadSpec ReadFacts Utils UtilsSpec UtilsFacts
  ReadingSpec ReadingLib DocTextSpec DocTextFacts.
Import ListNotations.
Open Scope string_scope.
Open Scope list_scope.

(** C64.  The lines listed for an article that was read are those of the XML tree: one for each paragraph and
    one for each item and subitem, in document order, with the numbers and the text that stand there; the text
    of the article is these lines joined; the text of a table has its header and its rows. *)
Theorem C64_lines : forall e v, parse KArticle e = Ok v ->
  Forall2 lists (article_lines e) (text_info_list_from_paragraph (art_paragraph (un KArticle v))).
Proof. exact article_listed. Qed.
Print Assumptions C64_lines.

Theorem C64_paragraphs : forall es vs, Forall2 (fun e v => parse KParagraph e = Ok v) es vs ->
  Forall2 lists (flat_map paragraph_lines es) (text_info_list_from_paragraph vs).
Proof. exact paragraphs_listed. Qed.
Print Assumptions C64_paragraphs.

Theorem C64_text : forall e v, parse KArticle e = Ok v -> text_from_article v = article_text e.
Proof. exact article_text_read. Qed.
Print Assumptions C64_text.

Theorem C64_main : forall e v, parse KMain e = Ok v ->
  map text_from_article (fst (article_list_from_main_provision v)) = map article_text (articles_in e).
Proof. exact main_texts_read. Qed.
Print Assumptions C64_main.

Theorem C64_table : forall e v, parse KTable e = Ok v -> table_to_str v = table_text e.
Proof. exact table_read. Qed.
Print Assumptions C64_table.

(** An article with two paragraphs, items with columns and with a table, and a subitem. *)
Definition d_text (t s : string) : Element := mkElement t [] [NText s].
Definition d_in (t : string) (l : list Element) : Element := mkElement t [] (map NElement l).
Definition d_num (t n : string) (l : list Element) : Element := mkElement t [("Num", n)] (map NElement l).
Definition d_table : Element :=
  d_in "Table" [d_in "TableHeaderRow" [d_text "TableHeaderColumn" "区分"; d_text "TableHeaderColumn" "額"];
    d_in "TableHeaderRow" [d_text "TableHeaderColumn" "上"; d_text "TableHeaderColumn" "下"];
    d_in "TableRow" [d_in "TableColumn" [d_text "Sentence" "甲"]; d_in "TableColumn" [d_text "Sentence" "一円"; d_text "Sentence" "二円"]];
    d_in "TableRow" [d_text "TableColumn" "乙"; d_in "TableColumn" [d_in "Column" [d_text "Sentence" "三"; d_text "Sentence" "円"]]]].
Definition d_article : Element :=
  d_num "Article" "3" [d_text "ArticleTitle" "第三条";
    d_num "Paragraph" "1" [d_text "ParagraphNum" ""; d_in "ParagraphSentence" [d_text "Sentence" "次の表。"; d_text "Sentence" "ただし書。"];
      d_num "Item" "1" [d_text "ItemTitle" "一"; d_in "ItemSentence" [d_in "Column" [d_text "Sentence" "語"]; d_in "Column" [d_text "Sentence" "意義"]];
        d_num "Subitem1" "1_2" [d_text "Subitem1Title" "イ"; d_in "Subitem1Sentence" [d_text "Sentence" "細分"]]];
      d_num "Item" "2" [d_text "ItemTitle" "二"; d_in "ItemSentence" [d_table]]];
    d_num "Paragraph" "2" [d_text "ParagraphNum" "２"; d_in "ParagraphSentence" [d_text "Sentence" "末項。"]]].
Example C64_case : exists v, parse KArticle d_article = Ok v /\
  article_lines d_article = [mkTextLine (Some "1") [] "次の表。ただし書。"; mkTextLine (Some "1") [Some "1"] "語 意義";
    mkTextLine (Some "1") [Some "1"; Some "1_2"] "細分"; mkTextLine (Some "1") [Some "2"] (table_text d_table);
    mkTextLine (Some "2") [] "末項。"] /\
  table_text d_table = ("区分額 上下" ++ line_feed ++ "甲 一円二円" ++ line_feed ++ "乙 三円")%string /\
  text_from_article v = ("次の表。ただし書。" ++ line_feed ++ "語 意義" ++ line_feed ++ "細分" ++ line_feed ++
    table_text d_table ++ line_feed ++ "末項。")%string.
Proof. eexists. split; [vm_compute; reflexivity|]. repeat split; vm_compute; reflexivity. Qed.

Example C64_main_case : exists v, parse KMain (d_in "MainProvision" [d_num "Chapter" "1" [d_text "ChapterTitle" "第一章"; d_article]]) = Ok v /\
  length (fst (article_list_from_main_provision v)) = 1.
Proof. eexists. split; [vm_compute; reflexivity|vm_compute; reflexivity]. Qed.
