(** The unit tests of /repo, run on the model.  These are examples and prove nothing about other inputs; they
    show that the model answers as the authors of the code expect, on the authors' own inputs.  The numeral crates are
    those of CodecSample.v; the XML texts of the tests are given as element trees. *)
From Coq Require Import String List NArith ZArith Bool.
From Verif Require Import Base NumStr Ast Xml XmlParse XmlWrite Regex NumText TextParse TextBuild Utils CodecSample.
Import ListNotations.
Open Scope string_scope.
Open Scope list_scope.
Open Scope N_scope.

Definition num (n : N) : ArticleNumber := mkAN n [] [].

(** ** /repo/src/article_number.rs 529-561 ([check_parse_article_number]) *)
Example test_article_number :
  map (parse_article_number sample_codec) [u "第一条"; u "第一条の二"; u "第一項の二の三"] =
  [Ok (Some (mkAN 1 [] [])); Ok (Some (mkAN 1 [2] [])); Ok (Some (mkAN 1 [2; 3] []))].
Proof. vm_compute. reflexivity. Qed.

(** ** /repo/src/article_number.rs 931-938 ([check_parse_zenkaku_alphabet_lower], [.._upper]) *)
Example test_alphabet : parse_zenkaku_alphabet (u "ｂ") = Some 2 /\ parse_zenkaku_alphabet (u "Ｂ") = Some 2.
Proof. vm_compute. split; reflexivity. Qed.

(** ** /repo/src/parse_from_text.rs 979-1030 ([check_parse_line_contents_1]) *)
Definition lines_text : ustr := u "第一編　総則
  第一章　通則
  （基本原則）
  第一条　私権は、公共の福祉に適合しなければならない。
  ２　権利の行使及び義務の履行は、信義に従い誠実に行わなければならない。
  ３　権利の濫用は、これを許さない。
  （解釈の基準）
  第二条の二　この法律は、個人の尊厳と両性の本質的平等を旨として、解釈しなければならない。
  第十三条　被保佐人が次に掲げる行為をするには、その保佐人の同意を得なければならない。ただし、第九条ただし書に規定する行為については、この限りでない。
  一　元本を領収し、又は利用すること。
  二　主たる債務者が法人である場合の次に掲げる者
    イ　主たる債務者の総株主の議決権（株主総会において決議をすることができる事項の全部につき議決権を行使することができない株式についての議決権を除く。以下この号において同じ。）の過半数を有する者
  三　不動産その他重要な財産に関する権利の得喪を目的とする行為をすること。
  ２　家庭裁判所は、第十一条本文に規定する者又は保佐人若しくは保佐監督人の請求により、被保佐人が前項各号に掲げる行為以外の行為をする場合であってもその保佐人の同意を得なければならない旨の審判をすることができる。ただし、第九条ただし書に規定する行為については、この限りでない。".
Example test_lines : map (parse_line sample_codec) (text_lines lines_text) =
  [Ok (LPart (num 1) (u "総則"));
   Ok (LChapter (num 1) (u "通則"));
   Ok (LCaption (u "基本原則"));
   Ok (LArticle (num 1) (u "私権は、公共の福祉に適合しなければならない。"));
   Ok (LParagraph (num 2) (u "権利の行使及び義務の履行は、信義に従い誠実に行わなければならない。"));
   Ok (LParagraph (num 3) (u "権利の濫用は、これを許さない。"));
   Ok (LCaption (u "解釈の基準"));
   Ok (LArticle (mkAN 2 [2] []) (u "この法律は、個人の尊厳と両性の本質的平等を旨として、解釈しなければならない。"));
   Ok (LArticle (num 13) (u "被保佐人が次に掲げる行為をするには、その保佐人の同意を得なければならない。ただし、第九条ただし書に規定する行為については、この限りでない。"));
   Ok (LItem (mkIN (u "一") 1 [] [] NoParenKansuji) (u "元本を領収し、又は利用すること。"));
   Ok (LItem (mkIN (u "二") 2 [] [] NoParenKansuji) (u "主たる債務者が法人である場合の次に掲げる者"));
   Ok (LItem (mkIN (u "イ") 1 [] [] NoParenIrohaKatakana) (u "主たる債務者の総株主の議決権（株主総会において決議をすることができる事項の全部につき議決権を行使することができない株式についての議決権を除く。以下この号において同じ。）の過半数を有する者"));
   Ok (LItem (mkIN (u "三") 3 [] [] NoParenKansuji) (u "不動産その他重要な財産に関する権利の得喪を目的とする行為をすること。"));
   Ok (LParagraph (num 2) (u "家庭裁判所は、第十一条本文に規定する者又は保佐人若しくは保佐監督人の請求により、被保佐人が前項各号に掲げる行為以外の行為をする場合であってもその保佐人の同意を得なければならない旨の審判をすることができる。ただし、第九条ただし書に規定する行為については、この限りでない。"))].
Proof. vm_compute. reflexivity. Qed.

(** ** /repo/src/parse_from_text.rs 1032-1266 ([check_parse_body_1]) *)
Definition body_text : ustr := u "第一編　総則
  第一章　通則
  （基本原則）
  第一条　私権は、公共の福祉に適合しなければならない。
  ２　権利の行使及び義務の履行は、信義に従い誠実に行わなければならない。
  ３　権利の濫用は、これを許さない。
  （解釈の基準）
  第二条　この法律は、個人の尊厳と両性の本質的平等を旨として、解釈しなければならない。
  第十三条　被保佐人が次に掲げる行為をするには、その保佐人の同意を得なければならない。ただし、第九条ただし書に規定する行為については、この限りでない。
  一　元本を領収し、又は利用すること。
  二　主たる債務者が法人である場合の次に掲げる者
    イ　主たる債務者の総株主の議決権（株主総会において決議をすることができる事項の全部につき議決権を行使することができない株式についての議決権を除く。以下この号において同じ。）の過半数を有する者
  三　不動産その他重要な財産に関する権利の得喪を目的とする行為をすること。
  ２　家庭裁判所は、第十一条本文に規定する者又は保佐人若しくは保佐監督人の請求により、被保佐人が前項各号に掲げる行為以外の行為をする場合であってもその保佐人の同意を得なければならない旨の審判をすることができる。ただし、第九条ただし書に規定する行為については、この限りでない。".
Definition test_sentence (s : string) : Knot KSentence := mk KSentence (mkSentenceF [SE_String s] (Some 1) None None Vertical).
Definition test_item (l : lvl) (n : N) (s : string) (c : list (Knot (sub_item l))) : Knot (KItem l) :=
  mk (KItem l) (mkItemF None (SCT_Sentence [test_sentence s]) c [] (Some (num n)) false false).
Definition test_paragraph (n : N) (s : string) (c : list (Knot (KItem Item0))) : Knot KParagraph :=
  mk KParagraph (mkParagraphF None text_new [] [] [test_sentence s] [] c (num n) false false false).
Definition test_article (n : N) (c : option (Caption Knot)) (l : list (Knot KParagraph)) : Knot KArticle :=
  mk KArticle (mkArticleF c (from_value "") l None (num n) false false).
Definition test_caption (s : string) : Caption Knot := mkCaption (from_value s) None.

Definition test_paragraphs : list (Knot KParagraph) :=
  [test_paragraph 1 "被保佐人が次に掲げる行為をするには、その保佐人の同意を得なければならない。ただし、第九条ただし書に規定する行為については、この限りでない。"
     [test_item Item0 1 "元本を領収し、又は利用すること。" [];
      test_item Item0 2 "主たる債務者が法人である場合の次に掲げる者"
        [test_item Sub1 1 "主たる債務者の総株主の議決権（株主総会において決議をすることができる事項の全部につき議決権を行使することができない株式についての議決権を除く。以下この号において同じ。）の過半数を有する者" []];
      test_item Item0 3 "不動産その他重要な財産に関する権利の得喪を目的とする行為をすること。" []];
   test_paragraph 2 "家庭裁判所は、第十一条本文に規定する者又は保佐人若しくは保佐監督人の請求により、被保佐人が前項各号に掲げる行為以外の行為をする場合であってもその保佐人の同意を得なければならない旨の審判をすることができる。ただし、第九条ただし書に規定する行為については、この限りでない。" []].

Example test_body :
  match parse_body sample_codec 100 (u "title") body_text with
  | Some (Ok b) => Some (main_children (un KMain (lb_main_provision (un KLawBody b))))
  | _ => None
  end =
  Some [MC_Part (mk KPart (mkHeadF (from_value "総則") [PC_Chapter (mk KChapter (mkHeadF (from_value "通則")
    [ChC_Article (test_article 1 (Some (test_caption "基本原則"))
       [test_paragraph 1 "私権は、公共の福祉に適合しなければならない。" [];
        test_paragraph 2 "権利の行使及び義務の履行は、信義に従い誠実に行わなければならない。" [];
        test_paragraph 3 "権利の濫用は、これを許さない。" []]);
     ChC_Article (test_article 2 (Some (test_caption "解釈の基準"))
       [test_paragraph 1 "この法律は、個人の尊厳と両性の本質的平等を旨として、解釈しなければならない。" []]);
     ChC_Article (test_article 13 None test_paragraphs)] (num 1) false false))] (num 1) false false))].
Proof. vm_compute. reflexivity. Qed.

(** ** /repo/src/utils.rs 1129-1298 ([check_para_to_text]) *)
Example test_para_to_text : text_info_list_from_paragraph test_paragraphs =
  [(mkTI (num 1) [], "被保佐人が次に掲げる行為をするには、その保佐人の同意を得なければならない。ただし、第九条ただし書に規定する行為については、この限りでない。");
   (mkTI (num 1) [Some (num 1)], "元本を領収し、又は利用すること。");
   (mkTI (num 1) [Some (num 2)], "主たる債務者が法人である場合の次に掲げる者");
   (mkTI (num 1) [Some (num 2); Some (num 1)], "主たる債務者の総株主の議決権（株主総会において決議をすることができる事項の全部につき議決権を行使することができない株式についての議決権を除く。以下この号において同じ。）の過半数を有する者");
   (mkTI (num 1) [Some (num 3)], "不動産その他重要な財産に関する権利の得喪を目的とする行為をすること。");
   (mkTI (num 2) [], "家庭裁判所は、第十一条本文に規定する者又は保佐人若しくは保佐監督人の請求により、被保佐人が前項各号に掲げる行為以外の行為をする場合であってもその保佐人の同意を得なければならない旨の審判をすることができる。ただし、第九条ただし書に規定する行為については、この限りでない。")].
Proof. vm_compute. reflexivity. Qed.

(** ** /repo/src/text.rs 398-404 ([check_text]) *)
Definition text_node : Element :=
  mkElement "Sentence" [("Num", "1"); ("WritingMode", "vertical")] [NText "激";
  NElement (mkElement "Ruby" [] [NText "甚";
   NElement (mkElement "Rt" [] [NText "じん"])]);
  NText "災害に対処するための特別の財政援助等に関する法律（以下「法」という。）第三条第一項の政令で定める基準に該当する都道府県又は市町村は、その年に発生した激甚災害（法第二条第一項の規定により激甚災害として指定され、かつ、同条第二項の規定により当該事項に係る法の規定の適用が指定された災害をいう。以下同じ。）に係る法第三条第一項各号に掲げる事業ごとの当該都道府県又は市町村の負担額を合算した額の当該激甚災害が発生した年の四月一日の属する会計年度における当該都道府県又は市町村の標準税収入（法第四条第一項第一号の標準税収入をいう。以下同じ。）に対する割合が都道府県にあつては百分の十、市町村にあつては百分の五を超えるものとする。"].
Example test_text : match from_children parse (children text_node) with Ok t => Some (text_str t) | _ => None end =
  Some "激甚災害に対処するための特別の財政援助等に関する法律（以下「法」という。）第三条第一項の政令で定める基準に該当する都道府県又は市町村は、その年に発生した激甚災害（法第二条第一項の規定により激甚災害として指定され、かつ、同条第二項の規定により当該事項に係る法の規定の適用が指定された災害をいう。以下同じ。）に係る法第三条第一項各号に掲げる事業ごとの当該都道府県又は市町村の負担額を合算した額の当該激甚災害が発生した年の四月一日の属する会計年度における当該都道府県又は市町村の標準税収入（法第四条第一項第一号の標準税収入をいう。以下同じ。）に対する割合が都道府県にあつては百分の十、市町村にあつては百分の五を超えるものとする。".
Proof. vm_compute. reflexivity. Qed.

(** ** /repo/src/text.rs 406-413 ([check_ruby]) *)
Definition ruby_node : Element := mkElement "Ruby" [] [NText "甚";  NElement (mkElement "Rt" [] [NText "じん"])].
Example test_ruby : parse KRuby ruby_node = Ok (mk KRuby (mkRubyF (from_value "甚") "じん")) /\ text_str (from_value "甚") = "甚".
Proof. vm_compute. split; reflexivity. Qed.

(** ** /repo/src/tests/parse.rs 6-56 and /repo/src/tests/write.rs 7-39 ([test_129ac0000000089])

    The document is a cut of /repo/src/tests/129AC0000000089_20230614_505AC0000000053.xml (the Civil Code): of the
    parts, chapters, sections, subsections, divisions, articles, paragraphs, items, supplementary provisions and entries
    of the table of contents, those are kept that are the first below their parent or contain a combination of parent,
    tag and attributes that does not occur earlier.  Every such combination of the whole document occurs in the cut.
    The order of attributes is kept; white space between elements is dropped, as xmltree does. *)
Definition civil_code : Element :=
  mkElement "Law" [("Era", "Meiji"); ("Lang", "ja"); ("LawType", "Act"); ("Num", "089"); ("Year", "29"); ("PromulgateMonth", "04"); ("PromulgateDay", "27")] [NElement (mkElement "LawNum" [] [NText "明治二十九年法律第八十九号"]);
  NElement (mkElement "LawBody" [] [NElement (mkElement "LawTitle" [("Kana", "みんぽう"); ("Abbrev", ""); ("AbbrevKana", "")] [NText "民法"]);
   NElement (mkElement "EnactStatement" [] [NText "民法第一編第二編第三編別冊ノ通定ム"]);
   NElement (mkElement "TOC" [] [NElement (mkElement "TOCLabel" [] [NText "目次"]);
    NElement (mkElement "TOCPart" [("Num", "1")] [NElement (mkElement "PartTitle" [] [NText "第一編　総則"]);
     NElement (mkElement "TOCChapter" [("Num", "1")] [NElement (mkElement "ChapterTitle" [] [NText "第一章　通則"]);
      NElement (mkElement "ArticleRange" [] [NText "（第一条・第二条）"])]);
     NElement (mkElement "TOCChapter" [("Num", "2")] [NElement (mkElement "ChapterTitle" [] [NText "第二章　人"]);
      NElement (mkElement "TOCSection" [("Num", "1")] [NElement (mkElement "SectionTitle" [] [NText "第一節　権利能力"]);
       NElement (mkElement "ArticleRange" [] [NText "（第三条）"])])])]);
    NElement (mkElement "TOCPart" [("Num", "2")] [NElement (mkElement "PartTitle" [] [NText "第二編　物権"]);
     NElement (mkElement "TOCChapter" [("Num", "1")] [NElement (mkElement "ChapterTitle" [] [NText "第一章　総則"]);
      NElement (mkElement "ArticleRange" [] [NText "（第百七十五条―第百七十九条）"])]);
     NElement (mkElement "TOCChapter" [("Num", "3")] [NElement (mkElement "ChapterTitle" [] [NText "第三章　所有権"]);
      NElement (mkElement "TOCSection" [("Num", "1")] [NElement (mkElement "SectionTitle" [] [NText "第一節　所有権の限界"]);
       NElement (mkElement "TOCSubsection" [("Num", "1")] [NElement (mkElement "SubsectionTitle" [] [NText "第一款　所有権の内容及び範囲"]);
        NElement (mkElement "ArticleRange" [] [NText "（第二百六条―第二百八条）"])])])])]);
    NElement (mkElement "TOCPart" [("Num", "3")] [NElement (mkElement "PartTitle" [] [NText "第三編　債権"]);
     NElement (mkElement "TOCChapter" [("Num", "1")] [NElement (mkElement "ChapterTitle" [] [NText "第一章　総則"]);
      NElement (mkElement "TOCSection" [("Num", "1")] [NElement (mkElement "SectionTitle" [] [NText "第一節　債権の目的"]);
       NElement (mkElement "ArticleRange" [] [NText "（第三百九十九条―第四百十一条）"])]);
      NElement (mkElement "TOCSection" [("Num", "2")] [NElement (mkElement "SectionTitle" [] [NText "第二節　債権の効力"]);
       NElement (mkElement "TOCSubsection" [("Num", "1")] [NElement (mkElement "SubsectionTitle" [] [NText "第一款　債務不履行の責任等"]);
        NElement (mkElement "ArticleRange" [] [NText "（第四百十二条―第四百二十二条の二）"])]);
       NElement (mkElement "TOCSubsection" [("Num", "3")] [NElement (mkElement "SubsectionTitle" [] [NText "第三款　詐害行為取消権"]);
        NElement (mkElement "TOCDivision" [("Num", "1")] [NElement (mkElement "DivisionTitle" [] [NText "第一目　詐害行為取消権の要件"]);
         NElement (mkElement "ArticleRange" [] [NText "（第四百二十四条―第四百二十四条の五）"])])])])])])]);
   NElement (mkElement "MainProvision" [] [NElement (mkElement "Part" [("Num", "1")] [NElement (mkElement "PartTitle" [] [NText "第一編　総則"]);
     NElement (mkElement "Chapter" [("Num", "1")] [NElement (mkElement "ChapterTitle" [] [NText "第一章　通則"]);
      NElement (mkElement "Article" [("Num", "1")] [NElement (mkElement "ArticleCaption" [] [NText "（基本原則）"]);
       NElement (mkElement "ArticleTitle" [] [NText "第一条"]);
       NElement (mkElement "Paragraph" [("Num", "1")] [NElement (mkElement "ParagraphNum" [] []);
        NElement (mkElement "ParagraphSentence" [] [NElement (mkElement "Sentence" [("Num", "1"); ("WritingMode", "vertical")] [NText "私権は、公共の福祉に適合しなければならない。"])])])])]);
     NElement (mkElement "Chapter" [("Num", "2")] [NElement (mkElement "ChapterTitle" [] [NText "第二章　人"]);
      NElement (mkElement "Section" [("Num", "1")] [NElement (mkElement "SectionTitle" [] [NText "第一節　権利能力"]);
       NElement (mkElement "Article" [("Num", "3")] [NElement (mkElement "ArticleTitle" [] [NText "第三条"]);
        NElement (mkElement "Paragraph" [("Num", "1")] [NElement (mkElement "ParagraphNum" [] []);
         NElement (mkElement "ParagraphSentence" [] [NElement (mkElement "Sentence" [("Num", "1"); ("WritingMode", "vertical")] [NText "私権の享有は、出生に始まる。"])])])])]);
      NElement (mkElement "Section" [("Num", "3")] [NElement (mkElement "SectionTitle" [] [NText "第三節　行為能力"]);
       NElement (mkElement "Article" [("Num", "4")] [NElement (mkElement "ArticleCaption" [] [NText "（成年）"]);
        NElement (mkElement "ArticleTitle" [] [NText "第四条"]);
        NElement (mkElement "Paragraph" [("Num", "1")] [NElement (mkElement "ParagraphNum" [] []);
         NElement (mkElement "ParagraphSentence" [] [NElement (mkElement "Sentence" [("Num", "1"); ("WritingMode", "vertical")] [NText "年齢十八歳をもって、成年とする。"])])])]);
       NElement (mkElement "Article" [("Num", "5")] [NElement (mkElement "ArticleCaption" [] [NText "（未成年者の法律行為）"]);
        NElement (mkElement "ArticleTitle" [] [NText "第五条"]);
        NElement (mkElement "Paragraph" [("Num", "1")] [NElement (mkElement "ParagraphNum" [] []);
         NElement (mkElement "ParagraphSentence" [] [NElement (mkElement "Sentence" [("Function", "main"); ("Num", "1"); ("WritingMode", "vertical")] [NText "未成年者が法律行為をするには、その法定代理人の同意を得なければならない。"]);
          NElement (mkElement "Sentence" [("Function", "proviso"); ("Num", "2"); ("WritingMode", "vertical")] [NText "ただし、単に権利を得、又は義務を免れる法律行為については、この限りでない。"])])])]);
       NElement (mkElement "Article" [("Num", "13")] [NElement (mkElement "ArticleCaption" [] [NText "（保佐人の同意を要する行為等）"]);
        NElement (mkElement "ArticleTitle" [] [NText "第十三条"]);
        NElement (mkElement "Paragraph" [("Num", "1")] [NElement (mkElement "ParagraphNum" [] []);
         NElement (mkElement "ParagraphSentence" [] [NElement (mkElement "Sentence" [("Function", "main"); ("Num", "1"); ("WritingMode", "vertical")] [NText "被保佐人が次に掲げる行為をするには、その保佐人の同意を得なければならない。"]);
          NElement (mkElement "Sentence" [("Function", "proviso"); ("Num", "2"); ("WritingMode", "vertical")] [NText "ただし、第九条ただし書に規定する行為については、この限りでない。"])]);
         NElement (mkElement "Item" [("Num", "1")] [NElement (mkElement "ItemTitle" [] [NText "一"]);
          NElement (mkElement "ItemSentence" [] [NElement (mkElement "Sentence" [("Num", "1"); ("WritingMode", "vertical")] [NText "元本を領収し、又は利用すること。"])])])])])]);
      NElement (mkElement "Section" [("Num", "5")] [NElement (mkElement "SectionTitle" [] [NText "第五節　不在者の財産の管理及び失踪の宣告"]);
       NElement (mkElement "Article" [("Num", "25")] [NElement (mkElement "ArticleCaption" [] [NText "（不在者の財産の管理）"]);
        NElement (mkElement "ArticleTitle" [] [NText "第二十五条"]);
        NElement (mkElement "Paragraph" [("Num", "1")] [NElement (mkElement "ParagraphNum" [] []);
         NElement (mkElement "ParagraphSentence" [] [NElement (mkElement "Sentence" [("Num", "1"); ("WritingMode", "vertical")] [NText "従来の住所又は居所を去った者（以下「不在者」という。）がその財産の管理人（以下この節において単に「管理人」という。）を置かなかったときは、家庭裁判所は、利害関係人又は検察官の請求により、その財産の管理について必要な処分を命ずることができる。"]);
          NElement (mkElement "Sentence" [("Num", "2"); ("WritingMode", "vertical")] [NText "本人の不在中に管理人の権限が消滅したときも、同様とする。"])])])]);
       NElement (mkElement "Article" [("Num", "30")] [NElement (mkElement "ArticleCaption" [] [NText "（失";
         NElement (mkElement "Ruby" [] [NText "踪";
          NElement (mkElement "Rt" [] [NText "そう"])]);
         NText "の宣告）"]);
        NElement (mkElement "ArticleTitle" [] [NText "第三十条"]);
        NElement (mkElement "Paragraph" [("Num", "1")] [NElement (mkElement "ParagraphNum" [] []);
         NElement (mkElement "ParagraphSentence" [] [NElement (mkElement "Sentence" [("Num", "1"); ("WritingMode", "vertical")] [NText "不在者の生死が七年間明らかでないときは、家庭裁判所は、利害関係人の請求により、失";
           NElement (mkElement "Ruby" [] [NText "踪";
            NElement (mkElement "Rt" [] [NText "そう"])]);
           NText "の宣告をすることができる。"])])])])])]);
     NElement (mkElement "Chapter" [("Num", "5")] [NElement (mkElement "ChapterTitle" [] [NText "第五章　法律行為"]);
      NElement (mkElement "Section" [("Num", "1")] [NElement (mkElement "SectionTitle" [] [NText "第一節　総則"]);
       NElement (mkElement "Article" [("Num", "90")] [NElement (mkElement "ArticleCaption" [] [NText "（公序良俗）"]);
        NElement (mkElement "ArticleTitle" [] [NText "第九十条"]);
        NElement (mkElement "Paragraph" [("Num", "1")] [NElement (mkElement "ParagraphNum" [] []);
         NElement (mkElement "ParagraphSentence" [] [NElement (mkElement "Sentence" [("Num", "1"); ("WritingMode", "vertical")] [NText "公の秩序又は善良の風俗に反する法律行為は、無効とする。"])])])])]);
      NElement (mkElement "Section" [("Num", "3")] [NElement (mkElement "SectionTitle" [] [NText "第三節　代理"]);
       NElement (mkElement "Article" [("Num", "99")] [NElement (mkElement "ArticleCaption" [] [NText "（代理行為の要件及び効果）"]);
        NElement (mkElement "ArticleTitle" [] [NText "第九十九条"]);
        NElement (mkElement "Paragraph" [("Num", "1")] [NElement (mkElement "ParagraphNum" [] []);
         NElement (mkElement "ParagraphSentence" [] [NElement (mkElement "Sentence" [("Num", "1"); ("WritingMode", "vertical")] [NText "代理人がその権限内において本人のためにすることを示してした意思表示は、本人に対して直接にその効力を生ずる。"])])])]);
       NElement (mkElement "Article" [("Num", "117")] [NElement (mkElement "ArticleCaption" [] [NText "（無権代理人の責任）"]);
        NElement (mkElement "ArticleTitle" [] [NText "第百十七条"]);
        NElement (mkElement "Paragraph" [("Num", "1")] [NElement (mkElement "ParagraphNum" [] []);
         NElement (mkElement "ParagraphSentence" [] [NElement (mkElement "Sentence" [("Num", "1"); ("WritingMode", "vertical")] [NText "他人の代理人として契約をした者は、自己の代理権を証明したとき、又は本人の追認を得たときを除き、相手方の選択に従い、相手方に対して履行又は損害賠償の責任を負う。"])])]);
        NElement (mkElement "Paragraph" [("Num", "2")] [NElement (mkElement "ParagraphNum" [] [NText "２"]);
         NElement (mkElement "ParagraphSentence" [] [NElement (mkElement "Sentence" [("Num", "1"); ("WritingMode", "vertical")] [NText "前項の規定は、次に掲げる場合には、適用しない。"])]);
         NElement (mkElement "Item" [("Num", "1")] [NElement (mkElement "ItemTitle" [] [NText "一"]);
          NElement (mkElement "ItemSentence" [] [NElement (mkElement "Sentence" [("Num", "1"); ("WritingMode", "vertical")] [NText "他人の代理人として契約をした者が代理権を有しないことを相手方が知っていたとき。"])])]);
         NElement (mkElement "Item" [("Num", "2")] [NElement (mkElement "ItemTitle" [] [NText "二"]);
          NElement (mkElement "ItemSentence" [] [NElement (mkElement "Sentence" [("Function", "main"); ("Num", "1"); ("WritingMode", "vertical")] [NText "他人の代理人として契約をした者が代理権を有しないことを相手方が過失によって知らなかったとき。"]);
           NElement (mkElement "Sentence" [("Function", "proviso"); ("Num", "2"); ("WritingMode", "vertical")] [NText "ただし、他人の代理人として契約をした者が自己に代理権がないことを知っていたときは、この限りでない。"])])])])])])])]);
    NElement (mkElement "Part" [("Num", "2")] [NElement (mkElement "PartTitle" [] [NText "第二編　物権"]);
     NElement (mkElement "Chapter" [("Num", "1")] [NElement (mkElement "ChapterTitle" [] [NText "第一章　総則"]);
      NElement (mkElement "Article" [("Num", "175")] [NElement (mkElement "ArticleCaption" [] [NText "（物権の創設）"]);
       NElement (mkElement "ArticleTitle" [] [NText "第百七十五条"]);
       NElement (mkElement "Paragraph" [("Num", "1")] [NElement (mkElement "ParagraphNum" [] []);
        NElement (mkElement "ParagraphSentence" [] [NElement (mkElement "Sentence" [("Num", "1"); ("WritingMode", "vertical")] [NText "物権は、この法律その他の法律に定めるもののほか、創設することができない。"])])])])]);
     NElement (mkElement "Chapter" [("Num", "3")] [NElement (mkElement "ChapterTitle" [] [NText "第三章　所有権"]);
      NElement (mkElement "Section" [("Num", "1")] [NElement (mkElement "SectionTitle" [] [NText "第一節　所有権の限界"]);
       NElement (mkElement "Subsection" [("Num", "1")] [NElement (mkElement "SubsectionTitle" [] [NText "第一款　所有権の内容及び範囲"]);
        NElement (mkElement "Article" [("Num", "206")] [NElement (mkElement "ArticleCaption" [] [NText "（所有権の内容）"]);
         NElement (mkElement "ArticleTitle" [] [NText "第二百六条"]);
         NElement (mkElement "Paragraph" [("Num", "1")] [NElement (mkElement "ParagraphNum" [] []);
          NElement (mkElement "ParagraphSentence" [] [NElement (mkElement "Sentence" [("Num", "1"); ("WritingMode", "vertical")] [NText "所有者は、法令の制限内において、自由にその所有物の使用、収益及び処分をする権利を有する。"])])])])])]);
      NElement (mkElement "Section" [("Num", "3")] [NElement (mkElement "SectionTitle" [] [NText "第三節　共有"]);
       NElement (mkElement "Article" [("Num", "249")] [NElement (mkElement "ArticleCaption" [] [NText "（共有物の使用）"]);
        NElement (mkElement "ArticleTitle" [] [NText "第二百四十九条"]);
        NElement (mkElement "Paragraph" [("Num", "1")] [NElement (mkElement "ParagraphNum" [] []);
         NElement (mkElement "ParagraphSentence" [] [NElement (mkElement "Sentence" [("Num", "1"); ("WritingMode", "vertical")] [NText "各共有者は、共有物の全部について、その持分に応じた使用をすることができる。"])])])]);
       NElement (mkElement "Article" [("Num", "252")] [NElement (mkElement "ArticleCaption" [] [NText "（共有物の管理）"]);
        NElement (mkElement "ArticleTitle" [] [NText "第二百五十二条"]);
        NElement (mkElement "Paragraph" [("Num", "1")] [NElement (mkElement "ParagraphNum" [] []);
         NElement (mkElement "ParagraphSentence" [] [NElement (mkElement "Sentence" [("Num", "1"); ("WritingMode", "vertical")] [NText "共有物の管理に関する事項（次条第一項に規定する共有物の管理者の選任及び解任を含み、共有物に前条第一項に規定する変更を加えるものを除く。次項において同じ。）は、各共有者の持分の価格に従い、その過半数で決する。"]);
          NElement (mkElement "Sentence" [("Num", "2"); ("WritingMode", "vertical")] [NText "共有物を使用する共有者があるときも、同様とする。"])])]);
        NElement (mkElement "Paragraph" [("Num", "4")] [NElement (mkElement "ParagraphNum" [] [NText "４"]);
         NElement (mkElement "ParagraphSentence" [] [NElement (mkElement "Sentence" [("Num", "1"); ("WritingMode", "vertical")] [NText "共有者は、前三項の規定により、共有物に、次の各号に掲げる賃借権その他の使用及び収益を目的とする権利（以下この項において「賃借権等」という。）であって、当該各号に定める期間を超えないものを設定することができる。"])]);
         NElement (mkElement "Item" [("Num", "1")] [NElement (mkElement "ItemTitle" [] [NText "一"]);
          NElement (mkElement "ItemSentence" [] [NElement (mkElement "Column" [("Num", "1")] [NElement (mkElement "Sentence" [("Num", "1"); ("WritingMode", "vertical")] [NText "樹木の栽植又は伐採を目的とする山林の賃借権等"])]);
           NElement (mkElement "Column" [("Num", "2")] [NElement (mkElement "Sentence" [("Num", "1"); ("WritingMode", "vertical")] [NText "十年"])])])])])])])])]);
    NElement (mkElement "Part" [("Num", "3")] [NElement (mkElement "PartTitle" [] [NText "第三編　債権"]);
     NElement (mkElement "Chapter" [("Num", "1")] [NElement (mkElement "ChapterTitle" [] [NText "第一章　総則"]);
      NElement (mkElement "Section" [("Num", "1")] [NElement (mkElement "SectionTitle" [] [NText "第一節　債権の目的"]);
       NElement (mkElement "Article" [("Num", "399")] [NElement (mkElement "ArticleCaption" [] [NText "（債権の目的）"]);
        NElement (mkElement "ArticleTitle" [] [NText "第三百九十九条"]);
        NElement (mkElement "Paragraph" [("Num", "1")] [NElement (mkElement "ParagraphNum" [] []);
         NElement (mkElement "ParagraphSentence" [] [NElement (mkElement "Sentence" [("Num", "1"); ("WritingMode", "vertical")] [NText "債権は、金銭に見積もることができないものであっても、その目的とすることができる。"])])])])]);
      NElement (mkElement "Section" [("Num", "2")] [NElement (mkElement "SectionTitle" [] [NText "第二節　債権の効力"]);
       NElement (mkElement "Subsection" [("Num", "1")] [NElement (mkElement "SubsectionTitle" [] [NText "第一款　債務不履行の責任等"]);
        NElement (mkElement "Article" [("Num", "412")] [NElement (mkElement "ArticleCaption" [] [NText "（履行期と履行遅滞）"]);
         NElement (mkElement "ArticleTitle" [] [NText "第四百十二条"]);
         NElement (mkElement "Paragraph" [("Num", "1")] [NElement (mkElement "ParagraphNum" [] []);
          NElement (mkElement "ParagraphSentence" [] [NElement (mkElement "Sentence" [("Num", "1"); ("WritingMode", "vertical")] [NText "債務の履行について確定期限があるときは、債務者は、その期限の到来した時から遅滞の責任を負う。"])])])])]);
       NElement (mkElement "Subsection" [("Num", "3")] [NElement (mkElement "SubsectionTitle" [] [NText "第三款　詐害行為取消権"]);
        NElement (mkElement "Division" [("Num", "1")] [NElement (mkElement "DivisionTitle" [] [NText "第一目　詐害行為取消権の要件"]);
         NElement (mkElement "Article" [("Num", "424")] [NElement (mkElement "ArticleCaption" [] [NText "（詐害行為取消請求）"]);
          NElement (mkElement "ArticleTitle" [] [NText "第四百二十四条"]);
          NElement (mkElement "Paragraph" [("Num", "1")] [NElement (mkElement "ParagraphNum" [] []);
           NElement (mkElement "ParagraphSentence" [] [NElement (mkElement "Sentence" [("Function", "main"); ("Num", "1"); ("WritingMode", "vertical")] [NText "債権者は、債務者が債権者を害することを知ってした行為の取消しを裁判所に請求することができる。"]);
            NElement (mkElement "Sentence" [("Function", "proviso"); ("Num", "2"); ("WritingMode", "vertical")] [NText "ただし、その行為によって利益を受けた者（以下この款において「受益者」という。）がその行為の時において債権者を害することを知らなかったときは、この限りでない。"])])])])])])]);
      NElement (mkElement "Section" [("Num", "3")] [NElement (mkElement "SectionTitle" [] [NText "第三節　多数当事者の債権及び債務"]);
       NElement (mkElement "Subsection" [("Num", "1")] [NElement (mkElement "SubsectionTitle" [] [NText "第一款　総則"]);
        NElement (mkElement "Article" [("Num", "427")] [NElement (mkElement "ArticleCaption" [] [NText "（分割債権及び分割債務）"]);
         NElement (mkElement "ArticleTitle" [] [NText "第四百二十七条"]);
         NElement (mkElement "Paragraph" [("Num", "1")] [NElement (mkElement "ParagraphNum" [] []);
          NElement (mkElement "ParagraphSentence" [] [NElement (mkElement "Sentence" [("Num", "1"); ("WritingMode", "vertical")] [NText "数人の債権者又は債務者がある場合において、別段の意思表示がないときは、各債権者又は各債務者は、それぞれ等しい割合で権利を有し、又は義務を負う。"])])])])]);
       NElement (mkElement "Subsection" [("Num", "5")] [NElement (mkElement "SubsectionTitle" [] [NText "第五款　保証債務"]);
        NElement (mkElement "Division" [("Num", "1")] [NElement (mkElement "DivisionTitle" [] [NText "第一目　総則"]);
         NElement (mkElement "Article" [("Num", "446")] [NElement (mkElement "ArticleCaption" [] [NText "（保証人の責任等）"]);
          NElement (mkElement "ArticleTitle" [] [NText "第四百四十六条"]);
          NElement (mkElement "Paragraph" [("Num", "1")] [NElement (mkElement "ParagraphNum" [] []);
           NElement (mkElement "ParagraphSentence" [] [NElement (mkElement "Sentence" [("Num", "1"); ("WritingMode", "vertical")] [NText "保証人は、主たる債務者がその債務を履行しないときに、その履行をする責任を負う。"])])])])]);
        NElement (mkElement "Division" [("Num", "3")] [NElement (mkElement "DivisionTitle" [] [NText "第三目　事業に係る債務についての保証契約の特則"]);
         NElement (mkElement "Article" [("Num", "465_6")] [NElement (mkElement "ArticleCaption" [] [NText "（公正証書の作成と保証の効力）"]);
          NElement (mkElement "ArticleTitle" [] [NText "第四百六十五条の六"]);
          NElement (mkElement "Paragraph" [("Num", "1")] [NElement (mkElement "ParagraphNum" [] []);
           NElement (mkElement "ParagraphSentence" [] [NElement (mkElement "Sentence" [("Num", "1"); ("WritingMode", "vertical")] [NText "事業のために負担した貸金等債務を主たる債務とする保証契約又は主たる債務の範囲に事業のために負担する貸金等債務が含まれる根保証契約は、その契約の締結に先立ち、その締結の日前一箇月以内に作成された公正証書で保証人になろうとする者が保証債務を履行する意思を表示していなければ、その効力を生じない。"])])]);
          NElement (mkElement "Paragraph" [("Num", "2")] [NElement (mkElement "ParagraphNum" [] [NText "２"]);
           NElement (mkElement "ParagraphSentence" [] [NElement (mkElement "Sentence" [("Num", "1"); ("WritingMode", "vertical")] [NText "前項の公正証書を作成するには、次に掲げる方式に従わなければならない。"])]);
           NElement (mkElement "Item" [("Num", "1")] [NElement (mkElement "ItemTitle" [] [NText "一"]);
            NElement (mkElement "ItemSentence" [] [NElement (mkElement "Sentence" [("Num", "1"); ("WritingMode", "vertical")] [NText "保証人になろうとする者が、次のイ又はロに掲げる契約の区分に応じ、それぞれ当該イ又はロに定める事項を公証人に口授すること。"])]);
            NElement (mkElement "Subitem1" [("Num", "1")] [NElement (mkElement "Subitem1Title" [] [NText "イ"]);
             NElement (mkElement "Subitem1Sentence" [] [NElement (mkElement "Column" [("Num", "1")] [NElement (mkElement "Sentence" [("Num", "1"); ("WritingMode", "vertical")] [NText "保証契約（ロに掲げるものを除く。）"])]);
              NElement (mkElement "Column" [("Num", "2")] [NElement (mkElement "Sentence" [("Num", "1"); ("WritingMode", "vertical")] [NText "主たる債務の債権者及び債務者、主たる債務の元本、主たる債務に関する利息、違約金、損害賠償その他その債務に従たる全てのものの定めの有無及びその内容並びに主たる債務者がその債務を履行しないときには、その債務の全額について履行する意思（保証人になろうとする者が主たる債務者と連帯して債務を負担しようとするものである場合には、債権者が主たる債務者に対して催告をしたかどうか、主たる債務者がその債務を履行することができるかどうか、又は他に保証人があるかどうかにかかわらず、その全額について履行する意思）を有していること。"])])])]);
            NElement (mkElement "Subitem1" [("Num", "2")] [NElement (mkElement "Subitem1Title" [] [NText "ロ"]);
             NElement (mkElement "Subitem1Sentence" [] [NElement (mkElement "Column" [("Num", "1")] [NElement (mkElement "Sentence" [("Num", "1"); ("WritingMode", "vertical")] [NText "根保証契約"])]);
              NElement (mkElement "Column" [("Num", "2")] [NElement (mkElement "Sentence" [("Num", "1"); ("WritingMode", "vertical")] [NText "主たる債務の債権者及び債務者、主たる債務の範囲、根保証契約における極度額、元本確定期日の定めの有無及びその内容並びに主たる債務者がその債務を履行しないときには、極度額の限度において元本確定期日又は第四百六十五条の四第一項各号若しくは第二項各号に掲げる事由その他の元本を確定すべき事由が生ずる時までに生ずべき主たる債務の元本及び主たる債務に関する利息、違約金、損害賠償その他その債務に従たる全てのものの全額について履行する意思（保証人になろうとする者が主たる債務者と連帯して債務を負担しようとするものである場合には、債権者が主たる債務者に対して催告をしたかどうか、主たる債務者がその債務を履行することができるかどうか、又は他に保証人があるかどうかにかかわらず、その全額について履行する意思）を有していること。"])])])])])])]);
         NElement (mkElement "Article" [("Num", "465_9")] [NElement (mkElement "ArticleCaption" [] [NText "（公正証書の作成と保証の効力に関する規定の適用除外）"]);
          NElement (mkElement "ArticleTitle" [] [NText "第四百六十五条の九"]);
          NElement (mkElement "Paragraph" [("Num", "1")] [NElement (mkElement "ParagraphNum" [] []);
           NElement (mkElement "ParagraphSentence" [] [NElement (mkElement "Sentence" [("Num", "1"); ("WritingMode", "vertical")] [NText "前三条の規定は、保証人になろうとする者が次に掲げる者である保証契約については、適用しない。"])]);
           NElement (mkElement "Item" [("Num", "1")] [NElement (mkElement "ItemTitle" [] [NText "一"]);
            NElement (mkElement "ItemSentence" [] [NElement (mkElement "Sentence" [("Num", "1"); ("WritingMode", "vertical")] [NText "主たる債務者が法人である場合のその理事、取締役、執行役又はこれらに準ずる者"])])]);
           NElement (mkElement "Item" [("Num", "2")] [NElement (mkElement "ItemTitle" [] [NText "二"]);
            NElement (mkElement "ItemSentence" [] [NElement (mkElement "Sentence" [("Num", "1"); ("WritingMode", "vertical")] [NText "主たる債務者が法人である場合の次に掲げる者"])]);
            NElement (mkElement "Subitem1" [("Num", "1")] [NElement (mkElement "Subitem1Title" [] [NText "イ"]);
             NElement (mkElement "Subitem1Sentence" [] [NElement (mkElement "Sentence" [("Num", "1"); ("WritingMode", "vertical")] [NText "主たる債務者の総株主の議決権（株主総会において決議をすることができる事項の全部につき議決権を行使することができない株式についての議決権を除く。以下この号において同じ。）の過半数を有する者"])])]);
            NElement (mkElement "Subitem1" [("Num", "2")] [NElement (mkElement "Subitem1Title" [] [NText "ロ"]);
             NElement (mkElement "Subitem1Sentence" [] [NElement (mkElement "Sentence" [("Num", "1"); ("WritingMode", "vertical")] [NText "主たる債務者の総株主の議決権の過半数を他の株式会社が有する場合における当該他の株式会社の総株主の議決権の過半数を有する者"])])]);
            NElement (mkElement "Subitem1" [("Num", "3")] [NElement (mkElement "Subitem1Title" [] [NText "ハ"]);
             NElement (mkElement "Subitem1Sentence" [] [NElement (mkElement "Sentence" [("Num", "1"); ("WritingMode", "vertical")] [NText "主たる債務者の総株主の議決権の過半数を他の株式会社及び当該他の株式会社の総株主の議決権の過半数を有する者が有する場合における当該他の株式会社の総株主の議決権の過半数を有する者"])])]);
            NElement (mkElement "Subitem1" [("Num", "4")] [NElement (mkElement "Subitem1Title" [] [NText "ニ"]);
             NElement (mkElement "Subitem1Sentence" [] [NElement (mkElement "Sentence" [("Num", "1"); ("WritingMode", "vertical")] [NText "株式会社以外の法人が主たる債務者である場合におけるイ、ロ又はハに掲げる者に準ずる者"])])])])])])])])])])])]);
   NElement (mkElement "SupplProvision" [("AmendLawNum", "大正一五年四月二四日法律第六九号")] [NElement (mkElement "SupplProvisionLabel" [] [NText "附　則"]);
    NElement (mkElement "Paragraph" [("Num", "1")] [NElement (mkElement "ParagraphNum" [] []);
     NElement (mkElement "ParagraphSentence" [] [NElement (mkElement "Sentence" [("Num", "1"); ("WritingMode", "vertical")] [NText "本法施行ノ期日ハ勅令ヲ以テ之ヲ定ム"])])])]);
   NElement (mkElement "SupplProvision" [("AmendLawNum", "昭和一三年三月二二日法律第一八号"); ("Extract", "true")] [NElement (mkElement "SupplProvisionLabel" [] [NText "附　則"]);
    NElement (mkElement "Paragraph" [("Num", "1"); ("OldNum", "true"); ("OldStyle", "false")] [NElement (mkElement "ParagraphNum" [] []);
     NElement (mkElement "ParagraphSentence" [] [NElement (mkElement "Sentence" [("Num", "1"); ("WritingMode", "vertical")] [NText "本法施行ノ期日ハ勅令ヲ以テ之ヲ定ム"])])])]);
   NElement (mkElement "SupplProvision" [("AmendLawNum", "昭和二二年四月一六日法律第六一号"); ("Extract", "true")] [NElement (mkElement "SupplProvisionLabel" [] [NText "附　則"]);
    NElement (mkElement "Article" [("Num", "1")] [NElement (mkElement "ArticleTitle" [] [NText "第一条"]);
     NElement (mkElement "Paragraph" [("Num", "1")] [NElement (mkElement "ParagraphNum" [] []);
      NElement (mkElement "ParagraphSentence" [] [NElement (mkElement "Sentence" [("Num", "1"); ("WritingMode", "vertical")] [NText "この法律は、日本国憲法施行の日から、これを施行する。"])])])])]);
   NElement (mkElement "SupplProvision" [("AmendLawNum", "昭和二二年一二月二二日法律第二二二号")] [NElement (mkElement "SupplProvisionLabel" [] [NText "附　則"]);
    NElement (mkElement "Article" [("Num", "1")] [NElement (mkElement "ArticleTitle" [] [NText "第一条"]);
     NElement (mkElement "Paragraph" [("Num", "1")] [NElement (mkElement "ParagraphNum" [] []);
      NElement (mkElement "ParagraphSentence" [] [NElement (mkElement "Sentence" [("Num", "1"); ("WritingMode", "vertical")] [NText "この法律は、昭和二十三年一月一日から、これを施行する。"])])])]);
    NElement (mkElement "Article" [("Num", "10")] [NElement (mkElement "ArticleTitle" [] [NText "第十条"]);
     NElement (mkElement "Paragraph" [("Num", "1")] [NElement (mkElement "ParagraphNum" [] []);
      NElement (mkElement "ParagraphSentence" [] [NElement (mkElement "Sentence" [("Num", "1"); ("WritingMode", "vertical")] [NText "日本国憲法施行後新法施行前に離婚した者の一方は、新法第七百六十八条の規定に従い相手方に対して財産の分与を請求することができる。"])])]);
     NElement (mkElement "Paragraph" [("Num", "2"); ("OldNum", "true"); ("OldStyle", "false")] [NElement (mkElement "ParagraphNum" [] []);
      NElement (mkElement "ParagraphSentence" [] [NElement (mkElement "Sentence" [("Num", "1"); ("WritingMode", "vertical")] [NText "前項の規定は、婚姻の取消についてこれを準用する。"])])])])]);
   NElement (mkElement "SupplProvision" [("AmendLawNum", "昭和二五年五月一日法律第一二三号"); ("Extract", "true")] [NElement (mkElement "SupplProvisionLabel" [] [NText "附　則"]);
    NElement (mkElement "Paragraph" [("Num", "1")] [NElement (mkElement "ParagraphCaption" [] [NText "（施行期日）"]);
     NElement (mkElement "ParagraphNum" [] [NText "１"]);
     NElement (mkElement "ParagraphSentence" [] [NElement (mkElement "Sentence" [("Num", "1"); ("WritingMode", "vertical")] [NText "この法律は、公布の日から施行する。"])])])])])].

Definition civil_law : option Law := match parse_law civil_code with Ok l => Some l | _ => None end.

(** What both tests look at in the main provisions. *)
Definition first_article (l : Law) : option (Text Knot * option (Text Knot) * option (SentenceElement Knot)) :=
  match main_children (un KMain (lb_main_provision (un KLawBody (law_body l)))) with
  | MC_Part p :: _ =>
      match hd_children (un KPart p) with
      | PC_Chapter c :: _ =>
          match hd_children (un KChapter c) with
          | ChC_Article a :: _ =>
              Some (art_title (un KArticle a), option_map (fun c => cap_text c) (art_caption (un KArticle a)),
                match art_paragraph (un KArticle a) with
                | x :: _ => match par_sentence (un KParagraph x) with
                            | s :: _ => nth_error (sen_contents (un KSentence s)) 0
                            | [] => None
                            end
                | [] => None
                end)
          | _ => None
          end
      | _ => None
      end
  | _ => None
  end.
Definition first_expected : option (Text Knot * option (Text Knot) * option (SentenceElement Knot)) :=
  Some (from_value "第一条", Some (from_value "（基本原則）"), Some (SE_String "私権は、公共の福祉に適合しなければならない。")).

Example test_parse_main : match civil_law with Some l => first_article l | None => None end = first_expected.
Proof. vm_compute. reflexivity. Qed.

Example test_parse_toc :
  match civil_law with
  | Some l =>
      match lb_toc (un KLawBody (law_body l)) with
      | Some t =>
          match toc_main (un KTOC t) with
          | TM_Part p :: _ =>
              Some (th_title (un KTOCPart p),
                match th_children (un KTOCPart p) with
                | c :: _ => Some (th_title (un KTOCChapter c), th_range (un KTOCChapter c), th_num (un KTOCChapter c))
                | [] => None
                end)
          | _ => None
          end
      | None => None
      end
  | None => None
  end =
  Some (from_value "第一編　総則", Some (from_value "第一章　通則", Some (from_value "（第一条・第二条）"), num 1)).
Proof. vm_compute. reflexivity. Qed.

(** The document that is written and read again: the first article as before, and in fact the whole law. *)
Example test_write :
  match civil_law with
  | Some l => match parse_law (write_law l) with Ok l' => Some (first_article l') | _ => None end
  | None => None
  end = Some first_expected.
Proof. vm_compute. reflexivity. Qed.

Example test_write_all :
  match civil_law with Some l => parse_law (write_law l) | None => Panic end =
  match civil_law with Some l => Ok l | None => Panic end /\ civil_law <> None.
Proof. split; vm_compute; [reflexivity|discriminate]. Qed.

(** That is not so of the whole document, which no test looks at: it has nine numbers with a range, such as this
    article's.  The range is lost in writing (C02), so that the document written and read again has no
    article 38 to 84, but an article 38. *)
Definition deleted_articles : Element :=
  mkElement "Article" [("Num", "38:84")] [NElement (mkElement "ArticleTitle" [] [NText "第三十八条から第八十四条まで"]);
  NElement (mkElement "Paragraph" [("Num", "1")] [NElement (mkElement "ParagraphNum" [] []);
   NElement (mkElement "ParagraphSentence" [] [NElement (mkElement "Sentence" [("Num", "1"); ("WritingMode", "vertical")] [NText "削除"])])])].

Example test_write_range :
  match parse KArticle deleted_articles with
  | Ok a => match parse KArticle (write KArticle a) with
            | Ok b => Some (art_num (un KArticle a), art_num (un KArticle b))
            | _ => None
            end
  | _ => None
  end = Some (mkAN 38 [] [84], mkAN 38 [] []).
Proof. vm_compute. reflexivity. Qed.
