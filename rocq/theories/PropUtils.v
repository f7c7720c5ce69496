(** Properties of the listings of articles, texts and headings. *)
From Coq Require Import String List NArith Bool.
From Verif Require Import Base NumStr Xml Ast XmlWrite XmlParse ReadSpec ReadFacts Utils UtilsSpec UtilsFacts TocRowSpec TocRowFacts Samples.
Import ListNotations.
Open Scope string_scope.
Open Scope list_scope.

(** A main provision with headings of all ranks: part 1 with chapter 2, in it section 3 and article 9;
    in the section subsection 4 and article 8; in the subsection division 5 and article 7; in the division
    article 6; and article 10 directly in the part. *)
Definition t_article (n : N) : Knot KArticle :=
  mkArticle (mkArticleF None (plain "条") [] None (num1 n) false false).
Definition t_head {C} (s : string) (n : N) (l : list C) : HeadF Knot C := mkHeadF (plain s) l (num1 n) false false.
Definition t_division : Knot KDivision := mkDivision (t_head "款の目" 5 [t_article 6]).
Definition t_subsection : Knot KSubsection :=
  mkSubsection (t_head "款" 4 [SuC_Division t_division; SuC_Article (t_article 7)]).
Definition t_section : Knot KSection :=
  mkSection (t_head "節" 3 [SeC_Subsection t_subsection; SeC_Article (t_article 8)]).
Definition t_chapter : Knot KChapter :=
  mkChapter (t_head "章" 2 [ChC_Section t_section; ChC_Article (t_article 9)]).
Definition t_part : Knot KPart := mkPart (t_head "編" 1 [PC_Chapter t_chapter; PC_Article (t_article 10)]).
Definition t_main : Knot KMain :=
  mkMain (mkMainF [MC_Paragraph s_paragraph; MC_Part t_part; MC_Article (t_article 11); MC_Paragraph s_paragraph;
    MC_Paragraph s_paragraph] None).

(** C36.  The articles of a main or supplementary provision are listed once each and in order; the
    paragraphs outside articles are in groups, separated by the other children. *)
Theorem C36_main : forall m, fst (article_list_from_main_provision m) = main_articles m.
Proof. exact main_list. Qed.
Print Assumptions C36_main.

Theorem C36_suppl : forall s, fst (article_list_from_suppl_provision s) = suppl_articles s /\
  map wn_article (fst (with_number_article_list_from_suppl_provision s)) = suppl_articles s.
Proof. exact suppl_list. Qed.
Print Assumptions C36_suppl.

Theorem C36_as_read : forall e v, parse KMain e = Ok v ->
  Forall2 (reads KArticle) (articles_in e) (fst (article_list_from_main_provision v)).
Proof. exact articles_listed_as_read. Qed.
Print Assumptions C36_as_read.

Theorem C36_main_groups : forall m, woven (@MC_Paragraph Knot) (snd (article_list_from_main_provision m))
  (filter (fun c => negb (main_paragraph c)) (main_children (un KMain m))) (main_children (un KMain m)).
Proof. exact main_groups. Qed.
Print Assumptions C36_main_groups.

Theorem C36_suppl_groups : forall s,
  let cs := sp_children (un KSuppl s) in
  let seps := filter (fun c => suppl_structure c && negb (suppl_paragraph c)) cs in
  woven (@SP_Paragraph Knot) (snd (article_list_from_suppl_provision s)) seps (filter suppl_structure cs) /\
  woven (@SP_Paragraph Knot) (snd (with_number_article_list_from_suppl_provision s)) seps (filter suppl_structure cs).
Proof. exact suppl_groups. Qed.
Print Assumptions C36_suppl_groups.

Example C36_case : fst (article_list_from_main_provision t_main) = map t_article [6; 7; 8; 9; 10; 11]%N /\
  snd (article_list_from_main_provision t_main) = [[s_paragraph]; []; [s_paragraph; s_paragraph]] /\
  article_list_from_suppl_provision s_suppl = ([s_article], [[]; [s_paragraph]]).
Proof. split; [|split]; vm_compute; reflexivity. Qed.

(** C37.  The listing with numbers has every article with the headings around it: the number for a rank is
    there exactly if there is a heading of this rank.  The number of the division is right; for the other
    ranks it is that of the heading (or article) right below. *)
Theorem C37_articles : forall m, map snd (main_trails m) = main_articles m.
Proof. exact main_trails_articles. Qed.
Print Assumptions C37_articles.

Theorem C37_main : forall m, Forall2 noted_as (main_trails m) (fst (with_number_article_list_from_main_provision m)).
Proof. exact main_noted. Qed.
Print Assumptions C37_main.

Theorem C37_suppl : forall m, Forall2 noted_as (suppl_trails m) (fst (with_number_article_list_from_suppl_provision m)).
Proof. exact suppl_noted. Qed.
Print Assumptions C37_suppl.

Theorem C37_ranks : forall x w r, noted_as x w -> ((exists n, noted w r = Some n) <-> in_rank (fst x) r).
Proof. exact noted_rank. Qed.
Print Assumptions C37_ranks.

(** The numbers of the headings themselves are not what is noted. *)
Theorem C37_enclosing_refuted : exists m i x w r n,
  nth_error (main_trails m) i = Some x /\ nth_error (fst (with_number_article_list_from_main_provision m)) i = Some w /\
  number_at (fst x) r n /\ noted w r <> Some n.
Proof.
  exists t_main, 0, ([(RPart, num1 1); (RChapter, num1 2); (RSection, num1 3); (RSubsection, num1 4); (RDivision, num1 5)], t_article 6),
    (mkWNA (Some (num1 2)) (Some (num1 3)) (Some (num1 4)) (Some (num1 5)) (Some (num1 5)) (t_article 6)), RPart, (num1 1).
  split; [vm_compute; reflexivity|]. split; [vm_compute; reflexivity|]. split; [left; reflexivity|]. discriminate.
Qed.
Print Assumptions C37_enclosing_refuted.

Example C37_case : map (fun w => map (fun o => option_map base_number o) (map (noted w) [RPart; RChapter; RSection; RSubsection; RDivision]))
    (fst (with_number_article_list_from_main_provision t_main)) =
  [ [Some 2; Some 3; Some 4; Some 5; Some 5];
    [Some 2; Some 3; Some 4; Some 7; None];
    [Some 2; Some 3; Some 8; None; None];
    [Some 2; Some 9; None; None; None];
    [Some 10; None; None; None; None];
    [None; None; None; None; None] ]%N.
Proof. vm_compute. reflexivity. Qed.

(** C38.  The texts of paragraphs: one entry for each paragraph and each item below it at any depth, in
    document order, with the numbers on the way to it. *)
Theorem C38_entries : forall ps, text_info_list_from_paragraph ps = flat_map paragraph_entries ps.
Proof. exact text_entries. Qed.
Print Assumptions C38_entries.

Theorem C38_iff : forall ps i s, In (i, s) (text_info_list_from_paragraph ps) <->
  exists p, In p ps /\ ti_paragraph i = par_num (un KParagraph p) /\
    ((ti_items i = [] /\ s = concat_strings (map sentence_str (par_sentence (un KParagraph p)))) \/
     (exists it l x, In it (par_children (un KParagraph p)) /\ item_in (KItem Item0) it (ti_items i) l x /\ s = item_text_of l x)).
Proof. exact text_entry_iff. Qed.
Print Assumptions C38_iff.

Example C38_case : text_info_list_from_paragraph [s_paragraph] =
  [ (mkTI (num1 2) [], "本文附^{3}");
    (mkTI (num1 2) [Some (mkAN 1 [2] [])], "欄");
    (mkTI (num1 2) [Some (mkAN 1 [2] []); Some (num1 1)], "号の細分");
    (mkTI (num1 2) [Some (mkAN 1 [2] []); Some (num1 1); Some (num1 1)], "細目");
    (mkTI (num1 2) [Some (mkAN 1 [2] []); Some (num1 1)], "号の細分");
    (mkTI (num1 2) [Some (mkAN 1 [2] []); Some (num1 1); Some (num1 1)], "細目") ]%N.
Proof. vm_compute. reflexivity. Qed.

(** A table in a sixth subitem has no text, though it has at all other levels. *)
Definition t_level (l : lvl) (cs : list (Knot (sub_item l))) (x : SentenceOrColumnOrTable Knot) : Knot (KItem l) :=
  mkItem (mkItemF (l := l) None x cs [] (Some (num1 1)) false false).
Definition t_deep : Knot (KItem Item0) :=
  let s := SCT_Sentence [s_plain "文"] in
  t_level Item0 [t_level Sub1 [t_level Sub2 [t_level Sub3 [t_level Sub4 [t_level Sub5 [t_level Sub6
    [t_level Sub7 [] (SCT_Table s_table)] (SCT_Table s_table)] s] s] s] s] s] s.
Definition t_deep_paragraph : Knot KParagraph :=
  mkParagraph (mkParagraphF None (plain "") [] [] [s_plain "柱書"] [] [t_deep] (num1 1) false false false).
Theorem C38_table_refuted : exists ps p it q t,
  In p ps /\ In it (par_children (un KParagraph p)) /\ item_in (KItem Item0) it q Sub6 (SCT_Table t) /\ table_to_str t <> "" /\
  (forall s, In (mkTI (par_num (un KParagraph p)) q, s) (text_info_list_from_paragraph ps) -> s = "").
Proof.
  exists [t_deep_paragraph], t_deep_paragraph, t_deep, (repeat (Some (num1 1)) 7), s_table.
  split; [left; reflexivity|]. split; [left; reflexivity|]. split.
  - do 6 (eapply II_below; [left; reflexivity|]). apply (II_self Sub6).
  - split; [vm_compute; discriminate|]. intros s H. vm_compute in H.
    repeat (destruct H as [H|H]; [try discriminate H; injection H as <-; reflexivity|]). destruct H.
Qed.
Print Assumptions C38_table_refuted.

Example C38_deep_case : map snd (text_info_list_from_paragraph [t_deep_paragraph]) =
  ["柱書"; "文"; "文"; "文"; "文"; "文"; "文"; ""; table_to_str s_table] /\
  table_to_str s_table = ("甲乙" ++ nl ++ "セルx セルx")%string.
Proof. split; vm_compute; reflexivity. Qed.

(** C39.  The table of contents has one entry for each heading and each article, in document order, with its
    title and the numbers of part, section and subsection around it; what it says exactly. *)
Theorem C39_main : forall m, Forall2 toc_says (main_entries m) (toc_list_from_main_provision m).
Proof. exact main_toc_says. Qed.
Print Assumptions C39_main.

Theorem C39_suppl : forall m, Forall2 toc_says (suppl_entries m) (toc_list_from_suppl_provision m).
Proof. exact suppl_toc_says. Qed.
Print Assumptions C39_suppl.

Theorem C39_main_exact : forall m, toc_list_from_main_provision m = main_toc m.
Proof. exact main_toc_eq. Qed.
Print Assumptions C39_main_exact.

Theorem C39_suppl_exact : forall m, toc_list_from_suppl_provision m = suppl_toc m.
Proof. exact suppl_toc_eq. Qed.
Print Assumptions C39_suppl_exact.

(** The rows depend on nothing but the headings and articles, and each row on nothing but those up to it. *)
Theorem C39_rows_main : forall m, toc_list_from_main_provision m = rows (main_entries m).
Proof. exact main_rows. Qed.
Print Assumptions C39_rows_main.
Theorem C39_rows_suppl : forall m, toc_list_from_suppl_provision m = rows (suppl_entries m).
Proof. exact suppl_rows. Qed.
Print Assumptions C39_rows_suppl.
Theorem C39_rows_before : forall m m' a b b', main_entries m = a ++ b -> main_entries m' = a ++ b' ->
  firstn (length a) (toc_list_from_main_provision m) = firstn (length a) (toc_list_from_main_provision m').
Proof.
  intros m m' a b b' E E'. rewrite !main_rows, E, E'. rewrite <- (rows_length a).
  destruct (rows_app a b) as [c ->], (rows_app a b') as [c' ->].
  rewrite !firstn_app, !PeanoNat.Nat.sub_diag, !firstn_all. reflexivity.
Qed.
Print Assumptions C39_rows_before.
Theorem C39_rows_anew : forall m a e l, main_entries m = a ++ e :: l -> outermost e ->
  toc_list_from_main_provision m = rows a ++ rows (e :: l).
Proof. intros m a e l E H. rewrite main_rows, E. apply rows_anew, H. Qed.
Print Assumptions C39_rows_anew.
Example C39_case_anew : exists a e l, main_entries t_main = a ++ e :: l /\ length a = 10 /\ outermost e.
Proof.
  exists (firstn 10 (main_entries t_main)), (nth 10 (main_entries t_main) (mkEntry [] None "")), (skipn 11 (main_entries t_main)).
  split; [vm_compute; reflexivity|]. split; [vm_compute; reflexivity|]. vm_compute. repeat constructor.
Qed.
(** Part 1 with article 2 and chapter 3, in it article 4 and section 5, then article 6 of the part and chapter 7. *)
Example C39_case_rows : rows [
    mkEntry [(RPart, num1 1)] None "編"; mkEntry [(RPart, num1 1)] (Some (num1 2)) "条";
    mkEntry [(RPart, num1 1); (RChapter, num1 3)] None "章"; mkEntry [(RPart, num1 1); (RChapter, num1 3)] (Some (num1 4)) "条";
    mkEntry [(RPart, num1 1); (RChapter, num1 3); (RSection, num1 5)] None "節";
    mkEntry [(RPart, num1 1)] (Some (num1 6)) "条"; mkEntry [(RChapter, num1 7)] None "章"] =
  [mkToc (Some (num1 1)) None None None None None (Some "編"); mkToc (Some (num1 1)) None None None (Some (num1 2)) None (Some "条");
   mkToc (Some (num1 1)) (Some (num1 3)) None None (Some (num1 2)) None (Some "章");
   mkToc (Some (num1 1)) (Some (num1 3)) None None (Some (num1 4)) None (Some "条");
   mkToc (Some (num1 1)) (Some (num1 3)) (Some (num1 5)) None (Some (num1 4)) None (Some "節");
   mkToc (Some (num1 1)) (Some (num1 3)) None None (Some (num1 6)) None (Some "条");
   mkToc None (Some (num1 7)) None None None None (Some "章")].
Proof. vm_compute. reflexivity. Qed.

(** Numbers of divisions are shown outside divisions, and numbers of chapters outside chapters. *)
Theorem C39_numbers_refuted : exists m i j x y s t a b,
  nth_error (main_entries m) i = Some x /\ nth_error (toc_list_from_main_provision m) i = Some s /\
  ~ in_rank (en_trail x) RDivision /\ toc_division s = Some a /\
  nth_error (main_entries m) j = Some y /\ nth_error (toc_list_from_main_provision m) j = Some t /\
  ~ in_rank (en_trail y) RChapter /\ toc_chapter t = Some b.
Proof.
  exists t_main, 6, 9,
    (mkEntry [(RPart, num1 1); (RChapter, num1 2); (RSection, num1 3); (RSubsection, num1 4)] (Some (num1 7)) "条"),
    (mkEntry [(RPart, num1 1)] (Some (num1 10)) "条"),
    (mkToc (Some (num1 1)) (Some (num1 2)) (Some (num1 3)) (Some (num1 4)) (Some (num1 7)) None (Some "条")),
    (mkToc (Some (num1 1)) (Some (num1 2)) None None (Some (num1 10)) None (Some "条")), (num1 7), (num1 2).
  do 2 (split; [vm_compute; reflexivity|]).
  split; [intros [n Hn]; vm_compute in Hn; repeat (destruct Hn as [Hn|Hn]; [discriminate Hn|]); destruct Hn|].
  split; [reflexivity|]. do 2 (split; [vm_compute; reflexivity|]).
  split; [intros [n Hn]; vm_compute in Hn; repeat (destruct Hn as [Hn|Hn]; [discriminate Hn|]); destruct Hn|].
  reflexivity.
Qed.
Print Assumptions C39_numbers_refuted.

Example C39_case : map (fun t => (toc_title t, map (fun r => option_map base_number (toc_number t r)) [RPart; RChapter; RSection; RSubsection; RDivision]))
    (toc_list_from_main_provision t_main) =
  [ (Some "編", [Some 1; None; None; None; None]);
    (Some "章", [Some 1; Some 2; None; None; None]);
    (Some "節", [Some 1; Some 2; Some 3; None; None]);
    (Some "款", [Some 1; Some 2; Some 3; Some 4; None]);
    (Some "款の目", [Some 1; Some 2; Some 3; Some 4; Some 5]);
    (Some "条", [Some 1; Some 2; Some 3; Some 4; Some 6]);
    (Some "条", [Some 1; Some 2; Some 3; Some 4; Some 7]);
    (Some "条", [Some 1; Some 2; Some 3; None; Some 8]);
    (Some "条", [Some 1; Some 2; None; None; Some 9]);
    (Some "条", [Some 1; Some 2; None; None; Some 10]);
    (Some "条", [None; None; None; None; Some 11]) ]%N.
Proof. vm_compute. reflexivity. Qed.

(** C59.  The text listed for a sentence that was read is the text of its XML element: plain text and the
    bases of rubies, with marks around subscripts and superscripts, also one level deep in formulas and
    quotations.  That of a paragraph is the text of its sentences. *)
Theorem C59_sentence : forall e v, parse KSentence e = Ok v ->
  sentence_str v = concat_strings (map sentence_node_text (children e)).
Proof. exact sentence_read. Qed.
Print Assumptions C59_sentence.

Theorem C59_paragraph : forall e v, parse KParagraph e = Ok v ->
  concat_strings (map sentence_str (par_sentence (un KParagraph v))) =
  concat_strings (map (fun s => concat_strings (map sentence_node_text (children s)))
    (flat_map (fun c => elements (children c)) (with_tag "ParagraphSentence" (children e)))).
Proof. exact paragraph_text_read. Qed.
Print Assumptions C59_paragraph.

Definition t_node (n : string) (l : list XMLNode) : Element := mkElement n [] l.
Definition t_sentence : Element := t_node "Sentence"
  [NText "甲の"; NElement (t_node "Ruby" [NText "附"; NElement (t_node "Rt" [NText "ふ"])]); NElement (t_node "Sup" [NText "2"]);
   NElement (t_node "QuoteStruct" [NText "乙"; NElement (t_node "Sub" [NText "i"])]); NText "である。"].
Example C59_case : match parse KSentence t_sentence with Ok v => sentence_str v = "甲の附^{2}乙_{i}である。" | _ => False end.
Proof. vm_compute. reflexivity. Qed.

(** Not all text is listed: what stands in lines is lost. *)
Theorem C59_all_text_refuted : exists e c v, parse KSentence e = Ok v /\
  In (NElement c) (children e) /\ direct_text c <> "" /\ sentence_str v = "".
Proof.
  exists (t_node "Sentence" [NElement (mkElement "Line" [("Style", "solid")] [NText "傍線"])]), (mkElement "Line" [("Style", "solid")] [NText "傍線"]),
    (mkSentence (mkSentenceF [SE_Line (mkLine (mkLineF [LC_String "傍線"] LSolid))] None None None Vertical)).
  split; [vm_compute; reflexivity|]. split; [left; reflexivity|]. split; [discriminate|reflexivity].
Qed.
Print Assumptions C59_all_text_refuted.

(** C60.  The title listed for a heading that was read is the text of the title element it starts with:
    plain text, subscripts, superscripts and the bases of rubies. *)
Theorem C60_titles : forall e,
  let titled (n : string) (t : Text Knot) := exists c rest, children e = NElement c :: rest /\ name c = (n ++ "Title")%string /\
    text_str t = concat_strings (map (inline_text (fun s => s) (fun s => s)) (children c)) in
  (forall v, parse KPart e = Ok v -> titled "Part" (hd_title (un KPart v))) /\
  (forall v, parse KChapter e = Ok v -> titled "Chapter" (hd_title (un KChapter v))) /\
  (forall v, parse KSection e = Ok v -> titled "Section" (hd_title (un KSection v))) /\
  (forall v, parse KSubsection e = Ok v -> titled "Subsection" (hd_title (un KSubsection v))) /\
  (forall v, parse KDivision e = Ok v -> titled "Division" (hd_title (un KDivision v))).
Proof. exact titles_read. Qed.
Print Assumptions C60_titles.

Example C60_case :
  match parse KChapter (mkElement "Chapter" [("Num", "1")] [NElement (t_node "ChapterTitle"
    [NText "第一章　"; NElement (t_node "Ruby" [NText "附"; NElement (t_node "Rt" [NText "ふ"])]); NText "則"])]) with
  | Ok v => text_str (hd_title (un KChapter v)) = "第一章　附則" | _ => False end.
Proof. vm_compute. reflexivity. Qed.
