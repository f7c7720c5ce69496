(** Properties of the listings of a law that was read from an XML tree. *)
From Coq Require Import String List NArith Bool.
From Verif Require Import Base NumStr Xml Ast XmlParse KnotFacts ReadSpec ReadingSpec DocTextSpec Utils UtilsSpec UtilsFacts DocListSpec DocListFacts.
Import ListNotations.
Open Scope string_scope.
Open Scope list_scope.

(** C87.  The table of contents of a provision has one entry for every heading and article of the XML tree, in the
    order of the document, with its title and the numbers of the headings around it, and the listing of articles with
    numbers one article for every [Article] element, with the headings around that element. *)
Theorem C87_main_toc : forall e v, parse KMain e = Ok v ->
  exists xs, Forall2 entry_for (provision_places e) xs /\ Forall2 toc_says xs (toc_list_from_main_provision v).
Proof. intros e v H. exists (main_entries v). split; [apply main_places, H|apply main_toc_says]. Qed.
Print Assumptions C87_main_toc.

Theorem C87_suppl_toc : forall e v, parse KSuppl e = Ok v ->
  exists xs, Forall2 entry_for (provision_places e) xs /\ Forall2 toc_says xs (toc_list_from_suppl_provision v).
Proof. intros e v H. exists (suppl_entries v). split; [apply suppl_places, H|apply suppl_toc_says]. Qed.
Print Assumptions C87_suppl_toc.

Theorem C87_main_articles : forall e v, parse KMain e = Ok v ->
  exists xs, Forall2 article_for (article_places e) xs /\
    Forall2 noted_as xs (fst (with_number_article_list_from_main_provision v)).
Proof. intros e v H. exists (main_trails v). split; [apply main_articles_places, H|apply main_noted]. Qed.
Print Assumptions C87_main_articles.

Theorem C87_suppl_articles : forall e v, parse KSuppl e = Ok v ->
  exists xs, Forall2 article_for (article_places e) xs /\
    Forall2 noted_as xs (fst (with_number_article_list_from_suppl_provision v)).
Proof. intros e v H. exists (suppl_trails v). split; [apply suppl_articles_places, H|apply suppl_noted]. Qed.
Print Assumptions C87_suppl_articles.

(** In a law these are the provisions of its body; of several main provisions it is the last one. *)
Theorem C87_law : forall e l, parse_law e = Ok l ->
  let b := un KLawBody (law_body l) in
  (exists m, law_main e m /\ parse KMain m = Ok (lb_main_provision b)) /\
  (exists ss, law_suppl e ss /\ Forall2 (reads KSuppl) ss (lb_suppl_provision b)).
Proof. exact law_provisions. Qed.
Print Assumptions C87_law.

(** A main provision with a part, two chapters, a section and three articles. *)
Definition d_el (n : string) (a : list (string * string)) (l : list XMLNode) : Element := mkElement n a l.
Definition d_title (n t : string) : XMLNode := NElement (d_el n [] [NText t]).
Definition d_article (num title : string) : XMLNode :=
  NElement (d_el "Article" [("Num", num)] [d_title "ArticleTitle" title;
    NElement (d_el "Paragraph" [("Num", "1")] [d_title "ParagraphNum" "";
      NElement (d_el "ParagraphSentence" [] [d_title "Sentence" "文"])])]).
Definition d_chapter (num title : string) (l : list XMLNode) : XMLNode :=
  NElement (d_el "Chapter" [("Num", num)] (d_title "ChapterTitle" title :: l)).
Definition d_main : Element :=
  d_el "MainProvision" []
    [NElement (d_el "Part" [("Num", "1")] [d_title "PartTitle" "総則";
       d_chapter "2" "通則" [d_article "1" "第一条"; NElement (d_el "Section" [("Num", "1_2")] [d_title "SectionTitle" "節"; d_article "2_3" "第二条の三"])]]);
     d_chapter "3" "罰則" [d_article "4" "第四条"]].
Example C87_case :
  map (fun p => (map fst (fst p), place_title (snd p))) (provision_places d_main) =
    [([RPart], "総則"); ([RPart; RChapter], "通則"); ([RPart; RChapter], "第一条"); ([RPart; RChapter; RSection], "節");
     ([RPart; RChapter; RSection], "第二条の三"); ([RChapter], "罰則"); ([RChapter], "第四条")] /\
  (exists v, parse KMain d_main = Ok v /\
    map toc_title (toc_list_from_main_provision v) =
      map (fun p => Some (place_title (snd p))) (provision_places d_main) /\
    length (fst (with_number_article_list_from_main_provision v)) = length (article_places d_main)).
Proof.
  split; [vm_compute; reflexivity|]. destruct (parse KMain d_main) as [v| |] eqn:E; [|exfalso; vm_compute in E; discriminate E..].
  exists v. split; [reflexivity|].
  assert (H : match parse KMain d_main with Ok v => 
     map toc_title (toc_list_from_main_provision v) = map (fun p => Some (place_title (snd p))) (provision_places d_main) /\
     length (fst (with_number_article_list_from_main_provision v)) = length (article_places d_main) | _ => True end)
    by (vm_compute; split; reflexivity).
  rewrite E in H. exact H.
Qed.
