(** Properties of replacing one element of an XML tree. *)
From Coq Require Import String List NArith Bool Lia.
From Verif Require Import Base NumStr Xml Ast XmlParse ReadSpec Utils UtilsSpec UtilsFacts DocTextSpec DocListSpec DocListFacts Serde SerdeFacts LocalSpec LocalFacts LocalPlace LocalList LocalTocSpec LocalToc TocRowFacts.
Import ListNotations.
Open Scope string_scope.
Open Scope list_scope.

(** C94.  Replacing an element anywhere in a tree by another one of the same kind, both of which can be read, changes
    the outcome of reading the tree in at most one place of its document, where it had the document of the one and now
    has that of the other; whether there is an outcome, and which error, does not depend on it. *)
Theorem C94_replace : forall k0 c c' x x', twins k0 c c' -> parse k0 c = Ok x -> parse k0 c' = Ok x' ->
  forall q k, kind_of (put q c) = Some k ->
  differs (ser k) (ser k0 x) (ser k0 x') (parse k (put q c)) (parse k (put q c')).
Proof.
  intros k0 c c' x x' T H H' q k K.
  apply (local k0 c c' (ser k0 x) (ser k0 x') T) with (m := S (deep q)); [|lia|left; exact K].
  rewrite H, H'. right. apply op_here.
Qed.
Print Assumptions C94_replace.

Theorem C94_law : forall k0 c c' x x', twins k0 c c' -> parse k0 c = Ok x -> parse k0 c' = Ok x' ->
  forall q, differs ser_law (ser k0 x) (ser k0 x') (parse_law (put q c)) (parse_law (put q c')).
Proof.
  intros k0 c c' x x' T H H' q. apply (local_law k0 c c' (ser k0 x) (ser k0 x') T).
  rewrite H, H'. right. apply op_here.
Qed.
Print Assumptions C94_law.

(** Elements that are read alike, even if both are rejected, can be exchanged anywhere. *)
Lemma one_place_same : forall d a b, one_place d d a b -> a = b.
Proof. intros d a b H. induction H; [reflexivity|rewrite IHone_place; reflexivity..]. Qed.
Lemma ser_inj : forall k x y, ser k x = ser k y -> x = y.
Proof. intros k x y H. assert (E := de_ser k x). rewrite H, de_ser in E. congruence. Qed.
Theorem C94_same : forall k0 c c', twins k0 c c' -> parse k0 c = parse k0 c' ->
  forall q k, kind_of (put q c) = Some k -> parse k (put q c) = parse k (put q c').
Proof.
  intros k0 c c' T H q k K.
  assert (L : orel (@rel _ (chg_knot JNull JNull k)) (parse k (put q c)) (parse k (put q c'))).
  { apply (local k0 c c' JNull JNull T) with (m := S (deep q)); [|lia|left; exact K].
    rewrite H. apply orel_refl. left. reflexivity. }
  destruct (parse k (put q c)), (parse k (put q c')); cbn in L; try contradiction; [|congruence|reflexivity].
  destruct L as [->|L]; [reflexivity|]. apply one_place_same in L. apply ser_inj in L. congruence.
Qed.
Print Assumptions C94_same.

Theorem C94_same_law : forall k0 c c', twins k0 c c' -> parse k0 c = parse k0 c' ->
  forall q, parse_law (put q c) = parse_law (put q c').
Proof.
  intros k0 c c' T H q.
  assert (L : orel (@rel _ (chg_law JNull JNull)) (parse_law (put q c)) (parse_law (put q c'))).
  { apply (local_law k0 c c' JNull JNull T). rewrite H. apply orel_refl. left. reflexivity. }
  destruct (parse_law (put q c)) as [v|e|], (parse_law (put q c')) as [v'|e'|]; cbn in L; try contradiction; [|congruence|reflexivity].
  destruct L as [->|L]; [reflexivity|]. apply one_place_same in L.
  assert (E := law_back v). rewrite L, law_back in E. congruence.
Qed.
Print Assumptions C94_same_law.

(** The listing of articles: replacing an article or a heading with all below it changes the articles of that element
    and no other. *)
Theorem C94_listing_main : forall n a l q r t c c' v v', around q = Some t ->
  parse KMain (put (Under n a l q r) c) = Ok v -> parse KMain (put (Under n a l q r) c') = Ok v' ->
  exists A M M' B,
    fst (with_number_article_list_from_main_provision v) = A ++ M ++ B /\
    fst (with_number_article_list_from_main_provision v') = A ++ M' ++ B /\
    listed (articles_at t c) M /\ listed (articles_at t c') M'.
Proof.
  intros n a l q r t c c' v v' H P P'. apply (listing_put n a l q r t c c'); [exact H| |].
  - exists (main_trails v). split; [apply main_articles_places, P|apply main_noted].
  - exists (main_trails v'). split; [apply main_articles_places, P'|apply main_noted].
Qed.
Print Assumptions C94_listing_main.

Theorem C94_listing_suppl : forall n a l q r t c c' v v', around q = Some t ->
  parse KSuppl (put (Under n a l q r) c) = Ok v -> parse KSuppl (put (Under n a l q r) c') = Ok v' ->
  exists A M M' B,
    fst (with_number_article_list_from_suppl_provision v) = A ++ M ++ B /\
    fst (with_number_article_list_from_suppl_provision v') = A ++ M' ++ B /\
    listed (articles_at t c) M /\ listed (articles_at t c') M'.
Proof.
  intros n a l q r t c c' v v' H P P'. apply (listing_put n a l q r t c c'); [exact H| |].
  - exists (suppl_trails v). split; [apply suppl_articles_places, P|apply suppl_noted].
  - exists (suppl_trails v'). split; [apply suppl_articles_places, P'|apply suppl_noted].
Qed.
Print Assumptions C94_listing_suppl.

(** The table of contents: replacing an article or a heading with all below it exchanges the rows of that element, and
    the rows before are the same, the rows after the outermost heading around it too, and the rows between still show the
    same headings and articles. *)
Theorem C94_toc_main : forall n a l q r t c c' v v', around q = Some t -> titled q ->
  parse KMain (put (Under n a l q r) c) = Ok v -> parse KMain (put (Under n a l q r) c') = Ok v' ->
  exists A M M' B B' C,
    toc_list_from_main_provision v = A ++ M ++ B ++ C /\ toc_list_from_main_provision v' = A ++ M' ++ B' ++ C /\
    Forall2 same_row B B' /\ shown (places_at t c) M /\ shown (places_at t c') M' /\ shown (flat_map places (elements r)) C.
Proof.
  intros n a l q r t c c' v v' H T P P'. apply (toc_put n a l q r t c c'); [exact H|exact T| |].
  - exists (main_entries v). split; [apply main_places, P|]. split; [apply main_toc_says|apply main_rows].
  - exists (main_entries v'). split; [apply main_places, P'|]. split; [apply main_toc_says|apply main_rows].
Qed.
Print Assumptions C94_toc_main.

Theorem C94_toc_suppl : forall n a l q r t c c' v v', around q = Some t -> titled q ->
  parse KSuppl (put (Under n a l q r) c) = Ok v -> parse KSuppl (put (Under n a l q r) c') = Ok v' ->
  exists A M M' B B' C,
    toc_list_from_suppl_provision v = A ++ M ++ B ++ C /\ toc_list_from_suppl_provision v' = A ++ M' ++ B' ++ C /\
    Forall2 same_row B B' /\ shown (places_at t c) M /\ shown (places_at t c') M' /\ shown (flat_map places (elements r)) C.
Proof.
  intros n a l q r t c c' v v' H T P P'. apply (toc_put n a l q r t c c'); [exact H|exact T| |].
  - exists (suppl_entries v). split; [apply suppl_places, P|]. split; [apply suppl_toc_says|apply suppl_rows].
  - exists (suppl_entries v'). split; [apply suppl_places, P'|]. split; [apply suppl_toc_says|apply suppl_rows].
Qed.
Print Assumptions C94_toc_suppl.

(** An element replaced by one with the same headings and articles, by number and title, leaves the table as it is. *)
Theorem C94_toc_kept_main : forall n a l q r t c c' v v', around q = Some t -> titled q -> Forall2 alike (places c) (places c') ->
  parse KMain (put (Under n a l q r) c) = Ok v -> parse KMain (put (Under n a l q r) c') = Ok v' ->
  toc_list_from_main_provision v = toc_list_from_main_provision v'.
Proof.
  intros n a l q r t c c' v v' H T K P P'. apply (toc_kept n a l q r t c c'); [exact H|exact T|exact K| |].
  - exists (main_entries v). split; [apply main_places, P|]. split; [apply main_toc_says|apply main_rows].
  - exists (main_entries v'). split; [apply main_places, P'|]. split; [apply main_toc_says|apply main_rows].
Qed.
Print Assumptions C94_toc_kept_main.

Theorem C94_toc_kept_suppl : forall n a l q r t c c' v v', around q = Some t -> titled q -> Forall2 alike (places c) (places c') ->
  parse KSuppl (put (Under n a l q r) c) = Ok v -> parse KSuppl (put (Under n a l q r) c') = Ok v' ->
  toc_list_from_suppl_provision v = toc_list_from_suppl_provision v'.
Proof.
  intros n a l q r t c c' v v' H T K P P'. apply (toc_kept n a l q r t c c'); [exact H|exact T|exact K| |].
  - exists (suppl_entries v). split; [apply suppl_places, P|]. split; [apply suppl_toc_says|apply suppl_rows].
  - exists (suppl_entries v'). split; [apply suppl_places, P'|]. split; [apply suppl_toc_says|apply suppl_rows].
Qed.
Print Assumptions C94_toc_kept_suppl.

(** A sentence replaced in the only article of a chapter of a law. *)
Definition l_el (n : string) (a : list (string * string)) (l : list XMLNode) : XMLNode := NElement (mkElement n a l).
Definition l_sentence (t : string) : Element := mkElement "Sentence" [] [NText t].
Definition l_in_article : place :=
  Under "Article" [("Num", "1")] [l_el "ArticleTitle" [] [NText "第一条"]]
    (Under "Paragraph" [("Num", "1")] [l_el "ParagraphNum" [] []]
      (Under "ParagraphSentence" [] [] Here [l_el "Sentence" [] [NText "後段"]]) []) [].
Definition l_in_main : place :=
  Under "MainProvision" [] []
    (Under "Chapter" [("Num", "1")] [l_el "ChapterTitle" [] [NText "総則"]] l_in_article []) [].
Definition l_in_law : place :=
  Under "Law" [("Era", "Heisei"); ("Year", "1"); ("Num", "1"); ("LawType", "Act"); ("Lang", "ja")]
    [l_el "LawNum" [] [NText "平成元年法律第一号"]] (Under "LawBody" [] [] l_in_main []) [].
Definition read_ok {A} (x : R A) : bool := match x with Ok _ => true | _ => false end.
Example C94_case :
  twins KSentence (l_sentence "前段") (l_sentence "別の前段") /\
  read_ok (parse KSentence (l_sentence "前段")) = true /\ read_ok (parse KSentence (l_sentence "別の前段")) = true /\
  read_ok (parse_law (put l_in_law (l_sentence "前段"))) = true /\
  parse_law (put l_in_law (l_sentence "前段")) <> parse_law (put l_in_law (l_sentence "別の前段")).
Proof.
  split; [split; [reflexivity|split; [reflexivity|discriminate]]|]. split; [vm_compute; reflexivity|].
  split; [vm_compute; reflexivity|]. split; [vm_compute; reflexivity|].
  intros H. vm_compute in H. discriminate H.
Qed.
(** The element may be one that is not read at all; then nothing changes. *)
Example C94_case_unread :
  parse KSentence (l_sentence "前段") <> parse KSentence (l_sentence "別の前段") /\
  parse KPreamble (put (Under "Preamble" [] [] Here []) (l_sentence "前段")) = Ok (mk KPreamble []) /\
  parse KPreamble (put (Under "Preamble" [] [] Here []) (l_sentence "別の前段")) = Ok (mk KPreamble []).
Proof. split; [intros H; vm_compute in H; discriminate H|]. split; vm_compute; reflexivity. Qed.
(** Without the condition on formulas of [twins]: the number is not part of what the formula is read as. *)
Definition l_formula (n : string) : Element := mkElement "ArithFormula" [("Num", n)] [NText "1+1"].
Example C94_case_formula :
  kind_of (l_formula "1") = Some (KCont CArith) /\
  parse (KCont CArith) (l_formula "1") = parse (KCont CArith) (l_formula "2") /\
  parse KSentence (put (Under "Sentence" [] [] Here []) (l_formula "1")) <>
  parse KSentence (put (Under "Sentence" [] [] Here []) (l_formula "2")).
Proof. split; [reflexivity|]. split; [vm_compute; reflexivity|]. intros H. vm_compute in H. discriminate H. Qed.
(** An article replaced by one with another number, next to other articles. *)
Definition l_article (n t : string) : Element :=
  mkElement "Article" [("Num", n)] [l_el "ArticleTitle" [] [NText t];
    l_el "Paragraph" [("Num", "1")] [l_el "ParagraphNum" [] []; l_el "ParagraphSentence" [] [l_el "Sentence" [] [NText "文"]]]].
Definition l_chapter : place :=
  Under "Chapter" [("Num", "1")] [l_el "ChapterTitle" [] [NText "総則"]; NElement (l_article "1" "第一条")] Here
    [NElement (l_article "3" "第三条")].
Example C94_case_listing :
  around l_chapter = Some [(RChapter, Some "1")] /\
  match parse KMain (put (Under "MainProvision" [] [] l_chapter []) (l_article "2" "第二条")),
        parse KMain (put (Under "MainProvision" [] [] l_chapter []) (l_article "2_2" "第二条の二")) with
  | Ok v, Ok v' =>
      map (fun w => num_str (art_num (un KArticle (wn_article w)))) (fst (with_number_article_list_from_main_provision v)) = ["1"; "2"; "3"] /\
      map (fun w => num_str (art_num (un KArticle (wn_article w)))) (fst (with_number_article_list_from_main_provision v')) = ["1"; "2_2"; "3"]
  | _, _ => False
  end.
Proof. split; [reflexivity|]. vm_compute. split; reflexivity. Qed.

(** The other rows need not stay as they are: the number of a chapter is also shown for the article behind it, which
    is in no chapter. *)
Definition l_chapter_no (n : string) : Element := mkElement "Chapter" [("Num", n)] [l_el "ChapterTitle" [] [NText "通則"]].
Definition l_part : place :=
  Under "Part" [("Num", "1")] [l_el "PartTitle" [] [NText "総則"]] Here [NElement (l_article "3" "第三条")].
Definition row_of (o : R (Knot KMain)) (i : nat) : option Toc :=
  match o with Ok v => nth_error (toc_list_from_main_provision v) i | _ => None end.
Theorem C94_toc_rest_refuted : exists n a l q r t c c' i x y,
  around q = Some t /\ titled q /\ length (places c) = 1 /\ length (places c') = 1 /\
  row_of (parse KMain (put (Under n a l q r) c)) i = Some x /\
  row_of (parse KMain (put (Under n a l q r) c')) i = Some y /\
  toc_title x = Some "第三条" /\ toc_title y = Some "第三条" /\ toc_chapter x <> toc_chapter y.
Proof.
  exists "MainProvision", [], [], l_part, [], [(RPart, Some "1")], (l_chapter_no "2"), (l_chapter_no "5"), 2,
    (mkToc (Some (mkAN 1 [] [])) (Some (mkAN 2 [] [])) None None (Some (mkAN 3 [] [])) None (Some "第三条")),
    (mkToc (Some (mkAN 1 [] [])) (Some (mkAN 5 [] [])) None None (Some (mkAN 3 [] [])) None (Some "第三条")).
  split; [reflexivity|]. split; [split; [discriminate|exact I]|]. do 6 (split; [vm_compute; reflexivity|]). discriminate.
Qed.
Print Assumptions C94_toc_rest_refuted.
Example C94_case_toc : around l_part = Some [(RPart, Some "1")] /\ titled l_part /\
  map (fun c => match parse KMain (put (Under "MainProvision" [] [] l_part []) c) with
                | Ok v => map toc_title (toc_list_from_main_provision v) | _ => [] end)
    [l_chapter_no "2"; l_article "2" "第二条"] =
  [[Some "総則"; Some "通則"; Some "第三条"]; [Some "総則"; Some "第二条"; Some "第三条"]].
Proof. split; [reflexivity|]. split; [split; [discriminate|exact I]|]. vm_compute. reflexivity. Qed.
(** The sentence of an article replaced: the table of contents stays as it was. *)
Definition l_amended : Element :=
  mkElement "Article" [("Num", "2")] [l_el "ArticleTitle" [] [NText "第二条"];
    l_el "Paragraph" [("Num", "1")] [l_el "ParagraphNum" [] []; l_el "ParagraphSentence" [] [l_el "Sentence" [] [NText "改正文"]]]].
Example C94_case_toc_kept : Forall2 alike (places (l_article "2" "第二条")) (places l_amended) /\
  map (fun c => match parse KMain (put (Under "MainProvision" [] [] l_part []) c) with
                | Ok v => map toc_title (toc_list_from_main_provision v) | _ => [] end)
    [l_article "2" "第二条"; l_amended] =
  [[Some "総則"; Some "第二条"; Some "第三条"]; [Some "総則"; Some "第二条"; Some "第三条"]].
Proof. split; [repeat constructor|vm_compute; reflexivity]. Qed.
