(** Listings of articles, texts and headings: /repo/src/utils.rs, and the [ToString] of texts.

    Model file: definitions only.

    Strings are UTF-8 bytes; vectors are lists, [push] and [append] are [++]; [clone] is the identity.
    None of these functions can fail. *)
From Coq Require Import String List NArith Bool.
From Verif Require Import Base NumStr Ast.
Import ListNotations.
Open Scope string_scope.
Open Scope list_scope.

(** ** Strings of texts *)

(** /repo/src/text.rs 116-131, the loop, where [ruby] is the text of a ruby: the annotation is left out,
    and so is everything in lines. *)
Definition te_str (ruby : Knot KRuby -> string) (e : TextElement Knot) : string :=
  match e with
  | TE_Sub s => s
  | TE_Sup s => s
  | TE_Ruby r => ruby r
  | TE_Line _ => ""
  | TE_Text s => s
  end.
(** [ruby.text.to_string()], which may have a ruby in it again. *)
Fixpoint ruby_str_k (k : kind) (x : Knot k) {struct x} : string :=
  match x with
  | mkRuby f => concat_strings (map (te_str (ruby_str_k KRuby)) (ruby_text f))
  | _ => ""
  end.
Definition ruby_str (r : Knot KRuby) : string := ruby_str_k KRuby r.
(** [Text::to_string]: /repo/src/text.rs 116-131. *)
Definition text_str (t : Text Knot) : string := concat_strings (map (te_str ruby_str) t).

(** The element of a formula or quotation: /repo/src/utils.rs 867-884 and 889-906. *)
Definition contents_element_str (c : ContentsElement Knot) : string :=
  match c with
  | CE_String s => s
  | CE_Ruby r => ruby_str r
  | CE_Sub s => ("_{" ++ s ++ "}")%string
  | CE_Sup s => ("^{" ++ s ++ "}")%string
  | _ => ""
  end.
(** /repo/src/utils.rs 847-913. *)
Definition sentence_element_to_str (l : list (SentenceElement Knot)) : string :=
  concat_strings (map (fun e => match e with
    | SE_String s => s
    | SE_Ruby r => ruby_str r
    | SE_Sub s => ("_{" ++ s ++ "}")%string
    | SE_Sup s => ("^{" ++ s ++ "}")%string
    | SE_Arith a => concat_strings (map contents_element_str (un (KCont CArith) (af_contents a)))
    | SE_Quote q => concat_strings (map contents_element_str (un (KCont CQuote) q))
    | SE_Line _ => ""
    end) l).
Definition sentence_str (s : Knot KSentence) : string := sentence_element_to_str (sen_contents (un KSentence s)).

(** One entry of a cell: /repo/src/utils.rs 826-835. *)
Definition cell_str (c : TableColumnContents Knot) : string :=
  match c with
  | TC_String s => s
  | TC_Sentence s => sentence_str s
  | TC_Column c => concat_strings (map sentence_str (col_sentence (un KColumn c)))
  | _ => ""
  end.
(** The newline character. *)
Definition nl : string := String (Ascii.ascii_of_nat 10) "".
(** /repo/src/utils.rs 801-845. *)
Definition table_to_str (t : Knot KTable) : string :=
  (join " " (map (fun row => concat_strings (map text_str row)) (tb_header (un KTable t))) ++ nl ++
   join nl (map (fun row => join " " (map (fun c => concat_strings (map cell_str (tc_contents (un KTableColumn c))))
     (un KTableRow row))) (tb_row (un KTable t))))%string.

(** ** Texts of paragraphs *)

(** /repo/src/utils.rs 330-336. *)
Record TextIndex := mkTI { ti_paragraph : ArticleNumber; ti_items : list (option ArticleNumber) }.

(** The [match] on the sentence of an item: /repo/src/utils.rs 381-397 and the ten copies of it; [table] is the
    branch for a table. *)
Definition item_str (table : Knot KTable -> string) (s : SentenceOrColumnOrTable Knot) : string :=
  match s with
  | SCT_Sentence l => concat_strings (map sentence_str l)
  | SCT_Column cs => join " " (flat_map (fun c => map sentence_str (col_sentence (un KColumn c))) cs)
  | SCT_Table t => table t
  end.
(** The common form of [text_list_from_subitem1] .. [text_list_from_subitem10]; [sub] is the function for the
    next level.  /repo/src/utils.rs 413-450, 452-489, 491-528, 530-567, 569-606, 608-645, 647-684,
    686-723, 725-762, 764-799. *)
Definition text_list_level (l : lvl) (table : Knot KTable -> string)
    (sub : list (option ArticleNumber) -> list (Knot (sub_item l)) -> list (TextIndex * string))
    (para_num : ArticleNumber) (items : list (option ArticleNumber)) (chldren : list (Knot (KItem l))) :
    list (TextIndex * string) :=
  flat_map (fun x => let t := un (KItem l) x in let path := items ++ [it_num t] in
    (mkTI para_num path, item_str table (it_sentence t)) :: sub path (it_children t)) chldren.
Definition text_list_from_subitem10 pn := text_list_level Sub10 table_to_str (fun _ _ => []) pn.
Definition text_list_from_subitem9 pn := text_list_level Sub9 table_to_str (text_list_from_subitem10 pn) pn.
Definition text_list_from_subitem8 pn := text_list_level Sub8 table_to_str (text_list_from_subitem9 pn) pn.
Definition text_list_from_subitem7 pn := text_list_level Sub7 table_to_str (text_list_from_subitem8 pn) pn.
(** Line 632: no text for a table at this level. *)
Definition text_list_from_subitem6 pn := text_list_level Sub6 (fun _ => "") (text_list_from_subitem7 pn) pn.
Definition text_list_from_subitem5 pn := text_list_level Sub5 table_to_str (text_list_from_subitem6 pn) pn.
Definition text_list_from_subitem4 pn := text_list_level Sub4 table_to_str (text_list_from_subitem5 pn) pn.
Definition text_list_from_subitem3 pn := text_list_level Sub3 table_to_str (text_list_from_subitem4 pn) pn.
Definition text_list_from_subitem2 pn := text_list_level Sub2 table_to_str (text_list_from_subitem3 pn) pn.
Definition text_list_from_subitem1 pn := text_list_level Sub1 table_to_str (text_list_from_subitem2 pn) pn.
(** /repo/src/utils.rs 360-411; the loop over the items is the one of the other levels, with the path kept in
    a vector that is pushed to and popped from. *)
Definition text_info_list_from_paragraph (lst : list (Knot KParagraph)) : list (TextIndex * string) :=
  flat_map (fun x => let p := un KParagraph x in
    (mkTI (par_num p) [], concat_strings (map sentence_str (par_sentence p))) ::
    text_list_level Item0 table_to_str (text_list_from_subitem1 (par_num p)) (par_num p) [] (par_children p)) lst.

(** /repo/src/utils.rs 349-356 and 339-346. *)
Definition text_from_paragraph_list (l : list (Knot KParagraph)) : string :=
  join nl (map snd (text_info_list_from_paragraph l)).
Definition text_from_article (a : Knot KArticle) : string :=
  join nl (map snd (text_info_list_from_paragraph (art_paragraph (un KArticle a)))).

(** ** Articles with numbers *)

(** /repo/src/utils.rs 25-32. *)
Record WithNumberArticle := mkWNA {
  wn_part : option ArticleNumber;
  wn_chapter : option ArticleNumber;
  wn_section : option ArticleNumber;
  wn_subsection : option ArticleNumber;
  wn_division : option ArticleNumber;
  wn_article : Knot KArticle
}.
(** /repo/src/utils.rs 35-44 and the setters 45-74. *)
Definition wn_new (a : Knot KArticle) : WithNumberArticle := mkWNA None None None None None a.
Definition set_part n w := mkWNA n (wn_chapter w) (wn_section w) (wn_subsection w) (wn_division w) (wn_article w).
Definition set_chapter n w := mkWNA (wn_part w) n (wn_section w) (wn_subsection w) (wn_division w) (wn_article w).
Definition set_section n w := mkWNA (wn_part w) (wn_chapter w) n (wn_subsection w) (wn_division w) (wn_article w).
Definition set_subsection n w := mkWNA (wn_part w) (wn_chapter w) (wn_section w) n (wn_division w) (wn_article w).
Definition set_division n w := mkWNA (wn_part w) (wn_chapter w) (wn_section w) (wn_subsection w) n (wn_article w).

(** In the following functions the variable [t] of the pattern hides the argument [t], so that the number set is
    that of the child.  /repo/src/utils.rs 318-326. *)
Definition article_list_from_division (t : Knot KDivision) : list WithNumberArticle :=
  map (fun a => set_division (Some (hd_num (un KDivision t))) (wn_new a)) (hd_children (un KDivision t)).
(** /repo/src/utils.rs 292-315. *)
Definition article_list_from_subsection (t : Knot KSubsection) : list WithNumberArticle :=
  flat_map (fun c => match c with
    | SuC_Division t => map (set_subsection (Some (hd_num (un KDivision t)))) (article_list_from_division t)
    | SuC_Article t => [set_subsection (Some (art_num (un KArticle t))) (wn_new t)]
    end) (hd_children (un KSubsection t)).
(** /repo/src/utils.rs 255-289. *)
Definition article_list_from_section (t : Knot KSection) : list WithNumberArticle :=
  flat_map (fun c => match c with
    | SeC_Subsection t => map (set_section (Some (hd_num (un KSubsection t)))) (article_list_from_subsection t)
    | SeC_Division t => map (set_section (Some (hd_num (un KDivision t)))) (article_list_from_division t)
    | SeC_Article t => [set_section (Some (art_num (un KArticle t))) (wn_new t)]
    end) (hd_children (un KSection t)).
(** /repo/src/utils.rs 230-253. *)
Definition article_list_from_chapter (t : Knot KChapter) : list WithNumberArticle :=
  flat_map (fun c => match c with
    | ChC_Section t => map (set_chapter (Some (hd_num (un KSection t)))) (article_list_from_section t)
    | ChC_Article t => [set_chapter (Some (art_num (un KArticle t))) (wn_new t)]
    end) (hd_children (un KChapter t)).
(** /repo/src/utils.rs 205-228. *)
Definition article_list_from_part (t : Knot KPart) : list WithNumberArticle :=
  flat_map (fun c => match c with
    | PC_Chapter t => map (set_part (Some (hd_num (un KChapter t)))) (article_list_from_chapter t)
    | PC_Article t => [set_part (Some (art_num (un KArticle t))) (wn_new t)]
    end) (hd_children (un KPart t)).

(** The three listings share their loop: [arts] gives the articles of a child, [None] for a paragraph that is
    added to the current group; [skip] tells the children that are ignored. *)
Inductive child_action (W : Type) := Add (p : Knot KParagraph) | Articles (l : list W) | Skip.
Arguments Add {W}. Arguments Articles {W}. Arguments Skip {W}.
(** State: [v], [para_v], [para_v_tmp]. *)
Fixpoint list_loop {C W} (act : C -> child_action W) (cs : list C) (v : list W) (para_v : list (list (Knot KParagraph)))
    (tmp : list (Knot KParagraph)) : list W * list (list (Knot KParagraph)) :=
  match cs with
  | [] => (v, para_v ++ [tmp])
  | c :: cs =>
      match act c with
      | Add p => list_loop act cs v para_v (tmp ++ [p])
      | Articles l => list_loop act cs (v ++ l) (para_v ++ [tmp]) []
      | Skip => list_loop act cs v para_v tmp
      end
  end.
(** /repo/src/utils.rs 85-124. *)
Definition with_number_article_list_from_main_provision (m : Knot KMain) :=
  list_loop (fun c => match c with
    | MC_Article t => Articles [wn_new t]
    | MC_Part t => Articles (article_list_from_part t)
    | MC_Chapter t => Articles (article_list_from_chapter t)
    | MC_Section t => Articles (article_list_from_section t)
    | MC_Paragraph t => Add t
    end) (main_children (un KMain m)) [] [] [].
(** /repo/src/utils.rs 128-137. *)
Definition article_list_from_main_provision (m : Knot KMain) : list (Knot KArticle) * list (list (Knot KParagraph)) :=
  let '(article_v, para_v) := with_number_article_list_from_main_provision m in (map wn_article article_v, para_v).
(** /repo/src/utils.rs 141-171. *)
Definition article_list_from_suppl_provision (s : Knot KSuppl) : list (Knot KArticle) * list (list (Knot KParagraph)) :=
  list_loop (fun c => match c with
    | SP_Article t => Articles [t]
    | SP_Chapter t => Articles (map wn_article (article_list_from_chapter t))
    | SP_Paragraph t => Add t
    | _ => Skip
    end) (sp_children (un KSuppl s)) [] [] [].
(** /repo/src/utils.rs 175-203. *)
Definition with_number_article_list_from_suppl_provision (s : Knot KSuppl) :=
  list_loop (fun c => match c with
    | SP_Article t => Articles [wn_new t]
    | SP_Chapter t => Articles (article_list_from_chapter t)
    | SP_Paragraph t => Add t
    | _ => Skip
    end) (sp_children (un KSuppl s)) [] [] [].

(** ** Table of contents *)

(** /repo/src/utils.rs 916-924. *)
Record Toc := mkToc {
  toc_part : option ArticleNumber;
  toc_chapter : option ArticleNumber;
  toc_section : option ArticleNumber;
  toc_subsection : option ArticleNumber;
  toc_division : option ArticleNumber;
  toc_article : option ArticleNumber;
  toc_title : option string
}.
Definition toc_default : Toc := mkToc None None None None None None None.
(** The setters, /repo/src/utils.rs 927-947; [set_article] (942-944) sets the division number. *)
Definition toc_set_part n t := mkToc n (toc_chapter t) (toc_section t) (toc_subsection t) (toc_division t) (toc_article t) (toc_title t).
Definition toc_set_chapter n t := mkToc (toc_part t) n (toc_section t) (toc_subsection t) (toc_division t) (toc_article t) (toc_title t).
Definition toc_set_section n t := mkToc (toc_part t) (toc_chapter t) n (toc_subsection t) (toc_division t) (toc_article t) (toc_title t).
Definition toc_set_subsection n t := mkToc (toc_part t) (toc_chapter t) (toc_section t) n (toc_division t) (toc_article t) (toc_title t).
Definition toc_set_division n t := mkToc (toc_part t) (toc_chapter t) (toc_section t) (toc_subsection t) n (toc_article t) (toc_title t).
Definition toc_set_article n t := mkToc (toc_part t) (toc_chapter t) (toc_section t) (toc_subsection t) n (toc_article t) (toc_title t).
Definition toc_set_title n t := mkToc (toc_part t) (toc_chapter t) (toc_section t) (toc_subsection t) (toc_division t) (toc_article t) n.

(** The two settings made at every article. *)
Definition toc_at_article (a : Knot KArticle) (toc : Toc) : Toc :=
  toc_set_title (Some (text_str (art_title (un KArticle a)))) (toc_set_article (Some (art_num (un KArticle a))) toc).

(** A loop over children which changes the record [toc] and adds entries; the result has both, as the argument
    is [&mut]. *)
Fixpoint toc_loop {C} (f : C -> Toc -> Toc * list Toc) (cs : list C) (toc : Toc) : Toc * list Toc :=
  match cs with
  | [] => (toc, [])
  | c :: cs => let '(toc1, l1) := f c toc in let '(toc2, l2) := toc_loop f cs toc1 in (toc2, l1 ++ l2)
  end.
Definition toc_article_step (a : Knot KArticle) (toc : Toc) : Toc * list Toc :=
  let toc := toc_at_article a toc in (toc, [toc]).
(** [toc_list_from_…(t, &mut toc.clone())]: the record of the caller stays as it was. *)
Definition on_clone (f : Toc -> Toc * list Toc) (toc : Toc) : Toc * list Toc := (toc, snd (f toc)).

(** /repo/src/utils.rs 1115-1127. *)
Definition toc_list_from_division (t : Knot KDivision) (toc : Toc) : Toc * list Toc :=
  let toc := toc_set_title (Some (text_str (hd_title (un KDivision t)))) (toc_set_division (Some (hd_num (un KDivision t))) toc) in
  let '(toc', l) := toc_loop toc_article_step (hd_children (un KDivision t)) toc in (toc', toc :: l).
(** /repo/src/utils.rs 1093-1113. *)
Definition toc_list_from_subsection (t : Knot KSubsection) (toc : Toc) : Toc * list Toc :=
  let toc := toc_set_title (Some (text_str (hd_title (un KSubsection t)))) (toc_set_subsection (Some (hd_num (un KSubsection t))) toc) in
  let '(toc', l) := toc_loop (fun c => match c with
    | SuC_Article a => toc_article_step a
    | SuC_Division d => on_clone (toc_list_from_division d)
    end) (hd_children (un KSubsection t)) toc in (toc', toc :: l).
(** /repo/src/utils.rs 1067-1091. *)
Definition toc_list_from_section (t : Knot KSection) (toc : Toc) : Toc * list Toc :=
  let toc := toc_set_title (Some (text_str (hd_title (un KSection t)))) (toc_set_section (Some (hd_num (un KSection t))) toc) in
  let '(toc', l) := toc_loop (fun c => match c with
    | SeC_Article a => toc_article_step a
    | SeC_Subsection d => on_clone (toc_list_from_subsection d)
    | SeC_Division d => on_clone (toc_list_from_division d)
    end) (hd_children (un KSection t)) toc in (toc', toc :: l).
(** /repo/src/utils.rs 1045-1065. *)
Definition toc_list_from_chapter (t : Knot KChapter) (toc : Toc) : Toc * list Toc :=
  let toc := toc_set_title (Some (text_str (hd_title (un KChapter t)))) (toc_set_chapter (Some (hd_num (un KChapter t))) toc) in
  let '(toc', l) := toc_loop (fun c => match c with
    | ChC_Article a => toc_article_step a
    | ChC_Section d => on_clone (toc_list_from_section d)
    end) (hd_children (un KChapter t)) toc in (toc', toc :: l).
(** /repo/src/utils.rs 1022-1043; here the record itself is passed on, not a clone. *)
Definition toc_list_from_part (t : Knot KPart) : list Toc :=
  let toc := toc_set_title (Some (text_str (hd_title (un KPart t)))) (toc_set_part (Some (hd_num (un KPart t))) toc_default) in
  let '(_, l) := toc_loop (fun c => match c with
    | PC_Article a => toc_article_step a
    | PC_Chapter d => toc_list_from_chapter d
    end) (hd_children (un KPart t)) toc in toc :: l.
(** /repo/src/utils.rs 971-999. *)
Definition toc_list_from_main_provision (m : Knot KMain) : list Toc :=
  flat_map (fun c => match c with
    | MC_Article a => [toc_at_article a toc_default]
    | MC_Part t => toc_list_from_part t
    | MC_Chapter t => snd (toc_list_from_chapter t toc_default)
    | MC_Section t => snd (toc_list_from_section t toc_default)
    | MC_Paragraph _ => []
    end) (main_children (un KMain m)).
(** /repo/src/utils.rs 1001-1020. *)
Definition toc_list_from_suppl_provision (s : Knot KSuppl) : list Toc :=
  flat_map (fun c => match c with
    | SP_Article a => [toc_at_article a toc_default]
    | SP_Chapter t => snd (toc_list_from_chapter t toc_default)
    | _ => []
    end) (sp_children (un KSuppl s)).
