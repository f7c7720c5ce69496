(** Properties of reading plain text in parts. *)
From Coq Require Import String List NArith ZArith Bool Arith Lia.
From Verif Require Import Base NumStr Ast Regex NumText NumTextSpec TextParse TextSpec CodecSample OutlineFacts CutSpec CutFacts.
Import ListNotations.
Open Scope string_scope.
Open Scope list_scope.

(** C95.  Lines [a] that are read to the end, followed by lines of which the first starts anew: the result is that
    of [a] followed by that of the others; if those crash the parser or make it run for ever, so do all together. *)
Theorem C95_parts : forall title a l b fuel, readable a -> starts_anew a l -> length (a ++ l :: b) < fuel ->
  exists pre ma, parse_lines fuel title a = Some (Ok (plain title pre ma)) /\
  match parse_lines fuel title (l :: b) with
  | Some (Ok v) => exists mb, v = plain title None mb /\
      parse_lines fuel title (a ++ l :: b) = Some (Ok (plain title pre (ma ++ mb)))
  | r => parse_lines fuel title (a ++ l :: b) = r
  end.
Proof. exact parts. Qed.
Print Assumptions C95_parts.

(** If [a] is not read to the end, what follows does not matter. *)
Theorem C95_unread : forall title a b fuel, ~ readable a -> length (a ++ b) < fuel ->
  parse_lines fuel title (a ++ b) = parse_lines fuel title a.
Proof. exact unread_end. Qed.
Print Assumptions C95_unread.

(** The same of a text that ends with a line feed and a text that follows it. *)
Theorem C95_text : forall cd title s t a l b fuel, classify cd (s ++ [10%N]) = Ok a -> classify cd t = Ok (l :: b) ->
  readable a -> starts_anew a l -> length (text_lines (s ++ 10%N :: t)) < fuel ->
  exists pre ma, parse_body cd fuel title (s ++ [10%N]) = Some (Ok (plain title pre ma)) /\
  match parse_body cd fuel title t with
  | Some (Ok v) => exists mb, v = plain title None mb /\
      parse_body cd fuel title (s ++ 10%N :: t) = Some (Ok (plain title pre (ma ++ mb)))
  | r => parse_body cd fuel title (s ++ 10%N :: t) = r
  end.
Proof. exact text_parts. Qed.
Print Assumptions C95_text.
Theorem C95_text_unread : forall cd title s t a b fuel, classify cd (s ++ [10%N]) = Ok a -> classify cd t = Ok b ->
  ~ readable a -> length (text_lines (s ++ 10%N :: t)) < fuel ->
  parse_body cd fuel title (s ++ 10%N :: t) = parse_body cd fuel title (s ++ [10%N]).
Proof. exact text_unread. Qed.
Print Assumptions C95_text_unread.

(** The lines of an article, exchanged for those of another one: the listing of the law body, which determines it
    (C41), changes by that article and nothing else. *)
Theorem C95_article : forall title a x x' c fuel, readable a -> article_lines x -> article_lines x' ->
  readable x -> readable x' -> own_caption a x -> own_caption a x' -> not_below c ->
  length (a ++ x ++ c) < fuel -> length (a ++ x' ++ c) < fuel ->
  exists v v', parse_lines fuel title x = Some (Ok (plain title None [MC_Article v])) /\
    parse_lines fuel title x' = Some (Ok (plain title None [MC_Article v'])) /\
  match parse_lines fuel title (a ++ x ++ c), parse_lines fuel title (a ++ x' ++ c) with
  | Some (Ok b), Some (Ok b') => exists d before after,
      list_body b = before ++ list_article d v ++ after /\ list_body b' = before ++ list_article d v' ++ after
  | Some Panic, Some Panic => True
  | None, None => True
  | _, _ => False
  end.
Proof. exact article_exchanged. Qed.
Print Assumptions C95_article.

Definition one : ArticleNumber := mkAN 1 [] [].
Definition two : ArticleNumber := mkAN 2 [] [].
Definition first_lines : list line :=
  [LText (u "前文"); LPart one (u "総則"); LChapter one (u "通則"); LCaption (u "目的"); LArticle one (u "甲");
   LParagraph two (u "乙"); LItem (mkIN [] 1 [] [] NoParenKansuji) (u "丙")].
Definition last_lines : list line := [LChapter one (u "雑則"); LArticle two (u "丁"); LSection one (u "罰則")].
Definition readable_b (a : list line) : bool := match steps ([], MPre 0) a with Next _ => true | _ => false end.
Lemma readable_check : forall a, readable_b a = true -> readable a.
Proof. intros a H. apply readable_run. unfold readable_b in H. destruct (steps ([], MPre 0) a); try discriminate H. eauto. Qed.

Example C95_case : readable first_lines /\ starts_anew first_lines (LPart two (u "各則")) /\
  match parse_lines 50 (u "法") first_lines, parse_lines 50 (u "法") (LPart two (u "各則") :: last_lines),
        parse_lines 50 (u "法") (first_lines ++ LPart two (u "各則") :: last_lines) with
  | Some (Ok a), Some (Ok b), Some (Ok c) =>
      let main v := main_children (un KMain (lb_main_provision (un KLawBody v))) in
      main c = main a ++ main b /\ length (main a) = 1 /\ length (main b) = 1 /\
      lb_preamble (un KLawBody c) = lb_preamble (un KLawBody a)
  | _, _, _ => False
  end.
Proof.
  split; [apply readable_check; reflexivity|]. split; [exact I|]. vm_compute. auto.
Qed.

(** A chapter after a part does not start anew, and the results do not follow each other. *)
Theorem C95_below_refuted : exists a l b v w c, readable a /\ parse_lines 50 (u "法") a = Some (Ok v) /\
  parse_lines 50 (u "法") (l :: b) = Some (Ok w) /\ parse_lines 50 (u "法") (a ++ l :: b) = Some (Ok c) /\
  let main v := main_children (un KMain (lb_main_provision (un KLawBody v))) in
  length (main c) < length (main v ++ main w).
Proof.
  exists first_lines, (LChapter two (u "細則")), [LArticle two (u "丁")]. do 3 eexists.
  split; [apply readable_check; reflexivity|]. split; [vm_compute; reflexivity|]. split; [vm_compute; reflexivity|].
  split; [vm_compute; reflexivity|]. vm_compute. auto.
Qed.
Print Assumptions C95_below_refuted.

(** A paragraph outside an article: the rest of the text does not matter. *)
Example C95_case_unread : ~ readable [LChapter one (u "通則"); LParagraph one (u "甲")] /\
  parse_lines 50 (u "法") ([LChapter one (u "通則"); LParagraph one (u "甲")] ++ last_lines) =
  parse_lines 50 (u "法") [LChapter one (u "通則"); LParagraph one (u "甲")].
Proof.
  assert (H : ~ readable [LChapter one (u "通則"); LParagraph one (u "甲")]).
  { intros R. apply readable_run in R as [st R]. discriminate R. }
  split; [exact H|]. apply C95_unread; [exact H|]. apply Nat.ltb_lt. reflexivity.
Qed.

Example C95_case_text : exists a l b,
  classify sample_codec ((u "第一条　甲とする。" ++ [10%N] ++ u "２　乙とする。") ++ [10%N]) = Ok a /\
  classify sample_codec (u "（定義）" ++ [10%N] ++ u "第二条　丙とする。") = Ok (l :: b) /\ readable a /\ starts_anew a l /\
  match parse_body sample_codec 50 (u "法") ((u "第一条　甲とする。" ++ [10%N] ++ u "２　乙とする。") ++ 10%N :: u "（定義）" ++ [10%N] ++ u "第二条　丙とする。") with
  | Some (Ok v) => length (main_children (un KMain (lb_main_provision (un KLawBody v)))) = 2
  | _ => False
  end.
Proof.
  do 3 eexists. split; [vm_compute; reflexivity|]. split; [vm_compute; reflexivity|]. split; [apply readable_check; reflexivity|].
  split; [repeat constructor; intros []|]. vm_compute. reflexivity.
Qed.

Definition old_article : list line := [LArticle two (u "甲"); LParagraph two (u "乙"); LItem (mkIN [] 1 [] [] NoParenKansuji) (u "丙")].
Definition new_article : list line := [LCaption (u "定義"); LArticle two (u "丁")].
Example C95_case_article : article_lines old_article /\ article_lines new_article /\ readable old_article /\ readable new_article /\
  own_caption first_lines old_article /\ own_caption first_lines new_article /\ not_below last_lines /\
  match parse_lines 50 (u "法") (first_lines ++ old_article ++ last_lines), parse_lines 50 (u "法") (first_lines ++ new_article ++ last_lines) with
  | Some (Ok b), Some (Ok b') => length (list_body b) = 23 /\ length (list_body b') = 19
  | _, _ => False
  end.
Proof.
  split. { exists [], two, (u "甲"), [LParagraph two (u "乙"); LItem (mkIN [] 1 [] [] NoParenKansuji) (u "丙")]. repeat constructor. }
  split. { exists [LCaption (u "定義")], two, (u "丁"), []. repeat constructor. }
  split; [apply readable_check; reflexivity|]. split; [apply readable_check; reflexivity|].
  split. { intros (b & s & E). change first_lines with ([LText (u "前文"); LPart one (u "総則"); LChapter one (u "通則"); LCaption (u "目的"); LArticle one (u "甲");
   LParagraph two (u "乙")] ++ [LItem (mkIN [] 1 [] [] NoParenKansuji) (u "丙")]) in E. apply app_inj_tail in E as [_ E]. discriminate E. }
  split; [exact I|]. split; [intros []|]. vm_compute. auto.
Qed.
