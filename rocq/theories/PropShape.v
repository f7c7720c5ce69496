(** Property of the plain-text parser: exactly which law bodies it can give. *)
From Coq Require Import String List NArith ZArith Bool Arith Lia.
From Verif Require Import Base NumStr Ast Regex NumText NumTextSpec TextParse TextSpec TextFacts CodecSample
  ShapeSpec ShapeFacts ShapeLines ShapeText ListingFacts.
Import ListNotations.
Open Scope string_scope.
Open Scope list_scope.

(** C77.  The law bodies that come from lines which satisfy [ok] are exactly those of the shape, whatever
    [ok] is. *)
Theorem C77_image : forall ok title b,
  (exists lines fuel, Forall ok lines /\ parse_lines fuel title lines = Some (Ok b)) <-> body_shape ok title b.
Proof. exact image. Qed.
Print Assumptions C77_image.

(** Every body of the shape has lines from which it is read, and with fuel for each of them. *)
Theorem C77_lines : forall ok title b, body_shape ok title b -> exists lines, Forall ok lines /\
  forall fuel, length lines < fuel -> parse_lines fuel title lines = Some (Ok b).
Proof. exact body_has_lines. Qed.
Print Assumptions C77_lines.

(** The law bodies that come from texts. *)
Theorem C77_text : forall cd title b,
  (exists text fuel, parse_body cd fuel title text = Some (Ok b)) <-> body_shape (producible cd) title b.
Proof. exact text_image. Qed.
Print Assumptions C77_text.

(** A body whose lines can be written with labels as in C55 comes from a text. *)
Theorem C77_written : forall cd title b, body_shape (fun x => exists l, written cd x l) title b ->
  exists text, forall fuel, length (text_lines text) < fuel -> parse_body cd fuel title text = Some (Ok b).
Proof. exact written_image. Qed.
Print Assumptions C77_written.

Definition label (p : ItemPattern) (n : N) : ItemNumber := mkIN [] n [] [] p.
Definition one_article (c : list (Knot (KItem Item0))) : Knot KLawBody :=
  mkLawBody (mkLawBodyF (Some (mkLawTitle (mkLawTitleF None None None (as_text (u "法"))))) [] None None None
    (mkMain (mkMainF [MC_Article (mkArticle (mkArticleF None (as_text [])
       [mkParagraph (mkParagraphF None [] [] [] (sentences [u "次のとおり"]) [] c (mkAN 1 [] []) false false false)]
       None (mkAN 1 [] []) false false))] None)) [] [] [] [] [] [] []).
(** Items that go two levels down, and one after them on the second or on the first level. *)
Definition returns_one : list (Knot (KItem Item0)) :=
  [item_of Item0 (label NoParenKansuji 1) (u "甲") []
     [item_of Sub1 (label NoParenIrohaKatakana 1) (u "乙") [] [item_of Sub2 (label ParenZenkakuNum 1) (u "丙") [] []];
      item_of Sub1 (label NoParenIrohaKatakana 2) (u "丁") [] []]].
Definition returns_two : list (Knot (KItem Item0)) :=
  [item_of Item0 (label NoParenKansuji 1) (u "甲") []
     [item_of Sub1 (label NoParenIrohaKatakana 1) (u "乙") [] [item_of Sub2 (label ParenZenkakuNum 1) (u "丙") [] []]];
   item_of Item0 (label NoParenKansuji 2) (u "丁") [] []].
Definition anything (l : line) : Prop := True.

Example C77_case : body_shape anything (u "法") (one_article returns_one) /\
  body_shape (producible sample_codec) (u "法") (one_article returns_one).
Proof.
  split.
  - apply image. exists [LArticle (mkAN 1 [] []) (u "次のとおり"); LItem (label NoParenKansuji 1) (u "甲");
      LItem (label NoParenIrohaKatakana 1) (u "乙"); LItem (label ParenZenkakuNum 1) (u "丙");
      LItem (label NoParenIrohaKatakana 2) (u "丁")], 9.
    split; [repeat constructor|vm_compute; reflexivity].
  - apply text_image. exists (u "第一条　次のとおり" ++ [10%N] ++ u "一　甲" ++ [10%N] ++ u "イ　乙" ++ [10%N] ++ u "（１）　丙" ++ [10%N] ++ u "ロ　丁"), 9.
    vm_compute. reflexivity.
Qed.

(** The items of a law often return two levels.  No lines whatever give such a body. *)
Theorem C77_two_levels_refuted : exists c, plain_body (u "法") (one_article c) /\
  forall fuel lines, parse_lines fuel (u "法") lines <> Some (Ok (one_article c)).
Proof.
  exists returns_two. split; [do 2 eexists; reflexivity|].
  intros fuel lines E. assert (H : body_shape anything (u "法") (one_article returns_two)).
  { apply image. exists lines, fuel. split; [apply Forall_forall; intros; exact I|exact E]. }
  destruct H as (pre & main & B & _ & M & _). unfold one_article in B.
  injection B as _ <-. apply Forall_cons_iff in M as [M _]. destruct M as (cap & n & t & p & ps & A & _ & _ & P & _).
  injection A as _ <- _ _ _. destruct P as (ts & ss & c & P & _ & _ & S). injection P as _ <-.
  destruct S as [_ [S _]]. exact (ltac:(cbn in S; specialize (S [] _ eq_refl); discriminate S)).
Qed.
Print Assumptions C77_two_levels_refuted.

(** C41, exactly: the listing determines the law body, so that the result of the parser is the only body
    whose listing is that of the machine. *)
Theorem C41_listing_determines : forall title b b', plain_body title b -> plain_body title b' ->
  lb_preamble (un KLawBody b) <> Some (mkPreamble []) -> lb_preamble (un KLawBody b') <> Some (mkPreamble []) ->
  ~ In EOther (list_body b) -> list_body b = list_body b' -> b = b'.
Proof. exact listing_determines. Qed.
Print Assumptions C41_listing_determines.

Theorem C41_exact : forall title lines fuel b, length lines < fuel ->
  (parse_lines fuel title lines = Some (Ok b) <->
   plain_body title b /\ lb_preamble (un KLawBody b) <> Some (mkPreamble []) /\
   exists rest, outline lines = (list_body b, Ends rest)).
Proof. exact parser_exact. Qed.
Print Assumptions C41_exact.

Example C41_exact_case : plain_body (u "法") (one_article returns_two) /\
  lb_preamble (un KLawBody (one_article returns_two)) <> Some (mkPreamble []) /\
  ~ In EOther (list_body (one_article returns_two)) /\ length (list_body (one_article returns_two)) = 11 /\
  exists rest, outline [LArticle (mkAN 1 [] []) (u "次のとおり"); LItem (label NoParenKansuji 1) (u "甲");
      LItem (label NoParenIrohaKatakana 1) (u "乙"); LItem (label ParenZenkakuNum 1) (u "丙");
      LItem (label NoParenIrohaKatakana 2) (u "丁")] = (list_body (one_article returns_one), Ends rest).
Proof.
  split; [do 2 eexists; reflexivity|]. split; [discriminate|]. split.
  - intros H. vm_compute in H. repeat (destruct H as [H|H]; [discriminate H|]). exact H.
  - split; [vm_compute; reflexivity|]. exists []. vm_compute. reflexivity.
Qed.
