(** Sample values used in the examples beside the theorems. *)
From Coq Require Import String List NArith Bool.
From Verif Require Import Base NumStr Ast.
Import ListNotations.
Open Scope string_scope.
Open Scope list_scope.

Definition plain (s : string) : Text Knot := [TE_Text s].
Definition num1 (n : N) : ArticleNumber := mkAN n [] [].

(** A ruby, a line and a sentence with inline markup. *)
Definition s_ruby : Knot KRuby := mkRuby (mkRubyF (plain "附") "ふ").
Definition s_line : Knot KLine :=
  mkLine (mkLineF [LC_String "傍"; LC_Ruby s_ruby; LC_Sup "2"; LC_Sub "i"] LDotted).
Definition s_sentence (t : string) (n : option N) : Knot KSentence :=
  mkSentence (mkSentenceF [SE_String t; SE_Ruby s_ruby; SE_Line s_line; SE_Sup "3"]
    n (Some FProviso) (Some (IItem Sub2)) Horizontal).
Definition s_plain (t : string) : Knot KSentence :=
  mkSentence (mkSentenceF [SE_String t] None None None Vertical).

(** A table with a header and one row. *)
Definition s_cell : Knot KTableColumn :=
  mkTableColumn (mkTableColumnF [TC_Sentence (s_plain "セル"); TC_String "x"]
    LSolid LNone LDotted LSolid (Some "2") (Some "1") None None).
Definition s_table : Knot KTable :=
  mkTable (mkTableF [[plain "甲"; plain "乙"]] [mkTableRow [s_cell; s_cell]] Horizontal).
Definition s_table_struct : Knot KTableStruct :=
  mkTableStruct (mkStructF (Some (mkTWM (plain "表") Vertical)) [] s_table []).

(** Items three levels deep. *)
Definition s_sub2 : Knot (KItem Sub2) :=
  mkItem (mkItemF (l := Sub2) (Some (plain "（１）")) (SCT_Sentence [s_plain "細目"]) [] []
    (Some (num1 1)) false false).
Definition s_sub1 : Knot (KItem Sub1) :=
  mkItem (mkItemF (l := Sub1) (Some (plain "イ")) (SCT_Sentence [s_plain "号の細分"]) [s_sub2] []
    (Some (num1 1)) true false).
Definition s_item : Knot (KItem Item0) :=
  mkItem (mkItemF (l := Item0) (Some (plain "一"))
    (SCT_Column [mkColumn (mkColumnF [s_plain "欄"] (Some 1%N) true (Some ACenter))])
    [s_sub1; s_sub1] [Struct_Table s_table_struct] (Some (mkAN 1 [2] [])%N) false true).

Definition s_paragraph : Knot KParagraph :=
  mkParagraph (mkParagraphF (Some (mkCaption (plain "（見出し）") (Some true))) (plain "２")
    [mkAmend (mkAmendF (Some (s_plain "改める。")) [])] [] [s_sentence "本文" (Some 1%N)]
    [Struct_Table s_table_struct] [s_item] (num1 2) false true false).

Definition s_article : Knot KArticle :=
  mkArticle (mkArticleF (Some (mkCaption (plain "（目的）") None)) (plain "第一条の二")
    [s_paragraph; s_paragraph] (Some (plain "付記")) (mkAN 1 [2] [5])%N false false).

Definition s_section : Knot KSection :=
  mkSection (mkHeadF (plain "第一節") [SeC_Article s_article] (num1 1) false false).
Definition s_chapter : Knot KChapter :=
  mkChapter (mkHeadF (plain "第一章") [ChC_Section s_section; ChC_Article s_article] (num1 1) true false).
Definition s_part : Knot KPart :=
  mkPart (mkHeadF (plain "第一編") [PC_Chapter s_chapter] (num1 1) false true).

Definition s_toc : Knot KTOC :=
  mkTOC (mkTOCF (Some (plain "目次")) None
    [TM_Part (mkTOCPart (mkTOCHeadF (plain "第一編") (Some (plain "（第一条・第二条）")) (num1 1) false []))]
    (Some (mkTOCSuppl (mkTOCSupplF (plain "附則") None []))) [plain "別表"]).

Definition s_suppl : Knot KSuppl :=
  mkSuppl (mkSupplF (plain "附　則") [SP_Article s_article; SP_Paragraph s_paragraph]
    (Some TAmend) (Some "平成元年法律第一号") (Some true)).

Definition s_body : Knot KLawBody :=
  mkLawBody (mkLawBodyF
    (Some (mkLawTitle (mkLawTitleF (Some "ほう") None None (plain "法")))) [plain "公布する。"]
    (Some "題") (Some s_toc) (Some (mkPreamble [s_paragraph]))
    (mkMain (mkMainF [MC_Part s_part; MC_Article s_article] (Some false))) [s_suppl]
    [] [] [] [] [] []).

Definition s_law : Law :=
  mkLaw Showa 22 (Some (num1 54)) (Some 4%N) None Act Ja "昭和二十二年法律第五十四号" s_body.

(** Values that do not survive. *)
Definition s_remarks : Knot KRemarks :=
  mkRemarks (mkRemarksF (mkRemarksLabel (plain "備考") false) [RC_Sentence (s_plain "注")]).
Definition s_note_struct : Knot (KCStruct SNote) :=
  mkCStruct (s := SNote)
    (mkStructF (Some (plain "記")) [s_remarks] (mkCont (c := CNote) [CE_String "本"]) [s_remarks]).
Definition s_amend : Knot KAmend :=
  mkAmend (mkAmendF (Some (s_plain "次の一条を加える。")) [NP_Sentence (s_plain "第二条")]).
Definition s_aligned_cell : Knot KTableColumn :=
  mkTableColumn (mkTableColumnF [TC_String "x"] LDouble LSolid LSolid LSolid (Some "2") None
    (Some ACenter) (Some PTop)).
Definition s_formula_sentence : Knot KSentence :=
  mkSentence (mkSentenceF [SE_Arith (mkArith (Some 7%N) (mkCont (c := CArith) [CE_String "a+b"]))]
    None None None Vertical).
Definition s_toc_preamble : Knot KTOC :=
  mkTOC (mkTOCF (Some (plain "目次")) (Some (plain "前文")) [] None []).
Definition s_appdx_related : Knot KAppdx :=
  mkAppdx (mkAppdxF (Some (plain "第一号")) (Some (plain "第三条関係")) [] None).
Definition s_suppl_table : Knot KSupplTable :=
  mkSupplTable (mkSupplTSF (mkTWM (plain "附則別表") Vertical) None [s_table_struct] (Some "1")).
Definition s_suppl_appdx : Knot KSupplAppdx :=
  mkSupplAppdx (mkSupplAppdxF (Some (plain "式")) None [] None).
Definition s_bodyless_article : Knot KArticle :=
  mkArticle (mkArticleF (Some (mkCaption (plain "（削除）") None)) (plain "第三条") [] None (num1 3)
    true false).
