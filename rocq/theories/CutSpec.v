(** Specification of reading plain text in parts: where a sequence of lines can be cut, and the lines of one
    article. *)
From Coq Require Import String List NArith Bool.
From Verif Require Import Base NumStr Ast Regex NumText TextParse TextSpec.
Import ListNotations.
Open Scope list_scope.

(** A law body with nothing but a title, a preamble and a main provision. *)
Definition plain (title : ustr) (pre : option (Knot KPreamble)) (main : list (MainContents Knot)) : Knot KLawBody :=
  mkLawBody (mkLawBodyF (Some (mkLawTitle (mkLawTitleF None None None (as_text title)))) [] None None
    pre (mkMain (mkMainF main None)) [] [] [] [] [] [] []).

Definition is_part (l : line) : Prop := match l with LPart _ _ => True | _ => False end.
Definition is_chapter (l : line) : Prop := match l with LChapter _ _ => True | _ => False end.
Definition is_caption (l : line) : Prop := match l with LCaption _ => True | _ => False end.
Definition is_heading (l : line) : Prop :=
  match l with LPart _ _ | LChapter _ _ | LSection _ _ | LSubsection _ _ | LDivision _ _ => True | _ => False end.

Definition ends_in_caption (a : list line) : Prop := exists b s, a = b ++ [LCaption s].

(** After the lines [a] the line [l] is in no heading of [a] and has no caption from [a]. *)
Definition starts_anew (a : list line) (l : line) : Prop :=
  match l with
  | LPart _ _ => True
  | LChapter _ _ => Forall (fun x => ~ is_part x) a
  | LSection _ _ => Forall (fun x => ~ is_chapter x) a
  | LCaption _ => Forall (fun x => ~ is_heading x) a
  | LArticle _ _ => Forall (fun x => ~ is_heading x) a /\ ~ ends_in_caption a
  | _ => False
  end.

(** The lines of one article: perhaps captions, the article line and lines below it. *)
Definition article_lines (x : list line) : Prop :=
  exists caps n t below, x = caps ++ LArticle n t :: below /\ Forall is_caption caps /\ Forall below_article below.
(** After [a] they are an article without anything of [a]. *)
Definition own_caption (a x : list line) : Prop :=
  match x with LCaption _ :: _ => True | _ => ~ ends_in_caption a end.
(** Lines before which an article ends. *)
Definition not_below (c : list line) : Prop :=
  match c with [] => True | l :: _ => ~ below_article l end.
