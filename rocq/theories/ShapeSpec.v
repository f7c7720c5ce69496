(** Specification of the law bodies that plain text can give: the form of each structure, the order of its
    children, and the numbering patterns of items.  [ok] says which lines there can be. *)
From Coq Require Import String List NArith Bool.
From Verif Require Import Base NumStr Ast Regex NumText TextParse TextSpec.
Import ListNotations.
Open Scope list_scope.

(** [P] for every element (by recursion, so that it can be used for structures inside structures). *)
Definition every {A} (P : A -> Prop) : list A -> Prop :=
  fix all l := match l with [] => True | x :: r => P x /\ all r end.

(** [R] for neighbours. *)
Fixpoint chain {A} (R : A -> A -> Prop) (l : list A) : Prop :=
  match l with
  | [] => True
  | x :: r => match r with [] => True | y :: _ => R x y end /\ chain R r
  end.

(** The sentences that say the texts, with numbers from [k] on. *)
Inductive says : N -> list ustr -> list (Knot KSentence) -> Prop :=
| says_nil k : says k [] []
| says_cons k t ts s ss : s = mkSentence (mkSentenceF [SE_String (enc t)] (Some k) None None Vertical) ->
    says (k + 1) ts ss -> says k (t :: ts) (s :: ss).

(** An item without items below it, and one without items below the last of those below it. *)
Definition leaf {k} (x : Knot k) : Prop :=
  match x with @mkItem l f => it_children f = [] | _ => True end.
Definition short {k} (x : Knot k) : Prop :=
  match x with @mkItem l f => forall r c, it_children f = r ++ [c] -> leaf c | _ => True end.

Section Shape.
Context (ok : line -> Prop).
Definition ok_texts (ts : list ustr) : Prop := Forall (fun t => ok (LText t)) ts.

(** An item labelled with pattern [p], the items around it having pattern [up] (if there are any): the items
    below it have one pattern, which is neither of the two; and an item with another one after it is short. *)
Fixpoint item_shape (p : ItemPattern) (up : option ItemPattern) {k} (x : Knot k) {struct x} : Prop :=
  match x with
  | @mkItem l f =>
      (exists i t ts, inum_pattern i = p /\ ok (LItem i t) /\ ok_texts ts /\
         it_title f = None /\ it_struct_list f = [] /\ it_hide f = false /\
         it_num f = Some (mkAN (inum_base i) (inum_eda i) (inum_range i)) /\ it_delete f = says_deleted t /\
         exists ss, it_sentence f = SCT_Sentence ss /\ says 1 (t :: ts) ss) /\
      (exists q, q <> p /\ up <> Some q /\ every (fun y => item_shape q (Some p) y) (it_children f)) /\
      chain (fun y _ => short y) (it_children f)
  | _ => False
  end.
Definition items_shape (l : list (Knot (KItem Item0))) : Prop :=
  (exists p, every (item_shape p None) l) /\ chain (fun y _ => short y) l.

(** A paragraph with number [n] that starts with [t]. *)
Definition paragraph_shape (n : ArticleNumber) (t : ustr) (p : Knot KParagraph) : Prop :=
  exists ts ss c, p = mkParagraph (mkParagraphF None [] [] [] ss [] c n false false false) /\
    ok_texts ts /\ says 1 (t :: ts) ss /\ items_shape c.

Definition article_shape (a : Knot KArticle) : Prop :=
  exists cap n t p ps,
    a = mkArticle (mkArticleF (option_map (fun s => mkCaption (as_text s) None) cap) (as_text []) (p :: ps) None n
          (says_deleted t) false) /\
    (forall s, cap = Some s -> ok (LCaption s)) /\ ok (LArticle n t) /\
    paragraph_shape (mkAN 1 [] []) t p /\
    Forall (fun p => exists n t, ok (LParagraph n t) /\ paragraph_shape n t p) ps.

(** A heading: first its articles, then the headings below it. *)
Definition head_shape {C} (mk : ArticleNumber -> ustr -> line) (article : Knot KArticle -> C) (sub : C -> Prop)
    (h : HeadF Knot C) : Prop :=
  exists n t arts subs, h = mkHeadF (as_text t) (map article arts ++ subs) n (says_deleted t) false /\
    ok (mk n t) /\ Forall article_shape arts /\ Forall sub subs.

Definition division_shape (x : Knot KDivision) : Prop :=
  head_shape LDivision (fun a => a) (fun _ => False) (un KDivision x).
Definition subsection_shape (x : Knot KSubsection) : Prop :=
  head_shape LSubsection SuC_Article (fun c => exists y, c = SuC_Division y /\ division_shape y) (un KSubsection x).
Definition section_shape (x : Knot KSection) : Prop :=
  head_shape LSection SeC_Article (fun c => exists y, c = SeC_Subsection y /\ subsection_shape y) (un KSection x).
Definition chapter_shape (x : Knot KChapter) : Prop :=
  head_shape LChapter ChC_Article (fun c => exists y, c = ChC_Section y /\ section_shape y) (un KChapter x).
Definition part_shape (x : Knot KPart) : Prop :=
  head_shape LPart PC_Article (fun c => exists y, c = PC_Chapter y /\ chapter_shape y) (un KPart x).

Definition main_shape (c : MainContents Knot) : Prop :=
  match c with
  | MC_Part x => part_shape x
  | MC_Chapter x => chapter_shape x
  | MC_Section x => section_shape x
  | MC_Article x => article_shape x
  | MC_Paragraph _ => False
  end.
(** What can stand after what: nothing that would have belonged to the heading before it. *)
Definition beside (x y : MainContents Knot) : Prop :=
  match x, y with
  | MC_Article _, _ => True
  | _, MC_Article _ => False
  | MC_Part _, MC_Chapter _ => False
  | MC_Part h, MC_Section _ => forall c, In (PC_Chapter c) (hd_children (un KPart h)) -> False
  | MC_Chapter _, MC_Section _ => False
  | _, _ => True
  end.

(** The paragraphs of a preamble, with numbers from [k] on. *)
Inductive preface : N -> list ustr -> list (Knot KParagraph) -> Prop :=
| preface_nil k : preface k [] []
| preface_cons k t ts p ps s : s = mkSentence (mkSentenceF [SE_String (enc t)] (Some 0%N) None None Vertical) ->
    p = mkParagraph (mkParagraphF None [] [] [] [s] [] [] (mkAN k [] []) false false false) ->
    preface (k + 1) ts ps -> preface k (t :: ts) (p :: ps).

Definition body_shape (title : ustr) (b : Knot KLawBody) : Prop :=
  exists pre main,
    b = mkLawBody (mkLawBodyF (Some (mkLawTitle (mkLawTitleF None None None (as_text title)))) [] None None
          pre (mkMain (mkMainF main None)) [] [] [] [] [] [] []) /\
    (pre = None \/ exists ts ps, pre = Some (mkPreamble ps) /\ ts <> [] /\ ok_texts ts /\ preface 0 ts ps) /\
    Forall main_shape main /\ chain beside main.
End Shape.

(** A line that some text without line feed is classified as. *)
Definition producible (cd : codec) (l : line) : Prop := exists w, ~ In 10%N w /\ parse_line cd w = Ok l.
