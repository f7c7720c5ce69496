(** Specification of the listings of a law that was read from plain text, in terms of its lines. *)
From Coq Require Import String List NArith Bool.
From Verif Require Import Base NumStr Ast Regex NumText TextParse TextSpec Utils UtilsSpec.
Import ListNotations.
Open Scope string_scope.
Open Scope list_scope.

(** ** Texts *)

(** The texts right at the start of the lines; they belong to the line before. *)
Fixpoint more_text (lines : list line) : string :=
  match lines with LText s :: r => (enc s ++ more_text r)%string | _ => "" end.

(** The rows of the lines of an article: for each paragraph and item its place and its text.  [n] is the number of
    the paragraph, [open] are the patterns of the open items, innermost first, and [path] their numbers, outermost
    first. *)
Fixpoint rows_below (n : ArticleNumber) (open : list ItemPattern) (path : list (option ArticleNumber)) (lines : list line) :
    list (TextIndex * string) :=
  match lines with
  | LText _ :: r => rows_below n open path r
  | LParagraph m t :: r => (mkTI m [], (enc t ++ more_text r)%string) :: rows_below m [] [] r
  | LItem i t :: r =>
      match next_items (inum_pattern i) open with
      | Some open' =>
          let path' := firstn (length open' - 1) path ++ [Some (mkAN (inum_base i) (inum_eda i) (inum_range i))] in
          (mkTI n path', (enc t ++ more_text r)%string) :: rows_below n open' path' r
      | None => []
      end
  | _ => []
  end.
(** The numbers of the articles, and their rows; the text of the article line is that of paragraph 1. *)
Fixpoint article_rows (lines : list line) : list (ArticleNumber * list (TextIndex * string)) :=
  match lines with
  | [] => []
  | LArticle n t :: r =>
      (n, (mkTI (mkAN 1 [] []) [], (enc t ++ more_text r)%string) :: rows_below (mkAN 1 [] []) [] [] r) :: article_rows r
  | _ :: r => article_rows r
  end.

(** ** Headings *)

Definition heading_of (l : line) : option (UtilsSpec.rank * ArticleNumber * ustr) :=
  match l with
  | LPart n t => Some (RPart, n, t)
  | LChapter n t => Some (RChapter, n, t)
  | LSection n t => Some (RSection, n, t)
  | LSubsection n t => Some (RSubsection, n, t)
  | LDivision n t => Some (RDivision, n, t)
  | _ => None
  end.
(** The rank right above another. *)
Definition above (r : UtilsSpec.rank) : option UtilsSpec.rank :=
  match r with
  | RPart => None
  | RChapter => Some RPart
  | RSection => Some RChapter
  | RSubsection => Some RSection
  | RDivision => Some RSubsection
  end.
Definition same (r s : UtilsSpec.rank) : bool :=
  match r, s with
  | RPart, RPart | RChapter, RChapter | RSection, RSection | RSubsection, RSubsection | RDivision, RDivision => true
  | _, _ => false
  end.
(** Of the open headings, innermost first, those around a new one: the nearest heading of the rank right above and
    those around it; if there is none, nothing. *)
Fixpoint nearest (r : UtilsSpec.rank) (open : trail) : trail :=
  match open with
  | [] => []
  | x :: l => if same (fst x) r then open else nearest r l
  end.
Definition around (r : UtilsSpec.rank) (open : trail) : trail :=
  match above r with Some s => nearest s open | None => [] end.

(** The table of contents of the lines; articles have no title. *)
Fixpoint line_entries (open : trail) (lines : list line) : list UtilsSpec.entry :=
  match lines with
  | [] => []
  | l :: r =>
      match heading_of l with
      | Some (k, n, t) => let open' := (k, n) :: around k open in mkEntry (rev open') None (enc t) :: line_entries open' r
      | None =>
          match l with
          | LArticle n _ => mkEntry (rev open) (Some n) "" :: line_entries open r
          | _ => line_entries open r
          end
      end
  end.
(** The articles with the headings around them. *)
Definition line_trails (lines : list line) : list (trail * ArticleNumber) :=
  flat_map (fun e => match en_article e with Some n => [(en_trail e, n)] | None => [] end) (line_entries [] lines).
