(** What reading plain text prints: the calls of [println!] in /repo/src/parse_from_text.rs 948 and 968 and in
    /repo/src/article_number.rs 566 and 609, which [TextParse.v] and [NumText.v] leave out.

    Model file: definitions only.  A run has the list of the lines it prints (without their line feeds) and its result;
    a run that panics has printed what came before.  Nothing else in /repo/src outside of tests prints. *)
From Coq Require Import String List NArith ZArith Bool.
From Verif Require Import Base NumStr Ast Regex NumText TextParse.
Import ListNotations.
Open Scope string_scope.
Open Scope list_scope.

Definition out (A : Type) : Type := (list ustr * R A)%type.
Definition quiet {A} (r : R A) : out A := ([], r).
Definition println {A} (s : ustr) (x : out A) : out A := (s :: fst x, snd x).
Definition out_bind {A B} (x : out A) (f : A -> out B) : out B :=
  match snd x with
  | Ok a => (fst x ++ fst (f a), snd (f a))
  | Err e => (fst x, Err e)
  | Panic => (fst x, Panic)
  end.

(** /repo/src/article_number.rs 563-612: all that follows one of the two calls prints nothing. *)
Definition out_item_number (cd : codec) (s : ustr) : out (option ItemNumber) :=
  match captures re_item (trim s) with
  | Some _ => println (u "ok!!!") (quiet (parse_item_number cd s))
  | None => println (u "err!!") (quiet (Ok None))
  end.
(** /repo/src/parse_from_text.rs 939-977. *)
Definition out_line (cd : codec) (l : ustr) : out line :=
  let l := trim l in
  match captures re_caption l with
  | Some c => quiet (t <- group_text "caption" c; Ok (LCaption t))
  | None =>
      out_bind (quiet (split_number l)) (fun x =>
      match x with
      | Some (s, t) =>
          println (s ++ u ": " ++ t)
          (out_bind (quiet (parse_article_number cd s)) (fun a =>
           match a with
           | Some n =>
               quiet (Ok (if contains (uc "編") s then LPart n t
                   else if contains (uc "章") s then LChapter n t
                   else if contains (uc "節") s then LSection n t
                   else if contains (uc "款") s then LSubsection n t
                   else if contains (uc "目") s then LDivision n t
                   else if contains (uc "条") s then LArticle n t
                   else LParagraph n t))
           | None =>
               out_bind (out_item_number cd s) (fun i =>
               match i with
               | Some i => quiet (Ok (LItem i t))
               | None => println (u "text!!!" ++ s ++ u ": " ++ t) (quiet (Ok (LText l)))
               end)
           end))
      | None =>
          quiet (match captures re_suppl l with
          | Some c => Ok (LSuppl (group "law_num" c))
          | None => Ok (LText l)
          end)
      end)
  end.
(** /repo/src/parse_from_text.rs 741-746: the loop over the lines. *)
Fixpoint out_lines (cd : codec) (ls : list ustr) : out (list line) :=
  match ls with
  | [] => quiet (Ok [])
  | l :: r => out_bind (out_line cd (trim l)) (fun x => out_bind (out_lines cd r) (fun xs => quiet (Ok (x :: xs))))
  end.
(** /repo/src/lib.rs 72-110 with /repo/src/parse_from_text.rs 741-899: the date comes first, and what comes after the
    lines are classified prints nothing. *)
Definition out_text (cd : codec) (cal : calendar) (fuel : nat) (text : ustr) (year : N) (month day : option N)
    (ty : LawType) (lang : Lang) (num : option ArticleNumber) (law_num : string) (title : ustr) : list ustr * Run Law :=
  match date_era cal year month day with
  | Ok e =>
      let x := out_lines cd (text_lines text) in
      (fst x, match snd x with
              | Ok lines => b <~ parse_lines fuel title lines; done (mkLaw e year num month day ty lang law_num b)
              | Err e => Some (Err e)
              | Panic => Some Panic
              end)
  | Err e => ([], Some (Err e))
  | Panic => ([], Some Panic)
  end.
(** Standard output that takes [n] lines and then fails (a broken pipe, a full disk): [println!] panics. *)
Definition taking (n : nat) {A} (x : list ustr * Run A) : list ustr * Run A :=
  if Nat.leb (length (fst x)) n then x else (firstn n (fst x), Some Panic).
