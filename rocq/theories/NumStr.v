(** Article numbers and the text of [Num] attributes.

    Model file: definitions only. Source: /repo/src/article_number.rs 12-89, 183-201. *)
From Coq Require Import String Ascii List NArith Bool.
From Verif Require Import Base.
Import ListNotations.
Open Scope string_scope.

(** /repo/src/article_number.rs 11-19. *)
Record ArticleNumber := mkAN {
  base_number : N;
  eda_numbers : list N;
  range_end_numbers : list N
}.

(** /repo/src/article_number.rs 28-37: the [":..."] text pushed inside the loop
    over the branch numbers. *)
Definition range_str (range : list N) : string :=
  match range with
  | [] => ""
  | n :: l =>
      ":" ++ usize_to_string n
          ++ concat_strings (map (fun n => "_" ++ usize_to_string n) l)
  end.

(** /repo/src/article_number.rs 23-40. *)
Definition num_str (a : ArticleNumber) : string :=
  usize_to_string (base_number a)
  ++ concat_strings
       (map (fun n => "_" ++ usize_to_string n ++ range_str (range_end_numbers a))
            (eda_numbers a)).

(** /repo/src/article_number.rs 46-49, 67-70: one piece. *)
Definition parse_piece (s : string) : R N :=
  match parse_usize s with
  | Some n => Ok n
  | None => Err (ParsingError "usize" s)
  end.

(** /repo/src/article_number.rs 71-76: pieces in order, first error wins. *)
Fixpoint parse_pieces (l : list string) : R (list N) :=
  match l with
  | [] => Ok []
  | s :: r => n <- parse_piece s; ns <- parse_pieces r; Ok (n :: ns)
  end.

(** /repo/src/article_number.rs 43-89. [split] never yields an empty list, which
    the [unwrap] on line 45 relies on. *)
Definition from_num_str (s : string) : R ArticleNumber :=
  match split ":" s with
  | [] => Panic
  | first :: others =>
      ns <- parse_pieces (split "_" first);
      match ns with
      | [] => Err (ParsingError "ArticleNumber" first)
      | base :: eda =>
          match others with
          | [] => Ok (mkAN base eda [])
          | second :: _ =>
              range <- parse_pieces (split "_" second);
              Ok (mkAN base eda range)
          end
      end
  end.

(** /repo/src/article_number.rs 183-189. *)
Definition zero : ArticleNumber := mkAN 0 [] [].

(** /repo/src/article_number.rs 191-193. *)
Definition is_zero (a : ArticleNumber) : bool := N.eqb (base_number a) 0.
