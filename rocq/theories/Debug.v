(** [derive(Debug)], for every type of /repo/src that also derives [Serialize] and [Deserialize] (the derive line above each
    of the types in the table [SerdeSpec.declarations], which cites them), for the two result types
    /repo/src/utils.rs 24-32 and 915-924, and for the errors (/repo/src/result.rs 7-38).

    The derived code is generic: it prints the name of the type or of the variant and the fields in the order of the
    declaration with [debug_struct], [debug_tuple] and [debug_list] of the standard library.  So it is modelled once, over
    the declarations; a value is given by its document ([Serde.ser]), which lists the same fields in the same order (C83)
    and determines the value (C84).

    Simplifications: which characters are written as themselves ([char::escape_debug] looks this up in tables of the standard
    library) is a parameter [shown]; a text is a sequence of bytes that Rust guarantees to be UTF-8; padding, width and
    precision of the formatter are the defaults.  The [Debug] of the private enum of lines is in [DebugLine.v]. *)
From Coq Require Import String Ascii List NArith Bool.
From Verif Require Import Base NumStr Ast Regex Utils Serde SerdeSpec.
Import ListNotations.
Open Scope string_scope.
Open Scope list_scope.

(** ** Texts *)
(** The characters of a text in UTF-8; [need] bytes of the current one are to come. *)
Fixpoint chars (need : nat) (acc : N) (s : string) : list N :=
  match s with
  | EmptyString => []
  | String a r =>
      let n := N_of_ascii a in
      match need with
      | O =>
          if N.ltb n 128 then n :: chars 0 0 r
          else if N.ltb n 224 then chars 1 (n - 192) r
          else if N.ltb n 240 then chars 2 (n - 224) r
          else chars 3 (n - 240) r
      | S O => (acc * 64 + (n - 128))%N :: chars 0 0 r
      | S k => chars k (acc * 64 + (n - 128)) r
      end
  end.

(** Digits of a number in base sixteen, at most six as the largest character is U+10FFFF; lower case. *)
Fixpoint hex_digits (fuel : nat) (n : N) : list N :=
  match fuel with
  | O => []
  | S f => if N.ltb n 16 then [n] else hex_digits f (N.div n 16) ++ [N.modulo n 16]
  end.
Definition hex_char (d : N) : ascii := ascii_of_N (if N.ltb d 10 then 48 + d else 87 + d).
Definition hex (n : N) : string := string_of_list_ascii (map hex_char (hex_digits 6 n)).

(** [char::escape_debug_ext] as [<str as Debug>::fmt] uses it: a single quote is not escaped. *)
Definition escape_debug (shown : N -> bool) (c : N) : string :=
  match c with
  | 0 => "\0"
  | 9 => "\t"
  | 10 => "\n"
  | 13 => "\r"
  | 34 => "\"""
  | 92 => "\\"
  | _ => if shown c then utf8_char c else ("\u{" ++ hex c ++ "}")%string
  end%N.
Definition debug_str (shown : N -> bool) (s : string) : string :=
  ("""" ++ concat_strings (map (escape_debug shown) (chars 0 0 s)) ++ """")%string.

(** ** Layout *)
(** [{:?}], or [{:#?}] at a depth of nesting: every line is indented by four spaces per level (the [PadAdapter] of the
    standard library). *)
Inductive style := Compact | Pretty (level : nat).
Definition deeper (st : style) : style := match st with Compact => Compact | Pretty n => Pretty (S n) end.
Fixpoint indent (n : nat) : string := match n with O => "" | S m => ("    " ++ indent m)%string end.
Definition newline : string := String (ascii_of_N 10) "".
(** What is written after an opening bracket, between two entries and before the closing bracket. *)
Definition opening (st : style) (pad : string) : string :=
  match st with Compact => pad | Pretty n => (newline ++ indent (S n))%string end.
Definition between (st : style) : string :=
  match st with Compact => ", " | Pretty n => ("," ++ newline ++ indent (S n))%string end.
Definition closing (st : style) (pad : string) : string :=
  match st with Compact => pad | Pretty n => ("," ++ newline ++ indent n)%string end.
Fixpoint listed (st : style) (l : list string) : string :=
  match l with
  | [] => ""
  | [x] => x
  | x :: r => (x ++ between st ++ listed st r)%string
  end.
(** [Formatter::debug_struct], [debug_tuple] with one datum, and [debug_list]. *)
Definition debug_struct (st : style) (name : string) (fields : list string) : string :=
  match fields with
  | [] => name
  | _ => (name ++ " {" ++ opening st " " ++ listed st fields ++ closing st " " ++ "}")%string
  end.
Definition debug_tuple (st : style) (name datum : string) : string :=
  (name ++ "(" ++ opening st "" ++ datum ++ closing st "" ++ ")")%string.
Definition debug_list (st : style) (l : list string) : string :=
  match l with
  | [] => "[]"
  | _ => ("[" ++ opening st "" ++ listed st l ++ closing st "" ++ "]")%string
  end.
Definition debug_field (name datum : string) : string := (name ++ ": " ++ datum)%string.

(** ** Values *)
Fixpoint debug (shown : N -> bool) (j : json) {struct j} : sty -> style -> string :=
  fix go (t : sty) (st : style) {struct t} : string :=
    match t with
    | TStr => match j with JStr s => debug_str shown s | _ => "" end
    | TBool => match j with JBool b => if b then "true" else "false" | _ => "" end
    | TNum => match j with JNum n => usize_to_string n | _ => "" end
    | TOpt u => match j with JNull => "None" | _ => debug_tuple st "Some" (go u (deeper st)) end
    | TVec u =>
        match j with
        | JArr l => debug_list st (map (fun x => debug shown x u (deeper st)) l)
        | _ => ""
        end
    | TRef r =>
        match find_decl r declarations, j with
        | Some (DStruct fs), JObj l =>
            debug_struct st r
              ((fix zip (fs : list (string * sty)) (l : list (string * json)) {struct l} : list string :=
                 match fs, l with
                 | (n, t) :: fs', (_, x) :: l' => debug_field n (debug shown x t (deeper st)) :: zip fs' l'
                 | _, _ => []
                 end) fs l)
        | Some (DEnum vs), JStr v => v
        | Some (DEnum vs), JObj ((v, x) :: nil) =>
            match find_variant v vs with
            | Some (Some t) => debug_tuple st v (debug shown x t (deeper st))
            | _ => v
            end
        | _, _ => ""
        end
    end.

Definition debug_knot (shown : N -> bool) (st : style) (k : kind) (x : Knot k) : string :=
  debug shown (ser k x) (TRef (type_name k)) st.
Definition debug_law (shown : N -> bool) (st : style) (l : Law) : string := debug shown (ser_law l) (TRef "Law") st.
Definition debug_AN (shown : N -> bool) (st : style) (n : ArticleNumber) : string :=
  debug shown (ser_AN n) (TRef "ArticleNumber") st.
(** /repo/src/utils.rs 24-32 and 915-924. *)
Definition debug_opt_AN (shown : N -> bool) (st : style) (o : option ArticleNumber) : string :=
  debug shown (ser_opt ser_AN o) (TOpt (TRef "ArticleNumber")) st.
Definition debug_wna (shown : N -> bool) (st : style) (a : WithNumberArticle) : string :=
  let num := debug_opt_AN shown (deeper st) in
  debug_struct st "WithNumberArticle" [
    debug_field "part" (num (wn_part a)); debug_field "chapter" (num (wn_chapter a));
    debug_field "section" (num (wn_section a)); debug_field "subsection" (num (wn_subsection a));
    debug_field "division" (num (wn_division a)); debug_field "article" (debug_knot shown (deeper st) KArticle (wn_article a))].
Definition debug_toc_row (shown : N -> bool) (st : style) (a : Toc) : string :=
  let num := debug_opt_AN shown (deeper st) in
  debug_struct st "Toc" [
    debug_field "part_number" (num (toc_part a)); debug_field "chapter_number" (num (toc_chapter a));
    debug_field "section_number" (num (toc_section a)); debug_field "subsection_number" (num (toc_subsection a));
    debug_field "division_number" (num (toc_division a)); debug_field "article_number" (num (toc_article a));
    debug_field "title" (debug shown (ser_opt JStr (toc_title a)) (TOpt TStr) (deeper st))].

(** /repo/src/result.rs 7-38. *)
Definition debug_error (shown : N -> bool) (st : style) (e : Error) : string :=
  let field n s := debug_field n (debug_str shown s) in
  match e with
  | MissingRequiredAttribute t a => debug_struct st "MissingRequiredAttribute" [field "tag_name" t; field "attribute_name" a]
  | MissingRequiredTag t => debug_struct st "MissingRequiredTag" [field "tag_name" t]
  | AttributeParseError t a => debug_struct st "AttributeParseError" [field "tag_name" t; field "attribute_name" a]
  | WrongTagName w x => debug_struct st "WrongTagName" [field "wrong_name" w; field "expected_name" x]
  | UnexpectedTag w t => debug_struct st "UnexpectedTag" [field "wrong_name" w; field "tag" t]
  | XMLParsing => "XMLParsing"
  | ParsingError a b =>
      ("ParsingError(" ++ opening st "" ++ listed st [debug_str shown a; debug_str shown b] ++ closing st "" ++ ")")%string
  | Io => "Io"
  end.
