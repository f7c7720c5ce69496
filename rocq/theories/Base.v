(** Results, errors, decimal text of machine integers, splitting of strings.

    Model file: definitions only. *)
From Coq Require Import String Ascii List NArith Bool.
Import ListNotations.
Open Scope string_scope.

(** /repo/src/result.rs 8-38: [enum Error], with the payload of each variant. *)
Inductive Error :=
| MissingRequiredAttribute (tag_name attribute_name : string)
| MissingRequiredTag (tag_name : string)
| AttributeParseError (tag_name attribute_name : string)
| WrongTagName (wrong_name expected_name : string)
| UnexpectedTag (wrong_name tag : string)
| XMLParsing
| ParsingError (what text : string)
| Io.

(** Outcome of a call: [Result<A>] of /repo/src/result.rs 5 plus a panic of the
    thread ([unwrap] on [None]/[Err], [unreachable!()], [todo!()]). *)
Inductive R (A : Type) :=
| Ok (a : A)
| Err (e : Error)
| Panic.
Arguments Ok {A} a.
Arguments Err {A} e.
Arguments Panic {A}.

(** The [?] operator. *)
Definition bind {A B} (x : R A) (f : A -> R B) : R B :=
  match x with
  | Ok a => f a
  | Err e => Err e
  | Panic => Panic
  end.

Notation "x <- a ; b" := (bind a (fun x => b))
  (at level 100, a at next level, right associativity).
Notation "' p <- a ; b" := (bind a (fun p => b))
  (at level 100, p pattern, a at next level, right associativity).

(** [.map(f)] on a [Result]. *)
Definition rmap {A B} (f : A -> B) (x : R A) : R B :=
  x' <- x; Ok (f x').

(** [opt.unwrap()]. *)
Definition unwrap {A} (o : option A) : R A :=
  match o with Some a => Ok a | None => Panic end.

(** [if let Ok(v) = x { .. }] / [x.ok()]: the error is discarded, a panic is not. *)
Definition ok {A} (x : R A) : R (option A) :=
  match x with
  | Ok a => Ok (Some a)
  | Err _ => Ok None
  | Panic => Panic
  end.

(** * Machine integers

    [usize] on a 64-bit target. Numbers are unbounded [N] in the model; texts are
    only read to numbers below [usize_bound]. *)
Definition usize_bound : N := 18446744073709551616.

Definition is_usize (n : N) : bool := N.ltb n usize_bound.

(** Decimal digits of a number, most significant first ([usize::to_string]). *)
Fixpoint digits_rev (fuel : nat) (n : N) : list N :=
  match fuel with
  | O => []
  | S f => if N.ltb n 10 then [n] else N.modulo n 10 :: digits_rev f (N.div n 10)
  end.

Definition digits (n : N) : list N := rev (digits_rev (S (N.size_nat n)) n).

Definition digits_value (l : list N) : N :=
  fold_left (fun acc d => (acc * 10 + d)%N) l 0%N.

Definition ascii_of_digit (d : N) : ascii := ascii_of_N (48 + d).

Definition string_of_digits (l : list N) : string :=
  string_of_list_ascii (map ascii_of_digit l).

(** [usize::to_string]. *)
Definition usize_to_string (n : N) : string := string_of_digits (digits n).

Definition digit_of_ascii (c : ascii) : option N :=
  let n := N_of_ascii c in
  if (N.leb 48 n && N.leb n 57)%bool then Some (n - 48)%N else None.

Fixpoint digits_of_string (s : string) : option (list N) :=
  match s with
  | EmptyString => Some []
  | String c r =>
      match digit_of_ascii c, digits_of_string r with
      | Some d, Some l => Some (d :: l)
      | _, _ => None
      end
  end.

(** [str::parse::<usize>]: an optional leading ['+'], at least one ASCII digit,
    value below 2^64. *)
Definition parse_usize (s : string) : option N :=
  let body :=
    match s with
    | String c r => if Ascii.eqb c "+"%char then r else s
    | EmptyString => s
    end in
  match digits_of_string body with
  | Some (d :: l) =>
      let v := digits_value (d :: l) in
      if is_usize v then Some v else None
  | _ => None
  end.

(** [str::parse::<bool>]. *)
Definition parse_bool (s : string) : option bool :=
  if String.eqb s "true" then Some true
  else if String.eqb s "false" then Some false
  else None.

(** [bool::to_string]. *)
Definition bool_to_string (b : bool) : string := if b then "true" else "false".

(** * Splitting

    [str::split(c)] for a single-byte separator; the result is never empty. *)
Fixpoint split (c : ascii) (s : string) : list string :=
  match s with
  | EmptyString => [EmptyString]
  | String a r =>
      if Ascii.eqb a c then EmptyString :: split c r
      else match split c r with
           | x :: l => String a x :: l
           | [] => [String a EmptyString]
           end
  end.

(** Pieces joined by a separator. *)
Fixpoint join (sep : string) (l : list string) : string :=
  match l with
  | [] => ""
  | [x] => x
  | x :: r => x ++ sep ++ join sep r
  end.

(** Concatenation of a list of strings. *)
Definition concat_strings (l : list string) : string := fold_right append "" l.

Arguments usize_to_string n : simpl never.
Arguments parse_usize s : simpl never.
Arguments is_usize n : simpl never.
Arguments digits n : simpl never.
