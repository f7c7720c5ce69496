(** The public functions on XML text: /repo/src/lib.rs 54-68 and 112-159.

    Model file: definitions only.  The crate xmltree is not modelled from its source: [xml_crate]
    holds its two functions as parameters.  A file system is a function from paths to contents. *)
From Coq Require Import String Ascii List Arith NArith Bool.
From Verif Require Import Base NumStr Xml Ast XmlWrite XmlParse.
Import ListNotations.
Open Scope string_scope.
Open Scope list_scope.

(** What crate xmltree provides: [Element::parse] ([None] for any of its errors), and
    [Element::write_with_config] with the configuration of [gen_config] (/repo/src/lib.rs 137-139),
    as the byte strings it passes to [write_all] one after the other, and whether it ends well
    when all of these are accepted. *)
Record xml_crate := mkXmlCrate {
  xml_read : string -> option Element;
  xml_emit : Element -> list string * bool
}.

(** /repo/src/lib.rs 54-59. *)
Definition parse_xml (x : xml_crate) (b : string) : R Law :=
  match xml_read x b with
  | Some e => parse_law e
  | None => Err XMLParsing
  end.

(** /repo/src/lib.rs 61-68: [None] is a path that cannot be opened or read. *)
Definition parse_xml_file (x : xml_crate) (files : string -> option string) (path : string) : R Law :=
  match files path with
  | Some b => parse_xml x b
  | None => Err Io
  end.

(** ** Writers: the trait [std::io::Write] *)

(** What a call of [write] returns: the number of bytes taken, an error of kind [Interrupted], or another
    error. *)
Inductive io := Wrote (n : nat) | Interrupted | Failed.

(** A writer with states [S]: the answer to a call of [write] and the new state. *)
Definition writer (S : Type) := S -> string -> io * S.

Fixpoint drop_bytes (n : nat) (s : string) : string :=
  match n, s with
  | O, _ => s
  | S m, String _ r => drop_bytes m r
  | S _, EmptyString => EmptyString
  end.

(** How the writing of a text ends: well, with an error, or with a panic (the slice [&buf[n..]] when a
    writer claims to have taken more than it was given). *)
Inductive io_end := Done | Io_error | Io_panic.

(** [std::io::Write::write_all], as documented: calls [write] until everything is taken; no byte taken is
    an error; an interrupted call is repeated.  One unit of fuel for each call; [None] when the
    fuel is used up. *)
Fixpoint write_all {S} (w : writer S) (fuel : nat) (s : S) (b : string) : option (io_end * S) :=
  match b with
  | EmptyString => Some (Done, s)
  | _ =>
      match fuel with
      | O => None
      | S f =>
          match w s b with
          | (Wrote O, s') => Some (Io_error, s')
          | (Wrote n, s') =>
              if Nat.leb n (String.length b) then write_all w f s' (drop_bytes n b)
              else Some (Io_panic, s')
          | (Interrupted, s') => write_all w f s' b
          | (Failed, s') => Some (Io_error, s')
          end
      end
  end.

(** The strings one after the other, up to the first one that is not taken. *)
Fixpoint write_strings {S} (w : writer S) (fuel : nat) (s : S) (l : list string) : option (io_end * S) :=
  match l with
  | [] => Some (Done, s)
  | b :: r =>
      match write_all w fuel s b with
      | Some (Done, s') => write_strings w fuel s' r
      | x => x
      end
  end.

(** /repo/src/lib.rs 152-159: every error becomes [Error::Io]. *)
Definition write_file {S} (x : xml_crate) (w : writer S) (fuel : nat) (s : S) (l : Law) : option (R unit * S) :=
  let '(bs, ok) := xml_emit x (write_law l) in
  match write_strings w fuel s bs with
  | Some (Done, s') => Some (if ok then Ok tt else Err Io, s')
  | Some (Io_error, s') => Some (Err Io, s')
  | Some (Io_panic, s') => Some (Panic, s')
  | None => None
  end.

(** ** [WritableString], /repo/src/lib.rs 112-135 *)

(** [std::str::from_utf8], as documented: well-formed UTF-8 after table 3-7 of the Unicode standard.
    [need] continuation bytes are awaited, the next one between [lo] and [hi]. *)
Fixpoint utf8_from (need : nat) (lo hi : N) (s : string) : bool :=
  match s with
  | EmptyString => Nat.eqb need 0
  | String c r =>
      let b := N_of_ascii c in
      match need with
      | S m => N.leb lo b && N.leb b hi && utf8_from m 128 191 r
      | O =>
          if N.ltb b 128 then utf8_from 0 128 191 r
          else if N.ltb b 194 then false
          else if N.ltb b 224 then utf8_from 1 128 191 r
          else if N.eqb b 224 then utf8_from 2 160 191 r
          else if N.eqb b 237 then utf8_from 2 128 159 r
          else if N.ltb b 240 then utf8_from 2 128 191 r
          else if N.eqb b 240 then utf8_from 3 144 191 r
          else if N.ltb b 244 then utf8_from 3 128 191 r
          else if N.eqb b 244 then utf8_from 3 128 143 r
          else false
      end
  end.
Definition utf8 (s : string) : bool := utf8_from 0 128 191 s.

(** /repo/src/lib.rs 124-135: the string so far is the state. *)
Definition writable_string : writer string := fun s b =>
  if utf8 b then (Wrote (String.length b), (s ++ b)%string) else (Failed, s).

(** /repo/src/lib.rs 141-150; each string is taken by one call. *)
Definition to_xml (x : xml_crate) (l : Law) : R string :=
  match write_file x writable_string 1 "" l with
  | Some (Ok _, s) => Ok s
  | Some (Err e, _) => Err e
  | _ => Panic
  end.
