(** Specification of the public functions on XML text. *)
From Coq Require Import String Ascii List Arith NArith Bool.
From Verif Require Import Base Xml Ast XmlWrite Regex Api TidySpec.
Import ListNotations.
Open Scope string_scope.
Open Scope list_scope.

(** A Unicode scalar value: what a Rust [char] can hold. *)
Definition scalar (c : N) : Prop := (c < 55296 \/ 57344 <= c < 1114112)%N.

(** Bytes that are the UTF-8 form of some text: what a Rust [str] can hold. *)
Definition encoded (s : string) : Prop := exists t, Forall scalar t /\ s = enc t.

(** The first [n] bytes. *)
Fixpoint first_bytes (n : nat) (s : string) : string :=
  match n, s with
  | S m, String c r => String c (first_bytes m r)
  | _, _ => EmptyString
  end.

(** An honest writer, with [content] the bytes it holds: a call takes at most the bytes given
    (perhaps none) and adds just these, or it fails or is interrupted and adds nothing. *)
Definition honest {S} (w : writer S) (content : S -> string) : Prop :=
  forall s b, b <> "" ->
    match w s b with
    | (Wrote n, s') => n <= String.length b /\ content s' = (content s ++ first_bytes n b)%string
    | (_, s') => content s' = content s
    end.

(** A writer that always takes something. *)
Definition never_fails {S} (w : writer S) : Prop := 
  forall s b, b <> "" -> exists n s', 1 <= n /\ w s b = (Wrote n, s').

(** The crate keeps a tree: what it emits ends well, is text, and is read back as the tree that remains of
    it in its XML text, up to the order of attributes. *)
Definition keeps (x : xml_crate) (e : Element) : Prop :=
  exists bs e', xml_emit x e = (bs, true) /\ Forall encoded bs /\
    xml_read x (concat_strings bs) = Some e' /\ same e' (coalesce e).
