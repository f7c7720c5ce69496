(** Specification for the building of texts: calls of methods, and what a text shows. *)
From Coq Require Import String List.
From Verif Require Import Base Xml Ast TextBuild.
Import ListNotations.
Open Scope string_scope.

(** A call of one of the public methods on a text. *)
Inductive call :=
| AddText (t : Text Knot) | AddString (s : string) | AddRuby (r : Knot KRuby) | AddLine (l : Knot KLine)
| AddSup (s : string) | AddSub (s : string).

(** The calls one after the other. *)
Definition run_call (c : call) : Text Knot -> Text Knot :=
  match c with
  | AddText t => add_text t | AddString s => add_string s | AddRuby r => add_ruby r | AddLine l => add_line l
  | AddSup s => add_sup s | AddSub s => add_sub s
  end.
Definition run_calls (l : list call) (t : Text Knot) : Text Knot := fold_left (fun t c => run_call c t) l t.

(** What is shown by a text: strings, raised and lowered strings, bases of rubies, one after the other; nothing
    for lines. *)
Inductive shows : Text Knot -> string -> Prop :=
| shows_nil : shows [] ""
| shows_text s t x : shows t x -> shows (TE_Text s :: t) (s ++ x)
| shows_sup s t x : shows t x -> shows (TE_Sup s :: t) (s ++ x)
| shows_sub s t x : shows t x -> shows (TE_Sub s :: t) (s ++ x)
| shows_line l t x : shows t x -> shows (TE_Line l :: t) x
| shows_ruby base note y t x : shows base y -> shows t x ->
    shows (TE_Ruby (mkRuby (mkRubyF base note)) :: t) (y ++ x).

(** What a sequence of calls adds to what is shown. *)
Inductive adds : list call -> string -> Prop :=
| adds_nil : adds [] ""
| adds_text t y c x : shows t y -> adds c x -> adds (AddText t :: c) (y ++ x)
| adds_string s c x : adds c x -> adds (AddString s :: c) (s ++ x)
| adds_sup s c x : adds c x -> adds (AddSup s :: c) (s ++ x)
| adds_sub s c x : adds c x -> adds (AddSub s :: c) (s ++ x)
| adds_line l c x : adds c x -> adds (AddLine l :: c) x
| adds_ruby base note y c x : shows base y -> adds c x ->
    adds (AddRuby (mkRuby (mkRubyF base note)) :: c) (y ++ x).

(** A call for one element. *)
Definition single (c : call) : Prop := match c with AddText _ => False | _ => True end.

(** Rubies with plain strings as base, as in every document that was read. *)
Definition flat (t : Text Knot) : Prop := forall base note, In (TE_Ruby (mkRuby (mkRubyF base note))) t ->
  forall e, In e base -> exists s, e = TE_Text s.
