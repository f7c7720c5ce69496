(** XML element trees, attribute access and the child loops of the readers.

    Model file: definitions only. *)
From Coq Require Import String Ascii List NArith Bool.
From Verif Require Import Base NumStr.
Import ListNotations.
Open Scope string_scope.

(** [xmltree::Element] and [xmltree::XMLNode] (crate xmltree 0.10.3). Only the parts
    used by /repo/src are kept: name, attributes, children. The attribute [HashMap] is an
    association list; the code only uses [get] and [insert]. [NOther] stands for comments, CDATA
    sections and processing instructions, which no reader looks at. *)
Inductive Element :=
  mkElement (ename : string) (eattrs : list (string * string)) (echildren : list XMLNode)
with XMLNode :=
| NElement (e : Element)
| NText (s : string)
| NOther (s : string).

Definition name (e : Element) : string := let 'mkElement n _ _ := e in n.
Definition attrs (e : Element) : list (string * string) := let 'mkElement _ a _ := e in a.
Definition children (e : Element) : list XMLNode := let 'mkElement _ _ c := e in c.

(** Lookup in an association list: [HashMap::get], and the arms of a
    [match name.as_str()]. *)
Fixpoint assoc {A} (n : string) (l : list (string * A)) : option A :=
  match l with
  | [] => None
  | (m, v) :: r => if String.eqb n m then Some v else assoc n r
  end.

(** [element.attributes.get(n)]. *)
Definition get (e : Element) (n : string) : option string := assoc n (attrs e).

(** [attributes.insert(n, v)]: replaces an existing value. *)
Fixpoint insert (n v : string) (l : list (string * string)) : list (string * string) :=
  match l with
  | [] => [(n, v)]
  | (m, u) :: r => if String.eqb n m then (n, v) :: r else (m, u) :: insert n v r
  end.

(** [if let Some(v) = o { attributes.insert(n, v) }]. *)
Definition insert_opt (n : string) (o : option string) (l : list (string * string)) :=
  match o with Some v => insert n v l | None => l end.

(** [if b { attributes.insert(n, b.to_string()) }]. *)
Definition insert_flag (n : string) (b : bool) (l : list (string * string)) :=
  if b then insert n "true" l else l.

(** ** Attribute readers, /repo/src/lib.rs 161-213 *)

(** /repo/src/lib.rs 161-170. *)
Definition get_attribute (e : Element) (n : string) : R string :=
  match get e n with
  | Some s => Ok s
  | None => Err (MissingRequiredAttribute (name e) n)
  end.

(** /repo/src/lib.rs 172-193; [parse] is the [FromStr] instance used. *)
Definition get_attribute_with_parse {T} (parse : string -> option T)
    (e : Element) (n : string) : R T :=
  match get e n with
  | Some s =>
      match parse s with
      | Some t => Ok t
      | None => Err (AttributeParseError (name e) n)
      end
  | None => Err (MissingRequiredAttribute (name e) n)
  end.

(** /repo/src/lib.rs 195-213. *)
Definition get_attribute_opt_with_parse {T} (parse : string -> option T)
    (e : Element) (n : string) : R (option T) :=
  match get e n with
  | Some s =>
      match parse s with
      | Some t => Ok (Some t)
      | None => Err (AttributeParseError (name e) n)
      end
  | None => Ok None
  end.

(** [get_attribute_opt_with_parse::<bool>(e, n)?.unwrap_or(false)], used in most readers. *)
Definition get_flag (e : Element) (n : string) : R bool :=
  o <- get_attribute_opt_with_parse parse_bool e n;
  Ok (match o with Some b => b | None => false end).

(** [get_attribute_opt_with_parse::<String>(e, n)]: parsing a [String] never fails. *)
Definition get_string_opt (e : Element) (n : string) : R (option string) :=
  get_attribute_opt_with_parse (fun s => Some s) e n.

(** [FromStr for ArticleNumber], /repo/src/article_number.rs 204-209, as used by the
    [FromStr]-generic attribute readers, which discard the error. [from_num_str] never panics
    (theorem [from_num_str_no_panic]). *)
Definition parse_an (s : string) : option ArticleNumber :=
  match from_num_str s with Ok a => Some a | _ => None end.

(** ** Errors of /repo/src/result.rs 40-60 *)
Definition missing_required_tag {A} (n : string) : R A := Err (MissingRequiredTag n).
Definition wrong_tag_name {A} (e : Element) (expected : string) : R A :=
  Err (WrongTagName (name e) expected).
Definition unexpected_tag {A} (e : Element) (wrong : string) : R A :=
  Err (UnexpectedTag wrong (name e)).

(** ** Child loops

    Every reader has a loop of the form

    [for node in element.children.iter() { if let XMLNode::Element(e) = node {
       match e.name.as_str() { "Tag" => { let v = T::parser(e)?; <update state with v> } ...
       s => <default> } } else if let XMLNode::Text(s) = node { <update state with s> } }]

    [run txt dflt tbl nodes st] is this loop: [tbl] holds the arms (tag, reader yielding
    the state update), [dflt] the default arm, [txt] the update for text nodes (the
    identity where the code has no text branch). *)
Definition handler (S : Type) := Element -> R (S -> S).

Definition lookup {S} (dflt : handler S) (tbl : list (string * handler S)) (c : Element) :
    R (S -> S) :=
  match assoc (name c) tbl with
  | Some h => h c
  | None => dflt c
  end.

Fixpoint run {S} (txt : string -> S -> S) (dflt : handler S)
    (tbl : list (string * handler S)) (l : list XMLNode) (s : S) : R S :=
  match l with
  | [] => Ok s
  | NElement c :: r => u <- lookup dflt tbl c; run txt dflt tbl r (u s)
  | NText t :: r => run txt dflt tbl r (txt t s)
  | NOther _ :: r => run txt dflt tbl r s
  end.

(** No text branch. *)
Definition no_text {S} (_ : string) (s : S) : S := s.

(** [s => return Err(Error::unexpected_tag(element, s))]. *)
Definition reject {S} (parent : Element) : handler S :=
  fun c => unexpected_tag parent (name c).

(** [_ => ()]. *)
Definition skip {S} : handler S := fun _ => Ok (fun s => s).

(** Access to the components of a nested-pair state. *)
Definition at0 {A B} (f : A -> A) (s : A * B) : A * B := (f (fst s), snd s).
Definition at1 {A B C} (f : B -> B) (s : A * (B * C)) := (fst s, at0 f (snd s)).
Definition at2 {A B C D} (f : C -> C) (s : A * (B * (C * D))) := (fst s, at1 f (snd s)).
Definition at3 {A B C D E} (f : D -> D) (s : A * (B * (C * (D * E)))) := (fst s, at2 f (snd s)).
Definition at4 {A B C D E F} (f : E -> E) (s : A * (B * (C * (D * (E * F))))) :=
  (fst s, at3 f (snd s)).
Definition at5 {A B C D E F G} (f : F -> F) (s : A * (B * (C * (D * (E * (F * G)))))) :=
  (fst s, at4 f (snd s)).
Definition at6 {A B C D E F G H} (f : G -> G) (s : A * (B * (C * (D * (E * (F * (G * H))))))) :=
  (fst s, at5 f (snd s)).
Definition at7 {A B C D E F G H I} (f : H -> H)
  (s : A * (B * (C * (D * (E * (F * (G * (H * I)))))))) := (fst s, at6 f (snd s)).
Definition at8 {A B C D E F G H I J} (f : I -> I)
  (s : A * (B * (C * (D * (E * (F * (G * (H * (I * J))))))))) := (fst s, at7 f (snd s)).
Definition at9 {A B C D E F G H I J K} (f : J -> J)
  (s : A * (B * (C * (D * (E * (F * (G * (H * (I * (J * K)))))))))) := (fst s, at8 f (snd s)).
Definition at10 {A B C D E F G H I J K L} (f : K -> K)
  (s : A * (B * (C * (D * (E * (F * (G * (H * (I * (J * (K * L))))))))))) := (fst s, at9 f (snd s)).
Definition at11 {A B C D E F G H I J K L M} (f : L -> L)
  (s : A * (B * (C * (D * (E * (F * (G * (H * (I * (J * (K * (L * M)))))))))))) :=
  (fst s, at10 f (snd s)).
Definition whole {A} (f : A -> A) (s : A) : A := f s.

(** [let v = T::parser(e)?; field.push(inj(v))]. *)
Definition h_push {S X Y} (ix : (list Y -> list Y) -> S -> S) (inj : X -> Y)
    (parse : Element -> R X) : handler S :=
  fun c => v <- parse c; Ok (ix (fun l => app l [inj v])).

(** [let v = T::parser(e)?; field = Some(v)]. *)
Definition h_some {S X} (ix : (option X -> option X) -> S -> S)
    (parse : Element -> R X) : handler S :=
  fun c => v <- parse c; Ok (ix (fun _ => Some v)).

(** [let v = ...; field = v]. *)
Definition h_put {S X} (ix : (X -> X) -> S -> S) (parse : Element -> R X) : handler S :=
  fun c => v <- parse c; Ok (ix (fun _ => v)).

(** [if let Ok(v) = T::parser(e) { field.push(inj(v)) }]. *)
Definition h_push_ok {S X Y} (ix : (list Y -> list Y) -> S -> S) (inj : X -> Y)
    (parse : Element -> R X) : handler S :=
  fun c => o <- ok (parse c);
           Ok (match o with Some v => ix (fun l => app l [inj v]) | None => fun s => s end).

(** [for node in e.children.iter() { if let XMLNode::Element(e) = node { v.push(T::parser(e)?) } }]:
    every child element is read, whatever its tag. *)
Fixpoint parse_all {X} (parse : Element -> R X) (l : list XMLNode) : R (list X) :=
  match l with
  | [] => Ok []
  | NElement c :: r => v <- parse c; vs <- parse_all parse r; Ok (v :: vs)
  | _ :: r => parse_all parse r
  end.

(** Text of the text nodes of a child list, other nodes contributing nothing. *)
Definition node_text (n : XMLNode) : string :=
  match n with NText s => s | _ => "" end.
Definition nodes_text (l : list XMLNode) : string := concat_strings (map node_text l).

(** ** Building children *)
Definition els {X} (w : X -> Element) (l : list X) : list XMLNode :=
  map (fun x => NElement (w x)) l.
Definition el_opt {X} (w : X -> Element) (o : option X) : list XMLNode :=
  match o with Some x => [NElement (w x)] | None => [] end.
