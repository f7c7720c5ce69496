(** The headings and articles of a main or supplementary provision as they stand in the XML tree. *)
From Coq Require Import String List NArith Bool.
From Verif Require Import Base NumStr Xml Ast ReadSpec Utils UtilsSpec ReadingSpec DocTextSpec.
Import ListNotations.
Open Scope string_scope.
Open Scope list_scope.

Definition heading_rank (tag : string) : option rank :=
  match tag with
  | "Part" => Some RPart
  | "Chapter" => Some RChapter
  | "Section" => Some RSection
  | "Subsection" => Some RSubsection
  | "Division" => Some RDivision
  | _ => None
  end.

(** The headings around a place, from the outermost one, with their numbers as written. *)
Definition written_trail := list (rank * option string).

(** The headings and articles at and below an element, in the order of the document, each with the headings around
    it; a heading is around itself. *)
Fixpoint places (e : Element) : list (written_trail * Element) :=
  let 'mkElement n a l := e in
  if String.eqb n "Article" then [([], e)]
  else match heading_rank n with
       | Some r =>
           map (fun x => ((r, get e "Num") :: fst x, snd x))
             (([], e) :: flat_map (fun x => match x with NElement c => places c | _ => [] end) l)
       | None => []
       end.
(** Those of a provision. *)
Definition provision_places (e : Element) : list (written_trail * Element) :=
  flat_map places (elements (children e)).
Definition is_article (e : Element) : bool := String.eqb (name e) "Article".

(** The title: of a heading the first child, of an article the last one with the tag. *)
Definition place_title (e : Element) : string :=
  if is_article e then
    match rev (with_tag "ArticleTitle" (children e)) with t :: _ => title_text t | [] => "" end
  else match elements (children e) with t :: _ => title_text t | [] => "" end.

Definition same_trail (w : written_trail) (t : trail) : Prop :=
  Forall2 (fun a b => fst a = fst b /\ number (snd a) (snd b)) w t.
(** An entry for a place. *)
Definition entry_for (p : written_trail * Element) (x : UtilsSpec.entry) : Prop :=
  same_trail (fst p) (en_trail x) /\ en_title x = place_title (snd p) /\
  match en_article x with
  | Some n => is_article (snd p) = true /\ number (get (snd p) "Num") n
  | None => is_article (snd p) = false
  end.
(** An article for a place. *)
Definition article_for (p : written_trail * Element) (x : trail * Knot KArticle) : Prop :=
  same_trail (fst p) (fst x) /\ reads KArticle (snd p) (snd x).
Definition article_places (e : Element) : list (written_trail * Element) :=
  filter (fun p => is_article (snd p)) (provision_places e).

(** The main provision of a law, the last one if there are several, and its supplementary provisions. *)
Definition law_main (e m : Element) : Prop :=
  exists n b rest r, children e = NElement n :: NElement b :: rest /\ rev (with_tag "MainProvision" (children b)) = m :: r.
Definition law_suppl (e : Element) (l : list Element) : Prop :=
  exists n b rest, children e = NElement n :: NElement b :: rest /\ with_tag "SupplProvision" (children b) = l.
