(** Documents that are kept: those without the markup which the writer does not write, or not as it is read. *)
From Coq Require Import String List NArith Bool.
From Verif Require Import Base NumStr NumStrSpec Xml XmlSpec Ast RoundTripSpec.
Import ListNotations.
Open Scope string_scope.
Open Scope list_scope.

(** A child element with the tag. *)
Definition has_child (e : Element) (t : string) : Prop := exists c, In (NElement c) (children e) /\ name c = t.

(** The elements whose [Num] is the number of a provision. *)
Definition provision_tags : list string :=
  ["Paragraph"; "Article"; "Part"; "Chapter"; "Section"; "Subsection"; "Division";
   "TOCPart"; "TOCChapter"; "TOCSection"; "TOCSubsection"; "TOCDivision"; "TOCArticle"].
Definition item_tags : list string :=
  ["Item"; "Subitem1"; "Subitem2"; "Subitem3"; "Subitem4"; "Subitem5"; "Subitem6"; "Subitem7"; "Subitem8";
   "Subitem9"; "Subitem10"].

(** Numbers that are written as they were read: a range end only after exactly one branch number. *)
Definition simple_num (s : string) : Prop := forall b ed r, num_text s b ed r -> r = [] \/ exists n, ed = [n].
Definition readable_num (s : string) : Prop := exists b ed r, num_text s b ed r.

(** One element, not looking into its children. *)
Definition plain_element (e : Element) : Prop :=
  ~ In (name e) ["Remarks"; "SupplProvisionAppdxTable"; "SupplProvisionAppdx"; "NewProvision"; "TOCPreambleLabel"] /\
  (name e = "Appdx" -> ~ has_child e "RelatedArticleNum") /\
  (name e = "ArithFormula" -> get e "Num" = None) /\
  (name e = "TableColumn" -> get e "Align" = None /\ get e "Valign" = None) /\
  (In (name e) (provision_tags ++ item_tags) -> forall s, get e "Num" = Some s -> simple_num s) /\
  (In (name e) item_tags -> forall s, get e "Num" = Some s -> readable_num s).

(** A document of such elements. *)
Definition plain_document (e : Element) : Prop := forall c, inside c e -> plain_element c.

(** The number of a law: written, and simple. *)
Definition plain_law_num (e : Element) : Prop := forall s, get e "Num" = Some s -> s <> "" /\ simple_num s.

(** The item numbers anywhere in a structure are made of machine integers, as they are in the code ([usize]). *)
Definition item_nums (k : kind) (x : Knot k) : Prop :=
  forall l (y : Knot (KItem l)) a, part_of (node (KItem l) y) (node k x) -> it_num (un (KItem l) y) = Some a ->
    Forall (fun n => n < 2 ^ 64)%N (base_number a :: eda_numbers a ++ range_end_numbers a).
