(** A small XML printer and reader of the kind crate xmltree provides: the printer indents as the
    configuration of /repo/src/lib.rs 135-137 asks for, the reader drops blank text.  It is not a
    model of that crate, whose source is not part of /repo; it shows that the hypothesis of the
    theorems on XML text can be met for every law. *)
From Coq Require Import String Ascii List Arith NArith Bool.
From Verif Require Import Base Xml Api TidySpec ApiSpec.
Import ListNotations.
Open Scope string_scope.
Open Scope list_scope.

(** ** Printing *)
Definition escape_char (c : ascii) : string :=
  if Ascii.eqb c "<" then "&lt;" else if Ascii.eqb c ">" then "&gt;"
  else if Ascii.eqb c "&" then "&amp;" else if Ascii.eqb c """" then "&quot;" else String c "".
Fixpoint escape (s : string) : string :=
  match s with "" => "" | String c r => escape_char c ++ escape r end.

Definition print_attr (a : string * string) : string := " " ++ fst a ++ "=""" ++ escape (snd a) ++ """".
Definition print_attrs (l : list (string * string)) : string := concat_strings (map print_attr l).

Fixpoint spaces (n : nat) : string := match n with O => "" | S m => "  " ++ spaces m end.
Definition newline (n : nat) : string := String "010" (spaces n).

(** [lvl] is the depth, [text] whether text was printed in this element, [some] whether an
    element was. *)
Fixpoint print (lvl : nat) (e : Element) : string :=
  let 'mkElement n a c := e in
  match c with
  | [] => "<" ++ n ++ print_attrs a ++ " />"
  | _ =>
      "<" ++ n ++ print_attrs a ++ ">"
      ++ (fix go (text some : bool) (l : list XMLNode) : string :=
            match l with
            | [] => if some && negb text then newline lvl else ""
            | NText s :: r => escape s ++ go true some r
            | NElement d :: r => (if text then "" else newline (S lvl)) ++ print (S lvl) d ++ go text true r
            | NOther _ :: r => go text some r
            end) false false c
      ++ "</" ++ n ++ ">"
  end%string.

Definition print_document (e : Element) : string := ("<?xml version=""1.0"" encoding=""UTF-8""?>" ++ newline 0 ++ print 0 e)%string.

(** ** Reading *)
Definition name_end (c : ascii) : bool := existsb (Ascii.eqb c) [" "; "="; ">"; "/"; "<"; "&"; """"]%char.
Fixpoint take_name (s : string) : string * string :=
  match s with
  | "" => ("", "")
  | String c r => if name_end c then ("", s) else let '(n, rest) := take_name r in (String c n, rest)
  end.

(** [s] without the prefix [p]. *)
Fixpoint after (p s : string) : option string :=
  match p, s with
  | "", _ => Some s
  | String a p', String b s' => if Ascii.eqb a b then after p' s' else None
  | _, "" => None
  end.

(** The text of an entity and what follows it. *)
Definition entity (s : string) : option (ascii * string) :=
  match after "lt;" s with
  | Some r => Some ("<"%char, r)
  | None =>
      match after "gt;" s with
      | Some r => Some (">"%char, r)
      | None =>
          match after "amp;" s with
          | Some r => Some ("&"%char, r)
          | None => match after "quot;" s with Some r => Some (""""%char, r) | None => None end
          end
      end
  end.

(** An attribute value up to the closing quote. *)
Fixpoint read_value (fuel : nat) (s : string) : option (string * string) :=
  match fuel, s with
  | S f, String c r =>
      if Ascii.eqb c """" then Some ("", r)
      else if Ascii.eqb c "&" then
        match entity r with
        | Some (d, r') => match read_value f r' with Some (v, rest) => Some (String d v, rest) | None => None end
        | None => None
        end
      else match read_value f r with Some (v, rest) => Some (String c v, rest) | None => None end
  | _, _ => None
  end.

(** The rest of a start tag: the attributes, and whether the element is empty. *)
Fixpoint read_attrs (fuel : nat) (s : string) : option (list (string * string) * bool * string) :=
  match fuel with
  | O => None
  | S f =>
      match after " />" s with
      | Some r => Some ([], true, r)
      | None =>
          match after ">" s with
          | Some r => Some ([], false, r)
          | None =>
              match after " " s with
              | None => None
              | Some r =>
                  let '(n, r1) := take_name r in
                  match after "=""" r1 with
                  | None => None
                  | Some r2 =>
                      match read_value f r2 with
                      | None => None
                      | Some (v, r3) =>
                          match read_attrs f r3 with
                          | Some (l, b, r4) => Some ((n, v) :: l, b, r4)
                          | None => None
                          end
                      end
                  end
              end
          end
      end
  end.

(** The nodes up to the next end tag; [acc] is the text read so far. *)
Fixpoint read_nodes (fuel : nat) (acc : string) (s : string) : option (list XMLNode * string) :=
  match fuel, s with
  | S f, String c r =>
      if Ascii.eqb c "<" then
        match after "/" r with
        | Some r1 => Some (flush NText acc, r1)
        | None =>
            let '(n, r1) := take_name r in
            match read_attrs f r1 with
            | None => None
            | Some (a, true, r2) =>
                match read_nodes f "" r2 with
                | Some (ns, rest) => Some (flush NText acc ++ NElement (mkElement n a []) :: ns, rest)
                | None => None
                end
            | Some (a, false, r2) =>
                match read_nodes f "" r2 with
                | None => None
                | Some (cs, r3) =>
                    match after (n ++ ">") r3 with
                    | None => None
                    | Some r4 =>
                        match read_nodes f "" r4 with
                        | Some (ns, rest) => Some (flush NText acc ++ NElement (mkElement n a cs) :: ns, rest)
                        | None => None
                        end
                    end
                end
            end
        end
      else if Ascii.eqb c "&" then
        match entity r with
        | Some (d, r') => read_nodes f (acc ++ String d "") r'
        | None => None
        end
      else read_nodes f (acc ++ String c "") r
  | _, _ => None
  end.

(** A document: the XML declaration and one element. *)
Definition read_document (s : string) : option Element :=
  match after "<?xml version=""1.0"" encoding=""UTF-8""?>" s with
  | None => None
  | Some r =>
      match read_nodes (S (String.length s)) "" (r ++ "</") with
      | Some ([NElement e], "") => Some e
      | _ => None
      end
  end%string.

Definition sample_xml : xml_crate := mkXmlCrate read_document (fun e => ([print_document e], true)).

(** Trees it can keep: names of letters, digits and underscores, texts and values that are encoded text. *)
Definition name_char (c : ascii) : bool :=
  let n := N_of_ascii c in
  (N.leb 48 n && N.leb n 57) || (N.leb 65 n && N.leb n 90) || (N.leb 97 n && N.leb n 122) || N.eqb n 95.
Fixpoint name_chars (s : string) : bool := match s with "" => true | String c r => name_char c && name_chars r end.
Definition name_ok (s : string) : bool := negb (String.eqb s "") && name_chars s.

(** Every text and every attribute value of a tree is encoded text, as all strings are in the code. *)
Inductive encoded_tree : Element -> Prop :=
| encoded_element n a c :
    Forall (fun x : string * string => encoded (snd x)) a -> Forall encoded_node c -> encoded_tree (mkElement n a c)
with encoded_node : XMLNode -> Prop :=
| encoded_child e : encoded_tree e -> encoded_node (NElement e)
| encoded_text s : encoded s -> encoded_node (NText s)
| encoded_other s : encoded_node (NOther s).

(** Names are well formed, and there is nothing but elements and texts. *)
Fixpoint well_named (e : Element) : bool :=
  let 'mkElement n a c := e in
  name_ok n && forallb (fun x => name_ok (fst x)) a
  && forallb (fun x => match x with NElement d => well_named d | NText _ => true | NOther _ => false end) c.
