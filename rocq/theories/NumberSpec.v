(** Specification of the numbers read from the start of a line: headings ("第三条の二") and paragraph
    labels ("３の２"), as a grammar and the values of its numerals. *)
From Coq Require Import String List NArith Bool.
From Verif Require Import Base NumStr NumStrSpec Regex NumText NumTextSpec.
Import ListNotations.
Open Scope string_scope.
Open Scope list_scope.

(** Numerals are written with one of three sets of characters. *)
Inductive digits_kind := Ascii10 | Wide10 | Kansuji.
Definition ascii_list : ustr := Eval vm_compute in u "0123456789".
Definition digit_chars (k : digits_kind) : ustr :=
  match k with Ascii10 => ascii_list | Wide10 => zenkaku_list | Kansuji => kanji_list end.
Definition all_kinds : list digits_kind := [Ascii10; Wide10; Kansuji].
Definition decimal_kinds : list digits_kind := [Wide10; Ascii10].
Definition numtext := (digits_kind * ustr)%type.
Definition is_numtext (t : numtext) : Prop := snd t <> [] /\ Forall (fun c => In c (digit_chars (fst t))) (snd t).

(** Branches: "の" or "ノ" and a numeral, as many as there are.  [branches_upto ks l s r]: text [s] starts
    with the branches [l] of the kinds [ks], and [r] is what comes after them. *)
Definition branch := (N * numtext)%type.
Definition joints : ustr := u "のノ".
Inductive branches_upto (ks : list digits_kind) : list branch -> ustr -> ustr -> Prop :=
| no_branch s :
    (forall j c r, s = j :: c :: r -> In j joints -> ~ In c (flat_map digit_chars ks)) -> branches_upto ks [] s s
| more_branches j k w l s r :
    In j joints -> In k ks -> is_numtext (k, w) -> not_followed_by (digit_chars k) s ->
    branches_upto ks l s r -> branches_upto ks ((j, (k, w)) :: l) (j :: w ++ s) r.

(** A numeral, the name of what it counts, and branches. *)
Definition heading_units : ustr := u "編章節款目条項号".
Definition heading_part (n : numtext) (l : list branch) (s r : ustr) : Prop :=
  is_numtext n /\ exists x s', In x heading_units /\ s = snd n ++ x :: s' /\ branches_upto all_kinds l s' r.
(** A decimal numeral and branches. *)
Definition label_part (n : numtext) (l : list branch) (s r : ustr) : Prop :=
  is_numtext n /\ In (fst n) decimal_kinds /\ exists s',
  s = snd n ++ s' /\ not_followed_by (digit_chars (fst n)) s' /\ branches_upto decimal_kinds l s' r.

(** A number with branches, and perhaps the end of a range, "から" ... "まで". *)
Record numbered := mkNumbered { nb_first : numtext; nb_branches : list branch; nb_end : option (numtext * list branch) }.
Definition number_form (part : numtext -> list branch -> ustr -> ustr -> Prop) (from : ustr) (s : ustr) (h : numbered) : Prop :=
  exists s', part (nb_first h) (nb_branches h) s s' /\
  match nb_end h with
  | Some (n, l) => exists t r, s' = from ++ t /\ part n l t (u "まで" ++ r)
  | None => forall n l t r, s' = from ++ t -> ~ part n l t (u "まで" ++ r)
  end.
Definition heading_form (s : ustr) (h : numbered) : Prop :=
  number_form heading_part (u "から第") s h \/ exists s', s = u "第" ++ s' /\ number_form heading_part (u "から第") s' h.
Definition label_form (s : ustr) (h : numbered) : Prop := number_form label_part (u "から") s h.

(** ** Values *)
Definition fits (n : N) : option N := if N.ltb n (2 ^ 64) then Some n else None.
Definition decimal_value (zero : N) (w : ustr) : option N := fits (dec_value (map (fun c => c - zero)%N w)).
Definition decimal (t : numtext) : option N :=
  match fst t with Ascii10 => decimal_value (uc "0") (snd t) | Wide10 => decimal_value (uc "０") (snd t) | Kansuji => None end.
Definition kansuji (cd : codec) (w : ustr) : option N := option_map (fun n => n mod 2 ^ 64)%N (unkan cd w).

(** The first number of a heading: too large a number is a panic only in ASCII digits. *)
Definition first_value (cd : codec) (t : numtext) : R (option N) :=
  match fst t, decimal t with
  | _, Some n => Ok (Some n)
  | Ascii10, None => Panic
  | Wide10, None => Ok None
  | Kansuji, None => Ok (kansuji cd (snd t))
  end.
(** A branch: decimal if it can be. *)
Definition branch_value (cd : codec) (t : numtext) : option N :=
  match decimal t with Some n => Some n | None => kansuji cd (snd t) end.

Fixpoint sequence (l : list (option N)) : option (list N) :=
  match l with
  | [] => Some []
  | Some n :: r => option_map (cons n) (sequence r)
  | None :: r => None
  end.

(** Branches divided at "の" only: a "ノ" joins a numeral to what is before it. *)
Inductive piece := Plain (t : numtext) | Joined (w : ustr).
Fixpoint glue (l : list branch) : ustr * list piece :=
  match l with
  | [] => ([], [])
  | (j, t) :: r =>
      let (lead, ps) := glue r in
      if N.eqb j (uc "ノ") then (j :: snd t ++ lead, ps)
      else ([], match lead with [] => Plain t | _ => Joined (snd t ++ lead) end :: ps)
  end.
Definition pieces (l : list branch) : list piece :=
  let (lead, ps) := glue l in match lead with [] => ps | _ => Joined lead :: ps end.

(** Headings: "の" and "ノ" both divide branches, but only "の" in the end of a range. *)
Definition heading_piece (cd : codec) (p : piece) : option N :=
  match p with Plain t => branch_value cd t | Joined w => kansuji cd w end.
Definition heading_value (cd : codec) (h : numbered) : R (option ArticleNumber) :=
  b <- first_value cd (nb_first h);
  match b, sequence (map (fun x : branch => branch_value cd (snd x)) (nb_branches h)) with
  | Some b, Some e =>
      match nb_end h with
      | None => Ok (Some (mkAN b e []))
      | Some (n, l) =>
          m <- first_value cd n;
          match m, sequence (map (heading_piece cd) (pieces l)) with
          | Some m, Some f => Ok (Some (mkAN b e (m :: f)))
          | _, _ => Ok None
          end
      end
  | _, _ => Ok None
  end.

(** Labels: what is not decimal or too large is a panic, except in the end of a range; its branches are
    dropped. *)
Definition label_piece (p : piece) : option N := match p with Plain t => decimal t | Joined _ => None end.
Definition label_value (h : numbered) : R (option ArticleNumber) :=
  match decimal (nb_first h), sequence (map label_piece (pieces (nb_branches h))) with
  | Some b, Some e =>
      match nb_end h with
      | None => Ok (Some (mkAN b e []))
      | Some (n, _) => Ok (option_map (fun m => mkAN b e [m]) (decimal n))
      end
  | _, _ => Panic
  end.

(** What is read from a text: a heading if it starts with one, else a label, else nothing. *)
Definition number_reading (cd : codec) (s : ustr) (r : R (option ArticleNumber)) : Prop :=
  (exists h, heading_form s h /\ r = heading_value cd h) \/
  (~ (exists h, heading_form s h) /\ exists h, label_form s h /\ r = label_value h) \/
  (~ (exists h, heading_form s h) /\ ~ (exists h, label_form s h) /\ r = Ok None).

(** The writers of headings, with the character that tells the kind. *)
Definition heading_texts (cd : codec) : list (N * (ArticleNumber -> ustr)) :=
  [(uc "編", part_text cd); (uc "章", chapter_text cd); (uc "節", section_text cd);
   (uc "款", subsection_text cd); (uc "目", division_text cd); (uc "条", article_text cd)].
