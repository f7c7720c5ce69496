(** Text as sequences of characters, and anchored regular expressions.

    Model file: definitions only.  The crate [regex] is not modelled from its source: this is the
    documented meaning of the few constructs used in /repo/src (leftmost-first match, greedy
    repetition, named groups), as the list of all matches at the start of the text in order of
    preference; a search anchored with [^] returns the first of them. *)
From Coq Require Import String Ascii List NArith Bool.
From Verif Require Import Base.
Import ListNotations.
Open Scope string_scope.
Open Scope list_scope.

(** A [str] as the list of its characters (code points). *)
Definition ustr := list N.

(** Characters of a literal written in this file, which is stored in UTF-8: decode the lead byte
    and the number of continuation bytes it announces. *)
Fixpoint utf8_decode (s : string) (need : nat) (acc : N) : ustr :=
  match s with
  | EmptyString => []
  | String c r =>
      let b := N_of_ascii c in
      match need with
      | S O => (acc * 64 + b mod 64)%N :: utf8_decode r 0 0
      | S m => utf8_decode r m (acc * 64 + b mod 64)%N
      | O =>
          if N.ltb b 128 then b :: utf8_decode r 0 0
          else if N.ltb b 224 then utf8_decode r 1 (b mod 32)%N
          else if N.ltb b 240 then utf8_decode r 2 (b mod 16)%N
          else utf8_decode r 3 (b mod 8)%N
      end
  end.
Definition u (s : string) : ustr := utf8_decode s 0 0.

(** A literal of one character. *)
Definition uc (s : string) : N := match u s with c :: _ => c | [] => 0%N end.

(** The UTF-8 bytes of a text: the form in which the data types of Ast.v hold it. *)
Definition utf8_char (c : N) : string :=
  let byte n := ascii_of_N n in
  if N.ltb c 128 then String (byte c) ""
  else if N.ltb c 2048 then String (byte (192 + c / 64)%N) (String (byte (128 + c mod 64)%N) "")
  else if N.ltb c 65536 then
    String (byte (224 + c / 4096)%N)
      (String (byte (128 + c / 64 mod 64)%N) (String (byte (128 + c mod 64)%N) ""))
  else
    String (byte (240 + c / 262144)%N)
      (String (byte (128 + c / 4096 mod 64)%N)
        (String (byte (128 + c / 64 mod 64)%N) (String (byte (128 + c mod 64)%N) ""))).
Definition enc (s : ustr) : string := concat_strings (map utf8_char s).

Fixpoint ueqb (a b : ustr) : bool :=
  match a, b with
  | [], [] => true
  | x :: a', y :: b' => N.eqb x y && ueqb a' b'
  | _, _ => false
  end.

Definition in_range (lo hi : N) (c : N) : bool := N.leb lo c && N.leb c hi.
Definition one_of (s : ustr) (c : N) : bool := existsb (N.eqb c) s.

(** [char::is_whitespace] and [\s]: the Unicode property White_Space. *)
Definition is_space (c : N) : bool :=
  in_range 9 13 c || N.eqb c 32 || N.eqb c 133 || N.eqb c 160 || N.eqb c 5760
  || in_range 8192 8202 c || N.eqb c 8232 || N.eqb c 8233 || N.eqb c 8239 || N.eqb c 8287
  || N.eqb c 12288.

(** [str::trim]. *)
Fixpoint trim_start (s : ustr) : ustr :=
  match s with
  | c :: r => if is_space c then trim_start r else s
  | [] => []
  end.
Definition trim (s : ustr) : ustr := rev (trim_start (rev (trim_start s))).

(** [str::split] at a character. *)
Fixpoint usplit (c : N) (s : ustr) : list ustr :=
  match s with
  | [] => [[]]
  | x :: r =>
      if N.eqb x c then [] :: usplit c r
      else match usplit c r with h :: t => (x :: h) :: t | [] => [[x]] end
  end.

Definition non_empty (s : ustr) : bool := match s with [] => false | _ => true end.

(** [str::contains] of a character. *)
Definition contains (c : N) (s : ustr) : bool := existsb (N.eqb c) s.

(** [str::replace] of a character by a character. *)
Definition replace (a b : N) (s : ustr) : ustr := map (fun c => if N.eqb c a then b else c) s.

(** ** Regular expressions *)
Inductive re :=
| Eps                        (* the empty text *)
| End                        (* [$] *)
| Chr (p : N -> bool)        (* one character of a class *)
| Seq (a b : re)
| Alt (a b : re)             (* [a|b], first alternative preferred *)
| Star (a : re)              (* [a*], greedy *)
| Cap (n : string) (a : re). (* named group *)

Fixpoint Lit (s : ustr) : re :=
  match s with [] => Eps | c :: r => Seq (Chr (N.eqb c)) (Lit r) end.
Definition Plus (a : re) : re := Seq a (Star a).
Definition Opt (a : re) : re := Alt a Eps.
Fixpoint Alts (l : list re) : re :=
  match l with [] => Chr (fun _ => false) | [a] => a | a :: r => Alt a (Alts r) end.

(** Groups that took part in a match, with the text they matched. *)
Definition caps := list (string * ustr).

(** A match: its groups and the text after it. *)
Definition result := (caps * ustr)%type.

Definition after (c : caps) (l : list result) : list result :=
  map (fun r => (c ++ fst r, snd r)) l.

(** What was read between two positions. *)
Definition consumed (s s' : ustr) : ustr := firstn (length s - length s') s.

(** All matches at the start of [s], most preferred first.  A repetition only goes on after
    progress. *)
Fixpoint exec (r : re) (s : ustr) {struct r} : list result :=
  match r with
  | Eps => [([], s)]
  | End => match s with [] => [([], s)] | _ => [] end
  | Chr p => match s with c :: s' => if p c then [([], s')] else [] | [] => [] end
  | Seq a b => flat_map (fun x => after (fst x) (exec b (snd x))) (exec a s)
  | Alt a b => exec a s ++ exec b s
  | Star a =>
      (fix star (n : nat) (s : ustr) {struct n} : list result :=
         match n with
         | O => [([], s)]
         | S n' =>
             flat_map (fun x => if Nat.ltb (length (snd x)) (length s)
                                then after (fst x) (star n' (snd x)) else []) (exec a s)
             ++ [([], s)]
         end) (length s) s
  | Cap n a => map (fun x => ((n, consumed s (snd x)) :: fst x, snd x)) (exec a s)
  end.

(** [Regex::captures] for an expression that starts with [^]. *)
Definition captures (r : re) (s : ustr) : option caps :=
  match exec r s with x :: _ => Some (fst x) | [] => None end.

(** [caps.name(n)]. *)
Fixpoint group (n : string) (c : caps) : option ustr :=
  match c with
  | [] => None
  | (k, v) :: r => if String.eqb n k then Some v else group n r
  end.

(** [&caps[n]]: panics if the group did not take part. *)
Definition group_text (n : string) (c : caps) : R ustr := unwrap (group n c).
