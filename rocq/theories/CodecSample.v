(** A concrete pair of numeral crates, used in examples only: kanji numerals below ten thousand and
    roman numerals below four thousand. *)
From Coq Require Import String List NArith ZArith Bool Lia.
From Verif Require Import Base Regex NumText NumTextSpec TextParse.
Import ListNotations.
Open Scope string_scope.
Open Scope list_scope.

Definition kdigit (n : N) : ustr := nth (N.to_nat n) (map (fun c => [c]) (u "〇一二三四五六七八九")) [].
Definition kplace (n : N) (unit : ustr) : ustr :=
  if N.eqb n 0 then [] else if N.eqb n 1 then unit else kdigit n ++ unit.
Definition kanji_of (n : N) : ustr :=
  if N.eqb n 0 then u "零" else if N.leb 10000 n then u "万" else
  kplace (n / 1000) (u "千") ++ kplace (n / 100 mod 10) (u "百") ++ kplace (n / 10 mod 10) (u "十")
  ++ (if N.eqb (n mod 10) 0 then [] else kdigit (n mod 10)).
Fixpoint index (c : N) (s : ustr) (i : N) : option N :=
  match s with [] => None | x :: r => if N.eqb c x then Some i else index c r (i + 1)%N end.
Fixpoint kanji_read (s : ustr) (pending total : N) : option N :=
  match s with
  | [] => Some (total + pending)%N
  | c :: r =>
      match index c (u "一二三四五六七八九") 1%N with
      | Some d => kanji_read r d total
      | None =>
          let unit := if N.eqb c (uc "千") then Some 1000%N else if N.eqb c (uc "百") then Some 100%N
                      else if N.eqb c (uc "十") then Some 10%N else None in
          match unit with
          | Some k => kanji_read r 0%N (total + (if N.eqb pending 0 then 1 else pending) * k)%N
          | None => None
          end
      end
  end.

Definition roman_table : list (N * ustr) :=
  [(1000, u "M"); (900, u "CM"); (500, u "D"); (400, u "CD"); (100, u "C"); (90, u "XC"); (50, u "L");
   (40, u "XL"); (10, u "X"); (9, u "IX"); (5, u "V"); (4, u "IV"); (1, u "I")]%N.
Fixpoint roman_write (fuel : nat) (t : list (N * ustr)) (n : N) : ustr :=
  match fuel, t with
  | S f, (k, s) :: r => if N.leb k n then s ++ roman_write f t (n - k) else roman_write f r n
  | _, _ => []
  end.
Definition roman_of (z : Z) : option ustr :=
  if (0 <? z)%Z && (z <? 4000)%Z then Some (roman_write 40 roman_table (Z.to_N z)) else None.
Definition roman_read (s : ustr) : option Z :=
  let fix go (n : nat) (k : Z) : option Z :=
    match n with
    | O => None
    | S n' => match roman_of k with
              | Some t => if ueqb s t then Some k else go n' (k + 1)%Z
              | None => None
              end
    end in go 4000 1%Z.

Definition sample_codec : codec :=
  mkCodec kanji_of (fun s => kanji_read s 0%N 0%N) roman_of roman_read.

(** The hypothesis [numeral] holds of all numbers from 1 to 999. *)
Definition numeral_b (n : N) : bool :=
  non_empty (kanji_of n) && forallb (one_of kanji_list) (kanji_of n)
  && match kanji_read (kanji_of n) 0%N 0%N with Some m => N.eqb m n | None => false end.
Lemma sample_numeral : forall n, (1 <= n < 1000)%N -> numeral sample_codec n.
Proof.
  intros n H.
  assert (A : forallb (fun k => numeral_b (N.of_nat k)) (seq 1 999) = true) by (vm_compute; reflexivity).
  rewrite forallb_forall in A. specialize (A (N.to_nat n)). rewrite N2Nat.id in A.
  assert (B : numeral_b n = true) by (apply A, in_seq; lia). clear A.
  unfold numeral_b in B. apply andb_true_iff in B as [B B3]. apply andb_true_iff in B as [B1 B2].
  unfold numeral, sample_codec. cbn [kan unkan]. split; [intros E; rewrite E in B1; discriminate|]. split.
  - apply Forall_forall. rewrite forallb_forall in B2. intros c Hc. specialize (B2 c Hc). unfold one_of in B2.
    apply existsb_exists in B2 as [x [Hx E]]. apply N.eqb_eq in E. subst. exact Hx.
  - split.
    + destruct (kanji_read (kanji_of n) 0 0) as [m|]; [|discriminate]. apply N.eqb_eq in B3. subst. reflexivity.
    + apply N.lt_trans with 10000%N; [lia|reflexivity].
Qed.
Lemma sample_roman : forall n, In n [1; 2; 3; 9; 10; 11; 39; 40; 100; 399]%N -> roman_numeral sample_codec n.
Proof.
  intros n H. unfold roman_numeral.
  repeat (destruct H as [<-|H]; [split; [reflexivity|]; eexists; split; [vm_compute; reflexivity|];
    split; [discriminate|]; split; [vm_compute; repeat (constructor; [tauto|]); constructor|vm_compute; reflexivity]|]).
  destruct H.
Qed.

Theorem alphabet_ambiguous : forall cd, exists s t i j, s <> t /\
  parse_item_number cd s = Ok (Some i) /\ parse_item_number cd t = Ok (Some j) /\
  inum_base i = inum_base j /\ inum_pattern i = NoParenZenkakuUpper /\ inum_pattern j = NoParenZenkakuUpper.
Proof.
  intros cd. exists (u "ＢＡ"), (u "Ｕ"). do 2 eexists. split; [discriminate|]. vm_compute. repeat split.
Qed.

(** A concrete calendar: the Gregorian calendar with the five eras since Meiji. *)
Definition leap (y : Z) : bool := ((y mod 4 =? 0) && negb (y mod 100 =? 0) || (y mod 400 =? 0))%Z.
Definition month_days (y : Z) (m : N) : N :=
  if N.eqb m 2 then if leap y then 29 else 28
  else if existsb (N.eqb m) [4; 6; 9; 11]%N then 30 else 31.
Definition not_before (d : Z * N * N) (y : Z) (m day : N) : bool :=
  match d with (y', m', d') => ((y <? y')%Z || (y =? y')%Z && ((m <? m')%N || (m =? m')%N && (day <=? d')%N)) end.
Definition sample_calendar : calendar :=
  mkCalendar (Z * N * N)
    (fun y m d => if (1 <=? m)%N && (m <=? 12)%N && (1 <=? d)%N && (d <=? month_days y m)%N then Some (y, m, d) else None)
    (fun d => if not_before d 2019 5 1 then Some (u "令和") else if not_before d 1989 1 8 then Some (u "平成")
              else if not_before d 1926 12 25 then Some (u "昭和") else if not_before d 1912 7 30 then Some (u "大正")
              else if not_before d 1868 1 25 then Some (u "明治") else None).
