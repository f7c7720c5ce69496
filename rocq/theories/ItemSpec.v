(** Specification of item labels ("二の三", "（イ）"): which texts are labels, how they are divided and
    what numbers they have. *)
From Coq Require Import String List NArith ZArith Bool.
From Verif Require Import Base NumStr NumStrSpec Regex NumText NumTextSpec NumberSpec TextParse TextSpec.
Import ListNotations.
Open Scope string_scope.
Open Scope list_scope.

(** ** Words *)
(** The letters of a word are all of one kind. *)
Inductive letters := Katakana | Hiragana | Kanji | WideDigits | WideUpper | WideLower.
Definition letter_of (k : letters) (c : N) : Prop :=
  match k with
  | Katakana => is_katakana_letter c
  | Hiragana => is_hiragana_letter c
  | Kanji => In c kanji_list
  | WideDigits => In c zenkaku_list
  | WideUpper => In c upper_letters
  | WideLower => In c lower_letters
  end.
Definition word (k : letters) (w : ustr) : Prop := w <> [] /\ Forall (letter_of k) w.
(** One number: a word, plain or in parentheses. *)
Definition one (s : ustr) : Prop := exists b k w, word k w /\ s = enclosed b w.

(** ** Division of a label *)
Inductive branches_text : ustr -> Prop :=
| no_branches : branches_text []
| add_branch w e : one w -> branches_text e -> branches_text (u "の" ++ w ++ e).
Definition range_text (r : ustr) : Prop :=
  r = [] \/ exists w e, one w /\ branches_text e /\ r = u "から" ++ w ++ e ++ u "まで".
Definition divides (t b e : ustr) : Prop :=
  exists r, one b /\ branches_text e /\ range_text r /\ t = b ++ e ++ r.
(** Of several divisions the one with the longest number counts, and among these the one with the
    longest branches. *)
Definition division (t b e : ustr) : Prop :=
  divides t b e /\ forall b' e', divides t b' e' -> length b' < length b \/ length b' = length b /\ length e' <= length e.

(** ** Values *)
Fixpoint place (poem : ustr) (c : N) : option N :=
  match poem with
  | [] => None
  | x :: r => if N.eqb x c then Some 1%N else option_map N.succ (place r c)
  end.
Definition iroha_value (poem w : ustr) : option N := match w with [c] => place poem c | _ => None end.
(** Letters of the alphabet: their places, written one after the other in decimal digits. *)
Definition place_digits (first c : N) : list N :=
  let n := (c - first + 1)%N in if N.ltb n 10 then [n] else [n / 10; n mod 10]%N.
Definition letters_value (first : N) (w : ustr) : option N := fits (dec_value (flat_map (place_digits first) w)).
(** Roman numerals: four of the letters are understood. *)
Definition ascii_roman (c : N) : N :=
  match find (fun p : N * N => N.eqb (fst p) c) (combine (u "ＩＸＬＣｉｘｌｃ") (u "IXLCIXLC")) with
  | Some (_, x) => x
  | None => c
  end.
Definition roman_value (cd : codec) (w : ustr) : option N :=
  option_map (fun z => Z.to_N (z mod 2 ^ 64)) (roman_from cd (map ascii_roman w)).
Definition has_roman (w : ustr) : bool := existsb (fun c => existsb (N.eqb c) roman_letters) w.

(** The pattern of a word, and its number if it has one. *)
Definition word_pattern (b : bool) (k : letters) (w : ustr) : ItemPattern :=
  match k, b with
  | Katakana, false => NoParenIrohaKatakana
  | Katakana, true => ParenIrohaKatakana
  | Hiragana, false => NoParenIrohaHiragana
  | Hiragana, true => ParenIrohaHiragana
  | Kanji, false => NoParenKansuji
  | Kanji, true => ParenKansuji
  | WideDigits, false => NoParenZenkakuNum
  | WideDigits, true => ParenZenkakuNum
  | WideUpper, false => if has_roman w then NoParenZenkakuRomanUpper else NoParenZenkakuUpper
  | WideUpper, true => if has_roman w then ParenZenkakuRomanUpper else ParenZenkakuUpper
  | WideLower, false => if has_roman w then NoParenZenkakuRomanLower else NoParenZenkakuLower
  | WideLower, true => if has_roman w then ParenZenkakuRomanLower else ParenZenkakuLower
  end.
Definition word_value (cd : codec) (k : letters) (w : ustr) : option N :=
  match k with
  | Katakana => iroha_value iroha_katakana w
  | Hiragana => iroha_value iroha_hiragana w
  | Kanji => kansuji cd w
  | WideDigits => decimal_value (uc "０") w
  | WideUpper => if has_roman w then roman_value cd w else letters_value (uc "Ａ") w
  | WideLower => if has_roman w then roman_value cd w else letters_value (uc "ａ") w
  end.
(** A word without a number is a panic. *)
Definition word_reading (cd : codec) (b : bool) (k : letters) (w : ustr) : R (ItemPattern * N) :=
  match word_value cd k w with Some n => Ok (word_pattern b k w, n) | None => Panic end.

(** ** Reading the start of a text *)
Inductive start_reading (cd : codec) (s : ustr) : R (option (ItemPattern * N)) -> Prop :=
| start_enclosed k w rest : word k w -> s = enclosed true w ++ rest ->
    start_reading cd s (rmap Some (word_reading cd true k w))
| start_plain k w rest : word k w -> s = w ++ rest -> (forall c r, rest = c :: r -> ~ letter_of k c) ->
    start_reading cd s (rmap Some (word_reading cd false k w))
| start_nothing : (forall b k w rest, word k w -> s <> enclosed b w ++ rest) -> start_reading cd s (Ok None).

(** ** Reading a label *)
(** The texts between the characters "の", without empty ones. *)
Inductive cut : ustr -> list ustr -> Prop :=
| cut_end : cut [] []
| cut_no s l : cut s l -> cut (uc "の" :: s) l
| cut_text p s l : p <> [] -> ~ In (uc "の") p -> (s = [] \/ exists r, s = uc "の" :: r) -> cut s l -> cut (p ++ s) (p :: l).
(** What is not read is left out. *)
Fixpoint collect (l : list (R (option (ItemPattern * N)))) : R (list N) :=
  match l with
  | [] => Ok []
  | x :: r => o <- x; ns <- collect r; Ok (match o with Some (_, n) => n :: ns | None => ns end)
  end.

Definition label_reading (cd : codec) (s : ustr) (r : R (option ItemNumber)) : Prop :=
  exists x t y, blank x /\ blank y /\ no_edge t /\ s = x ++ t ++ y /\
  ((~ (exists b e, divides t b e) /\ r = Ok None) \/
   (exists b k w e l rs, word k w /\ division t (enclosed b w) e /\ cut e l /\ Forall2 (start_reading cd) l rs /\
    r = (v <- word_reading cd b k w; es <- collect rs; Ok (Some (mkIN s (snd v) es [] (fst v)))))).

(** ** Reading a line *)
(** A line is a caption, or the number or label before its first white space decides, or it is text. *)
Inductive word_line (cd : codec) (w s t : ustr) : R line -> Prop :=
| line_number n mk : number_reading cd s (Ok (Some n)) -> kind_of s mk -> word_line cd w s t (Ok (mk n t))
| line_number_panic : number_reading cd s Panic -> word_line cd w s t Panic
| line_item i : number_reading cd s (Ok None) -> label_reading cd s (Ok (Some i)) -> word_line cd w s t (Ok (LItem i t))
| line_item_panic : number_reading cd s (Ok None) -> label_reading cd s Panic -> word_line cd w s t Panic
| line_no_number : number_reading cd s (Ok None) -> label_reading cd s (Ok None) -> word_line cd w s t (Ok (LText w)).
Definition line_reading (cd : codec) (l : ustr) (r : R line) : Prop :=
  exists x w y, blank x /\ blank y /\ no_edge w /\ l = x ++ w ++ y /\
  ((exists v, v <> [] /\ ~ In (uc "）") v /\ w = uc "（" :: v ++ [uc "）"] /\ r = Ok (LCaption v)) \/
   (~ caption_line w /\ length w <= 1 /\ r = Ok (LText w)) \/
   (~ caption_line w /\ exists s t, first_word w s t /\ word_line cd w s t r)).
