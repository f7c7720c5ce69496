(** Specification of number texts: the characters of a numeral, what may follow a label, and the
    iroha order. *)
From Coq Require Import String List NArith ZArith Bool.
From Verif Require Import Base NumStr Regex NumText.
Import ListNotations.
Open Scope string_scope.
Open Scope list_scope.

(** The characters of kanji numerals below ten thousand. *)
Definition kanji_list : ustr := Eval vm_compute in u "一二三四五六七八九十百千".

(** The kanji numeral of [n] is written with the characters the readers know and is understood
    again by the crate that wrote it. *)
Definition numeral (cd : codec) (n : N) : Prop :=
  kan cd n <> [] /\ Forall (fun c => In c kanji_list) (kan cd n) /\
  unkan cd (kan cd n) = Some n /\ (n < 2 ^ 64)%N.

(** [n as i32] and [n as u32] of Rust: the machine integer that agrees with the number modulo 2^32. *)
Definition machine_i32 (n : N) (z : Z) : Prop :=
  (-2147483648 <= z < 2147483648)%Z /\ exists k, Z.of_N n = (z + k * 4294967296)%Z.
Definition machine_u32 (n m : N) : Prop := (m < 4294967296)%N /\ exists k, n = (m + k * 4294967296)%N.

(** All the numbers in an article number. *)
Definition numbers (a : ArticleNumber) : list N :=
  base_number a :: eda_numbers a ++ range_end_numbers a.

(** The six heading kinds. *)
Definition heading_suffixes : list ustr := [u "編"; u "章"; u "節"; u "款"; u "目"; u "条"].

(** The first character of [s], if any, is not one of [l]. *)
Definition not_followed_by (l : ustr) (s : ustr) : Prop :=
  match s with [] => True | c :: _ => ~ In c l end.

(** The iroha poem: all letters once, in the order of their numbers. *)
Definition iroha_hiragana : ustr := u "いろはにほへとちりぬるをわかよたれそつねならむうゐのおくやまけふこえてあさきゆめみしゑひもせす".
Definition iroha_katakana : ustr := u "イロハニホヘトチリヌルヲワカヨタレソツネナラムウヰノオクヤマケフコエテアサキユメミシヱヒモセス".

(** Number [n] is the position, from one, of the letter [s] in a poem. *)
Definition iroha_number (poem s : ustr) (n : N) : Prop :=
  exists i c, nth_error poem i = Some c /\ s = [c] /\ n = N.of_nat (S i).

(** The patterns with parentheses around the number. *)
Definition in_paren (p : ItemPattern) : bool :=
  match p with
  | ParenKansuji | ParenIrohaKatakana | ParenIrohaHiragana | ParenZenkakuNum
  | ParenZenkakuRomanUpper | ParenZenkakuRomanLower | ParenZenkakuUpper | ParenZenkakuLower => true
  | _ => false
  end.

(** The patterns by the kind of characters. *)
Definition is_kansuji (p : ItemPattern) : bool :=
  match p with NoParenKansuji | ParenKansuji => true | _ => false end.
Definition is_katakana (p : ItemPattern) : bool :=
  match p with NoParenIrohaKatakana | ParenIrohaKatakana => true | _ => false end.
Definition is_zenkaku (p : ItemPattern) : bool :=
  match p with NoParenZenkakuNum | ParenZenkakuNum => true | _ => false end.
Definition is_alphabet (p : ItemPattern) : bool :=
  match p with
  | NoParenZenkakuUpper | NoParenZenkakuLower | ParenZenkakuUpper | ParenZenkakuLower => true
  | _ => false
  end.

(** What may come after a heading number without being read as part of it. *)
Definition heading_follow (rest : ustr) : Prop :=
  not_followed_by (kanji_list ++ u "のノ") rest /\ forall r, rest <> u "から第" ++ r.

(** The full-width digits. *)
Definition zenkaku_list : ustr := Eval vm_compute in u "０１２３４５６７８９".

(** What may come after a paragraph label without being read as part of it. *)
Definition label_follow (rest : ustr) : Prop :=
  not_followed_by (zenkaku_list ++ u "のノ編章節款目条項号") rest /\ forall r, rest <> u "から" ++ r.

(** The roman numeral of [n] uses only the letters that are converted to full-width ones, and is
    understood again by the crate that wrote it. *)
Definition roman_numeral (cd : codec) (n : N) : Prop :=
  (n < 2 ^ 31)%N /\ exists s, roman_to cd (Z.of_N n) = Some s /\ s <> [] /\
  Forall (fun c => In c (u "IXLC")) s /\ roman_from cd s = Some (Z.of_N n).

(** The numbers that can be written with a pattern and read back. *)
Definition writable (cd : codec) (p : ItemPattern) (n : N) : Prop :=
  match p with
  | NoParenKansuji | ParenKansuji => numeral cd n
  | NoParenIrohaKatakana | ParenIrohaKatakana => (1 <= n <= 47)%N
  | NoParenZenkakuNum | ParenZenkakuNum => (n < 2 ^ 64)%N
  | NoParenZenkakuRomanUpper | NoParenZenkakuRomanLower
  | ParenZenkakuRomanUpper | ParenZenkakuRomanLower => roman_numeral cd n
  | _ => False
  end.

(** Two patterns are exchanged by writing and reading. *)
Definition read_as (p : ItemPattern) : ItemPattern :=
  match p with
  | ParenZenkakuRomanUpper => ParenZenkakuRomanLower
  | ParenZenkakuRomanLower => ParenZenkakuRomanUpper
  | _ => p
  end.

(** Text of white space. *)
Definition blank (s : ustr) : Prop := Forall (fun c => is_space c = true) s.

(** [line] is [s], white space [g] and [t]; [s] has no white space, [t] no line feed, neither is
    empty. *)
Definition split_into (line s g t : ustr) : Prop :=
  line = s ++ g ++ t /\ s <> [] /\ t <> [] /\
  Forall (fun c => is_space c = false) s /\ blank g /\ ~ In 10%N t.

(** A number text, perhaps in parentheses. *)
Definition enclosed (b : bool) (w : ustr) : ustr := if b then u "（" ++ w ++ u "）" else w.

(** The full-width alphabets, and the letters taken for roman numerals. *)
Definition upper_letters : ustr := Eval vm_compute in u "ＡＢＣＤＥＦＧＨＩＪＫＬＭＮＯＰＱＲＳＴＵＶＷＸＹＺ".
Definition lower_letters : ustr := Eval vm_compute in u "ａｂｃｄｅｆｇｈｉｊｋｌｍｎｏｐｑｒｓｔｕｖｗｘｙｚ".
Definition roman_letters : ustr := Eval vm_compute in u "ＩＸＶＬＣｉｘｖｌｃ".

(** The letters of labels that are read as katakana and as hiragana. *)
Definition is_katakana_letter (c : N) : Prop := (uc "ア" <= c <= uc "ン")%N.
Definition is_hiragana_letter (c : N) : Prop := (uc "あ" <= c <= uc "ん")%N.
