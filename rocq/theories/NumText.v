(** Numbers in headings and item labels.

    Model file: definitions only.  Source: /repo/src/article_number.rs 91-929.  The crates
    [kansuji] and [roman] are parameters (record [codec]).  The [println!] calls are in [Stdout.v]. *)
From Coq Require Import String Ascii List NArith ZArith Bool.
From Verif Require Import Base NumStr Regex.
Import ListNotations.
Open Scope string_scope.
Open Scope list_scope.

(** The external numeral crates:
    - [kan n]: [Kansuji::from(n).to_string()];
    - [unkan s]: [Kansuji::try_from(s)] followed by the conversion to [u128];
    - [roman_to n]: [roman::to(n)]; [roman_from s]: [roman::from(s)]. *)
Record codec := mkCodec {
  kan : N -> ustr;
  unkan : ustr -> option N;
  roman_to : Z -> option ustr;
  roman_from : ustr -> option Z
}.

(** [n as usize] from [u128] and from [i32]; [n as i32] from [usize]. *)
Definition as_usize (n : N) : N := (n mod 2 ^ 64)%N.
Definition i32_as_usize (z : Z) : N := Z.to_N (z mod 2 ^ 64).
Definition as_i32 (n : N) : Z :=
  let m := (Z.of_N n mod 2 ^ 32)%Z in if Z.ltb m (2 ^ 31) then m else (m - 2 ^ 32)%Z.

(** ASCII text as characters and back. *)
Definition of_ascii (s : string) : ustr := map N_of_ascii (list_ascii_of_string s).
Definition to_ascii (s : ustr) : option string :=
  if forallb (fun c => N.ltb c 128) s then Some (string_of_list_ascii (map ascii_of_N s)) else None.

(** [s.parse::<usize>().ok()] *)
Definition uparse (s : ustr) : option N :=
  match to_ascii s with Some a => parse_usize a | None => None end.

(** [n.to_string()] *)
Definition ushow (n : N) : ustr := of_ascii (usize_to_string n).

(** ** Full-width digits *)

(** /repo/src/article_number.rs 614-628. *)
Definition parse_zenkaku_num (s : ustr) : option N :=
  uparse
    (replace (uc "９") (uc "9") (replace (uc "８") (uc "8") (replace (uc "７") (uc "7")
    (replace (uc "６") (uc "6") (replace (uc "５") (uc "5") (replace (uc "４") (uc "4")
    (replace (uc "３") (uc "3") (replace (uc "２") (uc "2") (replace (uc "１") (uc "1")
    (replace (uc "０") (uc "0") s)))))))))).

(** /repo/src/article_number.rs 630-642. *)
Definition to_zenkaku_num (n : N) : ustr :=
  replace (uc "9") (uc "９") (replace (uc "8") (uc "８") (replace (uc "7") (uc "７")
  (replace (uc "6") (uc "６") (replace (uc "5") (uc "５") (replace (uc "4") (uc "４")
  (replace (uc "3") (uc "３") (replace (uc "2") (uc "２") (replace (uc "1") (uc "１")
  (replace (uc "0") (uc "０") (ushow n)))))))))).

(** ** Iroha *)

(** /repo/src/article_number.rs 644-695. *)
Definition katakana_numbers : list (string * N) :=
  [("イ", 1); ("ロ", 2); ("ハ", 3); ("ニ", 4); ("ホ", 5); ("ヘ", 6); ("ト", 7); ("チ", 8);
   ("リ", 9); ("ヌ", 10); ("ル", 11); ("ヲ", 12); ("ワ", 13); ("カ", 14); ("ヨ", 15);
   ("タ", 16); ("レ", 17); ("ソ", 18); ("ツ", 19); ("ネ", 20); ("ナ", 21); ("ラ", 22);
   ("ム", 23); ("ウ", 24); ("ヰ", 25); ("ノ", 26); ("オ", 27); ("ク", 28); ("ヤ", 29);
   ("マ", 30); ("ケ", 31); ("フ", 32); ("コ", 33); ("エ", 34); ("テ", 35); ("ア", 36);
   ("サ", 37); ("キ", 38); ("ユ", 39); ("メ", 40); ("ミ", 41); ("シ", 42); ("ヱ", 43);
   ("ヒ", 44); ("モ", 45); ("セ", 46); ("ス", 47)]%N.

(** /repo/src/article_number.rs 697-748. *)
Definition katakana_letters : list (N * string) :=
  [(1, "イ"); (2, "ロ"); (3, "ハ"); (4, "ニ"); (5, "ホ"); (6, "ヘ"); (7, "ト"); (8, "チ");
   (9, "リ"); (10, "ヌ"); (11, "ル"); (12, "ヲ"); (13, "ワ"); (14, "カ"); (15, "ヨ");
   (16, "タ"); (17, "レ"); (18, "ソ"); (19, "ツ"); (20, "ネ"); (21, "ナ"); (22, "ラ");
   (23, "ム"); (24, "ウ"); (25, "ヰ"); (26, "ノ"); (27, "オ"); (28, "ク"); (29, "ヤ");
   (30, "マ"); (31, "ケ"); (32, "フ"); (33, "コ"); (34, "エ"); (35, "テ"); (36, "ア");
   (37, "サ"); (38, "キ"); (39, "ユ"); (40, "メ"); (41, "ミ"); (42, "シ"); (43, "ヱ");
   (44, "ヒ"); (45, "モ"); (46, "セ"); (47, "ス")]%N.

(** /repo/src/article_number.rs 750-801. *)
Definition hiragana_numbers : list (string * N) :=
  [("い", 1); ("ろ", 2); ("は", 3); ("に", 4); ("ほ", 5); ("へ", 6); ("と", 7); ("ち", 8);
   ("り", 9); ("ぬ", 10); ("る", 11); ("を", 12); ("わ", 13); ("か", 14); ("よ", 15);
   ("た", 16); ("れ", 17); ("そ", 18); ("つ", 19); ("ね", 20); ("な", 21); ("ら", 22);
   ("む", 23); ("う", 24); ("ゐ", 25); ("の", 26); ("お", 27); ("く", 28); ("や", 29);
   ("ま", 30); ("け", 31); ("ふ", 32); ("こ", 33); ("え", 34); ("て", 35); ("あ", 36);
   ("さ", 37); ("き", 38); ("ゆ", 39); ("め", 40); ("み", 41); ("し", 42); ("ゑ", 43);
   ("ひ", 44); ("も", 45); ("せ", 46); ("す", 47)]%N.

(** /repo/src/article_number.rs 803-854. *)
Definition hiragana_letters : list (N * string) :=
  [(1, "い"); (2, "ろ"); (3, "は"); (4, "に"); (5, "ほ"); (6, "へ"); (7, "と"); (8, "ち");
   (9, "り"); (10, "ぬ"); (11, "る"); (12, "を"); (13, "わ"); (14, "か"); (15, "よ");
   (16, "た"); (17, "れ"); (18, "そ"); (19, "つ"); (20, "ね"); (21, "な"); (22, "ら");
   (23, "む"); (24, "う"); (25, "ゐ"); (26, "の"); (27, "お"); (28, "く"); (29, "や");
   (30, "ま"); (31, "け"); (32, "ふ"); (33, "こ"); (34, "え"); (35, "て"); (36, "あ");
   (37, "さ"); (38, "き"); (39, "ゆ"); (40, "め"); (41, "み"); (42, "し"); (43, "ゑ");
   (44, "ひ"); (45, "も"); (46, "せ"); (47, "す")]%N.

(** A [match] on a text, and on a number. *)
Fixpoint match_text (t : list (string * N)) (s : ustr) : option N :=
  match t with
  | [] => None
  | (k, n) :: r => if ueqb s (u k) then Some n else match_text r s
  end.
Fixpoint match_number (t : list (N * string)) (n : N) : option ustr :=
  match t with
  | [] => None
  | (k, s) :: r => if N.eqb n k then Some (u s) else match_number r n
  end.

Definition parse_iroha_katakana : ustr -> option N := match_text katakana_numbers.
Definition to_iroha_katakana : N -> option ustr := match_number katakana_letters.
Definition parse_iroha_hiragana : ustr -> option N := match_text hiragana_numbers.
Definition to_iroha_hiragana : N -> option ustr := match_number hiragana_letters.

(** ** Alphabet *)

(** /repo/src/article_number.rs 893-909.  [v - 0xFF20] underflows (a panic in a debug build) below
    [0xFF20]; the only callers pass characters of [[Ａ-Ｚ]] or [[ａ-ｚ]]. *)
Definition alphabet_digits (c : N) : ustr :=
  if N.ltb c 65345 then ushow (c - 65312)%N else ushow (c - 65344)%N.
Definition parse_zenkaku_alphabet (s : ustr) : option N :=
  uparse (concat (map alphabet_digits s)).

(** [char::from_digit(n, 10)]: [None] unless [n < 10]. *)
Definition from_digit (n : N) : option N := if N.ltb n 10 then Some (48 + n)%N else None.

(** /repo/src/article_number.rs 911-919 and 921-929: every digit of the decimal text, plus an
    offset, is given to [char::from_digit]. *)
Fixpoint alphabet_chars (offset : N) (s : ustr) : R ustr :=
  match s with
  | [] => Ok []
  | c :: r =>
      d <- unwrap (uparse [c]);
      x <- unwrap (from_digit (d + offset));
      xs <- alphabet_chars offset r;
      Ok (x :: xs)
  end.
Definition to_zenkaku_alphabet_upper (n : N) : R ustr := alphabet_chars 65312 (ushow n).
Definition to_zenkaku_alphabet_lower (n : N) : R ustr := alphabet_chars 65344 (ushow n).

(** ** Patterns *)

(** /repo/src/article_number.rs 333-366. *)
Inductive ItemPattern :=
| NoParenKansuji | NoParenIrohaKatakana | NoParenIrohaHiragana | NoParenZenkakuNum
| NoParenZenkakuRomanUpper | NoParenZenkakuRomanLower | NoParenZenkakuUpper | NoParenZenkakuLower
| ParenKansuji | ParenIrohaKatakana | ParenIrohaHiragana | ParenZenkakuNum
| ParenZenkakuRomanUpper | ParenZenkakuRomanLower | ParenZenkakuUpper | ParenZenkakuLower.

(** /repo/src/article_number.rs 319-329. *)
Record ItemNumber := mkIN {
  inum_str : ustr;
  inum_base : N;
  inum_eda : list N;
  inum_range : list N;
  inum_pattern : ItemPattern
}.

(** /repo/src/article_number.rs 195-201. *)
Definition from_item_number (n : ItemNumber) : ArticleNumber :=
  mkAN (inum_base n) (inum_eda n) (inum_range n).

Section Codec.
Context (cd : codec).

(** ** Roman numerals *)

(** /repo/src/article_number.rs 856-873: no replacement for the letter V. *)
Definition parse_roman (s : ustr) : option N :=
  option_map i32_as_usize (roman_from cd
    (replace (uc "Ｃ") (uc "C") (replace (uc "Ｌ") (uc "L")
    (replace (uc "Ｘ") (uc "X") (replace (uc "Ｉ") (uc "I")
    (replace (uc "ｃ") (uc "C") (replace (uc "ｌ") (uc "L")
    (replace (uc "ｘ") (uc "X") (replace (uc "ｉ") (uc "I")
    (replace (uc "c") (uc "C") (replace (uc "l") (uc "L")
    (replace (uc "x") (uc "X") (replace (uc "i") (uc "I") s))))))))))))).

(** /repo/src/article_number.rs 875-882 and 884-891. *)
Definition to_zenkaku_roman_upper (n : N) : option ustr :=
  option_map (fun s =>
    replace (uc "C") (uc "Ｃ") (replace (uc "L") (uc "Ｌ")
    (replace (uc "X") (uc "Ｘ") (replace (uc "I") (uc "Ｉ") s)))) (roman_to cd (as_i32 n)).
Definition to_zenkaku_roman_lower (n : N) : option ustr :=
  option_map (fun s =>
    replace (uc "C") (uc "ｃ") (replace (uc "L") (uc "ｌ")
    (replace (uc "X") (uc "ｘ") (replace (uc "I") (uc "ｉ") s)))) (roman_to cd (as_i32 n)).

(** ** Rendering *)

(** /repo/src/article_number.rs 92-111. *)
Definition gen_articles_text (suffix : ustr) (a : ArticleNumber) : ustr :=
  u "第" ++ kan cd (base_number a) ++ suffix
  ++ concat (map (fun n => u "の" ++ kan cd n) (eda_numbers a))
  ++ match range_end_numbers a with
     | [] => []
     | n :: l =>
         u "から第" ++ kan cd n ++ suffix
         ++ concat (map (fun n => u "の" ++ kan cd n) l) ++ u "まで"
     end.

(** /repo/src/article_number.rs 114-141. *)
Definition part_text := gen_articles_text (u "編").
Definition chapter_text := gen_articles_text (u "章").
Definition section_text := gen_articles_text (u "節").
Definition subsection_text := gen_articles_text (u "款").
Definition division_text := gen_articles_text (u "目").
Definition article_text := gen_articles_text (u "条").

(** /repo/src/article_number.rs 144-159. *)
Definition paragraph_text (a : ArticleNumber) : ustr :=
  to_zenkaku_num (base_number a)
  ++ concat (map (fun n => u "の" ++ to_zenkaku_num n) (eda_numbers a))
  ++ match range_end_numbers a with
     | [] => []
     | n :: l =>
         u "から" ++ to_zenkaku_num n
         ++ concat (map (fun n => u "の" ++ to_zenkaku_num n) l) ++ u "まで"
     end.

Definition paren (s : ustr) : ustr := u "（" ++ s ++ u "）".

(** /repo/src/article_number.rs 369-406: the two Roman patterns with parentheses are swapped. *)
Definition num_to_str (p : ItemPattern) (n : N) : R ustr :=
  match p with
  | NoParenKansuji => Ok (kan cd n)
  | NoParenIrohaKatakana => unwrap (to_iroha_katakana n)
  | NoParenIrohaHiragana => unwrap (to_iroha_hiragana n)
  | NoParenZenkakuNum => Ok (to_zenkaku_num n)
  | NoParenZenkakuRomanUpper => unwrap (to_zenkaku_roman_upper n)
  | NoParenZenkakuRomanLower => unwrap (to_zenkaku_roman_lower n)
  | NoParenZenkakuUpper => to_zenkaku_alphabet_upper n
  | NoParenZenkakuLower => to_zenkaku_alphabet_lower n
  | ParenKansuji => Ok (paren (kan cd n))
  | ParenIrohaKatakana => rmap paren (unwrap (to_iroha_katakana n))
  | ParenIrohaHiragana => rmap paren (unwrap (to_iroha_hiragana n))
  | ParenZenkakuNum => Ok (paren (to_zenkaku_num n))
  | ParenZenkakuRomanUpper => rmap paren (unwrap (to_zenkaku_roman_lower n))
  | ParenZenkakuRomanLower => rmap paren (unwrap (to_zenkaku_roman_upper n))
  | ParenZenkakuUpper => rmap paren (to_zenkaku_alphabet_upper n)
  | ParenZenkakuLower => rmap paren (to_zenkaku_alphabet_lower n)
  end.

(** /repo/src/article_number.rs 408-433. *)
Definition num_to_str_no_paren (p : ItemPattern) (n : N) : R ustr :=
  match p with
  | NoParenKansuji => Ok (kan cd n)
  | NoParenIrohaKatakana => unwrap (to_iroha_katakana n)
  | NoParenIrohaHiragana => unwrap (to_iroha_hiragana n)
  | NoParenZenkakuNum => Ok (to_zenkaku_num n)
  | NoParenZenkakuRomanUpper => unwrap (to_zenkaku_roman_upper n)
  | NoParenZenkakuRomanLower => unwrap (to_zenkaku_roman_lower n)
  | NoParenZenkakuUpper => to_zenkaku_alphabet_upper n
  | NoParenZenkakuLower => to_zenkaku_alphabet_lower n
  | ParenKansuji => Ok (kan cd n)
  | ParenIrohaKatakana => unwrap (to_iroha_katakana n)
  | ParenIrohaHiragana => unwrap (to_iroha_hiragana n)
  | ParenZenkakuNum => Ok (to_zenkaku_num n)
  | ParenZenkakuRomanUpper => unwrap (to_zenkaku_roman_upper n)
  | ParenZenkakuRomanLower => unwrap (to_zenkaku_roman_lower n)
  | ParenZenkakuUpper => to_zenkaku_alphabet_upper n
  | ParenZenkakuLower => to_zenkaku_alphabet_lower n
  end.

(** The loops over branch numbers of [item_text]. *)
Fixpoint branch_texts (f : N -> R ustr) (l : list N) : R ustr :=
  match l with
  | [] => Ok []
  | n :: r => s <- f n; t <- branch_texts f r; Ok (u "の" ++ s ++ t)
  end.

(** /repo/src/article_number.rs 162-177. *)
Definition item_text (p : ItemPattern) (a : ArticleNumber) : R ustr :=
  s <- num_to_str p (base_number a);
  e <- branch_texts (num_to_str_no_paren p) (eda_numbers a);
  r <- match range_end_numbers a with
       | [] => Ok []
       | n :: l =>
           t <- num_to_str p n;
           b <- branch_texts (num_to_str_no_paren p) l;
           Ok (u "から" ++ t ++ b ++ u "まで")
       end;
  Ok (s ++ e ++ r).

(** ** Character classes of the regular expressions *)
Definition arabic : N -> bool := in_range (uc "0") (uc "9").
Definition zenkaku : N -> bool := in_range (uc "０") (uc "９").
Definition kanji_digits : ustr := Eval vm_compute in u "一二三四五六七八九十百千".
Definition kanji : N -> bool := one_of kanji_digits.
Definition katakana : N -> bool := in_range (uc "ア") (uc "ン").
Definition hiragana : N -> bool := in_range (uc "あ") (uc "ん").
Definition upper : N -> bool := in_range (uc "Ａ") (uc "Ｚ").
Definition lower : N -> bool := in_range (uc "ａ") (uc "ｚ").
Definition chars (p : N -> bool) : re := Plus (Chr p).

(** ** Headings and paragraph labels *)

(** /repo/src/article_number.rs 212, [re_article]. *)
Definition heading_suffix : re := Alts (map Lit [u "編"; u "章"; u "節"; u "款"; u "目"; u "条"; u "項"; u "号"]).
Definition heading_branches : re :=
  Star (Seq (Alt (Lit (u "の")) (Lit (u "ノ"))) (Alts [chars arabic; chars zenkaku; chars kanji])).
Definition re_article : re :=
  Seq (Opt (Lit (u "第")))
  (Seq (Alts [Cap "arabic_num" (chars arabic); Cap "zenkaku_num" (chars zenkaku);
              Cap "kansuji" (chars kanji)])
  (Seq (Cap "suffix" heading_suffix)
  (Seq (Cap "eda_str" heading_branches)
  (Opt (Seq (Lit (u "から"))
       (Seq (Seq (Lit (u "第"))
            (Seq (Alts [Cap "arabic_num_2" (chars arabic); Cap "zenkaku_num_2" (chars zenkaku);
                        Cap "kansuji_2" (chars kanji)])
            (Seq (Cap "suffix_2" heading_suffix)
                 (Cap "eda_str_2" heading_branches))))
       (Lit (u "まで")))))))).

(** /repo/src/article_number.rs 213-216, [re_paragraph]. *)
Definition digits : re := Alt (chars zenkaku) (chars arabic).
Definition paragraph_branches : re :=
  Star (Seq (Alt (Lit (u "の")) (Lit (u "ノ"))) digits).
Definition re_paragraph : re :=
  Seq (Cap "num" digits)
  (Seq (Cap "eda_str" paragraph_branches)
  (Opt (Seq (Lit (u "から"))
       (Seq (Cap "num_2" digits)
       (Seq (Cap "eda_str_2" paragraph_branches)
       (Lit (u "まで"))))))).

(** /repo/src/article_number.rs 219-229 and 251-259: the first group present decides.  [None]
    stands for [return None] (or [?]). *)
Definition heading_number (c : caps) (g_arabic g_zenkaku g_kansuji : string) : R (option N) :=
  match group g_arabic c with
  | Some s => n <- unwrap (uparse s); Ok (Some n)
  | None =>
      match group g_zenkaku c with
      | Some s => Ok (parse_zenkaku_num s)
      | None =>
          match group g_kansuji c with
          | Some s => Ok (option_map as_usize (unkan cd s))
          | None => Ok None
          end
      end
  end.

(** /repo/src/article_number.rs 231-245 and 260-277: the numbers of one branch text after another;
    [None] at the first one not understood. *)
Definition branch_number (s : ustr) : option N :=
  match uparse s with
  | Some n => Some n
  | None =>
      match parse_zenkaku_num s with
      | Some n => Some n
      | None => option_map as_usize (unkan cd s)
      end
  end.
Fixpoint all_some {A B} (f : A -> option B) (l : list A) : option (list B) :=
  match l with
  | [] => Some []
  | x :: r =>
      match f x, all_some f r with
      | Some y, Some ys => Some (y :: ys)
      | _, _ => None
      end
  end.
Definition branches (s : ustr) : list ustr := filter non_empty (usplit (uc "の") s).

(** /repo/src/article_number.rs 217-282. *)
Definition read_heading (c : caps) : R (option ArticleNumber) :=
  base <- heading_number c "arabic_num" "zenkaku_num" "kansuji";
  match base with
  | None => Ok None
  | Some base =>
      e <- group_text "eda_str" c;
      match all_some branch_number (branches (replace (uc "ノ") (uc "の") e)) with
      | None => Ok None
      | Some eda =>
          first <-
            match group "arabic_num_2" c, group "zenkaku_num_2" c, group "kansuji_2" c with
            | None, None, None => Ok (Some [])
            | _, _, _ =>
                n <- heading_number c "arabic_num_2" "zenkaku_num_2" "kansuji_2";
                Ok (option_map (fun n => [n]) n)
            end;
          match first with
          | None => Ok None
          | Some first =>
              match group "eda_str_2" c with
              | None => Ok (Some (mkAN base eda first))
              | Some e2 =>
                  match all_some branch_number (branches e2) with
                  | None => Ok None
                  | Some eda2 => Ok (Some (mkAN base eda (first ++ eda2)))
                  end
              end
          end
      end
  end.

(** /repo/src/article_number.rs 284-313: a number that is neither read as ASCII nor as full-width
    digits panics, except in the range end; the branch numbers of a range end are not looked at. *)
Definition label_number (s : ustr) : R N :=
  match uparse s with Some n => Ok n | None => unwrap (parse_zenkaku_num s) end.
Fixpoint all_ok {A B} (f : A -> R B) (l : list A) : R (list B) :=
  match l with
  | [] => Ok []
  | x :: r => y <- f x; ys <- all_ok f r; Ok (y :: ys)
  end.
Definition read_label (c : caps) : R (option ArticleNumber) :=
  num <- group_text "num" c;
  base <- label_number num;
  e <- group_text "eda_str" c;
  eda <- all_ok label_number (branches e);
  match group "num_2" c with
  | None => Ok (Some (mkAN base eda []))
  | Some s =>
      match uparse s with
      | Some n => Ok (Some (mkAN base eda [n]))
      | None =>
          match parse_zenkaku_num s with
          | Some n => Ok (Some (mkAN base eda [n]))
          | None => Ok None
          end
      end
  end.

(** /repo/src/article_number.rs 211-317. *)
Definition parse_article_number (s : ustr) : R (option ArticleNumber) :=
  match captures re_article s with
  | Some c => read_heading c
  | None =>
      match captures re_paragraph s with
      | Some c => read_label c
      | None => Ok None
      end
  end.

(** ** Item labels *)

(** /repo/src/article_number.rs 438, [re_item]. *)
Definition re_item_base : re :=
  Cap "str" (Alt
    (Seq (Lit (u "（"))
    (Seq (Alts [Cap "paren_iroha_katakana" (chars katakana);
                Cap "paren_iroha_hiragana" (chars hiragana);
                Cap "paren_kansuji" (chars kanji);
                Cap "paren_zenkaku_num" (chars zenkaku);
                Cap "paren_zenkaku_upper" (chars upper);
                Cap "paren_zenkaku_lower" (chars lower)])
    (Lit (u "）"))))
    (Alts [Cap "no_paren_iroha_katakana" (chars katakana);
           Cap "no_paren_iroha_hiragana" (chars hiragana);
           Cap "no_paren_kansuji" (chars kanji);
           Cap "no_paren_zenkaku_num" (chars zenkaku);
           Cap "no_paren_zenkaku_upper" (chars upper);
           Cap "no_paren_zenkaku_lower" (chars lower)])).

(** /repo/src/article_number.rs 439: an unanchored class, matched if any character is in it. *)
Definition is_roman (s : ustr) : bool :=
  existsb (one_of (u "ixvlcIXVLCｉｘｖｌｃＩＸＶＬＣ")) s.

(** The twelve branches of /repo/src/article_number.rs 441-512, by group name. *)
Definition read_kansuji (p : ItemPattern) (s : ustr) : R (ItemPattern * N) :=
  n <- unwrap (unkan cd s); Ok (p, as_usize n).
Definition read_plain (f : ustr -> option N) (p : ItemPattern) (s : ustr) : R (ItemPattern * N) :=
  n <- unwrap (f s); Ok (p, n).
Definition read_letters (roman alphabet : ItemPattern) (s : ustr) : R (ItemPattern * N) :=
  if is_roman s then read_plain parse_roman roman s
  else read_plain parse_zenkaku_alphabet alphabet s.

Definition item_readers : list (string * (ustr -> R (ItemPattern * N))) :=
  [("paren_iroha_katakana", read_plain parse_iroha_katakana ParenIrohaKatakana);
   ("paren_iroha_hiragana", read_plain parse_iroha_hiragana ParenIrohaHiragana);
   ("paren_kansuji", read_kansuji ParenKansuji);
   ("paren_zenkaku_num", read_plain parse_zenkaku_num ParenZenkakuNum);
   ("paren_zenkaku_upper", read_letters ParenZenkakuRomanUpper ParenZenkakuUpper);
   ("paren_zenkaku_lower", read_letters ParenZenkakuRomanLower ParenZenkakuLower);
   ("no_paren_iroha_katakana", read_plain parse_iroha_katakana NoParenIrohaKatakana);
   ("no_paren_iroha_hiragana", read_plain parse_iroha_hiragana NoParenIrohaHiragana);
   ("no_paren_kansuji", read_kansuji NoParenKansuji);
   ("no_paren_zenkaku_num", read_plain parse_zenkaku_num NoParenZenkakuNum);
   ("no_paren_zenkaku_upper", read_letters NoParenZenkakuRomanUpper NoParenZenkakuUpper);
   ("no_paren_zenkaku_lower", read_letters NoParenZenkakuRomanLower NoParenZenkakuLower)].

Fixpoint first_reader (t : list (string * (ustr -> R (ItemPattern * N)))) (c : caps)
    : R (ItemPattern * N) :=
  match t with
  | [] => Panic (* [unreachable!()] *)
  | (n, f) :: r => match group n c with Some s => f s | None => first_reader r c end
  end.

(** /repo/src/article_number.rs 436-518. *)
Definition parse_item_number_base (s : ustr) : R (option (ItemPattern * N)) :=
  match captures re_item_base s with
  | Some c => x <- first_reader item_readers c; Ok (Some x)
  | None => Ok None
  end.

(** /repo/src/article_number.rs 564, [re_item]: one number, plain or in parentheses. *)
Definition item_class : re :=
  Alts [chars katakana; chars hiragana; chars kanji; chars zenkaku; chars upper; chars lower].
Definition item_one : re :=
  Alt (Seq (Lit (u "（")) (Seq item_class (Lit (u "）")))) item_class.
Definition item_branches : re := Plus (Seq (Lit (u "の")) item_one).
Definition re_item : re :=
  Seq (Cap "base_number" item_one)
  (Seq (Opt (Cap "eda_numbers" item_branches))
  (Seq (Opt (Seq (Lit (u "から"))
            (Seq (Cap "base_number2" item_one)
            (Seq (Opt (Cap "eda_numbers2" item_branches))
            (Lit (u "まで"))))))
  End)).

(** /repo/src/article_number.rs 568-578: texts that are not numbers are left out. *)
Fixpoint item_branch_numbers (l : list ustr) : R (list N) :=
  match l with
  | [] => Ok []
  | s :: r =>
      x <- parse_item_number_base s;
      ns <- item_branch_numbers r;
      Ok (match x with Some (_, n) => n :: ns | None => ns end)
  end.

(** /repo/src/article_number.rs 563-612: the range is looked up under [base_number_2] and
    [eda_number_2], which are not names of groups. *)
Definition parse_item_number (s : ustr) : R (option ItemNumber) :=
  match captures re_item (trim s) with
  | None => Ok None
  | Some c =>
      b <- group_text "base_number" c;
      x <- parse_item_number_base b;
      match x with
      | None => Ok None
      | Some (pat, base) =>
          eda <- match group "eda_numbers" c with
                 | Some m => item_branch_numbers (branches m)
                 | None => Ok []
                 end;
          r1 <- match group "base_number_2" c with
                | Some m =>
                    y <- parse_item_number_base m;
                    Ok (match y with Some (_, n) => [n] | None => [] end)
                | None => Ok []
                end;
          r2 <- match group "eda_number_2" c with
                | Some m => item_branch_numbers (branches m)
                | None => Ok []
                end;
          Ok (Some (mkIN s base eda (r1 ++ r2) pat))
      end
  end.
End Codec.

(** ** Number and text of a line *)

(** /repo/src/article_number.rs 520-527. [.] is any character but the line feed. *)
Definition re_split : re :=
  Seq (Cap "s" (chars (fun c => negb (is_space c || N.eqb c (uc "　")))))
  (Seq (Star (Chr (fun c => is_space c || N.eqb c (uc "　"))))
  (Seq (Cap "text" (chars (fun c => negb (N.eqb c 10)))) End)).

Definition split_number (s : ustr) : R (option (ustr * ustr)) :=
  match captures re_split s with
  | Some c => n <- group_text "s" c; t <- group_text "text" c; Ok (Some (n, t))
  | None => Ok None
  end.
