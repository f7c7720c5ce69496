(** The regular expressions of the crate as they are written in its source, and the part of the syntax
    of the crate [regex] that they use.

    Model file: definitions only.  [read_pattern] follows the documentation of the syntax for literal
    characters, [.], [$], [\s], classes with ranges and negation, groups with and without a name, [|] and
    the greedy [*], [+] and [?].  Everything else (flags, counted or lazy repetition, other escapes) is
    refused; nothing of it occurs in /repo/src.  A group without a name only groups: its number is never used. *)
From Coq Require Import String List NArith Bool.
From Verif Require Import Base Regex.
Import ListNotations.
Open Scope string_scope.
Open Scope list_scope.

(** /repo/src/article_number.rs 212. *)
Definition source_article : ustr := u "^(第)?((?<arabic_num>[0-9]+)|(?<zenkaku_num>[０-９]+)|(?<kansuji>[一二三四五六七八九十百千]+))(?<suffix>(編|章|節|款|目|条|項|号))(?<eda_str>((の|ノ)([0-9]+|[０-９]+|[一二三四五六七八九十百千]+))*)(から(第((?<arabic_num_2>[0-9]+)|(?<zenkaku_num_2>[０-９]+)|(?<kansuji_2>[一二三四五六七八九十百千]+))(?<suffix_2>(編|章|節|款|目|条|項|号))(?<eda_str_2>((の|ノ)([0-9]+|[０-９]+|[一二三四五六七八九十百千]+))*))まで)?".

(** /repo/src/article_number.rs 213-216. *)
Definition source_paragraph : ustr := u "^(?<num>([０-９]+|[0-9]+))(?<eda_str>((の|ノ)([０-９]+|[0-9]+))*)(から(?<num_2>([０-９]+|[0-9]+))(?<eda_str_2>((の|ノ)([０-９]+|[0-9]+))*)まで)?".

(** /repo/src/article_number.rs 438. *)
Definition source_item_base : ustr := u "^(?<str>(（((?<paren_iroha_katakana>[ア-ン]+)|(?<paren_iroha_hiragana>[あ-ん]+)|(?<paren_kansuji>[一二三四五六七八九十百千]+)|(?<paren_zenkaku_num>[０-９]+)|(?<paren_zenkaku_upper>[Ａ-Ｚ]+)|(?<paren_zenkaku_lower>[ａ-ｚ]+))）|((?<no_paren_iroha_katakana>[ア-ン]+)|(?<no_paren_iroha_hiragana>[あ-ん]+)|(?<no_paren_kansuji>[一二三四五六七八九十百千]+)|(?<no_paren_zenkaku_num>[０-９]+)|(?<no_paren_zenkaku_upper>[Ａ-Ｚ]+)|(?<no_paren_zenkaku_lower>[ａ-ｚ]+))))".

(** /repo/src/article_number.rs 439. *)
Definition source_roman : ustr := u "[ixvlcIXVLCｉｘｖｌｃＩＸＶＬＣ]+".

(** /repo/src/article_number.rs 521. *)
Definition source_split : ustr := u "^(?<s>[^\s　]+)[\s　]*(?<text>.+)$".

(** /repo/src/article_number.rs 564. *)
Definition source_item : ustr := u "^(?<base_number>(（(([ア-ン]+)|([あ-ん]+)|([一二三四五六七八九十百千]+)|([０-９]+)|([Ａ-Ｚ]+)|([ａ-ｚ]+))）|(([ア-ン]+)|([あ-ん]+)|([一二三四五六七八九十百千]+)|([０-９]+)|([Ａ-Ｚ]+)|([ａ-ｚ]+))))(?<eda_numbers>(の(（(([ア-ン]+)|([あ-ん]+)|([一二三四五六七八九十百千]+)|([０-９]+)|([Ａ-Ｚ]+)|([ａ-ｚ]+))）|(([ア-ン]+)|([あ-ん]+)|([一二三四五六七八九十百千]+)|([０-９]+)|([Ａ-Ｚ]+)|([ａ-ｚ]+))))+)?(から(?<base_number2>(（(([ア-ン]+)|([あ-ん]+)|([一二三四五六七八九十百千]+)|([０-９]+)|([Ａ-Ｚ]+)|([ａ-ｚ]+))）|(([ア-ン]+)|([あ-ん]+)|([一二三四五六七八九十百千]+)|([０-９]+)|([Ａ-Ｚ]+)|([ａ-ｚ]+))))(?<eda_numbers2>(の(（(([ア-ン]+)|([あ-ん]+)|([一二三四五六七八九十百千]+)|([０-９]+)|([Ａ-Ｚ]+)|([ａ-ｚ]+))）|(([ア-ン]+)|([あ-ん]+)|([一二三四五六七八九十百千]+)|([０-９]+)|([Ａ-Ｚ]+)|([ａ-ｚ]+))))+)?まで)?$".

(** /repo/src/parse_from_text.rs 942. *)
Definition source_caption : ustr := u "^（(?<caption>[^）]+)）$".

(** /repo/src/parse_from_text.rs 943-944. *)
Definition source_suppl : ustr := u "^附([　\s]*)則([　\s]*)(（(?<law_num>.+)）)?[^（）]*$".

(** ** Syntax *)
Inductive class_item :=
| Between (lo hi : N)
| Space.

Inductive pattern :=
| PEmpty
| PEnd
| PClass (negated : bool) (items : list class_item)
| PSeq (a b : pattern)
| PAlt (a b : pattern)
| PStar (a : pattern)
| PPlus (a : pattern)
| POpt (a : pattern)
| PNamed (n : string) (a : pattern).

Definition is (c : string) (x : N) : bool := N.eqb x (uc c).

(** The rest of a class, up to its bracket. *)
Fixpoint read_items (fuel : nat) (s : ustr) : option (list class_item * ustr) :=
  match fuel with
  | O => None
  | S f =>
      let cons i r := option_map (fun x => (i :: fst x, snd x)) (read_items f r) in
      match s with
      | [] => None
      | a :: r =>
          if is "]" a then Some ([], r)
          else if is "\" a then
            match r with e :: r' => if is "s" e then cons Space r' else None | [] => None end
          else if is "[" a then None
          else match r with
               | d :: z :: r' => if is "-" d then (if is "]" z then None else cons (Between a z) r')
                                 else cons (Between a a) r
               | _ => cons (Between a a) r
               end
      end
  end.

(** The name of a group, up to [>]. *)
Fixpoint read_name (s : ustr) : option (ustr * ustr) :=
  match s with
  | [] => None
  | c :: r => if is ">" c then Some ([], r) else option_map (fun x => (c :: fst x, snd x)) (read_name r)
  end.

(** What may follow a group, a class or a character. *)
Definition repetition (a : pattern) (s : ustr) : pattern * ustr :=
  match s with
  | c :: r => if is "*" c then (PStar a, r) else if is "+" c then (PPlus a, r) else if is "?" c then (POpt a, r) else (a, s)
  | [] => (a, s)
  end.

Fixpoint read_alternatives (fuel : nat) (s : ustr) {struct fuel} : option (pattern * ustr) :=
  match fuel with
  | O => None
  | S f =>
      match read_sequence f s with
      | Some (a, c :: r) =>
          if is "|" c then option_map (fun x => (PAlt a (fst x), snd x)) (read_alternatives f r) else Some (a, c :: r)
      | x => x
      end
  end
with read_sequence (fuel : nat) (s : ustr) {struct fuel} : option (pattern * ustr) :=
  match fuel with
  | O => None
  | S f =>
      match s with
      | [] => Some (PEmpty, [])
      | c :: _ =>
          if is "|" c || is ")" c then Some (PEmpty, s)
          else match read_atom f s with
               | Some (a, r) =>
                   let (a, r) := repetition a r in
                   option_map (fun x => (PSeq a (fst x), snd x)) (read_sequence f r)
               | None => None
               end
      end
  end
with read_atom (fuel : nat) (s : ustr) {struct fuel} : option (pattern * ustr) :=
  match fuel with
  | O => None
  | S f =>
      let closed x := match x with Some (a, c :: r) => if is ")" c then Some (a, r) else None | _ => None end in
      let class neg r := option_map (fun x => (PClass neg (fst x), snd x)) (read_items f r) in
      match s with
      | [] => None
      | c :: r =>
          if is "(" c then
            match r with
            | q :: r0 =>
                if is "?" q then
                  match r0 with
                  | l :: r' =>
                      if is "<" l then
                        match read_name r' with
                        | Some (n, r'') =>
                            option_map (fun x => (PNamed (enc n) (fst x), snd x)) (closed (read_alternatives f r''))
                        | None => None
                        end
                      else None
                  | [] => None
                  end
                else closed (read_alternatives f r)
            | [] => None
            end
          else if is "[" c then
            match r with
            | n :: r' => if is "^" n then class true r' else class false r
            | [] => None
            end
          else if is "." c then Some (PClass true [Between 10 10], r)
          else if is "$" c then Some (PEnd, r)
          else if is "\" c then
            match r with e :: r' => if is "s" e then Some (PClass false [Space], r') else None | [] => None end
          else if one_of (u "^*+?{}]") c then None
          else Some (PClass false [Between c c], r)
      end
  end.

(** The pattern and whether it is anchored at the start.  After [^] there must be no alternatives
    outside of groups, for [^] would belong to the first of them only. *)
Definition read_pattern (s : ustr) : option (bool * pattern) :=
  let whole s := match read_alternatives (3 * length s + 3) s with Some (p, []) => Some p | _ => None end in
  match s with
  | c :: r =>
      if is "^" c then match whole r with Some (PAlt _ _) | None => None | Some p => Some (true, p) end
      else option_map (pair false) (whole s)
  | [] => Some (false, PEmpty)
  end.

(** ** Meaning *)
Definition fits (c : N) (i : class_item) : bool :=
  match i with Between lo hi => in_range lo hi c | Space => is_space c end.
Fixpoint expression (p : pattern) : re :=
  match p with
  | PEmpty => Eps
  | PEnd => End
  | PClass neg l => Chr (fun c => xorb neg (existsb (fits c) l))
  | PSeq a b => Seq (expression a) (expression b)
  | PAlt a b => Alt (expression a) (expression b)
  | PStar a => Star (expression a)
  | PPlus a => Seq (expression a) (Star (expression a))
  | POpt a => Alt (expression a) Eps
  | PNamed n a => Cap n (expression a)
  end.
