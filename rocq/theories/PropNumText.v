(** Properties C06-C14 and C47-C53: numbers in headings, paragraph labels and item labels. *)
From Coq Require Import String List NArith ZArith Bool Lia.
From Verif Require Import Base NumStr Regex NumText NumTextSpec NumTextFacts HeadingFacts LabelFacts
  ItemFacts ItemLabelFacts SplitFacts CodecSample.
Import ListNotations.
Open Scope string_scope.
Open Scope list_scope.

(** C06.  Full-width digits are read back. *)
Theorem C06_zenkaku_roundtrip : forall n, (n < 2 ^ 64)%N ->
  parse_zenkaku_num (to_zenkaku_num n) = Some n.
Proof. exact zenkaku_roundtrip. Qed.
Print Assumptions C06_zenkaku_roundtrip.

Theorem C06_zenkaku_injective : forall n m, to_zenkaku_num n = to_zenkaku_num m -> n = m.
Proof. exact zenkaku_inj. Qed.
Print Assumptions C06_zenkaku_injective.

Example C06_case : (1203 < 2 ^ 64)%N /\ to_zenkaku_num 1203 = u "１２０３".
Proof. split; vm_compute; reflexivity. Qed.

(** C07.  The number of an iroha letter is its position in the poem, in both directions. *)
Theorem C07_iroha_katakana : forall n s,
  (to_iroha_katakana n = Some s <-> iroha_number iroha_katakana s n) /\
  (parse_iroha_katakana s = Some n <-> iroha_number iroha_katakana s n).
Proof. exact (fun n s => conj (katakana_letter n s) (katakana_number s n)). Qed.
Print Assumptions C07_iroha_katakana.

Theorem C07_iroha_hiragana : forall n s,
  (to_iroha_hiragana n = Some s <-> iroha_number iroha_hiragana s n) /\
  (parse_iroha_hiragana s = Some n <-> iroha_number iroha_hiragana s n).
Proof. exact (fun n s => conj (hiragana_letter n s) (hiragana_number s n)). Qed.
Print Assumptions C07_iroha_hiragana.

Theorem C07_iroha_inverse : forall n s,
  (to_iroha_katakana n = Some s <-> parse_iroha_katakana s = Some n) /\
  (to_iroha_hiragana n = Some s <-> parse_iroha_hiragana s = Some n).
Proof. exact iroha_inverse. Qed.
Print Assumptions C07_iroha_inverse.

Theorem C07_iroha_domain : forall n,
  ((exists s, to_iroha_katakana n = Some s) <-> (1 <= n <= 47)%N) /\
  ((exists s, to_iroha_hiragana n = Some s) <-> (1 <= n <= 47)%N).
Proof. exact iroha_defined. Qed.
Print Assumptions C07_iroha_domain.

Example C07_case : to_iroha_katakana 3 = Some (u "ハ") /\ parse_iroha_hiragana (u "す") = Some 47%N /\
  parse_iroha_katakana (u "ン") = None /\ to_iroha_katakana 48 = None.
Proof. vm_compute. repeat split. Qed.

(** C08.  The generated heading of each kind is read back, whatever follows it that cannot be taken
    for a continuation. *)
Theorem C08_heading_roundtrip : forall cd sfx a rest, In sfx heading_suffixes ->
  Forall (numeral cd) (numbers a) -> (range_end_numbers a = [] -> heading_follow rest) ->
  parse_article_number cd (gen_articles_text cd sfx a ++ rest) = Ok (Some a).
Proof. exact heading_roundtrip. Qed.
Print Assumptions C08_heading_roundtrip.

Theorem C08_heading_injective : forall cd sfx a b, In sfx heading_suffixes ->
  Forall (numeral cd) (numbers a) -> Forall (numeral cd) (numbers b) ->
  gen_articles_text cd sfx a = gen_articles_text cd sfx b -> a = b.
Proof. exact heading_text_injective. Qed.
Print Assumptions C08_heading_injective.

Example C08_case :
  In (u "条") heading_suffixes /\
  Forall (numeral sample_codec) (numbers (mkAN 766 [2; 13] [770; 4])%N) /\
  article_text sample_codec (mkAN 766 [2; 13] [770; 4])%N = u "第七百六十六条の二の十三から第七百七十条の四まで".
Proof.
  split; [cbn; tauto|]. split; [|vm_compute; reflexivity].
  unfold numbers; cbn [base_number eda_numbers range_end_numbers app]; repeat (apply Forall_cons; [apply sample_numeral; lia|]); apply Forall_nil.
Qed.
Example C08_case_follow : heading_follow (u "　総則") /\
  parse_article_number sample_codec (chapter_text sample_codec (mkAN 1 [2] [])%N ++ u "　総則") = Ok (Some (mkAN 1 [2] [])%N).
Proof.
  split; [|vm_compute; reflexivity]. split.
  - vm_compute. intros H. repeat (destruct H as [H|H]; [discriminate H|]). exact H.
  - intros r H. vm_compute in H. discriminate H.
Qed.

(** C09.  A paragraph label with a range is read with the first number of the end of the range
    only; so a range that ends in a branch number is read as another range. *)
Theorem C09_label_range_end : forall cd a rest, Forall (fun n => n < 2 ^ 64)%N (numbers a) ->
  (range_end_numbers a = [] -> label_follow rest) ->
  parse_article_number cd (paragraph_text a ++ rest) =
  Ok (Some (mkAN (base_number a) (eda_numbers a) (firstn 1 (range_end_numbers a)))).
Proof. exact label_read. Qed.
Print Assumptions C09_label_range_end.

Theorem C09_label_range_lost : forall cd a rest, Forall (fun n => n < 2 ^ 64)%N (numbers a) ->
  (1 < length (range_end_numbers a))%nat -> exists a',
  parse_article_number cd (paragraph_text a ++ rest) = Ok (Some a') /\ a' <> a.
Proof. exact label_range_lost. Qed.
Print Assumptions C09_label_range_lost.

Example C09_case : Forall (fun n => n < 2 ^ 64)%N (numbers (mkAN 2 [3] [4; 5])%N) /\
  paragraph_text (mkAN 2 [3] [4; 5])%N = u "２の３から４の５まで" /\
  parse_article_number sample_codec (u "２の３から４の５まで") = Ok (Some (mkAN 2 [3] [4])%N).
Proof. split; [repeat constructor|vm_compute; split; reflexivity]. Qed.

(** C10.  Paragraph labels whose range, if any, ends in a plain number are read back. *)
Theorem C10_label_roundtrip : forall cd a rest, Forall (fun n => n < 2 ^ 64)%N (numbers a) ->
  (length (range_end_numbers a) <= 1)%nat -> (range_end_numbers a = [] -> label_follow rest) ->
  parse_article_number cd (paragraph_text a ++ rest) = Ok (Some a).
Proof. exact label_roundtrip. Qed.
Print Assumptions C10_label_roundtrip.

Example C10_case : Forall (fun n => n < 2 ^ 64)%N (numbers (mkAN 12 [3; 4] [])%N) /\
  paragraph_text (mkAN 12 [3; 4] [])%N = u "１２の３の４" /\ label_follow (u "　前項の規定").
Proof.
  split; [repeat constructor|]. split; [vm_compute; reflexivity|]. split.
  - vm_compute. intros H. repeat (destruct H as [H|H]; [discriminate H|]). exact H.
  - intros r H. vm_compute in H. discriminate H.
Qed.

(** C11.  Item labels are never read as ranges, and the label itself is kept. *)
Theorem C11_item_no_range : forall cd s i, parse_item_number cd s = Ok (Some i) ->
  inum_range i = [] /\ inum_str i = s.
Proof. exact (fun cd s i H => conj (item_no_range cd s i H) (item_keeps_text cd s i H)). Qed.
Print Assumptions C11_item_no_range.

Example C11_case : exists i, parse_item_number sample_codec (u "二の三から五まで") = Ok (Some i) /\
  inum_base i = 2%N /\ inum_eda i = [3]%N.
Proof. eexists. vm_compute. repeat split. Qed.

(** C12.  A generated item label, with white space around it, is read back with its branch numbers
    and its pattern, up to the exchange of two roman patterns. *)
Theorem C12_item_label_roundtrip : forall cd p a, Forall (writable cd p) (numbers a) ->
  exists s, item_text cd p a = Ok s /\ forall x y, blank x -> blank y ->
  parse_item_number cd (x ++ s ++ y) =
  Ok (Some (mkIN (x ++ s ++ y) (base_number a) (eda_numbers a) [] (read_as p))).
Proof. exact item_label_roundtrip. Qed.
Print Assumptions C12_item_label_roundtrip.

Example C12_case : Forall (writable sample_codec ParenKansuji) (numbers (mkAN 12 [3; 4] [20])%N) /\
  item_text sample_codec ParenKansuji (mkAN 12 [3; 4] [20])%N = Ok (u "（十二）の三の四から（二十）まで").
Proof.
  split; [|vm_compute; reflexivity]. unfold numbers; cbn [base_number eda_numbers range_end_numbers app]; repeat (apply Forall_cons; [apply sample_numeral; lia|]); apply Forall_nil.
Qed.
Example C12_case_roman : Forall (writable sample_codec NoParenZenkakuRomanUpper) (numbers (mkAN 39 [11] [])%N) /\
  item_text sample_codec NoParenZenkakuRomanUpper (mkAN 39 [11] [])%N = Ok (u "ＸＸＸＩＸのＸＩ").
Proof.
  split; [|vm_compute; reflexivity]. unfold numbers; cbn [base_number eda_numbers range_end_numbers app]; repeat (apply Forall_cons; [apply sample_roman; cbn; tauto|]); apply Forall_nil.
Qed.

(** Labels in hiragana within parentheses lose the branch number 26, which is written "の" like the
    separator of branch numbers. *)
Theorem C12_paren_hiragana : forall cd b e x y, Forall (fun n => 1 <= n <= 47)%N (b :: e) ->
  blank x -> blank y ->
  exists s, item_text cd ParenIrohaHiragana (mkAN b e []) = Ok s /\
  parse_item_number cd (x ++ s ++ y) =
  Ok (Some (mkIN (x ++ s ++ y) b (filter (fun n => negb (N.eqb n 26)) e) [] ParenIrohaHiragana)).
Proof. exact paren_hiragana_read. Qed.
Print Assumptions C12_paren_hiragana.

(** Labels in hiragana without parentheses can be read only without branch numbers and ranges. *)
Theorem C12_plain_hiragana : forall cd a, Forall (fun n => 1 <= n <= 47)%N (numbers a) ->
  (eda_numbers a <> [] \/ range_end_numbers a <> []) ->
  exists s, item_text cd NoParenIrohaHiragana a = Ok s /\ parse_item_number cd s = Panic.
Proof. exact plain_hiragana_panics. Qed.
Print Assumptions C12_plain_hiragana.

Example C12_case_hiragana : Forall (fun n => 1 <= n <= 47)%N (numbers (mkAN 1 [2] [])%N) /\
  item_text sample_codec NoParenIrohaHiragana (mkAN 1 [2] [])%N = Ok (u "いのろ") /\
  item_text sample_codec ParenIrohaHiragana (mkAN 1 [26; 2] [])%N = Ok (u "（い）のののろ").
Proof. split; [repeat constructor; discriminate|]. vm_compute. split; reflexivity. Qed.

(** C13.  Labels of the four alphabetic patterns cannot be generated. *)
Theorem C13_alphabet_text_panics : forall cd p a, is_alphabet p = true -> item_text cd p a = Panic.
Proof. exact alphabet_text_panics. Qed.
Print Assumptions C13_alphabet_text_panics.

Example C13_case : is_alphabet ParenZenkakuLower = true /\ to_zenkaku_alphabet_lower 1 = Panic.
Proof. vm_compute. split; reflexivity. Qed.

(** C14.  [split_number] always ends normally; what it returns is a division of the line at white
    space, and it returns something whenever there is such a division. *)
Theorem C14_split_total : forall line, split_number line <> Panic /\ (forall e, split_number line <> Err e).
Proof. exact split_total. Qed.
Print Assumptions C14_split_total.

Theorem C14_split_sound : forall line s t, split_number line = Ok (Some (s, t)) ->
  exists g, split_into line s g t.
Proof. exact split_sound. Qed.
Print Assumptions C14_split_sound.

Theorem C14_split_complete : forall line, split_number line = Ok None -> forall s g t, ~ split_into line s g t.
Proof. exact split_complete. Qed.
Print Assumptions C14_split_complete.

(** The two ways a line is divided: at the first white space, or before its last character. *)
Theorem C14_split_spaced : forall s g c t, s <> [] -> Forall (fun c => is_space c = false) s ->
  g <> [] -> blank g -> is_space c = false -> ~ In 10%N (c :: t) ->
  split_number (s ++ g ++ c :: t) = Ok (Some (s, c :: t)).
Proof. exact split_spaced. Qed.
Print Assumptions C14_split_spaced.

Theorem C14_split_unspaced : forall s c, s <> [] -> Forall (fun c => is_space c = false) (s ++ [c]) ->
  split_number (s ++ [c]) = Ok (Some (s, [c])).
Proof. exact split_unspaced. Qed.
Print Assumptions C14_split_unspaced.

(** White space here and in every other property is the Unicode property White_Space: these
    twenty-five characters and no other, the ideographic space U+3000 among them. *)
Theorem C14_white_space : forall c, is_space c = true <->
  In c [9; 10; 11; 12; 13; 32; 133; 160; 5760; 8192; 8193; 8194; 8195; 8196; 8197; 8198; 8199; 8200;
        8201; 8202; 8232; 8233; 8239; 8287; 12288]%N.
Proof.
  intros c. unfold is_space, in_range. rewrite !orb_true_iff, !andb_true_iff, !N.leb_le, !N.eqb_eq.
  cbn [In]. lia.
Qed.
Print Assumptions C14_white_space.

Example C14_case : split_number (u "第一条　この　法律") = Ok (Some (u "第一条", u "この　法律")) /\
  split_number (u "附則") = Ok (Some (u "附", u "則")) /\ split_number (u "　一") = Ok None.
Proof. vm_compute. repeat split. Qed.

(** C47.  A heading with an ASCII number that is too large for the machine panics. *)
Theorem C47_heading_overflow_panics : forall cd n sfx rest, (2 ^ 64 <= n)%N -> In sfx heading_suffixes ->
  parse_article_number cd (ushow n ++ sfx ++ rest) = Panic /\
  parse_article_number cd (u "第" ++ ushow n ++ sfx ++ rest) = Panic.
Proof. exact heading_overflow_panics. Qed.
Print Assumptions C47_heading_overflow_panics.

Example C47_case : (2 ^ 64 <= 18446744073709551616)%N /\
  u "第" ++ ushow 18446744073709551616 ++ u "条" = u "第18446744073709551616条" /\
  parse_article_number sample_codec (u "第18446744073709551615条") = Ok (Some (mkAN 18446744073709551615 [] [])%N).
Proof. split; [discriminate|]. vm_compute. split; reflexivity. Qed.

(** C48.  A paragraph label with the separator "ノ" panics. *)
Theorem C48_label_katakana_panics : forall cd n m rest, (n < 2 ^ 64)%N -> label_follow rest ->
  parse_article_number cd (to_zenkaku_num n ++ u "ノ" ++ to_zenkaku_num m ++ rest) = Panic.
Proof. exact label_katakana_panics. Qed.
Print Assumptions C48_label_katakana_panics.

Example C48_case : to_zenkaku_num 2 ++ u "ノ" ++ to_zenkaku_num 3 ++ [] = u "２ノ３" /\ label_follow [] /\
  parse_article_number sample_codec (u "第二条ノ三") = Ok (Some (mkAN 2 [3] [])%N).
Proof. split; [vm_compute; reflexivity|]. split; [|vm_compute; reflexivity]. split; [exact I|]. intros r. discriminate. Qed.

(** C49.  A label of kana that is not one letter of the iroha poem panics. *)
Theorem C49_kana_label_panics : forall cd b w x y, blank x -> blank y -> w <> [] ->
  (Forall is_katakana_letter w /\ (forall n, ~ iroha_number iroha_katakana w n)) \/
  (Forall is_hiragana_letter w /\ (forall n, ~ iroha_number iroha_hiragana w n)) ->
  parse_item_number cd (x ++ enclosed b w ++ y) = Panic.
Proof. exact kana_label_panics. Qed.
Print Assumptions C49_kana_label_panics.

Example C49_case : u "ガス" <> [] /\ Forall is_katakana_letter (u "ガス") /\
  (forall n, ~ iroha_number iroha_katakana (u "ガス") n).
Proof.
  split; [discriminate|]. split; [repeat constructor; discriminate|].
  intros n [i [c [_ [H _]]]]. discriminate H.
Qed.

(** C50.  Labels in parentheses with roman numerals are generated in upper case for the lower-case
    pattern and in lower case for the upper-case pattern. *)
Theorem C50_paren_roman_swapped : forall cd a, Forall (roman_numeral cd) (numbers a) ->
  exists s t,
  item_text cd ParenZenkakuRomanUpper a = Ok s /\ item_text cd ParenZenkakuRomanLower a = Ok t /\
  parse_item_number cd s = Ok (Some (mkIN s (base_number a) (eda_numbers a) [] ParenZenkakuRomanLower)) /\
  parse_item_number cd t = Ok (Some (mkIN t (base_number a) (eda_numbers a) [] ParenZenkakuRomanUpper)).
Proof. exact paren_roman_swapped. Qed.
Print Assumptions C50_paren_roman_swapped.

Example C50_case : Forall (roman_numeral sample_codec) (numbers (mkAN 11 [] [])%N) /\
  item_text sample_codec ParenZenkakuRomanUpper (mkAN 11 [] [])%N = Ok (u "（ｘｉ）").
Proof. split; [unfold numbers; cbn [base_number eda_numbers range_end_numbers app]; repeat (apply Forall_cons; [apply sample_roman; cbn; tauto|]); apply Forall_nil|vm_compute; reflexivity]. Qed.

(** C51.  A generated roman label with one of the letters V, D and M is not read. *)
Theorem C51_roman_unreadable : forall cd p a z s t c,
  In p [NoParenZenkakuRomanUpper; NoParenZenkakuRomanLower; ParenZenkakuRomanUpper; ParenZenkakuRomanLower] ->
  machine_i32 (base_number a) z -> roman_to cd z = Some s -> In c s -> In c (u "VDM") ->
  item_text cd p a = Ok t -> parse_item_number cd t = Ok None.
Proof. exact roman_unreadable. Qed.
Print Assumptions C51_roman_unreadable.

Example C51_case : machine_i32 4 4 /\ roman_to sample_codec 4 = Some (u "IV") /\ In 86%N (u "IV") /\ In 86%N (u "VDM") /\
  item_text sample_codec NoParenZenkakuRomanUpper (mkAN 4 [] [])%N = Ok (u "ＩV").
Proof. split; [split; [lia|exists 0%Z; reflexivity]|]. vm_compute. repeat split; tauto. Qed.
Example C51_machine : machine_i32 4294967300 4 /\ machine_i32 4294967295 (-1) /\ machine_i32 2147483648 (-2147483648).
Proof. repeat split; try lia; [exists 1%Z|exists 1%Z|exists 1%Z]; reflexivity. Qed.

(** C52.  A single full-width letter is read as its place in the alphabet unless it is also a roman
    numeral; a label with such a letter is never read as an alphabetic one. *)
Theorem C52_upper_label : forall cd b i c x y, blank x -> blank y ->
  nth_error upper_letters i = Some c -> ~ In c roman_letters ->
  let s := x ++ enclosed b [c] ++ y in
  parse_item_number cd s =
  Ok (Some (mkIN s (N.of_nat (S i)) [] [] (if b then ParenZenkakuUpper else NoParenZenkakuUpper))).
Proof. exact upper_label. Qed.
Print Assumptions C52_upper_label.

Theorem C52_lower_label : forall cd b i c x y, blank x -> blank y ->
  nth_error lower_letters i = Some c -> ~ In c roman_letters ->
  let s := x ++ enclosed b [c] ++ y in
  parse_item_number cd s =
  Ok (Some (mkIN s (N.of_nat (S i)) [] [] (if b then ParenZenkakuLower else NoParenZenkakuLower))).
Proof. exact lower_label. Qed.
Print Assumptions C52_lower_label.

Theorem C52_roman_letters_label : forall cd b w x y i, blank x -> blank y ->
  (Forall (fun c => In c upper_letters) w \/ Forall (fun c => In c lower_letters) w) ->
  Exists (fun c => In c roman_letters) w ->
  parse_item_number cd (x ++ enclosed b w ++ y) = Ok (Some i) ->
  ~ In (inum_pattern i) [NoParenZenkakuUpper; NoParenZenkakuLower; ParenZenkakuUpper; ParenZenkakuLower].
Proof. exact roman_letters_label. Qed.
Print Assumptions C52_roman_letters_label.

(** Different labels with two letters can have the same number, which a single letter has too. *)
Theorem C52_alphabet_ambiguous : forall cd, exists s t i j, s <> t /\
  parse_item_number cd s = Ok (Some i) /\ parse_item_number cd t = Ok (Some j) /\
  inum_base i = inum_base j /\ inum_pattern i = NoParenZenkakuUpper /\ inum_pattern j = NoParenZenkakuUpper.
Proof. exact alphabet_ambiguous. Qed.
Print Assumptions C52_alphabet_ambiguous.

Example C52_case : nth_error upper_letters 3 = Some (uc "Ｄ") /\ ~ In (uc "Ｄ") roman_letters /\
  parse_item_number sample_codec (u "（Ｃ）") = Ok (Some (mkIN (u "（Ｃ）") 100 [] [] ParenZenkakuRomanUpper)).
Proof.
  split; [reflexivity|]. split; [|vm_compute; reflexivity].
  vm_compute. intros H. repeat (destruct H as [H|H]; [discriminate H|]). exact H.
Qed.

(** C53.  A heading is not read when the numeral has a character other than the twelve known ones. *)
Theorem C53_heading_unreadable : forall cd sfx a w c v rest, kan cd (base_number a) = w ++ c :: v ->
  Forall (fun x => In x kanji_list) w -> ~ In c kanji_list -> ~ In c zenkaku_list ->
  ~ In c (u "0123456789") -> ~ In c (u "編章節款目条項号") ->
  parse_article_number cd (gen_articles_text cd sfx a ++ rest) = Ok None.
Proof. exact heading_text_unreadable. Qed.
Print Assumptions C53_heading_unreadable.

Example C53_case : kan sample_codec 10000 = [] ++ uc "万" :: [] /\ ~ In (uc "万") kanji_list /\
  ~ In (uc "万") zenkaku_list /\ ~ In (uc "万") (u "0123456789") /\ ~ In (uc "万") (u "編章節款目条項号") /\
  article_text sample_codec (mkAN 10000 [] [])%N = u "第万条".
Proof.
  split; [vm_compute; reflexivity|].
  repeat split; try (vm_compute; reflexivity);
    vm_compute; intros H; repeat (destruct H as [H|H]; [discriminate H|]); exact H.
Qed.
