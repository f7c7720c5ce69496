(** Properties of the plain-text parser: endless loops, contents of the result, lost lines, item
    levels, numbering, deletion marks and dates. *)
From Coq Require Import String List NArith ZArith Bool Arith Lia.
From Verif Require Import Base NumStr Ast Regex NumText NumTextSpec TextParse TextSpec TextFacts OutlineFacts TextLawFacts
  CodecSample.
Import ListNotations.
Open Scope string_scope.
Open Scope list_scope.

(** Lines for the examples. *)
Definition an (n : N) : ArticleNumber := mkAN n [] [].
Definition item (p : ItemPattern) (n : N) : line := LItem (mkIN [] n [] [] p) (u "x").
Definition sample_lines : list line :=
  [LText (u "前文"); LPart (an 1) (u "総則"); LChapter (an 1) (u "通則"); LCaption (u "目的"); LArticle (an 1) (u "この法律は");
   LText (u "続き"); LParagraph (an 2) (u "前項の"); item NoParenKansuji 1; item NoParenIrohaKatakana 1; item NoParenKansuji 2;
   LChapter (an 2) (u "削除"); LArticle (an 2) (u "　削除"); LSubsection (an 1) (u "款")].
Definition sample_read : list line := firstn 12 sample_lines.
Definition six : list ItemPattern :=
  [NoParenKansuji; NoParenIrohaKatakana; ParenZenkakuNum; ParenKansuji; ParenIrohaKatakana; ParenIrohaHiragana].
Definition deep : list (ItemNumber * ustr) := map (fun p => (mkIN [] 1 [] [] p, u "x")) (six ++ six).

(** C40.  The parser of classified lines runs for ever exactly when a line is stuck after lines that
    are read without trouble: a supplementary provision anywhere, or text directly after a heading or
    caption.  (C54 shows that no text gives a line of the first kind.) *)
Theorem C40_loops_iff : forall title lines,
  (forall fuel, parse_lines fuel title lines = None) <->
  exists a l b, lines = a ++ l :: b /\ readable a /\ stuck a l.
Proof. exact loops_iff. Qed.
Print Assumptions C40_loops_iff.

(** Every outcome, for all lines. *)
Theorem C40_outcomes : forall lines,
  (readable lines /\ exists es, outline lines = (es, Ends [])) \/
  exists a l b, lines = a ++ l :: b /\ readable a /\
    ((misplaced a l /\ exists es, outline lines = (es, Ends (l :: b))) \/
     (too_deep a l /\ exists es, outline lines = (es, Crashes)) \/
     (stuck a l /\ exists es, outline lines = (es, Loops))).
Proof. exact reading_ends. Qed.
Print Assumptions C40_outcomes.

Example C40_case : forall title, let lines := [LChapter (an 1) (u "総則"); LText (u "x"); LArticle (an 1) (u "y")] in
  readable [LChapter (an 1) (u "総則")] /\ stuck [LChapter (an 1) (u "総則")] (LText (u "x")) /\
  parse_lines 1000 title lines = None.
Proof.
  intros title lines. split; [|split].
  - apply (R_snoc []); [constructor|intros []|intros []|intros []].
  - exists [], (LChapter (an 1) (u "総則")). split; [reflexivity|exact I].
  - vm_compute. reflexivity.
Qed.

(** C41.  Every result has the contents of the lines, each once and in order, up to the end or to the
    first misplaced line; and readable lines always give a result, with the nesting of the outline. *)
Theorem C41_contents : forall fuel title lines b, parse_lines fuel title lines = Some (Ok b) ->
  plain_body title b /\
  exists a rest, lines = a ++ rest /\ readable a /\ (rest = [] \/ exists l r, rest = l :: r /\ misplaced a l) /\
    flat_map entry_content (list_body b) = content a.
Proof. exact body_contents. Qed.
Print Assumptions C41_contents.

Theorem C41_readable_lines_are_read : forall title lines, readable lines -> exists b,
  (forall fuel, length lines < fuel -> parse_lines fuel title lines = Some (Ok b)) /\ list_body b = fst (outline lines).
Proof. exact body_exists. Qed.
Print Assumptions C41_readable_lines_are_read.

Theorem C41_nesting : forall title lines,
  match outline lines with
  | (es, Ends _) => exists b, plain_body title b /\ list_body b = es /\
      forall fuel, length lines < fuel -> parse_lines fuel title lines = Some (Ok b)
  | (_, Crashes) => forall fuel, length lines < fuel -> parse_lines fuel title lines = Some Panic
  | (_, Loops) => forall fuel, parse_lines fuel title lines = None
  end.
Proof. exact parse_lines_outline. Qed.
Print Assumptions C41_nesting.

Theorem C41_no_error : forall fuel title lines e, parse_lines fuel title lines <> Some (Err e).
Proof. exact no_error. Qed.
Print Assumptions C41_no_error.

Example C41_case :
  match parse_lines 20 (u "法") sample_lines with Some (Ok b) => length (list_body b) | _ => 0 end = 20 /\
  length (content sample_read) = 20 /\ snd (outline sample_lines) = Ends [LSubsection (an 1) (u "款")].
Proof. split; [vm_compute; reflexivity|]. split; vm_compute; reflexivity. Qed.

(** C42.  A paragraph or item outside an article, a subsection outside a section and a division
    outside a subsection end the reading: this line and all later ones are lost without an error. *)
Theorem C42_rest_dropped : forall title a l r fuel, readable a -> misplaced a l -> length (a ++ l :: r) < fuel ->
  exists b, parse_lines fuel title (a ++ l :: r) = Some (Ok b) /\ flat_map entry_content (list_body b) = content a.
Proof. exact rest_dropped. Qed.
Print Assumptions C42_rest_dropped.

Example C42_case : readable [LChapter (an 1) (u "総則")] /\ misplaced [LChapter (an 1) (u "総則")] (LParagraph (an 1) (u "x")) /\
  exists b, parse_lines 5 (u "法") [LChapter (an 1) (u "総則"); LParagraph (an 1) (u "x"); LArticle (an 1) (u "y")] = Some (Ok b) /\
    flat_map entry_content (list_body b) = [PHead RChapter (an 1) (as_text (u "総則")) false].
Proof.
  split; [apply (R_snoc []); [constructor|intros []|intros []|intros []]|]. split.
  - intros [b [n [t [c [E _]]]]]. destruct b as [|x b]; [discriminate E|]. injection E as _ E. destruct b; discriminate E.
  - eexists. split; vm_compute; reflexivity.
Qed.

(** C43.  An item that continues neither the innermost level nor the level around it opens a new
    level, even when its numbering is that of an outer level: a return over two levels goes down.
    The parser panics exactly when a level below the tenth is opened. *)
Theorem C43_return_goes_down : forall title a i1 t1 i2 t2 i3 t3 i4 t4 fuel,
  readable a -> in_article a -> patterns_of [] a = [] ->
  inum_pattern i2 <> inum_pattern i1 -> inum_pattern i3 <> inum_pattern i2 -> inum_pattern i3 <> inum_pattern i1 ->
  inum_pattern i4 = inum_pattern i1 ->
  let lines := a ++ [LItem i1 t1; LItem i2 t2; LItem i3 t3; LItem i4 t4] in
  length lines < fuel -> exists b, parse_lines fuel title lines = Some (Ok b) /\
    item_levels (list_body b) = item_levels (fst (outline a)) ++ [0; 1; 2; 3].
Proof. exact return_goes_down. Qed.
Print Assumptions C43_return_goes_down.

Theorem C43_panics_iff : forall title lines,
  (exists fuel, parse_lines fuel title lines = Some Panic) <->
  exists a l b, lines = a ++ l :: b /\ readable a /\ too_deep a l.
Proof. exact panics_iff. Qed.
Print Assumptions C43_panics_iff.

Theorem C43_twelve_items_panic : forall title a ps b fuel, readable a -> in_article a -> patterns_of [] a = [] ->
  length ps = 12 -> all_new (rev (map (fun x => inum_pattern (fst x)) ps)) ->
  length (a ++ items_of ps ++ b) < fuel -> parse_lines fuel title (a ++ items_of ps ++ b) = Some Panic.
Proof. exact deep_items_panic. Qed.
Print Assumptions C43_twelve_items_panic.

Example C43_case : readable [LArticle (an 1) (u "x")] /\ in_article [LArticle (an 1) (u "x")] /\
  patterns_of [] [LArticle (an 1) (u "x")] = [] /\ length deep = 12 /\ all_new (rev (map (fun x => inum_pattern (fst x)) deep)) /\
  parse_lines 30 (u "法") (LArticle (an 1) (u "x") :: items_of deep) = Some Panic /\
  exists b, parse_lines 30 (u "法") [LArticle (an 1) (u "x"); item NoParenKansuji 1; item NoParenIrohaKatakana 1;
      item ParenZenkakuNum 1; item NoParenKansuji 2] = Some (Ok b) /\ item_levels (list_body b) = [0; 1; 2; 3].
Proof.
  split; [apply (R_snoc []); [constructor|intros []|intros []|intros []]|].
  split; [exists [], (an 1), (u "x"), []; split; [reflexivity|constructor]|].
  split; [reflexivity|]. split; [reflexivity|]. split; [cbn; repeat split; discriminate|].
  split; [vm_compute; reflexivity|]. eexists. split; vm_compute; reflexivity.
Qed.

(** C44.  Sentences are counted from 1 in every paragraph and item, the first paragraph of an article
    has number 1, and the paragraphs of the preamble are counted from 0, each with one sentence with
    number 0.  Later paragraphs have the numbers that are printed (C41). *)
Theorem C44_numbers : forall fuel title lines b, parse_lines fuel title lines = Some (Ok b) -> counted 0 (list_body b).
Proof. exact body_counted. Qed.
Print Assumptions C44_numbers.

Theorem C44_preamble : forall fuel title lines b, parse_lines fuel title lines = Some (Ok b) ->
  preamble_numbers (list_body b) = map (fun i => mkAN (N.of_nat i) [] []) (seq 0 (leading_texts lines)).
Proof. exact body_preamble. Qed.
Print Assumptions C44_preamble.

Example C44_case : leading_texts sample_lines = 1 /\
  match parse_lines 20 (u "法") sample_lines with
  | Some (Ok b) => flat_map (fun e => match e with ESent s => [sen_num (un KSentence s)] | _ => [] end) (list_body b)
  | _ => []
  end = map Some [0; 1; 2; 1; 1; 1; 1; 1]%N.
Proof. split; vm_compute; reflexivity. Qed.

(** C45.  A heading, article or item is marked as deleted exactly when its text is 削除 or （削除）,
    with any white space around it. *)
Theorem C45_deleted : forall fuel title lines b, parse_lines fuel title lines = Some (Ok b) ->
  exists a rest, lines = a ++ rest /\ (rest = [] \/ exists l r, rest = l :: r /\ misplaced a l) /\
    Forall2 (fun t m => m = true <-> says_only t) (flat_map markable a) (flat_map marks (list_body b)).
Proof. exact body_marks. Qed.
Print Assumptions C45_deleted.

Example C45_case :
  match parse_lines 20 (u "法") sample_lines with Some (Ok b) => flat_map marks (list_body b) | _ => [] end =
  [false; false; false; false; false; false; true; true].
Proof. vm_compute. reflexivity. Qed.

(** C46.  Reading a text panics when the calendar does not know the date (with 1 for a missing month
    or day) or the era is none of the five, whatever the text is; otherwise the outcome is that of
    the body.  The year counts modulo 2^32. *)
Theorem C46_panics_iff : forall cd cal fuel text year month day ty lang num law_num title,
  parse_text cd cal fuel text year month day ty lang num law_num title = Some Panic <->
  ~ (exists e, dated cal year month day e) \/ parse_body cd fuel title text = Some Panic.
Proof. exact text_panics_iff. Qed.
Print Assumptions C46_panics_iff.

Theorem C46_law : forall cd cal fuel text year month day ty lang num law_num title law,
  parse_text cd cal fuel text year month day ty lang num law_num title = Some (Ok law) <->
  exists e b, dated cal year month day e /\ parse_body cd fuel title text = Some (Ok b) /\
    law = mkLaw e year num month day ty lang law_num b.
Proof. exact text_law. Qed.
Print Assumptions C46_law.

Theorem C46_year_wraps : forall cal y m d k, date_era cal (y + k * 2 ^ 32) m d = date_era cal y m d.
Proof. exact year_wraps. Qed.
Print Assumptions C46_year_wraps.

Example C46_case : dated sample_calendar 1926 (Some 12%N) (Some 25%N) Showa /\ dated sample_calendar 1926 (Some 12%N) (Some 24%N) Taisho /\
  ~ (exists e, dated sample_calendar 2023 (Some 2%N) (Some 29%N) e) /\ ~ (exists e, dated sample_calendar 1600 None None e) /\
  date_era sample_calendar (2020 + 3 * 2 ^ 32) None None = Ok Reiwa.
Proof.
  split; [apply dated_iff; do 2 eexists; split; [vm_compute; reflexivity|]; split; [vm_compute; reflexivity|vm_compute; tauto]|].
  split; [apply dated_iff; do 2 eexists; split; [vm_compute; reflexivity|]; split; [vm_compute; reflexivity|vm_compute; tauto]|].
  split; [intros [e H]; apply dated_iff in H as [d [n [X _]]]; vm_compute in X; discriminate X|].
  split; [intros [e H]; apply dated_iff in H as [d [n [X [Y _]]]]; vm_compute in X; injection X as <-; vm_compute in Y; discriminate Y|].
  vm_compute. reflexivity.
Qed.
