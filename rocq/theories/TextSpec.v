(** Specification of the plain-text parser: a machine that reads the classified lines once, from
    first to last, with a stack of open headings and a stack of item patterns, and lists what the
    result must contain.  The parser itself is a recursive descent over the lines. *)
From Coq Require Import String List NArith Bool.
From Verif Require Import Base NumStr Ast Regex NumText NumTextSpec TextParse.
Import ListNotations.
Open Scope list_scope.

Inductive rank := RPart | RChapter | RSection | RSubsection | RDivision.

(** What a law body consists of, in reading order, each part without what comes below it. *)
Inductive entry :=
| EHead (depth : nat) (r : rank) (title : Text Knot) (n : ArticleNumber) (del hide : bool)
| EArt (depth : nat) (cap : option (Caption Knot)) (title : Text Knot) (note : option (Text Knot))
    (n : ArticleNumber) (del hide : bool)
| EPar (preamble : bool) (p : ParagraphF Knot)
| EItem (level : nat) (title : option (Text Knot)) (structs : list (Struct Knot)) (n : option ArticleNumber)
    (del hide : bool)
| ESent (s : Knot KSentence)
| EOther.

(** ** Listing a law body *)
Definition lvl_nat (l : lvl) : nat :=
  match l with
  | Item0 => 0 | Sub1 => 1 | Sub2 => 2 | Sub3 => 3 | Sub4 => 4 | Sub5 => 5
  | Sub6 => 6 | Sub7 => 7 | Sub8 => 8 | Sub9 => 9 | Sub10 => 10
  end.

Definition list_sentences (s : SentenceOrColumnOrTable Knot) : list entry :=
  match s with SCT_Sentence l => map ESent l | _ => [EOther] end.

Definition item_entry {l} (f : ItemF Knot l) : entry :=
  EItem (lvl_nat l) (it_title f) (it_struct_list f) (it_num f) (it_delete f) (it_hide f).

(** An item and everything below it. *)
Fixpoint list_item {k} (x : Knot k) {struct x} : list entry :=
  match x with
  | @mkItem l f => item_entry f :: list_sentences (it_sentence f) ++ flat_map (fun y => list_item y) (it_children f)
  | _ => [EOther]
  end.

(** A paragraph without sentences and items. *)
Definition bare (p : ParagraphF Knot) : ParagraphF Knot :=
  mkParagraphF (par_caption p) (par_paragraph_num p) (par_amend_provision p) (par_class p) []
    (par_struct_list p) [] (par_num p) (par_old_style p) (par_old_num p) (par_hide p).
Definition list_paragraph (pre : bool) (x : Knot KParagraph) : list entry :=
  let p := un KParagraph x in
  EPar pre (bare p) :: map ESent (par_sentence p) ++ flat_map (fun y => list_item y) (par_children p).

Definition list_article (depth : nat) (x : Knot KArticle) : list entry :=
  let a := un KArticle x in
  EArt depth (art_caption a) (art_title a) (art_suppl_note a) (art_num a) (art_delete a) (art_hide a)
  :: flat_map (list_paragraph false) (art_paragraph a).

Definition list_head {C} (depth : nat) (r : rank) (below : nat -> C -> list entry) (h : HeadF Knot C) : list entry :=
  EHead depth r (hd_title h) (hd_num h) (hd_delete h) (hd_hide h) :: flat_map (below (S depth)) (hd_children h).

Definition list_division (d : nat) (x : Knot KDivision) : list entry :=
  list_head d RDivision list_article (un KDivision x).
Definition list_subsection (d : nat) (x : Knot KSubsection) : list entry :=
  list_head d RSubsection
    (fun d c => match c with SuC_Article a => list_article d a | SuC_Division a => list_division d a end)
    (un KSubsection x).
Definition list_section (d : nat) (x : Knot KSection) : list entry :=
  list_head d RSection
    (fun d c => match c with
                | SeC_Article a => list_article d a
                | SeC_Subsection a => list_subsection d a
                | SeC_Division a => list_division d a
                end)
    (un KSection x).
Definition list_chapter (d : nat) (x : Knot KChapter) : list entry :=
  list_head d RChapter
    (fun d c => match c with ChC_Article a => list_article d a | ChC_Section a => list_section d a end)
    (un KChapter x).
Definition list_part (d : nat) (x : Knot KPart) : list entry :=
  list_head d RPart
    (fun d c => match c with PC_Article a => list_article d a | PC_Chapter a => list_chapter d a end)
    (un KPart x).
Definition list_main (c : MainContents Knot) : list entry :=
  match c with
  | MC_Part x => list_part 0 x
  | MC_Chapter x => list_chapter 0 x
  | MC_Section x => list_section 0 x
  | MC_Article x => list_article 0 x
  | MC_Paragraph _ => [EOther]
  end.

(** ** The machine *)
(** What is being read: the preamble, of which [k] paragraphs were read; the place after a heading or
    caption; or an article, with the patterns of the open items, innermost first, and the number of
    the next sentence. *)
Inductive mode :=
| MPre (k : N)
| MTop (cap : option ustr)
| MArt (open_items : list ItemPattern) (k : N).

(** How reading ends: at the end or before a line at which the rest is given up; with a crash; or
    never. *)
Inductive ending := Ends (rest : list line) | Crashes | Loops.

Definition rank_eqb (a b : rank) : bool :=
  match a, b with
  | RPart, RPart | RChapter, RChapter | RSection, RSection | RSubsection, RSubsection | RDivision, RDivision => true
  | _, _ => false
  end.

(** Close headings until the innermost one has rank [r]. *)
Fixpoint close_to (r : rank) (open : list rank) : list rank :=
  match open with
  | [] => []
  | x :: l => if rank_eqb x r then open else close_to r l
  end.

(** The headings that stay open around a new heading of rank [r]; subsections and divisions must be
    within a section and a subsection. *)
Definition place (r : rank) (open : list rank) : option (list rank) :=
  match r with
  | RPart => Some []
  | RChapter => Some (close_to RPart open)
  | RSection => Some (close_to RChapter open)
  | RSubsection => match close_to RSection open with [] => None | l => Some l end
  | RDivision => match close_to RSubsection open with [] => None | l => Some l end
  end.

(** The open items after an item with pattern [p]: it continues the innermost level, or returns to
    the level around it, or else opens a new level, at most the tenth below the first. *)
Definition next_items (p : ItemPattern) (open : list ItemPattern) : option (list ItemPattern) :=
  match open with
  | [] => Some [p]
  | now :: up =>
      if pat_eqb p now then Some open
      else match up with
           | parent :: _ => if pat_eqb p parent then Some up
                            else if Nat.ltb (length open) 11 then Some (p :: open) else None
           | [] => Some (p :: open)
           end
  end.

Definition sentence (k : N) (t : ustr) : entry :=
  ESent (mkSentence (mkSentenceF [SE_String (enc t)] (Some k) None None Vertical)).
Definition paragraph (pre : bool) (n : ArticleNumber) : entry :=
  EPar pre (mkParagraphF None [] [] [] [] [] [] n false false false).
Definition says_deleted (t : ustr) : bool := existsb (ueqb (trim t)) [u "削除"; u "（削除）"].
Definition as_text (t : ustr) : Text Knot := [TE_Text (enc t)].

Definition add (l : list entry) (x : list entry * ending) : list entry * ending := (l ++ fst x, snd x).

Fixpoint outline_from (open : list rank) (m : mode) (lines : list line) : list entry * ending :=
  match lines with
  | [] => ([], Ends [])
  | l :: rest =>
      let heading r n t :=
        match place r open with
        | Some up => add [EHead (length up) r (as_text t) n (says_deleted t) false] (outline_from (r :: up) (MTop None) rest)
        | None => ([], Ends lines)
        end in
      match l with
      | LPart n t => heading RPart n t
      | LChapter n t => heading RChapter n t
      | LSection n t => heading RSection n t
      | LSubsection n t => heading RSubsection n t
      | LDivision n t => heading RDivision n t
      | LCaption s => outline_from open (MTop (Some s)) rest
      | LArticle n t =>
          let cap := match m with MTop (Some s) => Some (mkCaption (as_text s) None) | _ => None end in
          add [EArt (length open) cap (as_text []) None n (says_deleted t) false; paragraph false (mkAN 1 [] []); sentence 1 t]
            (outline_from open (MArt [] 2) rest)
      | LParagraph n t =>
          match m with
          | MArt _ _ => add [paragraph false n; sentence 1 t] (outline_from open (MArt [] 2) rest)
          | _ => ([], Ends lines)
          end
      | LItem i t =>
          match m with
          | MArt its _ =>
              match next_items (inum_pattern i) its with
              | Some its' =>
                  add [EItem (length its' - 1) None []
                         (Some (mkAN (inum_base i) (inum_eda i) (inum_range i))) (says_deleted t) false; sentence 1 t]
                    (outline_from open (MArt its' 2) rest)
              | None => ([], Crashes)
              end
          | _ => ([], Ends lines)
          end
      | LText s =>
          match m with
          | MPre k => add [paragraph true (mkAN k [] []); sentence 0 s] (outline_from open (MPre (k + 1)) rest)
          | MTop _ => ([], Loops)
          | MArt its k => add [sentence k s] (outline_from open (MArt its (k + 1)) rest)
          end
      | LSuppl _ => ([], Loops)
      end
  end.
Definition outline : list line -> list entry * ending := outline_from [] (MPre 0).

(** ** Law bodies that the plain-text parser builds *)
Definition list_preamble (o : option (Knot KPreamble)) : list entry :=
  match o with Some p => flat_map (list_paragraph true) (un KPreamble p) | None => [] end.
Definition list_body (b : Knot KLawBody) : list entry :=
  list_preamble (lb_preamble (un KLawBody b)) ++
  flat_map list_main (main_children (un KMain (lb_main_provision (un KLawBody b)))).
(** Nothing but a title, a preamble and a main provision. *)
Definition plain_body (title : ustr) (b : Knot KLawBody) : Prop :=
  exists pre main, b = mkLawBody (mkLawBodyF (Some (mkLawTitle (mkLawTitleF None None None (as_text title)))) [] None None
    pre (mkMain (mkMainF main None)) [] [] [] [] [] [] []).

(** ** The contents of lines, line by line *)
Inductive piece :=
| PHead (r : rank) (n : ArticleNumber) (t : Text Knot) (del : bool)
| PCaption (t : Text Knot)
| PArticle (n : ArticleNumber) (del : bool)
| PParagraph (n : ArticleNumber)
| PItem (n : option ArticleNumber) (del : bool)
| PText (s : SentenceF Knot).

(** The text of an article line starts its first paragraph; a caption belongs to the article
    in the next line, any other caption is lost. *)
Definition bare_sentence (t : ustr) : SentenceF Knot := mkSentenceF [SE_String (enc t)] None None None Vertical.
Definition line_content (l : line) : list piece :=
  match l with
  | LCaption _ | LSuppl _ => []
  | LPart n t => [PHead RPart n (as_text t) (says_deleted t)]
  | LChapter n t => [PHead RChapter n (as_text t) (says_deleted t)]
  | LSection n t => [PHead RSection n (as_text t) (says_deleted t)]
  | LSubsection n t => [PHead RSubsection n (as_text t) (says_deleted t)]
  | LDivision n t => [PHead RDivision n (as_text t) (says_deleted t)]
  | LArticle n t => [PArticle n (says_deleted t); PParagraph (mkAN 1 [] []); PText (bare_sentence t)]
  | LParagraph n t => [PParagraph n; PText (bare_sentence t)]
  | LItem i t => [PItem (Some (mkAN (inum_base i) (inum_eda i) (inum_range i))) (says_deleted t); PText (bare_sentence t)]
  | LText s => [PText (bare_sentence s)]
  end.
Fixpoint content (lines : list line) : list piece :=
  match lines with
  | [] => []
  | LCaption s :: r => match r with LArticle _ _ :: _ => [PCaption (as_text s)] | _ => [] end ++ content r
  | l :: r => line_content l ++ content r
  end.

(** What entries contain, without depth, level and the numbers of sentences. *)
Definition entry_content (e : entry) : list piece :=
  match e with
  | EHead _ r t n del _ => [PHead r n t del]
  | EArt _ cap _ _ n del _ => match cap with Some c => [PCaption (cap_text c)] | None => [] end ++ [PArticle n del]
  | EPar true _ => []
  | EPar false p => [PParagraph (par_num p)]
  | EItem _ _ _ n del _ => [PItem n del]
  | ESent s => let f := un KSentence s in
      [PText (mkSentenceF (sen_contents f) None (sen_function f) (sen_indent f) (sen_mode f))]
  | EOther => []
  end.

(** ** Where reading stops *)
Definition heading_or_caption (l : line) : Prop :=
  match l with
  | LCaption _ | LPart _ _ | LChapter _ _ | LSection _ _ | LSubsection _ _ | LDivision _ _ => True
  | _ => False
  end.
Definition below_article (l : line) : Prop :=
  match l with LParagraph _ _ | LItem _ _ | LText _ => True | _ => False end.
Definition not_above_subsection (l : line) : Prop :=
  match l with LPart _ _ | LChapter _ _ | LSection _ _ => False | _ => True end.

(** The last lines are an article and lines below it. *)
Definition in_article (a : list line) : Prop :=
  exists b n t c, a = b ++ LArticle n t :: c /\ Forall below_article c.
(** The last heading of a part, chapter or section is a section. *)
Definition in_section (a : list line) : Prop :=
  exists b n t c, a = b ++ LSection n t :: c /\ Forall not_above_subsection c.
(** There is a subsection after all headings of parts, chapters and sections. *)
Definition in_subsection (a : list line) : Prop :=
  exists b n t c, a = b ++ LSubsection n t :: c /\ Forall not_above_subsection c.

(** After the lines [a], the line [l] has no place and ends the text. *)
Definition misplaced (a : list line) (l : line) : Prop :=
  match l with
  | LParagraph _ _ | LItem _ _ => ~ in_article a
  | LSubsection _ _ => ~ in_section a
  | LDivision _ _ => ~ in_subsection a
  | _ => False
  end.
(** After the lines [a], the line [l] is looked at for ever. *)
Definition stuck (a : list line) (l : line) : Prop :=
  match l with
  | LSuppl _ => True
  | LText _ => exists b h, a = b ++ [h] /\ heading_or_caption h
  | _ => False
  end.

(** The patterns of the items of the paragraph that is being read. *)
Fixpoint patterns_of (acc : list ItemPattern) (a : list line) : list ItemPattern :=
  match a with
  | [] => acc
  | LItem i _ :: r => patterns_of (acc ++ [inum_pattern i]) r
  | LArticle _ _ :: r | LParagraph _ _ :: r => patterns_of [] r
  | _ :: r => patterns_of acc r
  end.
Fixpoint open_items (open : list ItemPattern) (ps : list ItemPattern) : option (list ItemPattern) :=
  match ps with
  | [] => Some open
  | p :: r => match next_items p open with Some o => open_items o r | None => None end
  end.
(** After the lines [a], the line [l] is an item below the tenth level. *)
Definition too_deep (a : list line) (l : line) : Prop :=
  match l with
  | LItem i _ => in_article a /\ open_items [] (patterns_of [] a ++ [inum_pattern i]) = None
  | _ => False
  end.

(** Lines that are read to the end. *)
Inductive readable : list line -> Prop :=
| R_nil : readable []
| R_snoc : forall a l, readable a -> ~ misplaced a l -> ~ stuck a l -> ~ too_deep a l -> readable (a ++ [l]).

(** ** Numbers of sentences and paragraphs *)
(** Sentences are counted from 1 in each paragraph and item, and have number 0 in the preamble; the
    first paragraph of an article has number 1. *)
Fixpoint counted (k : N) (es : list entry) : Prop :=
  match es with
  | [] => True
  | ESent s :: r => sen_num (un KSentence s) = Some k /\ counted (k + 1) r
  | EPar pre _ :: r => counted (if pre then 0 else 1) r
  | EArt _ _ _ _ _ _ _ :: r =>
      match r with EPar false p :: _ => par_num p = mkAN 1 [] [] | _ => False end /\ counted 1 r
  | _ :: r => counted 1 r
  end.
(** The numbers of the paragraphs of the preamble. *)
Definition preamble_numbers (es : list entry) : list ArticleNumber :=
  flat_map (fun e => match e with EPar true p => [par_num p] | _ => [] end) es.
(** The texts with which the lines start. *)
Fixpoint leading_texts (lines : list line) : nat :=
  match lines with LText _ :: r => S (leading_texts r) | _ => 0 end.

(** The levels of the items, in order. *)
Definition item_levels (es : list entry) : list nat :=
  flat_map (fun e => match e with EItem k _ _ _ _ _ => [k] | _ => [] end) es.

(** Each pattern is different from the two before it. *)
Fixpoint all_new (ps : list ItemPattern) : Prop :=
  match ps with
  | [] => True
  | p :: r => match r with
              | q :: s => p <> q /\ match s with x :: _ => p <> x | [] => True end
              | [] => True
              end /\ all_new r
  end.
Definition items_of (ps : list (ItemNumber * ustr)) : list line := map (fun x => LItem (fst x) (snd x)) ps.

(** ** Lines as text *)
(** No white space at either end. *)
Definition no_edge (w : ustr) : Prop :=
  (forall c r, w = c :: r -> is_space c = false) /\ (forall r c, w = r ++ [c] -> is_space c = false).
Definition no_space (w : ustr) : Prop := Forall (fun c => is_space c = false) w.
(** A caption line. *)
Definition caption_line (w : ustr) : Prop := exists v, v <> [] /\ ~ In (uc "）") v /\ w = uc "（" :: v ++ [uc "）"].
(** The text before the first white space or, if there is none, before the last character; and the
    text after it. *)
Definition first_word (w s t : ustr) : Prop :=
  (exists g, w = s ++ g ++ t /\ s <> [] /\ g <> [] /\ Forall (fun c => is_space c = true) g /\
     no_space s /\ t <> [] /\ no_edge t) \/
  (exists c, w = s ++ [c] /\ s <> [] /\ no_space w /\ t = [c]).

(** The words for the kinds of headings, in the order in which they are looked for. *)
Definition heading_kinds : list (ustr * (ArticleNumber -> ustr -> line)) :=
  [(u "編", LPart); (u "章", LChapter); (u "節", LSection); (u "款", LSubsection); (u "目", LDivision); (u "条", LArticle)].
(** The first kind whose word occurs in [s] is [mk]; without such a word the kind is a paragraph. *)
Definition kind_of (s : ustr) (mk : ArticleNumber -> ustr -> line) : Prop :=
  (exists before k after, heading_kinds = before ++ (k, mk) :: after /\ incl k s /\
     forall k' mk' c, In (k', mk') before -> In c k' -> ~ In c s) \/
  (mk = LParagraph /\ forall k' mk' c, In (k', mk') heading_kinds -> In c k' -> ~ In c s).

(** The characters with which a number can start, and those that an item label consists of. *)
Definition number_start (c : N) : Prop := In c (u "第0123456789" ++ zenkaku_list ++ kanji_list).
Definition label_char (c : N) : Prop :=
  is_katakana_letter c \/ is_hiragana_letter c \/
  In c (kanji_list ++ zenkaku_list ++ upper_letters ++ lower_letters ++ u "（）").

(** Text that is neither a caption nor starts with a number or a label. *)
Definition plain_text (w : ustr) : Prop :=
  no_edge w /\ ~ In 10%N w /\ ~ caption_line w /\
  (length w <= 1 \/ exists s t c, first_word w s t /\ (exists r, s = c :: r) /\ ~ number_start c /\ Exists (fun c => ~ label_char c) s).

(** White space on both sides. *)
Definition padded (w l : ustr) : Prop := exists x y, blank x /\ blank y /\ ~ In 10%N (x ++ y) /\ l = x ++ w ++ y.
(** The text of a line after its label. *)
Definition line_text (t : ustr) : Prop := t <> [] /\ no_edge t /\ ~ In 10%N t.
Definition labelled (s t w : ustr) : Prop := exists g, g <> [] /\ blank g /\ ~ In 10%N g /\ line_text t /\ w = s ++ g ++ t.

(** How classified lines are written: labels are those of C08, C10 and C12. *)
Inductive written (cd : codec) : line -> ustr -> Prop :=
| W_heading : forall sfx mk a t w l, In (sfx, mk) heading_kinds -> Forall (numeral cd) (numbers a) ->
    labelled (gen_articles_text cd sfx a) t w -> padded w l -> written cd (mk a t) l
| W_paragraph : forall a t w l, Forall (fun n => n < 2 ^ 64)%N (numbers a) -> length (range_end_numbers a) <= 1 ->
    labelled (paragraph_text a) t w -> padded w l -> written cd (LParagraph a t) l
| W_item : forall p a s t w l, p <> NoParenZenkakuNum -> Forall (writable cd p) (numbers a) -> item_text cd p a = Ok s ->
    labelled s t w -> padded w l -> written cd (LItem (mkIN s (base_number a) (eda_numbers a) [] (read_as p)) t) l
| W_caption : forall v l, v <> [] -> ~ In (uc "）") v -> ~ In 10%N v -> padded (uc "（" :: v ++ [uc "）"]) l -> written cd (LCaption v) l
| W_text : forall w l, plain_text w -> padded w l -> written cd (LText w) l.

(** Lines joined to a text: a line feed after each line, perhaps without the last one. *)
Definition joined (ls : list ustr) (text : ustr) : Prop :=
  Forall (fun l => ~ In 10%N l) ls /\
  (text = concat (map (fun l => l ++ [10%N]) ls) \/
   exists ls' l, ls = ls' ++ [l] /\ l <> [] /\ text = concat (map (fun l => l ++ [10%N]) ls') ++ l).

(** ** Deletion *)
(** The whole text says that something was deleted. *)
Definition says_only (t : ustr) : Prop :=
  exists x w y, blank x /\ blank y /\ (w = u "削除" \/ w = u "（削除）") /\ t = x ++ w ++ y.
(** The texts of the headings, articles and items, and the marks of what was built from them. *)
Definition markable (l : line) : list ustr :=
  match l with
  | LPart _ t | LChapter _ t | LSection _ t | LSubsection _ t | LDivision _ t | LArticle _ t | LItem _ t => [t]
  | _ => []
  end.
Definition marks (e : entry) : list bool :=
  match e with EHead _ _ _ _ d _ | EArt _ _ _ _ _ d _ | EItem _ _ _ _ d _ => [d] | _ => [] end.

(** ** Dates *)
Definition known_eras : list (ustr * Era) :=
  [(u "明治", Meiji); (u "大正", Taisho); (u "昭和", Showa); (u "平成", Heisei); (u "令和", Reiwa)].
Definition or_first (o : option N) : N := match o with Some n => n | None => 1%N end.
(** The calendar knows the date, in machine integers, and gives it one of the five eras. *)
Definition dated (cal : calendar) (year : N) (month day : option N) (e : Era) : Prop :=
  exists y m dd d name, machine_i32 year y /\ machine_u32 (or_first month) m /\ machine_u32 (or_first day) dd /\
    from_ymd cal y m dd = Some d /\
    era_name cal d = Some name /\ In (name, e) known_eras.
