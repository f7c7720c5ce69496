(** The plain-text parser: /repo/src/parse_from_text.rs and [parse_text] of /repo/src/lib.rs 72-110.

    Model file: definitions only.  The loops over the peekable iterator of lines become functions
    from the remaining lines to a result and the lines that remain.  They run on fuel, one unit for
    each iteration or call; [None] means that the fuel was used up.  A loop that never ends is a loop
    for which every fuel gives [None].  [println!] (948, 968) is in [Stdout.v]. *)
From Coq Require Import String List NArith ZArith Bool.
From Verif Require Import Base NumStr Ast Regex NumText.
Import ListNotations.
Open Scope string_scope.
Open Scope list_scope.

(** /repo/src/parse_from_text.rs 903-937 ([LineContents]). *)
Inductive line :=
| LCaption (s : ustr)
| LPart (n : ArticleNumber) (t : ustr)
| LChapter (n : ArticleNumber) (t : ustr)
| LSection (n : ArticleNumber) (t : ustr)
| LSubsection (n : ArticleNumber) (t : ustr)
| LDivision (n : ArticleNumber) (t : ustr)
| LArticle (n : ArticleNumber) (t : ustr)
| LParagraph (n : ArticleNumber) (t : ustr)
| LItem (i : ItemNumber) (t : ustr)
| LSuppl (o : option ustr)
| LText (s : ustr).

(** /repo/src/parse_from_text.rs 942. *)
Definition re_caption : re :=
  Seq (Lit (u "（")) (Seq (Cap "caption" (chars (fun c => negb (N.eqb c (uc "）"))))) (Seq (Lit (u "）")) End)).

(** /repo/src/parse_from_text.rs 943-944. *)
Definition re_suppl : re :=
  let blanks := Star (Chr (fun c => N.eqb c (uc "　") || is_space c)) in
  Seq (Lit (u "附")) (Seq blanks (Seq (Lit (u "則")) (Seq blanks (Seq
    (Opt (Seq (Lit (u "（")) (Seq (Cap "law_num" (chars (fun c => negb (N.eqb c 10)))) (Lit (u "）")))))
    (Seq (Star (Chr (fun c => negb (one_of (u "（）") c)))) End))))).

(** /repo/src/parse_from_text.rs 939-977. *)
Definition parse_line (cd : codec) (l : ustr) : R line :=
  let l := trim l in
  match captures re_caption l with
  | Some c => t <- group_text "caption" c; Ok (LCaption t)
  | None =>
      x <- split_number l;
      match x with
      | Some (s, t) =>
          a <- parse_article_number cd s;
          match a with
          | Some n =>
              Ok (if contains (uc "編") s then LPart n t
                  else if contains (uc "章") s then LChapter n t
                  else if contains (uc "節") s then LSection n t
                  else if contains (uc "款") s then LSubsection n t
                  else if contains (uc "目") s then LDivision n t
                  else if contains (uc "条") s then LArticle n t
                  else LParagraph n t)
          | None =>
              i <- parse_item_number cd s;
              match i with
              | Some i => Ok (LItem i t)
              | None => Ok (LText l)
              end
          end
      | None =>
          match captures re_suppl l with
          | Some c => Ok (LSuppl (group "law_num" c))
          | None => Ok (LText l)
          end
      end
  end.

(** ** Loops on fuel *)
Definition Run (A : Type) := option (R A).
Definition done {A} (a : A) : Run A := Some (Ok a).
Definition then_ {A B} (x : Run A) (f : A -> Run B) : Run B :=
  match x with
  | None => None
  | Some (Ok a) => f a
  | Some (Err e) => Some (Err e)
  | Some Panic => Some Panic
  end.
Notation "x <~ a ; b" := (then_ a (fun x => b)) (at level 61, a at next level, right associativity).

Definition text_of (s : ustr) : Text Knot := [TE_Text (enc s)].

(** [text.trim() == "削除" || text.trim() == "（削除）"]. *)
Definition deleted (t : ustr) : bool := ueqb (trim t) (u "削除") || ueqb (trim t) (u "（削除）").

(** [ItemPattern: PartialEq], /repo/src/article_number.rs 332. *)
Definition pat_eqb (p q : ItemPattern) : bool :=
  match p, q with
  | NoParenKansuji, NoParenKansuji | NoParenIrohaKatakana, NoParenIrohaKatakana
  | NoParenIrohaHiragana, NoParenIrohaHiragana | NoParenZenkakuNum, NoParenZenkakuNum
  | NoParenZenkakuRomanUpper, NoParenZenkakuRomanUpper | NoParenZenkakuRomanLower, NoParenZenkakuRomanLower
  | NoParenZenkakuUpper, NoParenZenkakuUpper | NoParenZenkakuLower, NoParenZenkakuLower
  | ParenKansuji, ParenKansuji | ParenIrohaKatakana, ParenIrohaKatakana
  | ParenIrohaHiragana, ParenIrohaHiragana | ParenZenkakuNum, ParenZenkakuNum
  | ParenZenkakuRomanUpper, ParenZenkakuRomanUpper | ParenZenkakuRomanLower, ParenZenkakuRomanLower
  | ParenZenkakuUpper, ParenZenkakuUpper | ParenZenkakuLower, ParenZenkakuLower => true
  | _, _ => false
  end.

(** /repo/src/parse_from_text.rs 731-739. *)
Definition text_to_sentence (num : N) (t : ustr) : Knot KSentence :=
  mkSentence (mkSentenceF [SE_String (enc t)] (Some num) None None Vertical).

(** [.iter().enumerate().map(|(n, s)| text_to_sentence(n + 1, s))], from number [n] on. *)
Fixpoint sentences_from (n : N) (l : list ustr) : list (Knot KSentence) :=
  match l with [] => [] | t :: r => text_to_sentence n t :: sentences_from (n + 1) r end.
Definition sentences := sentences_from 1.

(** [while let Some(LineContents::Text(s)) = lines.peek()], /repo/src/parse_from_text.rs 241-244,
    255-258 and the same in each [parse_subitem]. *)
Fixpoint take_texts (l : list line) : list ustr * list line :=
  match l with
  | LText s :: r => let (a, b) := take_texts r in (s :: a, b)
  | _ => ([], l)
  end.

(** The value built in each item loop, /repo/src/parse_from_text.rs 265-279 and 320-334. *)
Definition item_of (l : lvl) (i : ItemNumber) (t : ustr) (ts : list ustr)
    (children : list (Knot (sub_item l))) : Knot (KItem l) :=
  @mkItem l (mkItemF None (SCT_Sentence (sentences (t :: ts))) children [] (Some (from_item_number i)) (deleted t) false).

(** /repo/src/parse_from_text.rs 298-340 and, with the level changed, 342-692 (levels 1 to 9); 694-729
    (level 10) has no nested call, so that every other pattern reaches [unreachable!()]. *)
Fixpoint subitems (fuel : nat) (l : lvl) (parent now : ItemPattern) (lines : list line)
    {struct fuel} : Run (list (Knot (KItem l)) * list line) :=
  match fuel with
  | O => None
  | S f =>
      match lines with
      | LItem i t :: rest =>
          if pat_eqb (inum_pattern i) parent then done ([], lines)
          else if pat_eqb (inum_pattern i) now then
            let (ts, rest) := take_texts rest in
            x <~ match rest with
                 | LItem j _ :: _ =>
                     if negb (pat_eqb (inum_pattern j) now) && negb (pat_eqb (inum_pattern j) parent) then
                       match l return Run (list (Knot (sub_item l)) * list line) with
                       | Item0 => subitems f Sub1 now (inum_pattern j) rest
                       | Sub1 => subitems f Sub2 now (inum_pattern j) rest
                       | Sub2 => subitems f Sub3 now (inum_pattern j) rest
                       | Sub3 => subitems f Sub4 now (inum_pattern j) rest
                       | Sub4 => subitems f Sub5 now (inum_pattern j) rest
                       | Sub5 => subitems f Sub6 now (inum_pattern j) rest
                       | Sub6 => subitems f Sub7 now (inum_pattern j) rest
                       | Sub7 => subitems f Sub8 now (inum_pattern j) rest
                       | Sub8 => subitems f Sub9 now (inum_pattern j) rest
                       | Sub9 => subitems f Sub10 now (inum_pattern j) rest
                       | Sub10 => done ([], rest)
                       end
                     else done ([], rest)
                 | _ => done ([], rest)
                 end;
            y <~ subitems f l parent now (snd x);
            done (item_of l i t ts (fst x) :: fst y, snd y)
          else Some Panic
      | _ => done ([], lines)
      end
  end.

(** The item loop of a paragraph, /repo/src/parse_from_text.rs 251-281. *)
Fixpoint items (fuel : nat) (lines : list line) {struct fuel} : Run (list (Knot (KItem Item0)) * list line) :=
  match fuel with
  | O => None
  | S f =>
      match lines with
      | LItem i t :: rest =>
          let (ts, rest) := take_texts rest in
          x <~ match rest with
               | LItem j _ :: _ =>
                   if negb (pat_eqb (inum_pattern j) (inum_pattern i))
                   then subitems f Sub1 (inum_pattern i) (inum_pattern j) rest
                   else done ([], rest)
               | _ => done ([], rest)
               end;
          y <~ items f (snd x);
          done (item_of Item0 i t ts (fst x) :: fst y, snd y)
      | _ => done ([], lines)
      end
  end.

(** /repo/src/parse_from_text.rs 235-296. *)
Definition paragraph_of (n : ArticleNumber) (s : list (Knot KSentence)) (c : list (Knot (KItem Item0))) : Knot KParagraph :=
  mkParagraph (mkParagraphF None [] [] [] s [] c n false false false).
Definition parse_paragraph (fuel : nat) (n : ArticleNumber) (t : ustr) (lines : list line)
    : Run (Knot KParagraph * list line) :=
  let (ts, rest) := take_texts lines in
  x <~ items fuel rest;
  done (paragraph_of n (sentences (t :: ts)) (fst x), snd x).

(** The paragraph loop of an article, /repo/src/parse_from_text.rs 218-222. *)
Fixpoint paragraphs (fuel : nat) (lines : list line) {struct fuel} : Run (list (Knot KParagraph) * list line) :=
  match fuel with
  | O => None
  | S f =>
      match lines with
      | LParagraph n t :: rest =>
          x <~ parse_paragraph f n t rest;
          y <~ paragraphs f (snd x);
          done (fst x :: fst y, snd y)
      | _ => done ([], lines)
      end
  end.

(** /repo/src/parse_from_text.rs 206-233; [ArticleNumber::from_num_str("1").unwrap()] is the number 1
    (/repo/src/article_number.rs 43-89). *)
Definition parse_article (fuel : nat) (caption : option ustr) (n : ArticleNumber) (t : ustr) (lines : list line)
    : Run (Knot KArticle * list line) :=
  x <~ parse_paragraph fuel (mkAN 1 [] []) t lines;
  y <~ paragraphs fuel (snd x);
  done (mkArticle (mkArticleF (option_map (fun s => mkCaption (text_of s) None) caption) (text_of []) (fst x :: fst y)
          None n (deleted t) false), snd y).

(** The loop of [parse_part] (17-38), [parse_chapter] (58-79), [parse_section] (99-120),
    [parse_subsection] (140-161) and [parse_division] (181-196): captions, articles, and lines for
    which [sub] gives a parser of the next lower heading. *)
Fixpoint head_loop {C : Type} (article : Knot KArticle -> C)
    (sub : nat -> line -> list line -> option (Run (C * list line)))
    (fuel : nat) (caption : option ustr) (lines : list line) {struct fuel} : Run (list C * list line) :=
  match fuel with
  | O => None
  | S f =>
      match lines with
      | LCaption s :: rest => head_loop article sub f (Some s) rest
      | LArticle n t :: rest =>
          x <~ parse_article f caption n t rest;
          y <~ head_loop article sub f None (snd x);
          done (article (fst x) :: fst y, snd y)
      | l :: rest =>
          match sub f l rest with
          | Some r =>
              x <~ r;
              y <~ head_loop article sub f None (snd x);
              done (fst x :: fst y, snd y)
          | None => done ([], lines)
          end
      | [] => done ([], lines)
      end
  end.

Definition head_of {C} (n : ArticleNumber) (t : ustr) (c : list C) : HeadF Knot C :=
  mkHeadF (text_of t) c n (deleted t) false.

(** /repo/src/parse_from_text.rs 171-204. *)
Definition parse_division (fuel : nat) (n : ArticleNumber) (t : ustr) (lines : list line) : Run (Knot KDivision * list line) :=
  x <~ head_loop (fun a => a) (fun _ _ _ => None) fuel None lines;
  done (mkDivision (head_of n t (fst x)), snd x).

(** /repo/src/parse_from_text.rs 130-169. *)
Definition parse_subsection (fuel : nat) (n : ArticleNumber) (t : ustr) (lines : list line) : Run (Knot KSubsection * list line) :=
  x <~ head_loop SuC_Article
         (fun f l rest => match l with
                          | LDivision n t => Some (x <~ parse_division f n t rest; done (SuC_Division (fst x), snd x))
                          | _ => None
                          end) fuel None lines;
  done (mkSubsection (head_of n t (fst x)), snd x).

(** /repo/src/parse_from_text.rs 89-128. *)
Definition parse_section (fuel : nat) (n : ArticleNumber) (t : ustr) (lines : list line) : Run (Knot KSection * list line) :=
  x <~ head_loop SeC_Article
         (fun f l rest => match l with
                          | LSubsection n t => Some (x <~ parse_subsection f n t rest; done (SeC_Subsection (fst x), snd x))
                          | _ => None
                          end) fuel None lines;
  done (mkSection (head_of n t (fst x)), snd x).

(** /repo/src/parse_from_text.rs 48-87. *)
Definition parse_chapter (fuel : nat) (n : ArticleNumber) (t : ustr) (lines : list line) : Run (Knot KChapter * list line) :=
  x <~ head_loop ChC_Article
         (fun f l rest => match l with
                          | LSection n t => Some (x <~ parse_section f n t rest; done (ChC_Section (fst x), snd x))
                          | _ => None
                          end) fuel None lines;
  done (mkChapter (head_of n t (fst x)), snd x).

(** /repo/src/parse_from_text.rs 7-46. *)
Definition parse_part (fuel : nat) (n : ArticleNumber) (t : ustr) (lines : list line) : Run (Knot KPart * list line) :=
  x <~ head_loop PC_Article
         (fun f l rest => match l with
                          | LChapter n t => Some (x <~ parse_chapter f n t rest; done (PC_Chapter (fst x), snd x))
                          | _ => None
                          end) fuel None lines;
  done (mkPart (head_of n t (fst x)), snd x).

(** The variables of [parse_body], /repo/src/parse_from_text.rs 747-754. *)
Record body_state := mkBS {
  bs_preamble : list ustr;
  bs_is_preamble : bool;
  bs_main : list (MainContents Knot);
  bs_suppl : list (Knot KSuppl);
  bs_suppl_children : list (SupplContents Knot);
  bs_suppl_num : option (option ustr);
  bs_caption : option ustr
}.

(** /repo/src/parse_from_text.rs 811-821 and 866-876. *)
Definition close_suppl (st : body_state) : list (Knot KSuppl) :=
  match bs_suppl_num st with
  | Some o =>
      match bs_suppl_children st with
      | [] => bs_suppl st
      | c => bs_suppl st ++ [mkSuppl (mkSupplF (text_of (u "附則")) c None (option_map enc o) None)]
      end
  | None => bs_suppl st
  end.

Definition add_main (st : body_state) (c : MainContents Knot) : body_state :=
  mkBS (bs_preamble st) false (bs_main st ++ [c]) (bs_suppl st) (bs_suppl_children st) (bs_suppl_num st) None.
Definition add_suppl (st : body_state) (c : SupplContents Knot) : body_state :=
  mkBS (bs_preamble st) false (bs_main st) (bs_suppl st) (bs_suppl_children st ++ [c]) (bs_suppl_num st) None.

(** /repo/src/parse_from_text.rs 757-827.  The arms for [Text] outside the preamble (804-809) and for
    [SupplProvision] (810-824) do not advance the iterator. *)
Fixpoint body_loop (fuel : nat) (st : body_state) (lines : list line) {struct fuel} : Run (body_state * list line) :=
  match fuel with
  | O => None
  | S f =>
      match lines with
      | [] => done (st, [])
      | LPart n t :: rest =>
          x <~ parse_part f n t rest;
          body_loop f (add_main st (MC_Part (fst x))) (snd x)
      | LChapter n t :: rest =>
          x <~ parse_chapter f n t rest;
          body_loop f (match bs_suppl_num st with
                       | Some _ => add_suppl st (SP_Chapter (fst x))
                       | None => add_main st (MC_Chapter (fst x))
                       end) (snd x)
      | LSection n t :: rest =>
          x <~ parse_section f n t rest;
          body_loop f (add_main st (MC_Section (fst x))) (snd x)
      | LCaption s :: rest =>
          body_loop f (mkBS (bs_preamble st) false (bs_main st) (bs_suppl st) (bs_suppl_children st) (bs_suppl_num st) (Some s)) rest
      | LArticle n t :: rest =>
          x <~ parse_article f (bs_caption st) n t rest;
          body_loop f (match bs_suppl_num st with
                       | Some _ => add_suppl st (SP_Article (fst x))
                       | None => add_main st (MC_Article (fst x))
                       end) (snd x)
      | LText s :: rest =>
          if bs_is_preamble st then
            body_loop f (mkBS (bs_preamble st ++ [s]) true (bs_main st) (bs_suppl st) (bs_suppl_children st) (bs_suppl_num st) (bs_caption st)) rest
          else body_loop f st lines
      | LSuppl o :: _ =>
          body_loop f (mkBS (bs_preamble st) (bs_is_preamble st) (bs_main st) (close_suppl st) [] (Some o) (bs_caption st)) lines
      | _ => done (st, lines)
      end
  end.

(** /repo/src/parse_from_text.rs 829-860. *)
Fixpoint preamble_paragraphs (n : N) (l : list ustr) : list (Knot KParagraph) :=
  match l with
  | [] => []
  | s :: r => paragraph_of (mkAN n [] []) [text_to_sentence 0 s] [] :: preamble_paragraphs (n + 1) r
  end.
Definition preamble_of (l : list ustr) : option (Knot KPreamble) :=
  match l with [] => None | _ => Some (mkPreamble (preamble_paragraphs 0 l)) end.

(** /repo/src/parse_from_text.rs 829-898. *)
Definition body_of_state (title : ustr) (st : body_state) : Knot KLawBody :=
  mkLawBody (mkLawBodyF (Some (mkLawTitle (mkLawTitleF None None None (text_of title)))) [] None None
    (preamble_of (bs_preamble st)) (mkMain (mkMainF (bs_main st) None)) (close_suppl st) [] [] [] [] [] []).

Definition initial : body_state := mkBS [] true [] [] [] None None.

(** The part of [parse_body] after the lines are classified, /repo/src/parse_from_text.rs 747-899. *)
Definition parse_lines (fuel : nat) (title : ustr) (lines : list line) : Run (Knot KLawBody) :=
  x <~ body_loop fuel initial lines;
  done (body_of_state title (fst x)).

(** [str::lines]: pieces between line feeds, without an empty piece at the end.  A carriage return
    before the line feed is removed by the following [trim]. *)
Fixpoint drop_last_empty (l : list ustr) : list ustr :=
  match l with
  | [] => []
  | [[]] => []
  | x :: r => x :: drop_last_empty r
  end.
Definition text_lines (s : ustr) : list ustr := drop_last_empty (usplit 10 s).

Fixpoint map_r {A B} (f : A -> R B) (l : list A) : R (list B) :=
  match l with
  | [] => Ok []
  | a :: r => b <- f a; c <- map_r f r; Ok (b :: c)
  end.

(** /repo/src/parse_from_text.rs 741-746. *)
Definition classify (cd : codec) (text : ustr) : R (list line) :=
  map_r (fun l => parse_line cd (trim l)) (text_lines text).

(** [parse_body], /repo/src/parse_from_text.rs 741-899. *)
Definition parse_body (cd : codec) (fuel : nat) (title text : ustr) : Run (Knot KLawBody) :=
  match classify cd text with
  | Ok lines => parse_lines fuel title lines
  | Err e => Some (Err e)
  | Panic => Some Panic
  end.

(** The crate [koyomi]: [Date::from_ymd] and the name of the era of a date. *)
Record calendar := mkCalendar {
  date : Type;
  from_ymd : Z -> N -> N -> option date;
  era_name : date -> option ustr
}.

Definition as_u32 (n : N) : N := (n mod 2 ^ 32)%N.

(** /repo/src/lib.rs 90-97. *)
Definition era_of (name : ustr) : R Era :=
  if ueqb name (u "明治") then Ok Meiji
  else if ueqb name (u "大正") then Ok Taisho
  else if ueqb name (u "昭和") then Ok Showa
  else if ueqb name (u "平成") then Ok Heisei
  else if ueqb name (u "令和") then Ok Reiwa
  else Panic.

(** /repo/src/lib.rs 83-97. *)
Definition date_era (cal : calendar) (year : N) (month day : option N) : R Era :=
  let or1 o := match o with Some n => n | None => 1%N end in
  d <- unwrap (from_ymd cal (as_i32 year) (as_u32 (or1 month)) (as_u32 (or1 day)));
  e <- unwrap (era_name cal d);
  era_of e.

(** /repo/src/lib.rs 72-110. *)
Definition parse_text (cd : codec) (cal : calendar) (fuel : nat) (text : ustr) (year : N) (month day : option N)
    (ty : LawType) (lang : Lang) (num : option ArticleNumber) (law_num : string) (title : ustr) : Run Law :=
  match date_era cal year month day with
  | Ok e =>
      b <~ parse_body cd fuel title text;
      done (mkLaw e year num month day ty lang law_num b)
  | Err e => Some (Err e)
  | Panic => Some Panic
  end.
