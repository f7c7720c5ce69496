(** Properties of the layout of plain text: what does not matter in it, and what blank lines do. *)
From Coq Require Import String List NArith Bool Lia.
From Verif Require Import Base NumStr Ast Regex NumText NumTextSpec TextParse TextSpec CodecSample LayoutSpec LayoutFacts.
Import ListNotations.
Open Scope string_scope.
Open Scope list_scope.

(** C91.  Texts whose lines agree up to white space at both ends are read alike, whatever the result. *)
Theorem C91_same : forall cd cal fuel t t' year month day ty lang num law_num title, same_text t t' ->
  parse_text cd cal fuel t year month day ty lang num law_num title =
  parse_text cd cal fuel t' year month day ty lang num law_num title.
Proof. exact same_text_law. Qed.
Print Assumptions C91_same.
Theorem C91_same_body : forall cd t t' fuel title, same_text t t' ->
  parse_body cd fuel title t = parse_body cd fuel title t'.
Proof. exact same_text_body. Qed.
Print Assumptions C91_same_body.

(** In particular the convention for the end of lines (such as carriage return and line feed) and a
    line feed at the end of the text do not matter. *)
Theorem C91_line_ends : forall cd fuel title e ls, blank e -> ~ In 10%N e -> Forall (fun l => ~ In 10%N l) ls ->
  parse_body cd fuel title (ended [10%N] ls) = parse_body cd fuel title (ended (e ++ [10%N]) ls).
Proof. intros. apply same_text_body, line_ends; assumption. Qed.
Print Assumptions C91_line_ends.
Theorem C91_last_feed : forall cd fuel title t c, c <> 10%N ->
  parse_body cd fuel title (t ++ [c]) = parse_body cd fuel title (t ++ [c; 10%N]).
Proof. intros. apply same_text_body, last_feed; assumption. Qed.
Print Assumptions C91_last_feed.

Definition layout_lines : list ustr := [u "第一章　総則"; u "第一条　甲とする。"; u "２　乙とする。"].
Example C91_case :
  same_text (ended [10%N] layout_lines)
    (u "　　　第一章　総則" ++ [13%N; 10%N] ++ u " 第一条　甲とする。　" ++ [10%N; 9%N] ++ u "２　乙とする。") /\
  parse_body sample_codec 20 (u "法") (ended [10%N] layout_lines) = parse_body sample_codec 20 (u "法") (ended [13%N; 10%N] layout_lines) /\
  match parse_body sample_codec 20 (u "法") (ended [13%N; 10%N] layout_lines) with
  | Some (Ok b) => length (list_body b) | _ => 0 end = 6.
Proof.
  split.
  - exists layout_lines, [u "　　　第一章　総則" ++ [13%N]; u " 第一条　甲とする。　"; 9%N :: u "２　乙とする。"].
    assert (X : forall l, existsb (N.eqb 10) l = false -> ~ In 10%N l).
    { intros l H Y. assert (Z : existsb (N.eqb 10) l = true) by (apply existsb_exists; exists 10%N; auto). congruence. }
    split; [|split].
    + split; [|left; reflexivity]. repeat (apply Forall_cons; [apply X; vm_compute; reflexivity|]). apply Forall_nil.
    + split; [repeat (apply Forall_cons; [apply X; vm_compute; reflexivity|]); apply Forall_nil|]. right.
      exists [u "　　　第一章　総則" ++ [13%N]; u " 第一条　甲とする。　"], (9%N :: u "２　乙とする。").
      split; [reflexivity|]. split; [discriminate|]. vm_compute. reflexivity.
    + assert (B : forall l, forallb is_space l = true -> blank l) by (intros l H; apply Forall_forall, forallb_forall; exact H).
      apply Forall2_cons; [exists (u "第一章　総則"), [], [], (u "　　　"), [13%N]|].
      { split; [apply B; reflexivity|]. split; [apply B; reflexivity|]. split; [apply B; reflexivity|]. split; [apply B; reflexivity|].
        split; vm_compute; reflexivity. }
      apply Forall2_cons; [exists (u "第一条　甲とする。"), [], [], (u " "), (u "　")|].
      { split; [apply B; reflexivity|]. split; [apply B; reflexivity|]. split; [apply B; reflexivity|]. split; [apply B; reflexivity|].
        split; vm_compute; reflexivity. }
      apply Forall2_cons; [exists (u "２　乙とする。"), [], [], [9%N], []|apply Forall2_nil].
      split; [apply B; reflexivity|]. split; [apply B; reflexivity|]. split; [apply B; reflexivity|]. split; [apply B; reflexivity|].
      split; vm_compute; reflexivity.
  - split; vm_compute; reflexivity.
Qed.

(** Blank lines do matter.  A line is read as an empty text exactly if it is blank. *)
Theorem C91_blank : forall cd l, parse_line cd l = Ok (LText []) <-> blank l.
Proof. exact blank_iff. Qed.
Print Assumptions C91_blank.

(** Directly after a heading or caption it lets the parser run for ever. *)
Theorem C91_blank_loops : forall cd title ls1 l ls2 text a b, joined (ls1 ++ l :: ls2) text -> blank l ->
  Forall2 (fun l x => parse_line cd l = Ok x) ls1 a -> Forall2 (fun l x => parse_line cd l = Ok x) ls2 b ->
  readable a -> after_heading a -> forall fuel, parse_body cd fuel title text = None.
Proof. exact blank_line_loops. Qed.
Print Assumptions C91_blank_loops.

(** Everywhere else it adds an empty sentence and nothing else. *)
Theorem C91_blank_counts : forall cd title ls1 l ls2 text text' a b,
  joined (ls1 ++ ls2) text -> joined (ls1 ++ l :: ls2) text' -> blank l ->
  Forall2 (fun l x => parse_line cd l = Ok x) ls1 a -> Forall2 (fun l x => parse_line cd l = Ok x) ls2 b ->
  readable (a ++ b) -> ~ after_heading a ->
  exists v v', (forall fuel, length (a ++ b) < fuel -> parse_body cd fuel title text = Some (Ok v)) /\
    (forall fuel, S (length (a ++ b)) < fuel -> parse_body cd fuel title text' = Some (Ok v')) /\
    flat_map entry_content (list_body v) = content a ++ content b /\
    flat_map entry_content (list_body v') = content a ++ PText (bare_sentence []) :: content b.
Proof. exact blank_line_counts. Qed.
Print Assumptions C91_blank_counts.

(** A text that starts with a blank line has a preamble. *)
Theorem C91_blank_first : forall cd fuel title l ls text b, joined (l :: ls) text -> blank l ->
  parse_body cd fuel title text = Some (Ok b) -> exists p, lb_preamble (un KLawBody b) = Some p.
Proof. exact blank_line_first. Qed.
Print Assumptions C91_blank_first.

Definition texts_read (t : ustr) : option (nat * nat * bool) :=
  match parse_body sample_codec 50 (u "法") t with
  | Some (Ok b) => Some (length (list_body b),
      length (filter (fun e => match e with PText s => match sen_contents s with [SE_String ""] => true | _ => false end | _ => false end)
        (flat_map entry_content (list_body b))),
      match lb_preamble (un KLawBody b) with Some _ => true | None => false end)
  | _ => None
  end.
Example C91_blank_case :
  texts_read (ended [10%N] layout_lines) = Some (6, 0, false) /\
  texts_read (ended [10%N] [u "第一章　総則"; u "第一条　甲とする。"; u "　"; u "２　乙とする。"; []]) = Some (8, 2, false) /\
  texts_read (ended [10%N] ([] :: layout_lines)) = Some (8, 1, true) /\
  parse_body sample_codec 50 (u "法") (ended [10%N] [u "第一章　総則"; []; u "第一条　甲とする。"]) = None /\
  classify sample_codec (ended [10%N] [u "第一章　総則"]) = Ok [LChapter (mkAN 1 [] []) (u "総則")] /\
  after_heading [LChapter (mkAN 1 [] []) (u "総則")] /\ readable [LChapter (mkAN 1 [] []) (u "総則")].
Proof.
  split; [vm_compute; reflexivity|]. split; [vm_compute; reflexivity|]. split; [vm_compute; reflexivity|].
  split; [vm_compute; reflexivity|]. split; [vm_compute; reflexivity|].
  split; [exists [], (LChapter (mkAN 1 [] []) (u "総則")); split; [reflexivity|exact I]|].
  apply (R_snoc []); [constructor|intros []|intros []|intros []].
Qed.
