(** A law body that plain text can give is read again from its own printing. *)
From Coq Require Import String List NArith Bool Arith Lia.
From Verif Require Import Base NumStr Ast KnotFacts Regex NumText NumTextSpec TextParse TextSpec TextFacts OutlineFacts
  LineFacts ClassifyFacts ArticleText ShapeSpec ShapeFacts ShapeLines ShapeText ListingFacts PrintSpec.
Import ListNotations.
Open Scope string_scope.
Open Scope list_scope.

Section Print.
Variable pattern : nat -> ItemPattern.

(** The patterns of [n] open items, innermost first. *)
Fixpoint stack (n : nat) : list ItemPattern := match n with 0 => [] | S k => pattern k :: stack k end.
Lemma stack_length : forall n, length (stack n) = n.
Proof. induction n; cbn; congruence. Qed.

(** The machine on the lines that were read, and on the printed lines. *)
Definition same (m m' : mode) : Prop :=
  match m with
  | MTop _ => match m' with MTop (Some _) => False | _ => True end
  | MPre k => m' = MPre k
  | MArt its k => m' = MArt (stack (length its)) k
  end.

Section Scheme.
Hypothesis good : scheme pattern.

Lemma next_stack : forall p its its', length its <= 11 -> next_items p its = Some its' ->
  next_items (pattern (length its' - 1)) (stack (length its)) = Some (stack (length its')) /\ 1 <= length its' <= 11.
Proof.
  intros p [|now [|parent up]] its' L E; cbn [next_items length] in *.
  - injection E as <-. cbn. split; [reflexivity|lia].
  - destruct (pat_eqb p now) eqn:Q.
    + injection E as <-. cbn. rewrite pat_eqb_refl. split; [reflexivity|lia].
    + injection E as <-. cbn. rewrite (proj2 (pat_eqb_neq _ _)); [split; [reflexivity|lia]|]. apply good. lia.
  - destruct (pat_eqb p now) eqn:Q; [|destruct (pat_eqb p parent) eqn:Q2; [|destruct (Nat.ltb (S (S (length up))) 11) eqn:Q3; [|discriminate E]]];
      injection E as <-; cbn [length stack next_items] in *.
    + replace (S (S (length up)) - 1) with (S (length up)) by lia. rewrite pat_eqb_refl. split; [reflexivity|lia].
    + replace (S (length up) - 1) with (length up) by lia. rewrite pat_eqb_refl.
      rewrite (proj2 (pat_eqb_neq (pattern (length up)) _)); [split; [reflexivity|lia]|]. intros X. symmetry in X. revert X. apply good. lia.
    + apply Nat.ltb_lt in Q3. replace (S (S (S (length up))) - 1) with (S (S (length up))) by lia.
      rewrite (proj2 (pat_eqb_neq _ (pattern (S (length up))))); [|apply good; lia].
      rewrite (proj2 (pat_eqb_neq _ (pattern (length up)))); [|apply good; lia]. rewrite stack_length.
      assert (T : Nat.ltb (S (S (length up))) 11 = true) by (apply Nat.ltb_lt; exact Q3). rewrite T. split; [reflexivity|lia].
Qed.

Lemma add_inv : forall l x es rest, add l x = (es, Ends rest) -> exists es', x = (es', Ends rest) /\ es = l ++ es'.
Proof. intros l [a b] es rest E. unfold add in E. cbn in E. injection E as <- ->. eauto. Qed.

Definition deep_ok (m : mode) : Prop := match m with MArt its _ => length its <= 11 | _ => True end.
Lemma print_step : forall lines open m es rest, outline_from open m lines = (es, Ends rest) -> deep_ok m ->
  forall out m', prints pattern es out -> same m m' -> outline_from open m' out = (es, Ends []).
Proof.
  induction lines as [|l lines IH]; intros open m es rest E D out m' P S.
  - injection E as <- <-. inversion P. reflexivity.
  - assert (stop : es = [] -> outline_from open m' out = (es, Ends [])) by (intros ->; inversion P; reflexivity).
    assert (head : forall r n t, match place r open with
        | Some up => add [EHead (length up) r (as_text t) n (says_deleted t) false] (outline_from (r :: up) (MTop None) lines)
        | None => ([], Ends (l :: lines)) end = (es, Ends rest) -> outline_from open m' out = (es, Ends [])).
    { intros r n t H. destruct (place r open) as [up|] eqn:Q; [|injection H as <- _; auto].
      apply add_inv in H as (es' & H & ->). cbn [app] in P |- *. inversion P as [|d r' t' n' es1 ls1 P1| | | | |]; subst.
      assert (T : outline_from (r :: up) (MTop None) ls1 = (es', Ends [])) by (apply (IH _ _ _ _ H I ls1 (MTop None) P1 I)).
      replace (outline_from open m' (heading r n t' :: ls1)) with (match place r open with
        | Some up => add [EHead (length up) r (as_text t') n (says_deleted t') false] (outline_from (r :: up) (MTop None) ls1)
        | None => ([], Ends (heading r n t' :: ls1)) end) by (destruct r; reflexivity).
      rewrite Q, T. unfold add, sentence, paragraph, as_text in *. cbn [fst snd app]. congruence. }
    destruct l as [s|n t|n t|n t|n t|n t|n t|n t|i t|o|s]; 
      [|exact (head RPart n t E)|exact (head RChapter n t E)|exact (head RSection n t E)|exact (head RSubsection n t E)|exact (head RDivision n t E)|..]; clear head; cbn [outline_from] in E.
    + (* caption *) apply (IH _ _ _ _ E I out m' P). destruct m; cbn in S |- *; subst; try exact I. exact S.
    + (* article *) apply add_inv in E as (es' & E & ->). cbn [app] in P |- *.
      inversion P as [| |d cap n' t' es1 ls1 P1| | | |]; subst.
      assert (T : outline_from open (MArt [] 2) ls1 = (es', Ends [])) by (apply (IH _ _ _ _ E (Nat.le_0_l 11) ls1 (MArt [] 2) P1 eq_refl)).
      destruct cap as [s|]; cbn [caption_lines app outline_from stored_caption option_map].
      * rewrite T. unfold add, sentence, paragraph, as_text in *. cbn [fst snd app]. congruence.
      * assert (N : match m' with MTop (Some s) => Some (mkCaption (as_text s) None) | _ => None end = None).
        { destruct m; cbn in S; subst; try reflexivity. destruct m' as [|[]|]; try reflexivity. destruct S. }
        rewrite T, N. cbn [stored_caption option_map] in *. unfold add, sentence, paragraph, as_text in *. cbn [fst snd app]. congruence.
    + (* paragraph *) destruct m as [k|c|its k]; [injection E as <- _; auto|injection E as <- _; auto|].
      apply add_inv in E as (es' & E & ->). cbn [app] in P |- *. inversion P as [| | |n' t' es1 ls1 P1| | |]; subst.
      cbn in S. subst m'. cbn [outline_from]. rewrite (IH _ _ _ _ E (Nat.le_0_l 11) ls1 (MArt [] 2) P1 eq_refl). unfold add, sentence, paragraph, as_text in *. cbn [fst snd app]. congruence.
    + (* item *) destruct m as [k|c|its k]; [injection E as <- _; auto|injection E as <- _; auto|].
      destruct (next_items (inum_pattern i) its) as [its'|] eqn:Q; [|discriminate E].
      apply add_inv in E as (es' & E & ->). cbn [app] in P |- *. inversion P as [| | | |k' i' t' es1 ls1 Pi P1| |]; subst.
      cbn in S. subst m'. cbn [outline_from]. destruct (next_stack _ _ _ D Q) as [N1 N2]. rewrite Pi, N1, stack_length.
      rewrite (IH _ _ _ _ E (proj2 N2) ls1 (MArt (stack (length its')) 2) P1 eq_refl). unfold add, sentence, paragraph, as_text in *. cbn [fst snd app]. congruence.
    + (* supplementary *) discriminate E.
    + (* text *) destruct m as [k|c|its k]; [|discriminate E|].
      * apply add_inv in E as (es' & E & ->). cbn [app] in P |- *. inversion P as [| | | | |n' t' es1 ls1 P1|]; subst.
        cbn in S. subst m'. cbn [outline_from]. rewrite (IH _ _ _ _ E I ls1 (MPre (k + 1)) P1 eq_refl). unfold add, sentence, paragraph, as_text in *. cbn [fst snd app]. congruence.
      * apply add_inv in E as (es' & E & ->). cbn [app] in P |- *. inversion P as [| | | | | |k' t' es1 ls1 P1]; subst.
        cbn in S. subst m'. cbn [outline_from]. rewrite (IH _ _ _ _ E D ls1 (MArt (stack (length its)) (k + 1)) P1 eq_refl). unfold add, sentence, paragraph, as_text in *. cbn [fst snd app]. congruence.
Qed.
End Scheme.

(** Every listing of the machine can be printed. *)
Lemma print_exists : forall lines open m es rest, outline_from open m lines = (es, Ends rest) -> exists out, prints pattern es out.
Proof.
  induction lines as [|l lines IH]; intros open m es rest E.
  - injection E as <- <-. exists []. constructor.
  - assert (stop : es = [] -> exists out, prints pattern es out) by (intros ->; exists []; constructor).
    assert (head : forall r n t, match place r open with
        | Some up => add [EHead (length up) r (as_text t) n (says_deleted t) false] (outline_from (r :: up) (MTop None) lines)
        | None => ([], Ends (l :: lines)) end = (es, Ends rest) -> exists out, prints pattern es out).
    { intros r n t H. destruct (place r open) as [up|] eqn:Q; [|injection H as <- _; auto].
      apply add_inv in H as (es' & H & ->). destruct (IH _ _ _ _ H) as (out & P). eexists. cbn [app]. constructor. exact P. }
    destruct l as [s|n t|n t|n t|n t|n t|n t|n t|i t|o|s]; 
      [|exact (head RPart n t E)|exact (head RChapter n t E)|exact (head RSection n t E)|exact (head RSubsection n t E)|exact (head RDivision n t E)|..]; clear head; cbn [outline_from] in E.
    + exact (IH _ _ _ _ E).
    + apply add_inv in E as (es' & E & ->). destruct (IH _ _ _ _ E) as (out & P). cbn [app].
      assert (C : exists cap, match m with MTop (Some s) => Some (mkCaption (as_text s) None) | _ => None end = stored_caption cap).
      { destruct m as [k|[s|]|its k]; [exists None|exists (Some s)|exists None|exists None]; reflexivity. }
      destruct C as (cap & ->). eexists. constructor. exact P.
    + destruct m as [k|c|its k]; [injection E as <- _; auto|injection E as <- _; auto|]. apply add_inv in E as (es' & E & ->).
      destruct (IH _ _ _ _ E) as (out & P). eexists. cbn [app]. constructor. exact P.
    + destruct m as [k|c|its k]; [injection E as <- _; auto|injection E as <- _; auto|]. destruct (next_items (inum_pattern i) its) as [its'|]; [|discriminate E].
      apply add_inv in E as (es' & E & ->). destruct (IH _ _ _ _ E) as (out & P). cbn [app].
      exists (LItem (mkIN [] (inum_base i) (inum_eda i) (inum_range i) (pattern (length its' - 1))) t :: out).
      apply (prints_item pattern (length its' - 1) (mkIN [] (inum_base i) (inum_eda i) (inum_range i) (pattern (length its' - 1))) t); [reflexivity|exact P].
    + discriminate E.
    + destruct m as [k|c|its k]; [|discriminate E|]; apply add_inv in E as (es' & E & ->);
        destruct (IH _ _ _ _ E) as (out & P); eexists; cbn [app]; constructor; exact P.
Qed.
End Print.

(** Every printing of a body that lines can give gives it. *)
Theorem print_read : forall pattern title b lines, scheme pattern -> body_shape (fun _ => True) title b ->
  prints pattern (list_body b) lines -> forall fuel, length lines < fuel -> parse_lines fuel title lines = Some (Ok b).
Proof.
  intros pattern title b lines G H P fuel L. destruct (body_has_lines _ title b H) as (ls & _ & E).
  specialize (E (S (length ls)) (Nat.lt_succ_diag_r _)).
  apply (parser_exact title ls _ b (Nat.lt_succ_diag_r _)) in E as (E1 & E2 & rest & E3).
  apply (parser_exact title lines fuel b L). split; [exact E1|]. split; [exact E2|]. exists [].
  exact (print_step pattern G ls [] (MPre 0) _ _ E3 I lines (MPre 0) P eq_refl).
Qed.
Theorem print_any : forall pattern title b, body_shape (fun _ => True) title b -> exists lines, prints pattern (list_body b) lines.
Proof.
  intros pattern title b H. destruct (body_has_lines _ title b H) as (ls & _ & E).
  specialize (E (S (length ls)) (Nat.lt_succ_diag_r _)).
  apply (parser_exact title ls _ b (Nat.lt_succ_diag_r _)) in E as (E1 & E2 & rest & E3). exact (print_exists pattern ls [] (MPre 0) _ _ E3).
Qed.
Theorem print_again : forall pattern title b fuel ls lines, scheme pattern -> parse_lines fuel title ls = Some (Ok b) ->
  prints pattern (list_body b) lines -> forall fuel, length lines < fuel -> parse_lines fuel title lines = Some (Ok b).
Proof.
  intros pattern title b fuel ls lines G E. apply print_read; [exact G|]. apply (body_is_shaped _ fuel title ls b E).
  apply Forall_forall. auto.
Qed.
Theorem print_text : forall cd pattern title b lines ls text, scheme pattern -> body_shape (fun _ => True) title b ->
  prints pattern (list_body b) lines -> Forall2 (written cd) lines ls -> joined ls text ->
  forall fuel, length lines < fuel -> parse_body cd fuel title text = Some (Ok b).
Proof.
  intros cd pattern title b lines ls text G H P W J fuel L. rewrite (body_of_text cd lines ls text title fuel W J).
  apply (print_read pattern); assumption.
Qed.

Theorem number_text_lines : forall cd t w l, padded w l ->
  (forall x, Forall (numeral cd) (numbers (hd_num (un KPart x))) -> labelled (part_number_text cd x) t w ->
    parse_line cd l = Ok (LPart (hd_num (un KPart x)) t)) /\
  (forall x, Forall (numeral cd) (numbers (hd_num (un KChapter x))) -> labelled (chapter_number_text cd x) t w ->
    parse_line cd l = Ok (LChapter (hd_num (un KChapter x)) t)) /\
  (forall x, Forall (numeral cd) (numbers (hd_num (un KSection x))) -> labelled (section_number_text cd x) t w ->
    parse_line cd l = Ok (LSection (hd_num (un KSection x)) t)) /\
  (forall x, Forall (numeral cd) (numbers (hd_num (un KSubsection x))) -> labelled (subsection_number_text cd x) t w ->
    parse_line cd l = Ok (LSubsection (hd_num (un KSubsection x)) t)) /\
  (forall x, Forall (numeral cd) (numbers (hd_num (un KDivision x))) -> labelled (division_number_text cd x) t w ->
    parse_line cd l = Ok (LDivision (hd_num (un KDivision x)) t)) /\
  (forall x, Forall (numeral cd) (numbers (art_num (un KArticle x))) -> labelled (article_number_text cd x) t w ->
    parse_line cd l = Ok (LArticle (art_num (un KArticle x)) t)).
Proof.
  intros cd t w l P. repeat apply conj; intros x N L; apply written_line.
  - apply (W_heading cd (u "編") LPart _ t w l); auto. left. reflexivity.
  - apply (W_heading cd (u "章") LChapter _ t w l); auto. right. left. reflexivity.
  - apply (W_heading cd (u "節") LSection _ t w l); auto. do 2 right. left. reflexivity.
  - apply (W_heading cd (u "款") LSubsection _ t w l); auto. do 3 right. left. reflexivity.
  - apply (W_heading cd (u "目") LDivision _ t w l); auto. do 4 right. left. reflexivity.
  - apply (W_heading cd (u "条") LArticle _ t w l); auto. do 5 right. left. reflexivity.
Qed.
