(** Exact rules: headings, lists, structures and mixed content. *)
From Coq Require Import String List Arith NArith Bool Lia.
From Verif Require Import Base NumStr NumStrSpec BaseFacts NumStrFacts Xml Ast XmlWrite XmlParse XmlSim
  KnotFacts GrammarSpec GrammarFacts ReadSpec ReadFacts ReadingSpec ReadingLib ReadingFacts.
Import ListNotations.
Open Scope string_scope.
Open Scope list_scope.

(** ** Main provision and headings *)
Lemma main_run_iff : forall e l vs,
  run no_text (reject e) (main_table parse) l [] = Ok vs <-> Forall2 main_reads (elements l) vs.
Proof. intros e. apply run_elements_iff; unfold main_table; [choice_rows|choice_accept]. Qed.
Lemma part_run_iff : forall e l vs,
  run no_text (reject e) (part_table parse) l [] = Ok vs <-> Forall2 part_reads (elements l) vs.
Proof. intros e. apply run_elements_iff; unfold part_table; [choice_rows|choice_accept]. Qed.
Lemma chapter_run_iff : forall e l vs,
  run no_text (reject e) (chapter_table parse) l [] = Ok vs <-> Forall2 chapter_reads (elements l) vs.
Proof. intros e. apply run_elements_iff; unfold chapter_table; [choice_rows|choice_accept]. Qed.
Lemma section_run_iff : forall e l vs,
  run no_text (reject e) (section_table parse) l [] = Ok vs <-> Forall2 section_reads (elements l) vs.
Proof. intros e. apply run_elements_iff; unfold section_table; [choice_rows|choice_accept]. Qed.
Lemma subsection_run_iff : forall e l vs,
  run no_text (reject e) (subsection_table parse) l [] = Ok vs <-> Forall2 subsection_reads (elements l) vs.
Proof. intros e. apply run_elements_iff; unfold subsection_table; [choice_rows|choice_accept]. Qed.
Lemma division_run_iff : forall e l vs,
  run no_text (reject e) (division_table parse) l [] = Ok vs <-> Forall2 division_reads (elements l) vs.
Proof.
  intros e. apply run_elements_iff; unfold division_table.
  - choice_rows.
  - intros c x [E H]. unfold lookup. rewrite E. cbn [assoc String.eqb Ascii.eqb Bool.eqb]. eexists.
    split; [unfold h_push; apply bind_iff; eexists; split; [exact H|reflexivity]|reflexivity].
Qed.

Lemma main_rule : forall e f, parse_main parse e = Ok f <-> reading KMain e f.
Proof.
  intros e [c x]. unfold parse_main. cbn [reading main_extract main_children].
  rewrite with_name_iff, bind_iff, <- flag_opt_iff, <- (main_run_iff e). split.
  - intros (Hn & a & Ha & H). apply bind_iff in H as (b & Hb & H). repeat split; congruence.
  - intros (Hn & Ha & H). split; [exact Hn|]. exists x. split; [exact Ha|]. rewrite H. reflexivity.
Qed.

Lemma head_iff : forall C n tbl (P : Element -> C -> Prop) e f,
  (forall l vs, run no_text (reject e) tbl l [] = Ok vs <-> Forall2 P (elements l) vs) ->
  parse_head parse n tbl e = Ok f <-> heading n P e f.
Proof.
  intros C n tbl P e [t c num d h] Hr. unfold parse_head, ReadingSpec.heading.
  cbn [hd_num hd_title hd_children hd_delete hd_hide]. rewrite with_name_iff.
  rewrite number_steps, <- !flag_iff. split.
  - intros (Hn & H). split; [exact Hn|].
    apply bind_iff in H as (s & Hs & H). apply bind_iff in H as (m & Hm & H).
    apply bind_iff in H as (d' & Hd & H). apply bind_iff in H as (h' & Hh & H).
    destruct (children e) as [|[x|x|x] rest]; try discriminate.
    destruct (String.eqb_spec (name x) (n ++ "Title")%string) as [E|E]; [|discriminate].
    apply bind_iff in H as (t' & Ht & H). apply bind_iff in H as (c' & Hc & H). injection H as <- <- <- <- <-.
    split; [exists s; auto|]. do 2 (split; [assumption|]). exists x, rest. repeat split; try assumption.
    + apply text_of_iff, Ht.
    + apply Hr, Hc.
  - intros (Hn & (s & Hs & Hm) & Hd & Hh & x & rest & Ec & E & Ht & Hc). split; [exact Hn|].
    apply text_of_iff in Ht. apply Hr in Hc.
    rewrite Hs. cbn. rewrite Hm. cbn. rewrite Hd. cbn. rewrite Hh. cbn. rewrite Ec.
    rewrite (proj2 (String.eqb_eq _ _) E), Ht. cbn. rewrite Hc. reflexivity.
Qed.

(** ** Columns, lists, law titles, ruby *)
Lemma column_rule : forall e f, parse_column parse e = Ok f <-> reading KColumn e f.
Proof.
  intros e [s n b a]. unfold parse_column. cbn [reading col_num col_line_break col_align col_sentence].
  assert (Hl : NoDup (map fst alignments)) by nodup.
  rewrite with_name_iff, <- integer_iff, <- flag_iff, <- (one_of_any_found alignments Hl).
  change (found alignments (get e "Align")) with (align_of (get e "Align")).
  unfold reads. rewrite <- parse_all_iff. split.
  - intros (Hn & H). apply bind_iff in H as (x & Hx & H). apply bind_iff in H as (y & Hy & H).
    apply bind_iff in H as (z & Hz & H). repeat split; congruence.
  - intros (Hn & H1 & H2 & <- & H3). split; [exact Hn|]. rewrite H1. cbn. rewrite H2. cbn. rewrite H3. reflexivity.
Qed.

Lemma list_sentences_iff : forall e s xs,
  parse_list_sentences parse e s = Ok xs <-> Forall2 list_sentence_reads (elements (children s)) xs.
Proof.
  intros e s xs. unfold parse_list_sentences. revert xs. generalize (children s).
  apply run_elements_iff; [choice_rows|choice_accept].
Qed.
Lemma list_rule : forall l e f, parse_list parse l e = Ok f <-> reading (KList l) e f.
Proof.
  intros l e [ss cs]. unfold parse_list. cbn [reading list_sentence list_children].
  replace (list_tag l) with (list_level_tag l) by (destruct l; reflexivity).
  rewrite with_name_iff. split.
  - intros (Hn & H). split; [exact Hn|].
    destruct (children e) as [|[s|s|s] rest]; try discriminate.
    destruct (String.eqb_spec (name s) (list_level_tag l ++ "Sentence")%string) as [E|E]; [|discriminate].
    apply bind_iff in H as (xs & Hx & H). apply bind_iff in H as (ys & Hy & H). injection H as <- <-.
    exists s, rest. repeat split; try assumption; [apply (list_sentences_iff e), Hx|].
    intros Hl. destruct l; try contradiction; apply parse_all_iff, Hy.
  - intros (Hn & s & rest & Ec & E & Hs & Hc). split; [exact Hn|]. rewrite Ec, (proj2 (String.eqb_eq _ _) E).
    apply (list_sentences_iff e) in Hs. rewrite Hs. cbn.
    destruct l.
    1-3: specialize (Hc ltac:(discriminate)); apply parse_all_iff in Hc; rewrite Hc; reflexivity.
    destruct cs as [|x cs]; [reflexivity|]. destruct (un KVoid x).
Qed.
Lemma law_title_rule : forall e f, parse_law_title parse e = Ok f <-> reading KLawTitle e f.
Proof.
  intros e [k a ak t]. unfold parse_law_title. cbn [reading lt_kana lt_abbrev lt_abbrev_kana lt_text].
  rewrite with_name_iff, <- !string_iff, <- text_of_iff. unfold p_text. split.
  - intros (Hn & H). apply bind_iff in H as (x & Hx & H). apply bind_iff in H as (y & Hy & H).
    apply bind_iff in H as (z & Hz & H). apply bind_iff in H as (w & Hw & H). repeat split; congruence.
  - intros (Hn & H1 & H2 & H3 & H4). split; [exact Hn|]. rewrite H1. cbn. rewrite H2. cbn. rewrite H3. cbn.
    rewrite H4. reflexivity.
Qed.

Lemma nodes_text_own : forall l, nodes_text l = String.concat "" (text_nodes l).
Proof.
  assert (A : forall t, (t ++ "")%string = t).
  { induction t as [|a t IHt]; cbn; [reflexivity|rewrite IHt; reflexivity]. }
  induction l as [|[c|t|t] r IH]; [reflexivity|exact IH| |exact IH].
  change (nodes_text (NText t :: r)) with (t ++ nodes_text r)%string. rewrite IH. cbn [text_nodes].
  destruct (text_nodes r) as [|x m]; [apply A|reflexivity].
Qed.
Lemma last_from : forall (X : Type) (ys : list X) x d, last (x :: ys) d = last ys x.
Proof.
  intros X ys. induction ys as [|y ys IH]; intros x d; [reflexivity|].
  change (last (x :: y :: ys) d) with (last (y :: ys) d). rewrite IH. symmetry. apply IH.
Qed.
Lemma ruby_run_iff : forall l (t0 : Text Knot) r0 st,
  run (fun s => at0 (fun t => app t [TE_Text s])) skip
    [("Rt", h_put at1 (fun c => Ok (nodes_text (children c))))] l (t0, (r0, tt)) = Ok st <->
  fst st = t0 ++ map (fun s => TE_Text s) (text_nodes l) /\
  latest_or r0 (fun c s => s = own_text c) "Rt" l (fst (snd st)).
Proof.
  assert (S : forall (st : Text Knot * (string * unit)) t r, Ok (t, (r, tt)) = Ok st <-> fst st = t /\ fst (snd st) = r).
  { intros (t' & r' & []) t r. cbn. split; [intros H; injection H as <- <-; auto|intros [-> ->]; reflexivity]. }
  unfold latest_or, each, with_tag.
  induction l as [|[c|s|s] l IH]; intros t0 r0 st; cbn [run elements filter text_nodes map].
  - rewrite S, app_nil_r. split; intros [E H]; (split; [exact E|]).
    + exists []. split; [constructor|exact H].
    + destruct H as (xs & F & E2). inversion F. subst xs. exact E2.
  - rewrite bind_iff. unfold lookup. cbn [assoc]. destruct (String.eqb (name c) "Rt").
    + split.
      * intros (u & Hu & H). injection Hu as <-. unfold at1, at0 in H. cbn [fst snd] in H. apply IH in H as (E1 & xs & F & E2).
        split; [exact E1|]. exists (own_text c :: xs). split; [constructor; [reflexivity|exact F]|].
        rewrite last_from. unfold own_text. rewrite <- nodes_text_own. exact E2.
      * intros (E1 & xs & F & E2). inversion F as [|? x ? ys Hx Fy]; subst.
        eexists. split; [reflexivity|]. unfold at1, at0. cbn [fst snd]. apply IH. split; [exact E1|]. exists ys. split; [exact Fy|].
        rewrite last_from in E2. rewrite E2. unfold own_text. rewrite <- nodes_text_own. reflexivity.
    + split.
      * intros (u & Hu & H). injection Hu as <-. apply IH in H. exact H.
      * intros H. exists (fun s => s). split; [reflexivity|]. apply IH, H.
  - unfold at0. cbn [fst snd]. rewrite IH, <- app_assoc. reflexivity.
  - apply IH.
Qed.
Lemma ruby_rule : forall e f, parse_ruby (K := Knot) e = Ok f <-> reading KRuby e f.
Proof.
  intros e [t r]. unfold parse_ruby. cbn [reading ruby_text ruby_ruby]. rewrite with_name_iff, bind_iff. split.
  - intros (Hn & (t' & r' & []) & Hr & H). apply ruby_run_iff in Hr as [E1 E2]. cbn in E1, E2.
    injection H as <- <-. auto.
  - intros (Hn & E1 & E2). split; [exact Hn|]. exists (t, (r, tt)). split; [apply ruby_run_iff; auto|reflexivity].
Qed.

(** ** Mixed content *)
Ltac conv H ::=
  first [ exact H | apply formula_iff, H | apply fig_iff, H
        | apply (fun c s => proj1 (sup_iff c s)) in H; apply H
        | apply (fun c s => proj1 (sub_iff c s)) in H; apply H ].
Ltac back Hx ::=
  first [ exact Hx | apply formula_iff, Hx | apply fig_iff, Hx
        | apply sup_iff; split; eassumption | apply sub_iff; split; eassumption ].
Ltac text_only := intros t y; destruct y; cbn; split; intros H; try contradiction; congruence.

Lemma line_run_iff : forall e l xs,
  run (fun s l => app l [LC_String s]) (reject e) (line_table parse) l [] = Ok xs <-> mixed line_node l xs.
Proof.
  intros e. apply run_mixed_iff; [text_only| |]; unfold line_table; [choice_rows|choice_accept].
Qed.
Lemma sentence_run_iff : forall e l xs,
  run (fun s l => app l [SE_String s]) (reject e) (sentence_table parse) l [] = Ok xs <-> mixed sentence_node l xs.
Proof.
  intros e. apply run_mixed_iff; [text_only| |]; unfold sentence_table; [choice_rows|choice_accept].
Qed.
Lemma contents_run_iff : forall e l xs,
  run (fun s l => app l [CE_String s]) (reject e) (contents_table parse) l [] = Ok xs <-> mixed contents_node l xs.
Proof.
  intros e. apply run_mixed_iff; [text_only| |]; unfold contents_table, item_rows, all_lvls; cbn [map app item_tag];
    [choice_rows|choice_accept].
Qed.
Lemma cell_run_iff : forall e l xs,
  run (fun s l => app l [TC_String s]) (reject e) (cell_table parse) l [] = Ok xs <-> mixed cell_node l xs.
Proof.
  intros e. apply run_mixed_iff; [text_only| |]; unfold cell_table, item_rows, all_lvls; cbn [map app item_tag];
    [choice_rows|choice_accept].
Qed.
