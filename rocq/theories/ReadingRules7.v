(** Exact rules: articles, laws, and all kinds together. *)
From Coq Require Import String List Arith NArith Bool Lia.
From Verif Require Import Base NumStr NumStrSpec BaseFacts NumStrFacts Xml Ast XmlWrite XmlParse XmlSim
  KnotFacts GrammarSpec GrammarFacts ReadSpec ReadFacts PartsFacts ReadingSpec ReadingLib ReadingFacts
  ReadingRules1 ReadingRules2 ReadingRules3 ReadingRules4 ReadingRules5 ReadingRules6.
Import ListNotations.
Open Scope string_scope.
Open Scope list_scope.

(** ** Articles *)
Lemma known_nil : forall ts, known ts [].
Proof. intros ts c []. Qed.
Lemma known_cons : forall ts x l, known ts (x :: l) <->
  match x with NElement c => In (name c) ts | _ => True end /\ known ts l.
Proof.
  intros ts x l. unfold known. split.
  - intros H. split; [|intros c Hc; apply H; right; exact Hc]. destruct x as [c|s|s]; try exact I.
    apply H. left. reflexivity.
  - intros [Hx H] c [->|Hc]; [exact Hx|apply H, Hc].
Qed.

Definition head_reads (l : list XMLNode) (cap : option (Caption Knot)) (title : Text Knot)
    (cap' : option (Caption Knot)) (title' : Text Knot) : Prop :=
  known ["ArticleCaption"; "ArticleTitle"] l /\
  (exists cs, each caption_of "ArticleCaption" l cs /\ cap' = last (map Some cs) cap) /\
  (exists ts, each text_of "ArticleTitle" l ts /\ title' = last ts title).

Lemma head_caption : forall d l cap title cap' title' c, name d = "ArticleCaption" -> caption_of d c ->
  head_reads (NElement d :: l) cap title cap' title' <-> head_reads l (Some c) title cap' title'.
Proof.
  intros d l cap title cap' title' c E Hc. unfold head_reads, each.
  rewrite known_cons, !with_tag_cons, E. cbn [String.eqb Ascii.eqb Bool.eqb]. split.
  - intros ((_ & HK) & (cs & Fc & Ec) & Ht). split; [exact HK|]. split; [|exact Ht].
    inversion Fc as [|? c' ? cs' Hc' Fc']; subst. exists cs'. split; [exact Fc'|].
    rewrite (caption_fun _ _ _ Hc Hc'). cbn [map]. apply last_from.
  - intros (HK & (cs & Fc & Ec) & Ht). split; [split; [left; reflexivity|exact HK]|]. split; [|exact Ht].
    exists (c :: cs). split; [constructor; assumption|]. rewrite Ec. cbn [map]. symmetry. apply last_from.
Qed.
Lemma head_title : forall d l cap title cap' title' t, name d = "ArticleTitle" -> text_of d t ->
  head_reads (NElement d :: l) cap title cap' title' <-> head_reads l cap t cap' title'.
Proof.
  intros d l cap title cap' title' t E Ht. unfold head_reads, each.
  rewrite known_cons, !with_tag_cons, E. cbn [String.eqb Ascii.eqb Bool.eqb]. split.
  - intros ((_ & HK) & Hc & (ts & Ft & Et)). split; [exact HK|]. split; [exact Hc|].
    inversion Ft as [|? t' ? ts' Ht' Ft']; subst. exists ts'. split; [exact Ft'|].
    rewrite (p_text_fun _ _ _ Ht Ht'). apply last_from.
  - intros (HK & Hc & (ts & Ft & Et)). split; [split; [right; left; reflexivity|exact HK]|]. split; [exact Hc|].
    exists (t :: ts). split; [constructor; assumption|]. rewrite Et. symmetry. apply last_from.
Qed.

Lemma head_other : forall x l cap title cap' title',
  match x with NElement _ => False | _ => True end ->
  head_reads (x :: l) cap title cap' title' <-> head_reads l cap title cap' title'.
Proof.
  intros x l cap title cap' title' Hx. unfold head_reads. rewrite known_cons.
  destruct x; [destruct Hx| |]; unfold each; cbn [with_tag elements flat_map app filter]; tauto.
Qed.

Lemma article_head_iff : forall l cap title cap' title' rest,
  article_head parse l cap title = Ok (cap', (title', rest)) <->
  exists head c r, l = head ++ rest /\ rest = NElement c :: r /\
    ~ In (name c) ["ArticleCaption"; "ArticleTitle"] /\ head_reads head cap title cap' title'.
Proof.
  assert (Z : forall cap title cap' title', head_reads [] cap title cap' title' <-> cap' = cap /\ title' = title).
  { intros cap title cap' title'. unfold head_reads, each. cbn. split.
    - intros (_ & (cs & Fc & Ec) & (ts & Ft & Et)). inversion Fc; subst. inversion Ft; subst. auto.
    - intros [-> ->]. split; [apply known_nil|]. split; exists []; split; constructor. }
  induction l as [|[d|s|s] l IH]; intros cap title cap' title' rest; cbn [article_head].
  - split; [discriminate|]. intros (head & c & r & E & -> & _). destruct head; discriminate.
  - destruct (String.eqb_spec (name d) "ArticleCaption") as [E1|E1]; [|destruct (String.eqb_spec (name d) "ArticleTitle") as [E2|E2]].
    + rewrite bind_iff. split.
      * intros (x & Hx & H). apply caption_iff in Hx. apply IH in H as (head & c & r & -> & -> & Hn & Hh).
        exists (NElement d :: head), c, r. do 3 (split; [auto|]). apply (head_caption d head cap title cap' title' x E1 Hx), Hh.
      * intros (head & c & r & E & -> & Hn & Hh). destruct head as [|y head]; cbn in E; injection E as <- ->.
        { destruct Hn. left. symmetry. exact E1. }
        destruct Hh as (HK & (cs & Fc & Ec) & Ht). unfold each in Fc. rewrite with_tag_cons, E1 in Fc.
        cbn [String.eqb Ascii.eqb Bool.eqb] in Fc. inversion Fc as [|? x ? cs' Hx Fc']. subst cs.
        exists x. split; [apply caption_iff, Hx|]. apply IH. exists head, c, r. do 3 (split; [auto|]).
        apply (head_caption d head cap title cap' title' x E1 Hx). split; [exact HK|]. split; [|exact Ht].
        exists (x :: cs'). unfold each. rewrite with_tag_cons, E1. cbn [String.eqb Ascii.eqb Bool.eqb]. auto.
    + rewrite bind_iff. split.
      * intros (x & Hx & H). apply text_of_iff in Hx. apply IH in H as (head & c & r & -> & -> & Hn & Hh).
        exists (NElement d :: head), c, r. do 3 (split; [auto|]). apply (head_title d head cap title cap' title' x E2 Hx), Hh.
      * intros (head & c & r & E & -> & Hn & Hh). destruct head as [|y head]; cbn in E; injection E as <- ->.
        { destruct Hn. right. left. symmetry. exact E2. }
        destruct Hh as (HK & Hc & (ts & Ft & Et)). unfold each in Ft. rewrite with_tag_cons, E2 in Ft.
        cbn [String.eqb Ascii.eqb Bool.eqb] in Ft. inversion Ft as [|? x ? ts' Hx Ft']. subst ts.
        exists x. split; [apply text_of_iff, Hx|]. apply IH. exists head, c, r. do 3 (split; [auto|]).
        apply (head_title d head cap title cap' title' x E2 Hx). split; [exact HK|]. split; [exact Hc|].
        exists (x :: ts'). unfold each. rewrite with_tag_cons, E2. cbn [String.eqb Ascii.eqb Bool.eqb]. auto.
    + split.
      * intros H. injection H as <- <- <-. exists [], d, l. do 2 (split; [reflexivity|]). split; [|apply Z; auto].
        intros [X|[X|[]]]; congruence.
      * intros (head & c & r & E & -> & Hn & Hh). destruct head as [|y head]; cbn in E; injection E as <- ->.
        { apply Z in Hh as [-> ->]. reflexivity. }
        destruct Hh as (HK & _). apply known_cons in HK as [[X|[X|[]]] _]; congruence.
  - rewrite IH. split.
    + intros (head & c & r & -> & -> & Hn & Hh). exists (NText s :: head), c, r. do 3 (split; [auto|]).
      apply head_other; [exact I|exact Hh].
    + intros (head & c & r & E & -> & Hn & Hh). destruct head as [|y head]; cbn in E; [discriminate|].
      injection E as <- ->. exists head, c, r. do 3 (split; [auto|]). apply head_other in Hh; [exact Hh|exact I].
  - rewrite IH. split.
    + intros (head & c & r & -> & -> & Hn & Hh). exists (NOther s :: head), c, r. do 3 (split; [auto|]).
      apply head_other; [exact I|exact Hh].
    + intros (head & c & r & E & -> & Hn & Hh). destruct head as [|y head]; cbn in E; [discriminate|].
      injection E as <- ->. exists head, c, r. do 3 (split; [auto|]). apply head_other in Hh; [exact Hh|exact I].
Qed.

Ltac conv H ::= first [ exact H | apply text_of_iff, H ].
Ltac back Hx ::= first [ exact Hx | apply text_of_iff, Hx ].
Lemma article_body_run : forall l (e : Element) s,
  run no_text (reject e)
    [("Paragraph", h_push at0 (fun v => v) (parse KParagraph)); ("SupplNote", h_some at1 (p_text parse))]
    l ([], (None, tt)) = Ok s <->
  known ["Paragraph"; "SupplNote"] l /\ each (reads KParagraph) "Paragraph" l (fst s) /\
  latest text_of "SupplNote" l (fst (snd s)).
Proof.
  intros l. apply (exact_from _ (fun e => run no_text (reject e) _ l ([], (None, tt)))).
  - intros e s Hrun. conjs; [known_done Hrun|fields Hrun|fields Hrun].
  - intros e s (HK & H1 & H2). apply run_accept. accepted.
  - intros e (ss & cs & u) (ss' & cs' & u') (HK & H1 & H2) (HK' & H1' & H2'). cbn in *.
    destruct u, u'. repeat f_equal; same rel_fun.
Qed.

Lemma article_rule : forall e f, parse_article parse e = Ok f <-> reading KArticle e f.
Proof.
  intros e [cap title ps note num d h]. unfold parse_article.
  cbn [ReadingSpec.reading art_num art_delete art_hide art_caption art_title art_paragraph art_suppl_note].
  rewrite with_name_iff, number_steps, <- !flag_iff. split.
  - intros (Hn & H). split; [exact Hn|].
    apply bind_iff in H as (s & Hs & H). apply bind_iff in H as (m & Hm & H).
    apply bind_iff in H as (d' & Hd & H). apply bind_iff in H as (h' & Hh & H).
    apply bind_iff in H as ((cap' & title' & rest) & Ha & H).
    apply bind_iff in H as ((ps' & note' & []) & Hr & H). injection H as <- <- <- <- <- <- <-.
    split; [exists s; auto|]. do 2 (split; [assumption|]).
    apply article_head_iff in Ha as (head & c & r & Ec & Er & _ & HK & (cs & Fc & E1) & (ts & Ft & E2)).
    apply article_body_run in Hr as (HK2 & F1 & F2).
    exists head, rest, c, r. do 4 (split; [assumption|]).
    split; [exists cs; split; [exact Fc|rewrite E1; apply last_some]|].
    split; [exists ts; auto|]. auto.
  - intros (Hn & (s & Hs & Hm) & Hd & Hh & head & body & c & r & Ec & Er & HK & HK2 & (cs & Fc & E1) & (ts & Ft & E2) & F1 & F2).
    split; [exact Hn|].
    apply bind_iff. exists s. split; [exact Hs|]. apply bind_iff. exists num. split; [exact Hm|].
    apply bind_iff. exists d. split; [exact Hd|]. apply bind_iff. exists h. split; [exact Hh|].
    apply bind_iff. exists (cap, (title, body)). split.
    + apply article_head_iff. exists head, c, r. do 2 (split; [assumption|]). split.
      * intros X. assert (Y : In (name c) ["Paragraph"; "SupplNote"]) by (apply HK2; rewrite Er; left; reflexivity).
        destruct X as [X|[X|[]]], Y as [Y|[Y|[]]]; congruence.
      * split; [exact HK|]. split; [exists cs; split; [exact Fc|rewrite E1; symmetry; apply last_some]|exists ts; auto].
    + apply bind_iff. exists (ps, (note, tt)). split; [apply article_body_run; auto|reflexivity].
Qed.

(** ** All kinds *)
Lemma step_exact : forall k e f, pstep parse k e = Ok f <-> reading k e f.
Proof.
  intros k e f. destruct k; cbn [pstep].
  - destruct f.
  - apply ruby_rule.
  - apply line_rule.
  - apply cont_rule.
  - apply sentence_rule.
  - apply column_rule.
  - apply table_rule.
  - apply table_row_rule.
  - apply table_column_rule.
  - apply remarks_rule.
  - destruct s; (apply struct_exact; [apply text_of_iff|reflexivity|discriminate|discriminate|discriminate]).
  - apply struct_exact; [apply text_of_iff|apply fig_iff|discriminate|discriminate|discriminate].
  - apply struct_exact; [apply moded_iff|reflexivity|discriminate|discriminate|discriminate].
  - apply list_rule.
  - apply class_rule.
  - apply item_rule.
  - apply paragraph_rule.
  - apply article_rule.
  - apply head_iff, part_run_iff.
  - apply head_iff, chapter_run_iff.
  - apply head_iff, section_run_iff.
  - apply head_iff, subsection_run_iff.
  - apply head_iff, division_run_iff.
  - apply amend_rule.
  - apply law_title_rule.
  - apply preamble_rule.
  - apply main_rule.
  - apply suppl_rule.
  - apply suppl_table_rule.
  - apply suppl_style_rule.
  - apply suppl_appdx_rule.
  - apply appdx_table_rule.
  - apply appdx_note_rule.
  - apply appdx_style_rule.
  - apply appdx_format_rule.
  - apply appdx_rule.
  - apply appdx_fig_rule.
  - apply toc_rule.
  - apply toc_part_rule.
  - apply toc_chapter_rule.
  - apply toc_section_rule.
  - apply toc_subsection_rule.
  - apply toc_division_rule.
  - apply toc_article_rule.
  - apply toc_suppl_rule.
  - apply law_body_rule.
Qed.
Theorem parse_exact : forall k e v, tagged k e -> parse k e = Ok v <-> reading k e (un k v).
Proof.
  intros k e v Hw. apply tagged_well in Hw. rewrite <- step_exact. split.
  - intros H. destruct (parse_inv k e v Hw H) as (f & Hf & ->). rewrite un_mk. exact Hf.
  - intros H. rewrite parse_unfold by exact Hw. rewrite H. cbn [bind]. rewrite mk_un. reflexivity.
Qed.
