(** What reading plain text prints is what the specification says. *)
From Coq Require Import String List NArith ZArith Bool Arith Lia.
From Verif Require Import Base BaseFacts NumStr Ast Regex RegexFacts NumText NumTextSpec NumTextFacts HeadingFacts SplitFacts TextParse TextSpec
  TextLawFacts LineFacts ClassifyFacts NumberSpec NumberFacts ItemSpec ItemReadFacts Stdout StdoutSpec.
Import ListNotations.
Open Scope string_scope.
Open Scope list_scope.

Lemma bind_result : forall A B (x : out A) (f : A -> out B), snd (out_bind x f) = (a <- snd x; snd (f a)).
Proof. intros A B [o [a|e|]] f; reflexivity. Qed.
Lemma item_result : forall cd s, snd (out_item_number cd s) = parse_item_number cd s.
Proof. intros cd s. unfold out_item_number, parse_item_number. destruct (captures re_item (trim s)); reflexivity. Qed.
Theorem line_result : forall cd l, snd (out_line cd l) = parse_line cd l.
Proof.
  intros cd l. unfold out_line, parse_line. destruct (captures re_caption (trim l)); [reflexivity|].
  rewrite bind_result. cbn [quiet snd]. destruct (split_number (trim l)) as [[[s t]|]|e|]; cbn [bind]; try reflexivity.
  cbn [println snd]. rewrite bind_result. cbn [quiet snd].
  destruct (parse_article_number cd s) as [[n|]|e|]; cbn [bind]; try reflexivity.
  rewrite bind_result, item_result. destruct (parse_item_number cd s) as [[i|]|e|]; reflexivity.
Qed.
Theorem lines_result : forall cd ls, snd (out_lines cd ls) = map_r (fun l => parse_line cd (trim l)) ls.
Proof.
  intros cd ls. induction ls as [|l ls IH]; [reflexivity|]. cbn [out_lines map_r]. rewrite bind_result, line_result.
  destruct (parse_line cd (trim l)) as [x|e|]; cbn [bind]; try reflexivity. rewrite bind_result, IH. reflexivity.
Qed.
Theorem text_result : forall cd cal fuel text y m d ty lang num ln title,
  snd (out_text cd cal fuel text y m d ty lang num ln title) = parse_text cd cal fuel text y m d ty lang num ln title.
Proof.
  intros. unfold out_text, parse_text, parse_body, classify. destruct (date_era cal y m d); try reflexivity.
  cbn [snd]. rewrite lines_result. destruct (map_r _ _); reflexivity.
Qed.

(** ** Lines *)
Lemma item_printed : forall cd s, fst (out_item_number cd s) =
  match parse_item_number cd s with Ok None => [u "err!!"] | _ => [u "ok!!!"] end.
Proof.
  intros cd s. unfold out_item_number. pose proof (item_match (trim s)) as IM.
  destruct (captures re_item (trim s)) as [c|] eqn:C.
  - cbn [println fst quiet]. destruct (parse_item_number cd s) as [[i|]|e|] eqn:E; try reflexivity.
    exfalso. apply label_exact in E. destruct E as (x & t & y & Hx & Hy & Ht & Es & H).
    assert (T : trim s = t) by (rewrite Es; apply trim_edge; assumption). rewrite T in IM.
    destruct IM as (b & e & [D _] & _). destruct H as [[Hn _]|(b' & k & w & e' & l & rs & _ & _ & _ & _ & H)].
    + apply Hn. exists b, e. exact D.
    + destruct (word_reading cd b' k w); cbn [bind] in H; try discriminate H. destruct (collect rs); discriminate H.
  - unfold parse_item_number. rewrite C. reflexivity.
Qed.
Lemma word_printed : forall cd x w y s t o, blank x -> blank y -> first_word w s t -> ~ In 10%N t -> ~ caption_line w ->
  word_output cd s t o -> fst (out_line cd (x ++ w ++ y)) = o.
Proof.
  intros cd x w y s t o Hx Hy Hw Hl Hc H. unfold out_line.
  rewrite (trim_edge x w y Hx Hy (first_edge _ _ _ Hw)), (not_caption w Hc), (split_first w s t Hw Hl).
  unfold out_bind at 1. cbn [quiet fst snd app]. cbn [println fst].
  destruct H as [n Hn|Hn|i Hn Hi|Hn Hi|Hn Hi]; apply number_exact in Hn; rewrite Hn; unfold out_bind at 1; cbn [quiet fst snd app]; try reflexivity;
    apply label_exact in Hi; unfold out_bind; rewrite item_result, item_printed, Hi; reflexivity.
Qed.
Lemma word_output_total : forall cd s t, exists o, word_output cd s t o.
Proof.
  intros cd s t. destruct (word_line_total cd [] s t) as [r H].
  destruct H as [n mk Hn Hk|Hn|i Hn Hi|Hn Hi|Hn Hi]; eexists.
  - eapply output_number, Hn.
  - apply output_number_panic, Hn.
  - eapply output_item; eassumption.
  - apply output_item_panic; assumption.
  - apply output_none; assumption.
Qed.
Lemma silent_printed : forall cd l, silent_line l -> fst (out_line cd l) = [].
Proof.
  intros cd l (x & w & y & Hx & Hy & He & -> & H). unfold out_line. rewrite (trim_edge x w y Hx Hy He).
  destruct (captures re_caption w) as [c|] eqn:C; [reflexivity|].
  destruct H as [(v & H1 & H2 & H3)|H]; [rewrite H3, (caption_captures v H1 H2) in C; discriminate C|].
  rewrite split_short by exact H. reflexivity.
Qed.
Lemma output_sound : forall cd l o, ~ In 10%N l -> line_output cd l o -> fst (out_line cd l) = o.
Proof.
  intros cd l o Hl [[H ->]|(x & w & y & s & t & Hx & Hy & E & Hc & Hw & H)]; [apply silent_printed, H|].
  rewrite E. apply (word_printed cd x w y s t o); try assumption. intros Hi. apply Hl. rewrite E, !in_app_iff. right. left.
  exact (first_word_in w s t Hw _ Hi).
Qed.
Lemma output_total : forall cd l, exists o, line_output cd l o.
Proof.
  intros cd l. destruct (line_total cd l) as [r (x & w & y & Hx & Hy & He & E & H)].
  destruct H as [(v & Hv & Hn & Ew & _)|[(Hc & Hs & _)|(Hc & s & t & Hw & _)]].
  - exists []. left. split; [|reflexivity]. exists x, w, y. repeat (split; [assumption|]). left. exists v. auto.
  - exists []. left. split; [|reflexivity]. exists x, w, y. repeat (split; [assumption|]). right. exact Hs.
  - destruct (word_output_total cd s t) as [o Ho]. exists o. right. exists x, w, y, s, t. auto 10.
Qed.
Theorem output_exact : forall cd l o, ~ In 10%N l -> (fst (out_line cd l) = o <-> line_output cd l o).
Proof.
  intros cd l o Hl. split; [|apply output_sound, Hl]. intros <-. destruct (output_total cd l) as [o H].
  rewrite (output_sound cd l o Hl H). exact H.
Qed.

(** ** Texts *)
Lemma out_line_trim : forall cd l, out_line cd (trim l) = out_line cd l.
Proof. intros cd l. unfold out_line. rewrite trim_trim. reflexivity. Qed.
Lemma lines_sound : forall cd ls o, Forall (fun l => ~ In 10%N l) ls -> text_output cd ls o -> fst (out_lines cd ls) = o.
Proof.
  intros cd ls o F H. induction H as [|l x ls o os H1 H2 H3 IH|l ls o H1 H2]; [reflexivity|inversion F as [|? ? F1 F2]; subst..].
  - cbn [out_lines]. rewrite out_line_trim. apply (line_sound cd l _ F1) in H1. apply (output_sound cd l _ F1) in H2.
    unfold out_bind at 1. rewrite line_result, H1. cbn [fst]. rewrite H2. f_equal. rewrite <- (IH F2). unfold out_bind.
    destruct (out_lines cd ls) as [p [a|e|]]; cbn [fst snd quiet]; rewrite ?app_nil_r; reflexivity.
  - cbn [out_lines]. rewrite out_line_trim. apply (line_sound cd l _ F1) in H1. apply (output_sound cd l _ F1) in H2.
    unfold out_bind at 1. rewrite line_result, H1. cbn [fst]. exact H2.
Qed.
Lemma text_output_total : forall cd ls, Forall (fun l => ~ In 10%N l) ls -> exists o, text_output cd ls o.
Proof.
  intros cd ls F. induction F as [|l ls Hl _ [os IH]]; [eexists; constructor|].
  destruct (line_total cd l) as [r Hr], (output_total cd l) as [o Ho].
  destruct r as [x|e|]; [exists (o ++ os); econstructor; eassumption| |exists o; apply output_panic; assumption].
  exfalso. apply (line_sound cd l _ Hl) in Hr. exact (line_fine cd l e Hr).
Qed.
Theorem lines_exact : forall cd ls o, Forall (fun l => ~ In 10%N l) ls -> (fst (out_lines cd ls) = o <-> text_output cd ls o).
Proof.
  intros cd ls o F. split; [|apply lines_sound, F]. intros <-. destruct (text_output_total cd ls F) as [o H].
  rewrite (lines_sound cd ls o F H). exact H.
Qed.
Lemma word_output_length : forall cd s t o, word_output cd s t o -> 1 <= length o <= 3.
Proof. intros cd s t o []; cbn [length]; lia. Qed.
Lemma silent_not : forall cd l, silent_line l -> forall o, ~ In 10%N l -> line_output cd l o -> o = [].
Proof. intros cd l H o Hl Ho. apply output_sound in Ho; [|exact Hl]. rewrite <- Ho. apply silent_printed, H. Qed.
Lemma line_output_silent : forall cd l o, ~ In 10%N l -> line_output cd l o -> o = [] <-> silent_line l.
Proof.
  intros cd l o Hl H. split.
  - intros ->. destruct H as [[H _]|(x & w & y & s & t & _ & _ & _ & _ & _ & H)]; [exact H|].
    apply word_output_length in H. cbn in H. lia.
  - intros S. exact (silent_not cd l S o Hl H).
Qed.
Lemma text_output_bound : forall cd ls o, text_output cd ls o -> length o <= 3 * length ls.
Proof.
  assert (L : forall cd l o, line_output cd l o -> length o <= 3).
  { intros cd l o [[_ ->]|(x & w & y & s & t & _ & _ & _ & _ & _ & H)]; [cbn; lia|]. apply word_output_length in H. lia. }
  intros cd ls o H. induction H as [|l x ls o os H1 H2 H3 IH|l ls o H1 H2]; [cbn; lia| |]; apply L in H2; rewrite ?app_length; cbn [length]; lia.
Qed.
Lemma text_output_silent : forall cd ls o, Forall (fun l => ~ In 10%N l) ls -> text_output cd ls o -> o = [] <-> Forall silent_line ls.
Proof.
  intros cd ls o F H. induction H as [|l x ls o os H1 H2 H3 IH|l ls o H1 H2]; [split; auto|inversion F as [|? ? F1 F2]; subst..].
  - pose proof (line_output_silent cd l o F1 H2) as S. specialize (IH F2). split.
    + intros E. apply app_eq_nil in E as [E1 E2]. constructor; [apply S, E1|apply IH, E2].
    + intros E. inversion E; subst. rewrite (proj2 S) by assumption. apply IH. assumption.
  - pose proof (line_output_silent cd l o F1 H2) as S.
    assert (N : ~ silent_line l).
    { intros (x & w & y & Hx & Hy & He & E & K). apply (line_sound cd l _ F1) in H1. unfold parse_line in H1.
      rewrite E, (trim_edge x w y Hx Hy He) in H1. destruct (captures re_caption w) as [c|] eqn:C.
      - destruct K as [(v & V1 & V2 & V3)|K].
        + rewrite V3, (caption_captures v V1 V2) in C. injection C as <-. discriminate H1.
        + apply captures_in in C as [s' C]. apply caption_caps in C as (v & -> & _ & V1 & V2 & V3). discriminate H1.
      - destruct K as [(v & V1 & V2 & V3)|K]; [rewrite V3, (caption_captures v V1 V2) in C; discriminate C|].
        rewrite split_short in H1 by exact K. cbn [bind] in H1. destruct (captures re_suppl w); discriminate H1. }
    split; [intros E; exfalso; apply N, S, E|intros E; inversion E; contradiction].
Qed.
