(** The rules define what is read: [parse] agrees with the only relation that satisfies them. *)
From Coq Require Import String List Arith NArith Bool Lia.
From Verif Require Import Base NumStr NumStrSpec BaseFacts NumStrFacts Xml Ast XmlWrite XmlParse XmlSpec XmlSim
  KnotFacts GrammarSpec GrammarFacts ReadSpec ReadFacts PartsFacts PanicFacts ReadingSpec ReadingLib ReadingFacts ReadingRules5
  ReadingRules7.
Import ListNotations.
Open Scope string_scope.
Open Scope list_scope.

Import ReadingSpec.

Lemma elements_in : forall l c, In c (elements l) <-> In (NElement c) l.
Proof.
  induction l as [|[d|s|s] l IH]; intros c; cbn; [tauto| | |].
  - rewrite IH. split; (intros [H|H]; [left; congruence|right; exact H]).
  - rewrite IH. split; [auto|intros [H|H]; [discriminate|exact H]].
  - rewrite IH. split; [auto|intros [H|H]; [discriminate|exact H]].
Qed.
Lemma forall2_mono : forall (X Y : Type) (P Q : X -> Y -> Prop) l m,
  (forall c x, In c l -> P c x -> Q c x) -> Forall2 P l m -> Forall2 Q l m.
Proof.
  intros X Y P Q l m H F. induction F as [|c x l m Hc F IH]; [constructor|]. constructor.
  - apply H; [left; reflexivity|exact Hc].
  - apply IH. intros d y Hd. apply H. right. exact Hd.
Qed.

Section Mono.
Variables R S : forall k : kind, Element -> Knot k -> Prop.
Variable h : nat.
Hypothesis HRS : forall j c v, height c < h -> tagged j c -> R j c v -> S j c v.

Definition low (l : list XMLNode) : Prop := forall c, In (NElement c) l -> height c < h.

Lemma low_under : forall e, height e <= h -> low (children e).
Proof. intros e H c Hc. apply height_child in Hc. lia. Qed.
Lemma low_child : forall e, height e < h -> low (children e).
Proof. intros e H. apply low_under. lia. Qed.
Lemma low_app : forall a b, low (a ++ b) -> low a /\ low b.
Proof. intros a b H. split; intros c Hc; apply H, in_app_iff; auto. Qed.
Lemma low_cons : forall x l, low (x :: l) -> low l.
Proof. intros x l H c Hc. apply H. right. exact Hc. Qed.

Lemma each_mono : forall X (P Q : Element -> X -> Prop) t l xs, low l ->
  (forall c x, height c < h -> name c = t -> P c x -> Q c x) -> each P t l xs -> each Q t l xs.
Proof.
  intros X P Q t l xs Hl H. apply forall2_mono. intros c x Hc. apply filter_In in Hc as [Hc E].
  apply elements_in in Hc. apply String.eqb_eq in E. auto.
Qed.
Lemma latest_mono : forall X (P Q : Element -> X -> Prop) t l o, low l ->
  (forall c x, height c < h -> name c = t -> P c x -> Q c x) -> latest P t l o -> latest Q t l o.
Proof. intros X P Q t l o Hl H (xs & F & E). exists xs. split; [eapply each_mono; eassumption|exact E]. Qed.
Lemma latest_or_mono : forall X d (P Q : Element -> X -> Prop) t l o, low l ->
  (forall c x, height c < h -> name c = t -> P c x -> Q c x) -> latest_or d P t l o -> latest_or d Q t l o.
Proof. intros X d P Q t l o Hl H (xs & F & E). exists xs. split; [eapply each_mono; eassumption|exact E]. Qed.
Lemma tags_mono : forall X (P Q : Element -> X -> Prop) ts l xs, low l ->
  (forall c x, height c < h -> P c x -> Q c x) -> Forall2 P (with_tags ts l) xs -> Forall2 Q (with_tags ts l) xs.
Proof.
  intros X P Q ts l xs Hl H. apply forall2_mono. intros c x Hc. apply filter_In in Hc as [Hc _].
  apply elements_in in Hc. auto.
Qed.
Lemma elements_mono : forall X (P Q : Element -> X -> Prop) l xs, low l ->
  (forall c x, height c < h -> P c x -> Q c x) -> Forall2 P (elements l) xs -> Forall2 Q (elements l) xs.
Proof. intros X P Q l xs Hl H. apply forall2_mono. intros c x Hc. apply elements_in in Hc. auto. Qed.
Lemma inner_mono : forall X (P Q : Element -> X -> Prop) t l xs, low l ->
  (forall c x, height c < h -> P c x -> Q c x) ->
  Forall2 P (flat_map (fun c => elements (children c)) (with_tag t l)) xs ->
  Forall2 Q (flat_map (fun c => elements (children c)) (with_tag t l)) xs.
Proof.
  intros X P Q t l xs Hl H. apply forall2_mono. intros c x Hc. apply in_flat_map in Hc as (d & Hd & Hc).
  apply filter_In in Hd as [Hd _]. apply elements_in in Hd. apply elements_in in Hc.
  apply Hl in Hd. apply height_child in Hc. apply H. lia.
Qed.
Lemma mixed_mono : forall X (P Q : XMLNode -> X -> Prop) l xs, low l ->
  (forall s x, P (NText s) x -> Q (NText s) x) ->
  (forall c x, height c < h -> P (NElement c) x -> Q (NElement c) x) -> mixed P l xs -> mixed Q l xs.
Proof.
  intros X P Q l xs Hl H1 H2. apply forall2_mono. intros [c|s|s] x Hc; [|auto|].
  - apply filter_In in Hc as [Hc _]. auto.
  - apply filter_In in Hc as [_ Hc]. discriminate.
Qed.

Lemma text_mono : forall l t, low l -> text_reads R l t -> text_reads S l t.
Proof.
  intros l t Hl H. induction H as [|s l t H IH|s l t H IH|c x l t Hi H IH|c l t Hn H IH|c l t E Hr H IH|c l t E Hr H IH];
    try (specialize (IH (low_cons _ _ Hl))); try (constructor; assumption).
  - apply text_inline; [|exact IH]. assert (Hc : height c < h) by (apply Hl; left; reflexivity).
    destruct x; cbn in *; try exact Hi; destruct Hi as [E Hi]; (split; [exact E|apply HRS; auto]); exact I.
Qed.
Lemma text_of_mono : forall c t, height c <= h -> text_of R c t -> text_of S c t.
Proof. intros c t H. apply text_mono, low_under, H. Qed.
Lemma moded_mono : forall c t, height c <= h -> moded_text_of R c t -> moded_text_of S c t.
Proof. intros c t H [Ht Hm]. split; [apply text_mono; [apply low_under, H|exact Ht]|exact Hm]. Qed.
Lemma caption_mono : forall c t, height c <= h -> caption_of R c t -> caption_of S c t.
Proof. intros c t H [Ht Hm]. split; [apply text_mono; [apply low_under, H|exact Ht]|exact Hm]. Qed.

(** A child element that is a kind of its own. *)
Ltac given E Hc := apply HRS; [exact Hc|first [exact I|exact E]|assumption].
Ltac choice_mono x Hc H :=
  destruct x; cbn in H |- *; try contradiction; try exact H;
  let E := fresh "E" in destruct H as [E H]; (split; [exact E|]);
  first [exact H | given E Hc | apply text_of_mono; [lia|exact H]].

Lemma formula_mono : forall c x, height c < h -> name c = "ArithFormula" -> formula_reads R c x -> formula_reads S c x.
Proof. intros c x Hc E [Hn H]. split; [exact Hn|]. given E Hc. Qed.
Ltac node_mono x Hc H :=
  destruct x; cbn in H |- *; try contradiction; try exact H;
  let E := fresh "E" in destruct H as [E H]; (split; [exact E|]);
  first [exact H | given E Hc | apply formula_mono; assumption].
Lemma line_node_mono : forall c x, height c < h -> line_node R (NElement c) x -> line_node S (NElement c) x.
Proof. intros c x Hc H. node_mono x Hc H. Qed.
Lemma sentence_node_mono : forall c x, height c < h -> sentence_node R (NElement c) x -> sentence_node S (NElement c) x.
Proof. intros c x Hc H. node_mono x Hc H. Qed.
Lemma contents_node_mono : forall c x, height c < h -> contents_node R (NElement c) x -> contents_node S (NElement c) x.
Proof. intros c x Hc H. node_mono x Hc H. Qed.
Lemma cell_node_mono : forall c x, height c < h -> cell_node R (NElement c) x -> cell_node S (NElement c) x.
Proof. intros c x Hc H. node_mono x Hc H. Qed.

Lemma struct_mono : forall c x, height c < h -> struct_reads R c x -> struct_reads S c x.
Proof. intros c x Hc H. choice_mono x Hc H. Qed.
Lemma list_sentence_mono : forall c x, height c < h -> list_sentence_reads R c x -> list_sentence_reads S c x.
Proof. intros c x Hc H. choice_mono x Hc H. Qed.
Lemma remarks_mono : forall c x, height c < h -> remarks_reads R c x -> remarks_reads S c x.
Proof. intros c x Hc H. choice_mono x Hc H. Qed.
Lemma appdx_table_mono : forall c x, height c < h -> appdx_table_reads R c x -> appdx_table_reads S c x.
Proof. intros c x Hc H. choice_mono x Hc H. Qed.
Lemma appdx_note_mono : forall c x, height c < h -> appdx_note_reads R c x -> appdx_note_reads S c x.
Proof. intros c x Hc H. choice_mono x Hc H. Qed.
Lemma appdx_fig_mono : forall c x, height c < h -> appdx_fig_reads R c x -> appdx_fig_reads S c x.
Proof. intros c x Hc H. choice_mono x Hc H. Qed.
Lemma toc_section_mono : forall c x, height c < h -> toc_section_reads R c x -> toc_section_reads S c x.
Proof. intros c x Hc H. choice_mono x Hc H. Qed.
Lemma toc_suppl_mono : forall c x, height c < h -> toc_suppl_reads R c x -> toc_suppl_reads S c x.
Proof. intros c x Hc H. choice_mono x Hc H. Qed.
Lemma toc_main_mono : forall c x, height c < h -> toc_main_reads R c x -> toc_main_reads S c x.
Proof. intros c x Hc H. choice_mono x Hc H. Qed.
Lemma new_provision_mono : forall c x, height c < h -> new_provision_reads R c x -> new_provision_reads S c x.
Proof.
  intros c x Hc H. destruct x; try (match goal with k : sname |- _ => destruct k end);
  cbn in H |- *; (destruct H as [E H]; split; [exact E|]);
  first [exact H | given E Hc | apply text_of_mono; [lia|exact H]].
Qed.
Lemma part_mono : forall c x, height c < h -> part_reads R c x -> part_reads S c x.
Proof. intros c x Hc H. choice_mono x Hc H. Qed.
Lemma chapter_mono : forall c x, height c < h -> chapter_reads R c x -> chapter_reads S c x.
Proof. intros c x Hc H. choice_mono x Hc H. Qed.
Lemma section_mono : forall c x, height c < h -> section_reads R c x -> section_reads S c x.
Proof. intros c x Hc H. choice_mono x Hc H. Qed.
Lemma subsection_mono : forall c x, height c < h -> subsection_reads R c x -> subsection_reads S c x.
Proof. intros c x Hc H. choice_mono x Hc H. Qed.
Lemma division_mono : forall c x, height c < h -> division_reads R c x -> division_reads S c x.
Proof. intros c x Hc [E H]. split; [exact E|]. given E Hc. Qed.
Lemma main_mono : forall c x, height c < h -> main_reads R c x -> main_reads S c x.
Proof. intros c x Hc H. choice_mono x Hc H. Qed.
Lemma suppl_mono : forall c x, height c < h -> suppl_reads R c x -> suppl_reads S c x.
Proof. intros c x Hc H. choice_mono x Hc H. Qed.

Lemma sct_mono : forall c x, height c < h -> sct_reads R c x -> sct_reads S c x.
Proof.
  intros c x Hc (HK & ss & cs & t & H1 & H2 & H3 & H). split; [exact HK|]. exists ss, cs, t.
  pose proof (low_child c Hc) as Hl.
  split; [eapply each_mono; [exact Hl| |exact H1]; intros d y Hd E Hy; given E Hd|].
  split; [eapply each_mono; [exact Hl| |exact H2]; intros d y Hd E Hy; given E Hd|].
  split; [eapply latest_mono; [exact Hl| |exact H3]; intros d y Hd E Hy; given E Hd|exact H].
Qed.
Lemma header_row_mono : forall c x, height c < h -> header_row_reads R c x -> header_row_reads S c x.
Proof.
  intros c x Hc (E & H). split; [exact E|]. eapply each_mono; [exact (low_child c Hc)| |exact H].
  intros d y Hd _. apply text_of_mono. lia.
Qed.
Lemma label_mono : forall c x, height c < h -> remarks_label_reads R c x -> remarks_label_reads S c x.
Proof. intros c x Hc (E & H & Ht). do 2 (split; [assumption|]). apply text_of_mono; [lia|exact Ht]. Qed.
Lemma readable_mono : forall l rs, (forall c, In c l -> height c < h) -> readable R l rs -> readable S l rs.
Proof.
  intros l rs Hl H. induction H as [|c r l rs Hr H IH|c l rs Hr H IH].
  - constructor.
  - apply readable_one; [|apply IH; intros d Hd; apply Hl; right; exact Hd].
    apply HRS; [apply Hl; left; reflexivity|exact I|exact Hr].
  - apply readable_not; [exact Hr|apply IH; intros d Hd; apply Hl; right; exact Hd].
Qed.
Lemma amend_sentence_mono : forall c x, height c < h -> amend_sentence_reads R c x -> amend_sentence_reads S c x.
Proof.
  intros c x Hc (s & r & E & H). exists s, r. split; [exact E|]. apply HRS; [|exact I|exact H].
  assert (Hs : In (NElement s) (children c)) by (rewrite E; left; reflexivity). apply height_child in Hs. lia.
Qed.
Lemma structure_mono : forall T B n tn bn (pt qt : Element -> T -> Prop) (pb qb : Element -> B -> Prop) e f,
  height e <= h -> (forall c x, height c < h -> pt c x -> qt c x) ->
  (forall c x, height c < h -> name c = bn -> pb c x -> qb c x) ->
  structure R n tn bn pt pb e f -> structure S n tn bn qt qb e f.
Proof.
  intros T B n tn bn pt qt pb qb e f He Ht Hb (E & HK & H1 & H2 & before & b & after & Ec & Eb & Hn & F1 & F2).
  pose proof (low_under e He) as Hl.
  do 2 (split; [assumption|]). split; [eapply latest_mono; [exact Hl| |exact H1]; auto|].
  split; [eapply latest_mono; [exact Hl| |exact H2]; auto|].
  exists before, b, after. do 3 (split; [assumption|]). rewrite Ec in Hl. apply low_app in Hl as [L1 L2].
  split; (eapply readable_mono; [|eassumption]); intros c Hc; apply filter_In in Hc as [Hc _]; apply elements_in in Hc;
    [apply L1, Hc|apply (low_cons _ _ L2), Hc].
Qed.
Lemma heading_mono : forall C n (P Q : Element -> C -> Prop) e f, height e <= h ->
  (forall c x, height c < h -> P c x -> Q c x) -> heading R n P e f -> heading S n Q e f.
Proof.
  intros C n P Q e f He H (E & H1 & H2 & H3 & t & rest & Ec & Et & Ht & F). pose proof (low_under e He) as Hl.
  rewrite Ec in Hl. do 4 (split; [assumption|]). exists t, rest. do 2 (split; [assumption|]). split.
  - apply text_of_mono; [|exact Ht]. apply Nat.lt_le_incl, Hl. left. reflexivity.
  - eapply elements_mono; [exact (low_cons _ _ Hl)|exact H|exact F].
Qed.

Ltac text_rel := first
  [ apply text_of_mono; [lia|assumption] | apply moded_mono; [lia|assumption] | apply caption_mono; [lia|assumption]
  | apply struct_mono; assumption | apply list_sentence_mono; assumption | apply remarks_mono; assumption
  | apply appdx_table_mono; assumption | apply appdx_note_mono; assumption | apply appdx_fig_mono; assumption
  | apply toc_section_mono; assumption | apply toc_suppl_mono; assumption | apply toc_main_mono; assumption
  | apply new_provision_mono; assumption | apply main_mono; assumption | apply suppl_mono; assumption
  | apply sct_mono; assumption | apply header_row_mono; assumption | apply label_mono; assumption
  | apply amend_sentence_mono; assumption | apply formula_mono; assumption | assumption ].
Ltac rel := let c := fresh "c" in let x := fresh "x" in let Hc := fresh "Hc" in let E := fresh "E" in let Hx := fresh "Hx" in
  first [ intros c x Hc E Hx; first [given E Hc | text_rel] | intros c x Hc Hx; first [given I Hc | text_rel] ].
Ltac part Hl := first
  [ assumption
  | eapply each_mono; [exact Hl| |eassumption]; solve [rel]
  | eapply latest_mono; [exact Hl| |eassumption]; solve [rel]
  | eapply latest_or_mono; [exact Hl| |eassumption]; solve [rel]
  | eapply tags_mono; [exact Hl| |eassumption]; solve [rel]
  | eapply elements_mono; [exact Hl| |eassumption]; solve [rel]
  | eapply inner_mono; [exact Hl| |eassumption]; solve [rel]
  | apply text_of_mono; assumption ].
Ltac whole e He H :=
  let Hl := fresh "Hl" in pose proof (low_under e He) as Hl;
  repeat match type of H with _ /\ _ => let H1 := fresh "H" in destruct H as [H1 H] end;
  repeat match goal with |- _ /\ _ => split end; part Hl.

Lemma reading_mono : forall k e f, height e <= h -> reading R k e f -> reading S k e f.
Proof.
  intros k e f He H. pose proof (low_under e He) as Hl.
  destruct k; cbn [reading] in H |- *; try (unfold toc_heading, appended, suppl_appended in H |- *; solve [whole e He H]).
  - destruct H as (H1 & H2 & H). do 2 (split; [assumption|]). eapply mixed_mono; [exact Hl| |apply line_node_mono|exact H]; intros s x X; exact X.
  - eapply mixed_mono; [exact Hl| |apply contents_node_mono|exact H]; intros s x X; exact X.
  - destruct H as (H1 & H2 & H3 & H4 & H5 & H). do 5 (split; [assumption|]).
    eapply mixed_mono; [exact Hl| |apply sentence_node_mono|exact H]; intros s x X; exact X.
  - destruct H as (H1 & H2 & H3 & H4 & H5 & H6 & H7 & H8 & H9 & H). do 9 (split; [assumption|]).
    eapply mixed_mono; [exact Hl| |apply cell_node_mono|exact H]; intros s x X; exact X.
  - destruct s; (eapply structure_mono; [exact He| | |exact H]; rel).
  - eapply structure_mono; [exact He| | |exact H]; rel.
  - eapply structure_mono; [exact He| | |exact H]; rel.
  - destruct H as (E & s & rest & Ec & Es & F1 & F2). rewrite Ec in Hl. split; [exact E|].
    exists s, rest. do 2 (split; [assumption|]). split.
    + eapply elements_mono; [|apply list_sentence_mono|exact F1]. apply low_child, Hl. left. reflexivity.
    + intros Hn. specialize (F2 Hn). eapply elements_mono; [exact (low_cons _ _ Hl)| |exact F2].
      intros c x Hc Hx. apply HRS; [exact Hc|destruct l; exact I|exact Hx].
  - destruct H as (E & Hn & H1 & H2 & H3 & F1 & F2 & F3 & F4). do 5 (split; [assumption|]).
    split; [part Hl|]. split; [part Hl|]. split; [part Hl|]. eapply tags_mono; [exact Hl| |exact F4].
    intros c x Hc Hx. apply HRS; [exact Hc|destruct l; exact I|exact Hx].
  - destruct H as (E & H1 & H2 & H3 & head & body & c & rest & Ec & Eb & K1 & K2 & F1 & F2 & F3 & F4).
    rewrite Ec in Hl. apply low_app in Hl as [L1 L2]. do 4 (split; [assumption|]).
    exists head, body, c, rest. do 4 (split; [assumption|]).
    split; [part L1|]. split; [part L1|]. split; part L2.
  - apply (heading_mono _ _ _ _ _ _ He part_mono), H.
  - apply (heading_mono _ _ _ _ _ _ He chapter_mono), H.
  - apply (heading_mono _ _ _ _ _ _ He section_mono), H.
  - apply (heading_mono _ _ _ _ _ _ He subsection_mono), H.
  - apply (heading_mono _ _ _ _ _ _ He division_mono), H.
Qed.
End Mono.

(** ** The relation defined by the rules *)
Theorem parse_follows : follows_rules (fun k e v => parse k e = Ok v).
Proof. intros k e v H. apply parse_exact, H. Qed.

Theorem rules_unique : forall R S, follows_rules R -> follows_rules S ->
  forall e k v, tagged k e -> R k e v <-> S k e v.
Proof.
  intros R S HR HS e. induction e as [e IH] using element_ind_height. intros k v Ht.
  rewrite (HR k e v Ht), (HS k e v Ht).
  split; apply (reading_mono _ _ (height e)); try apply le_n; intros j c x Hc Hj; apply IH; assumption.
Qed.

Theorem read_exact : forall k e v, tagged k e -> parse k e = Ok v <-> read_by_rules k e v.
Proof.
  intros k e v Ht. split.
  - intros H. exists (height e). revert k v Ht H.
    assert (G : forall n d, height d <= n -> forall k v, tagged k d -> parse k d = Ok v -> reads_in n k d v).
    { induction n as [|n IH]; intros d Hd k v Ht H.
      - rewrite (height_eq d) in Hd. lia.
      - cbn [reads_in]. apply parse_exact in H; [|exact Ht]. revert H. apply (reading_mono _ _ (height d)); [|apply le_n].
        intros j c x Hc Hj. apply IH; [lia|exact Hj]. }
    intros k v Ht H. apply G; [apply le_n|exact Ht|exact H].
  - intros [n H]. revert k e v Ht H. induction n as [|n IH]; intros k e v Ht H; cbn [reads_in] in H; [destruct H|].
    apply parse_exact; [exact Ht|]. revert H. apply (reading_mono _ _ (height e)); [|apply le_n].
    intros j c x _ Hj. apply IH, Hj.
Qed.

(** ** Laws *)
Lemma date_iff : forall a o, parse_date_attr a = Ok o <-> law_integer a o.
Proof.
  intros a o. unfold parse_date_attr, law_integer. destruct a as [s|].
  - destruct (String.eqb_spec s "") as [->|Hs].
    + split; [intros H; injection H as <-; auto|]. destruct o as [n|]; [|reflexivity].
      intros (s & Es & H). injection Es as <-. apply parse_usize_spec in H. discriminate.
    + split.
      * intros H. destruct (parse_usize s) as [n|] eqn:E; [|discriminate]. injection H as <-.
        exists s. split; [reflexivity|apply parse_usize_spec, E].
      * destruct o as [n|].
        -- intros (s' & Es & H). injection Es as <-. apply parse_usize_spec in H. rewrite H. reflexivity.
        -- intros [H|H]; congruence.
  - split; [intros H; injection H as <-; auto|]. destruct o as [n|]; [intros (s & Es & _); discriminate|reflexivity].
Qed.
Lemma empty_no_number : forall n, from_num_str "" <> Ok n.
Proof. intros n H. vm_compute in H. discriminate. Qed.

Theorem law_exact : forall e v, parse_law e = Ok v <-> law_reading e v.
Proof.
  intros e [era year num month day ty lang ln body]. unfold parse_law, law_reading.
  cbn [law_era law_year law_no law_promulgate_month law_promulgate_day law_type law_lang law_num law_body].
  assert (H1 : NoDup (map fst era_names)) by nodup.
  assert (H2 : NoDup (map fst law_type_names)) by nodup.
  assert (H3 : NoDup (map fst lang_names)) by nodup.
  rewrite with_name_iff.
  rewrite <- (enum_req_iff era_names H1 _ (AttributeParseError (name e) "Era")).
  rewrite <- (enum_req_iff law_type_names H2 _ (AttributeParseError (name e) "LawType")).
  rewrite <- (enum_req_iff lang_names H3 _ (AttributeParseError (name e) "Lang")).
  rewrite <- required_integer_iff, <- !date_iff.
  change eras with era_names. change law_types with law_type_names. change langs with lang_names.
  split.
  - intros (Hn & H). apply bind_iff in H as (x1 & E1 & H). apply bind_iff in H as (x2 & E2 & H).
    apply bind_iff in H as (s & Es & H). apply bind_iff in H as (x3 & E3 & H). apply bind_iff in H as (x4 & E4 & H).
    apply bind_iff in H as (x5 & E5 & H). apply bind_iff in H as (x6 & E6 & H). apply bind_iff in H as (x7 & E7 & H).
    destruct (children e) as [|[c|x|x] rest]; try discriminate.
    destruct (String.eqb_spec (name c) "LawNum") as [En|En]; [|discriminate].
    destruct rest as [|[b|x|x] rest]; try discriminate.
    apply bind_iff in H as (x8 & E8 & H). injection H as <- <- <- <- <- <- <- <- <-.
    do 3 (split; [assumption|]). split.
    + destruct (get e "Num") as [s'|] eqn:G; [|discriminate]. injection Es as ->.
      destruct (String.eqb_spec s "") as [->|Hs]; [injection E3 as <-; reflexivity|].
      apply bind_iff in E3 as (m & Em & E3). injection E3 as <-. exists s. split; [reflexivity|apply from_num_iff, Em].
    + do 4 (split; [assumption|]). exists c, b, rest. split; [reflexivity|]. split; [exact En|].
      split; [apply nodes_text_own|apply read_exact; [exact I|exact E8]].
  - intros (Hn & E1 & E2 & E3 & E4 & E5 & E6 & E7 & c & b & rest & Ec & En & -> & E8).
    split; [exact Hn|].
    apply bind_iff. exists era. split; [exact E1|]. apply bind_iff. exists year. split; [exact E2|].
    apply bind_iff. assert (G : exists s, get e "Num" = Some s /\
      (if String.eqb s "" then Ok None else n <- from_num_str s; Ok (Some n)) = Ok num).
    { destruct num as [n|].
      - destruct E3 as (s & G & Hn3). exists s. split; [exact G|]. apply from_num_iff in Hn3.
        destruct (String.eqb_spec s "") as [->|_]; [destruct (empty_no_number _ Hn3)|]. rewrite Hn3. reflexivity.
      - exists "". split; [exact E3|reflexivity]. }
    destruct G as (s & G & Hs). exists s. split; [rewrite G; reflexivity|].
    apply bind_iff. exists num. split; [exact Hs|]. apply bind_iff. exists month. split; [exact E4|].
    apply bind_iff. exists day. split; [exact E5|]. apply bind_iff. exists ty. split; [exact E6|].
    apply bind_iff. exists lang. split; [exact E7|]. rewrite Ec, (proj2 (String.eqb_eq _ _) En).
    apply bind_iff. exists body. split; [apply read_exact; [exact I|exact E8]|]. unfold own_text. rewrite <- nodes_text_own. reflexivity.
Qed.

(** ** What is not read gives an error *)
Theorem refused_exact : forall k e, k <> KVoid -> tagged k e -> ~ (exists a, inside a e /\ bodyless a) ->
  refused k e <-> forall v, ~ read_by_rules k e v.
Proof.
  intros k e Hk Ht Hb. unfold refused. split.
  - intros [er H] v Hv. apply read_exact in Hv; [|exact Ht]. rewrite H in Hv. discriminate.
  - intros H. destruct (parse k e) as [v|er|] eqn:E.
    + apply read_exact in E; [|exact Ht]. destruct (H v E).
    + exists er. reflexivity.
    + apply parse_panic in E; [|exact Hk]. destruct (Hb E).
Qed.
Theorem law_refused_exact : forall e, get e "Num" <> None -> ~ (exists a, inside a e /\ bodyless a) ->
  (exists er, parse_law e = Err er) <-> forall v, ~ law_reading e v.
Proof.
  intros e Hn Hb. split.
  - intros [er H] v Hv. apply law_exact in Hv. rewrite H in Hv. discriminate.
  - intros H. destruct (parse_law e) as [v|er|] eqn:E.
    + apply law_exact in E. destruct (H v E).
    + exists er. reflexivity.
    + apply parse_law_panic in E as [E|E]; [destruct (Hn E)|destruct (Hb E)].
Qed.
