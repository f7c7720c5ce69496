(** The readers follow the rules of ReadingSpec exactly. *)
From Coq Require Import String List Arith NArith Bool Lia.
From Verif Require Import Base NumStr NumStrSpec BaseFacts NumStrFacts Xml Ast XmlWrite XmlParse XmlSim
  KnotFacts GrammarSpec GrammarFacts ReadSpec ReadFacts ReadingSpec ReadingLib.
Import ListNotations.
Open Scope string_scope.
Open Scope list_scope.

(** ** Text *)
Lemma first_text_iff : forall c s, first_text (children c) = s <-> leading_text c s.
Proof.
  intros c s. unfold leading_text. destruct (children c) as [|[d|t|t] r]; cbn.
  - split; [intros <-; right; split; [reflexivity|discriminate]|].
    intros [[r X]|[-> _]]; [discriminate|reflexivity].
  - split; [intros <-; right; split; [reflexivity|discriminate]|].
    intros [[r' X]|[-> _]]; [discriminate|reflexivity].
  - split; [intros <-; left; eauto|]. intros [[r' X]|[_ X]]; [congruence|]. destruct (X t r eq_refl).
  - split; [intros <-; right; split; [reflexivity|discriminate]|].
    intros [[r' X]|[-> _]]; [discriminate|reflexivity].
Qed.
Lemma sup_iff : forall c s, parse_sup c = Ok s <-> name c = "Sup" /\ leading_text c s.
Proof.
  intros c s. unfold parse_sup. rewrite with_name_iff, <- first_text_iff.
  split; intros [H X]; (split; [exact H|congruence]).
Qed.
Lemma sub_iff : forall c s, parse_sub c = Ok s <-> name c = "Sub" /\ leading_text c s.
Proof.
  intros c s. unfold parse_sub. rewrite with_name_iff, <- first_text_iff.
  split; intros [H X]; (split; [exact H|congruence]).
Qed.

(** What the loop does with one element. *)
Lemma push_ok_cases : forall X Y (inj : X -> Y) (f : Element -> R X) c u,
  h_push_ok whole inj f c = Ok u ->
  (exists v, f c = Ok v /\ forall s, u s = s ++ [inj v]) \/ ((exists er, f c = Err er) /\ forall s, u s = s).
Proof.
  intros X Y inj f c u H. unfold h_push_ok in H. destruct (f c) as [v|er|]; cbn in H; [| |discriminate];
    injection H as <-; [left; exists v; auto|right; split; [eauto|reflexivity]].
Qed.

Lemma text_run_iff : forall l acc t,
  run (fun s t => app t [TE_Text s]) skip (text_table parse) l acc = Ok t <->
  exists ts, t = acc ++ ts /\ text_reads l ts.
Proof.
  induction l as [|[c|s|s] r IH]; intros acc t; cbn [run].
  - split; [intros H; injection H as <-; exists []; rewrite app_nil_r; split; [reflexivity|constructor]|].
    intros (ts & -> & H). inversion H. rewrite app_nil_r. reflexivity.
  - rewrite bind_iff. split.
    + intros [u [Hu H]]. apply IH in H as (ts & -> & Ht). unfold lookup, text_table in Hu. row_cases Hu.
      1-4: apply push_ok_cases in Hu as [[v [Hv Hs]]|[[er Hv] Hs]].
      * exists (TE_Ruby v :: ts). rewrite Hs, <- app_assoc. split; [reflexivity|]. constructor; [|exact Ht]. split; assumption.
      * exists ts. rewrite Hs. split; [reflexivity|]. apply text_bad_ruby; [exact E|eexists; exact Hv|exact Ht].
      * exists (TE_Line v :: ts). rewrite Hs, <- app_assoc. split; [reflexivity|]. constructor; [|exact Ht]. split; assumption.
      * exists ts. rewrite Hs. split; [reflexivity|]. apply text_bad_line; [exact E|eexists; exact Hv|exact Ht].
      * exists (TE_Sup v :: ts). rewrite Hs, <- app_assoc. split; [reflexivity|]. constructor; [|exact Ht]. apply sup_iff, Hv.
      * unfold parse_sup, with_name in Hv. rewrite E in Hv. discriminate.
      * exists (TE_Sub v :: ts). rewrite Hs, <- app_assoc. split; [reflexivity|]. constructor; [|exact Ht]. apply sub_iff, Hv.
      * unfold parse_sub, with_name in Hv. rewrite E in Hv. discriminate.
      * injection Hu as <-. exists ts. split; [reflexivity|]. apply text_foreign; [|exact Ht].
        intros [X|[X|[X|[X|[]]]]]; congruence.
    + intros (ts & -> & H). inversion H as [| | |c' x l' ts' Hx Hts|c' l' ts' Hn Hts|c' l' ts' Hn [er Hr] Hts|c' l' ts' Hn [er Hr] Hts]; subst.
      * exists (fun s => s ++ [x]). split.
        -- unfold lookup, text_table. destruct x; try (destruct Hx; fail); destruct Hx as [Hn Hx]; rewrite Hn;
             cbn [assoc String.eqb Ascii.eqb Bool.eqb]; unfold h_push_ok.
           ++ unfold reads in Hx. rewrite Hx. reflexivity.
           ++ unfold reads in Hx. rewrite Hx. reflexivity.
           ++ rewrite (proj2 (sup_iff c s) (conj Hn Hx)). reflexivity.
           ++ rewrite (proj2 (sub_iff c s) (conj Hn Hx)). reflexivity.
        -- apply IH. exists ts'. rewrite <- app_assoc. auto.
      * exists (fun s => s). split; [|apply IH; eauto].
        unfold lookup, text_table. cbn [assoc].
        repeat match goal with |- context [String.eqb ?a ?b] =>
          destruct (String.eqb_spec a b) as [E|_]; [exfalso; apply Hn; rewrite E; cbn; tauto|] end.
        reflexivity.
      * exists (fun s => s). split; [|apply IH; eauto]. unfold lookup, text_table. rewrite Hn.
        cbn [assoc String.eqb Ascii.eqb Bool.eqb]. unfold h_push_ok. rewrite Hr. reflexivity.
      * exists (fun s => s). split; [|apply IH; eauto]. unfold lookup, text_table. rewrite Hn.
        cbn [assoc String.eqb Ascii.eqb Bool.eqb]. unfold h_push_ok. rewrite Hr. reflexivity.
  - rewrite IH. split.
    + intros (ts & -> & H). exists (TE_Text s :: ts). rewrite <- app_assoc. split; [reflexivity|]. constructor. exact H.
    + intros (ts & -> & H). inversion_clear H. eexists. rewrite <- app_assoc. split; [reflexivity|assumption].
  - rewrite IH. split; intros (ts & -> & H); exists ts; (split; [reflexivity|]); [constructor; exact H|inversion_clear H; assumption].
Qed.
Lemma text_iff : forall l t, from_children parse l = Ok t <-> text_reads l t.
Proof.
  intros l t. unfold from_children. rewrite text_run_iff. split; [intros (ts & -> & H); exact H|intros H; exists t; auto].
Qed.
Lemma text_of_iff : forall c t, p_text parse c = Ok t <-> text_of c t.
Proof. intros. apply text_iff. Qed.
Lemma moded_iff : forall c t, parse_twm parse c = Ok t <-> moded_text_of c t.
Proof.
  intros c [t m]. unfold parse_twm, ReadingSpec.moded_text_of. rewrite bind_iff. cbn [twm_contents twm_mode].
  rewrite <- text_iff, <- mode_iff. split; [intros (x & Hx & H)|intros [Hx H]; exists t]; split; congruence.
Qed.
Lemma caption_iff : forall c t, parse_caption parse c = Ok t <-> caption_of c t.
Proof.
  intros c [t m]. unfold parse_caption, ReadingSpec.caption_of. rewrite bind_iff. cbn [cap_text cap_common].
  rewrite <- text_iff, <- flag_opt_iff. split.
  - intros (x & Hx & H). apply bind_iff in H as (y & Hy & H). split; congruence.
  - intros [Hx H]. exists t. split; [exact Hx|]. rewrite H. reflexivity.
Qed.
Lemma formula_iff : forall c a, parse_arith parse c = Ok a <-> formula_reads c a.
Proof.
  intros c [n x]. unfold parse_arith, ReadingSpec.formula_reads. rewrite bind_iff. cbn [af_num af_contents].
  rewrite <- integer_iff. unfold reads. split.
  - intros (m & Hm & H). apply bind_iff in H as (y & Hy & H). split; congruence.
  - intros [Hm H]. exists n. split; [exact Hm|]. rewrite H. reflexivity.
Qed.
Lemma fig_iff : forall c s, parse_fig c = Ok s <-> fig_reads c s.
Proof. intros c s. unfold parse_fig, fig_reads. destruct (get c "src"); split; congruence. Qed.
Lemma label_iff : forall c x, parse_remarks_label parse c = Ok x <-> remarks_label_reads c x.
Proof.
  intros c [t b]. unfold parse_remarks_label, ReadingSpec.remarks_label_reads, ReadingSpec.text_of. rewrite with_name_iff, bind_iff.
  cbn [rl_text rl_line_break]. rewrite <- text_iff, <- flag_iff. split.
  - intros (Hn & x & Hx & H). apply bind_iff in H as (y & Hy & H). repeat split; congruence.
  - intros (Hn & Hx & H). split; [exact Hn|]. exists b. split; [exact Hx|]. rewrite H. reflexivity.
Qed.
Lemma amend_sentence_iff : forall c x, parse_amend_sentence parse c = Ok x <-> amend_sentence_reads c x.
Proof.
  intros c x. unfold parse_amend_sentence, ReadingSpec.amend_sentence_reads. destruct (children c) as [|[s|t|t] r].
  - split; [discriminate|intros (s & r & H & _); discriminate].
  - split; [intros H; exists s, r; auto|intros (s' & r' & H & H'); congruence].
  - split; [discriminate|intros (s & r' & H & _); discriminate].
  - split; [discriminate|intros (s & r' & H & _); discriminate].
Qed.

Lemma header_row_iff : forall c x, parse_header_row parse c = Ok x <-> header_row_reads c x.
Proof.
  intros c x. unfold parse_header_row, ReadingSpec.header_row_reads. rewrite with_name_iff, (skip_run0_iff _ _ _ text_of text_of_iff).
  reflexivity.
Qed.

(** A relation given by a reader. *)
Lemma fun_of : forall A B (f : A -> R B) (P : A -> B -> Prop), (forall a b, f a = Ok b <-> P a b) -> functional P.
Proof. intros A B f P H a b b' X Y. apply H in X, Y. congruence. Qed.

(** From a reader to the rule, and back. *)
Ltac conv H :=
  first [ exact H
        | apply text_of_iff, H | apply moded_iff, H | apply caption_iff, H | apply formula_iff, H
        | apply fig_iff, H | apply label_iff, H | apply header_row_iff, H | apply amend_sentence_iff, H
        | apply (fun c s => proj1 (sup_iff c s)) in H; apply H
        | apply (fun c s => proj1 (sub_iff c s)) in H; apply H ].

Ltac lit := cbn [String.eqb Ascii.eqb Bool.eqb existsb orb].

(** The cases of a choice. *)
Ltac choice := unfold reads in *; intuition congruence.

Lemma p_text_fun : functional text_of.
Proof. eapply fun_of, text_of_iff. Qed.
Lemma twm_fun : functional moded_text_of.
Proof. eapply fun_of, moded_iff. Qed.
Lemma caption_fun : functional caption_of.
Proof. eapply fun_of, caption_iff. Qed.
Lemma formula_fun : functional formula_reads.
Proof. eapply fun_of, formula_iff. Qed.
Lemma fig_fun : functional fig_reads.
Proof. eapply fun_of, fig_iff. Qed.
Lemma label_fun : functional remarks_label_reads.
Proof. eapply fun_of, label_iff. Qed.
Lemma amend_sentence_fun : functional amend_sentence_reads.
Proof. eapply fun_of, amend_sentence_iff. Qed.
Lemma header_row_fun : functional header_row_reads.
Proof. eapply fun_of, header_row_iff. Qed.
Lemma leading_fun : functional leading_text.
Proof. intros c s s' H H'. apply first_text_iff in H, H'. congruence. Qed.

(** ** From acceptance and uniqueness to exactness *)
Lemma exact_from : forall A (p : Element -> R A) (P : Element -> A -> Prop),
  (forall e f, p e = Ok f -> P e f) -> (forall e f, P e f -> exists g, p e = Ok g) -> functional P ->
  forall e f, p e = Ok f <-> P e f.
Proof.
  intros A p P Hf Ha Hu e f. split; [apply Hf|]. intros H. destruct (Ha e f H) as [g Hg].
  rewrite (Hu e f g H (Hf e g Hg)). exact Hg.
Qed.

Lemma incl_b : forall l m, forallb (fun a => existsb (String.eqb a) m) l = true -> incl l m.
Proof.
  intros l m H a Ha. rewrite forallb_forall in H. specialize (H a Ha). apply existsb_exists in H as [b [Hb E]].
  apply String.eqb_eq in E as ->. exact Hb.
Qed.

(** The row of the table that applies. *)
Ltac rows Hu :=
  unfold lookup in Hu; cbn [assoc app map fst snd] in Hu;
  repeat match type of Hu with
  | match (if String.eqb ?n ?t then _ else _) with _ => _ end = _ =>
      let E := fresh "E" in let NE := fresh "NE" in
      destruct (String.eqb_spec n t) as [E|NE]; cbv iota in Hu
  end.

Ltac pick Hx E := first [conv Hx | cbn; split; [exact E|conv Hx]].
Ltac row_done Hu :=
  cbv beta in Hu;
  match type of Hu with
  | _ => discriminate Hu
  | _ = Ok _ =>
      match goal with E : name _ = _ |- _ =>
        try rewrite E; lit; let x := fresh "x" in let Hx := fresh "Hx" in
        apply bind_ok in Hu as [x [Hx Hu]]; injection Hu as <-;
        first [ intros ?s; reflexivity
              | eexists; split; [|intros ?s; cbn; reflexivity]; pick Hx E ]
      end
  end.
Ltac rows_done :=
  let c := fresh "c" in let u := fresh "u" in let Hu := fresh "Hu" in
  intros c u Hu; rows Hu; row_done Hu.

Ltac field Hrun pi :=
  first [ refine (optional _ _ _ _ _ Hrun _ pi _ _ eq_refl _); solve [rows_done]
        | refine (replaced _ _ _ _ _ Hrun _ pi _ _ _ eq_refl _); solve [rows_done]
        | refine (pushed _ _ _ _ _ Hrun _ pi _ _ eq_refl _); solve [rows_done]
        | refine (flattened _ _ _ _ _ _ Hrun _ _ pi _ _ _ eq_refl _); solve [rows_done] ].
Ltac fields Hrun :=
  first [ field Hrun uconstr:(fun s => s)
        | field Hrun uconstr:(fun s => fst s)
        | field Hrun uconstr:(fun s => fst (snd s))
        | field Hrun uconstr:(fun s => fst (snd (snd s)))
        | field Hrun uconstr:(fun s => fst (snd (snd (snd s))))
        | field Hrun uconstr:(fun s => fst (snd (snd (snd (snd s)))))
        | field Hrun uconstr:(fun s => fst (snd (snd (snd (snd (snd s))))))
        | field Hrun uconstr:(fun s => fst (snd (snd (snd (snd (snd (snd s)))))))
        | field Hrun uconstr:(fun s => fst (snd (snd (snd (snd (snd (snd (snd s))))))))
        | field Hrun uconstr:(fun s => fst (snd (snd (snd (snd (snd (snd (snd (snd s)))))))))
        | field Hrun uconstr:(fun s => fst (snd (snd (snd (snd (snd (snd (snd (snd (snd s))))))))))
        | field Hrun uconstr:(fun s => fst (snd (snd (snd (snd (snd (snd (snd (snd (snd (snd s)))))))))))
        | field Hrun uconstr:(fun s => fst (snd (snd (snd (snd (snd (snd (snd (snd (snd (snd (snd s)))))))))))) ].

Ltac attr :=
  first [ eassumption | reflexivity
        | apply flag_iff; eassumption | apply flag_opt_iff; eassumption | apply integer_iff; eassumption
        | apply string_iff; eassumption | apply string_iff; reflexivity
        | apply attribute_iff; eassumption
        | apply toc_number_iff; eassumption
        | apply number_steps; eexists; split; eassumption
        | apply item_number_steps; eexists; split; eassumption
        | apply mode_iff; reflexivity
        | eapply enum_opt_iff; [|eassumption]; nodup ].

Ltac known_done Hrun := eapply run_known_gen; [exact Hrun|intros; discriminate|apply incl_b; reflexivity].

Lemma ex_with_name : forall A e n m (k : R A), name e = n -> (exists g, k = Ok g) ->
  exists g, with_name e n m k = Ok g.
Proof. intros A e n m k H [g Hg]. exists g. apply with_name_iff. auto. Qed.
Lemma ex_bind : forall A B (x : R A) (f : A -> R B) a, x = Ok a -> (exists g, f a = Ok g) ->
  exists g, bind x f = Ok g.
Proof. intros A B x f a -> H. exact H. Qed.

(** Reading a child that has to be there. *)
Ltac found_one E :=
  match goal with
  | H : each ?P ?t ?l _, Hc : In (NElement ?c) ?l |- _ =>
      let x := fresh "x" in let Hx := fresh "Hx" in
      destruct (each_in _ P t l _ c H Hc E) as [x Hx]
  | H : latest ?P ?t ?l _, Hc : In (NElement ?c) ?l |- _ =>
      let x := fresh "x" in let Hx := fresh "Hx" in
      destruct (latest_in _ P t l _ c H Hc E) as [x Hx]
  | H : latest_or _ ?P ?t ?l _, Hc : In (NElement ?c) ?l |- _ =>
      let x := fresh "x" in let Hx := fresh "Hx" in
      destruct (latest_or_in _ _ P t l _ c H Hc E) as [x Hx]
  | H : Forall2 ?P (with_tags ?ts ?l) _, Hc : In (NElement ?c) ?l |- _ =>
      let x := fresh "x" in let Hx := fresh "Hx" in
      destruct (tags_in _ P ts l _ c H Hc ltac:(rewrite E; reflexivity)) as [x Hx]
  | H : Forall2 ?P (flat_map ?g (with_tag ?t ?l)) _, Hc : In (NElement ?c) ?l |- _ =>
      let x := fresh "x" in let Hx := fresh "Hx" in
      destruct (forall2_part _ _ _ g P _ _ c H (proj2 (in_with_tag c t l) (conj Hc E))) as [x Hx]
  end.
Ltac back Hx :=
  first [ exact Hx
        | apply text_of_iff, Hx | apply moded_iff, Hx | apply caption_iff, Hx | apply formula_iff, Hx
        | apply fig_iff, Hx | apply label_iff, Hx | apply header_row_iff, Hx | apply amend_sentence_iff, Hx ].
Ltac use_found Hx :=
  unfold h_push, h_some, h_put;
  first [ eapply ex_bind; [solve [back Hx]|eexists; reflexivity]
        | match type of Hx with _ _ ?x => is_var x; destruct x end; cbn in Hx;
          destruct Hx as [En Hx];
          first [ exfalso; congruence
                | eapply ex_bind; [solve [back Hx]|eexists; reflexivity] ] ].
Ltac accepted :=
  let c := fresh "c" in let Hc := fresh "Hc" in let HK := fresh "HK" in
  intros c Hc;
  match goal with H : known _ ?l |- _ => pose proof (H c Hc) as HK end;
  cbn in HK;
  repeat (destruct HK as [HK|HK];
    [symmetry in HK; unfold lookup; rewrite HK;
     cbn [assoc app map fst snd String.eqb Ascii.eqb Bool.eqb]; found_one HK;
     match goal with Hx : _ |- _ => solve [use_found Hx] end|]);
  destruct HK.

(** Equality of two fields given by the same rule. *)
Lemma bool_attr_fun : functional bool_attr.
Proof. intros a b b' [[H1 H2] _] [[H3 H4] _]. destruct b, b'; try reflexivity; [rewrite H4|rewrite H2]; auto. Qed.
Lemma flag_opt_fun : functional flag_opt.
Proof. intros a b b' H H'. destruct b as [[|]|], b' as [[|]|]; cbn in *; congruence. Qed.
Lemma integer_fun : functional integer_opt.
Proof.
  intros a b b' H H'. destruct a, b, b'; cbn in *; try contradiction; try reflexivity.
  apply parse_usize_spec in H, H'. congruence.
Qed.
Lemma num_text_fun : forall s n m, num_text s (base_number n) (eda_numbers n) (range_end_numbers n) ->
  num_text s (base_number m) (eda_numbers m) (range_end_numbers m) -> n = m.
Proof. intros s n m H H'. apply from_num_iff in H, H'. congruence. Qed.
Lemma number_fun : functional number.
Proof. intros a n m [s [-> H]] [s' [E H']]. injection E as <-. eapply num_text_fun; eassumption. Qed.
Lemma item_number_fun : functional item_number.
Proof.
  intros a n m [s [-> H]] [s' [E H']]. injection E as <-. destruct n, m; try reflexivity.
  - f_equal. eapply num_text_fun; eassumption.
  - destruct (H' _ _ _ H).
  - destruct (H _ _ _ H').
Qed.
Lemma mode_fun : functional mode.
Proof. intros a m m' H H'. apply mode_iff in H, H'. congruence. Qed.

Lemma one_of_fun : forall X (l : list (string * X)), NoDup (map fst l) -> functional (one_of l).
Proof. intros X l Hl a x y H H'. apply (one_of_found l Hl) in H, H'. congruence. Qed.
Lemma one_of_opt_fun : forall X (l : list (string * X)), NoDup (map fst l) -> functional (one_of_opt l).
Proof.
  intros X l Hl a x y H H'. apply (enum_opt_iff l Hl a (MissingRequiredTag "")) in H, H'. congruence.
Qed.
Lemma one_of_any_fun : forall X (l : list (string * X)), NoDup (map fst l) -> functional (one_of_any l).
Proof. intros X l Hl a x y H H'. apply (one_of_any_found l Hl) in H, H'. congruence. Qed.

Lemma border_iff : forall e n st, border e n = st <-> border_style (get e n) st.
Proof.
  intros e n st. unfold border, border_style.
  assert (Hl : NoDup (map fst line_styles)) by nodup.
  change (linestyle_of (get e n)) with (found line_styles (get e n)).
  destruct (found line_styles (get e n)) as [x|] eqn:E.
  - split; [intros <-; left; apply (one_of_found _ Hl), E|].
    intros [H|[_ H]]; [apply (one_of_found _ Hl) in H; congruence|].
    destruct (H x). apply (one_of_found _ Hl), E.
  - apply (one_of_any_found _ Hl) in E. split; [intros <-; right; split; [reflexivity|exact E]|].
    intros [H|[-> _]]; [destruct (E st H)|reflexivity].
Qed.
Lemma border_fun : functional border_style.
Proof.
  intros a x y H H'.
  assert (X : forall s, border_style a s -> border (mkElement "" (match a with Some v => [("B", v)] | None => [] end) []) "B" = s).
  { intros s Hs. apply border_iff. destruct a; exact Hs. }
  apply X in H, H'. congruence.
Qed.

Ltac choice_fun :=
  let c := fresh in let x := fresh in let y := fresh in let H := fresh in let H' := fresh in
  intros c x y H H'; destruct x, y; cbn in H, H'; try contradiction;
  destruct H as [? H], H' as [? H'];
  first [ exfalso; congruence
        | f_equal; first [ congruence | eapply reads_fun; eassumption | eapply p_text_fun; eassumption
                         | eapply leading_fun; eassumption | eapply formula_fun; eassumption ] ].
Lemma struct_fun : functional struct_reads.
Proof. choice_fun. Qed.
Lemma list_sentence_fun : functional list_sentence_reads.
Proof. choice_fun. Qed.
Lemma remarks_fun : functional remarks_reads.
Proof. choice_fun. Qed.
Lemma appdx_table_fun : functional appdx_table_reads.
Proof. choice_fun. Qed.
Lemma appdx_note_fun : functional appdx_note_reads.
Proof. choice_fun. Qed.
Lemma appdx_fig_fun : functional appdx_fig_reads.
Proof. choice_fun. Qed.
Lemma toc_section_fun : functional toc_section_reads.
Proof. choice_fun. Qed.
Lemma toc_suppl_fun : functional toc_suppl_reads.
Proof. choice_fun. Qed.
Lemma toc_main_fun : functional toc_main_reads.
Proof. choice_fun. Qed.
Lemma part_fun : functional part_reads.
Proof. choice_fun. Qed.
Lemma chapter_fun : functional chapter_reads.
Proof. choice_fun. Qed.
Lemma section_fun : functional section_reads.
Proof. choice_fun. Qed.
Lemma subsection_fun : functional subsection_reads.
Proof. choice_fun. Qed.
Lemma division_fun : functional division_reads.
Proof. intros c x y [_ H] [_ H']. eapply reads_fun; eassumption. Qed.
Lemma main_fun : functional main_reads.
Proof. choice_fun. Qed.
Lemma suppl_fun : functional suppl_reads.
Proof. choice_fun. Qed.
Lemma void_fun : functional (fun (_ : Element) (_ : Empty_set) => False).
Proof. intros c x. destruct x. Qed.

Ltac rel_fun :=
  first [ apply reads_fun | apply p_text_fun | apply twm_fun | apply caption_fun | apply formula_fun
        | apply fig_fun | apply label_fun | apply amend_sentence_fun | apply struct_fun | apply list_sentence_fun
        | apply remarks_fun | apply appdx_table_fun | apply appdx_note_fun | apply appdx_fig_fun
        | apply toc_section_fun | apply toc_suppl_fun | apply toc_main_fun | apply part_fun | apply chapter_fun
        | apply section_fun | apply subsection_fun | apply division_fun | apply main_fun | apply suppl_fun
        | apply void_fun | apply header_row_fun ].

(** Two values of the same fields. *)
Ltac same rf :=
  first [ congruence | reflexivity |
  match goal with
  | H : each ?P ?t ?l ?x, H' : each ?P ?t ?l ?y |- ?x = ?y => apply (each_fun _ P t ltac:(rf) l x y H H')
  | H : latest ?P ?t ?l ?x, H' : latest ?P ?t ?l ?y |- ?x = ?y => apply (latest_fun _ P t ltac:(rf) l x y H H')
  | H : latest ?P ?t ?l (Some ?x), H' : latest ?P ?t ?l (Some ?y) |- ?x = ?y =>
      let X := fresh in pose proof (latest_fun _ P t ltac:(rf) l _ _ H H') as X; injection X as X; exact X
  | H : latest_or ?d ?P ?t ?l ?x, H' : latest_or ?d ?P ?t ?l ?y |- ?x = ?y =>
      apply (latest_or_fun _ d P t ltac:(rf) l x y H H')
  | H : Forall2 ?P ?l ?x, H' : Forall2 ?P ?l ?y |- ?x = ?y => apply (forall2_fun _ _ P ltac:(rf) l x y H H')
  | H : mixed ?P ?l ?x, H' : mixed ?P ?l ?y |- ?x = ?y => apply (forall2_fun _ _ P ltac:(rf) _ x y H H')
  | H : bool_attr ?a ?x, H' : bool_attr ?a ?y |- ?x = ?y => apply (bool_attr_fun a x y H H')
  | H : flag_opt ?a ?x, H' : flag_opt ?a ?y |- ?x = ?y => apply (flag_opt_fun a x y H H')
  | H : integer_opt ?a ?x, H' : integer_opt ?a ?y |- ?x = ?y => apply (integer_fun a x y H H')
  | H : number ?a ?x, H' : number ?a ?y |- ?x = ?y => apply (number_fun a x y H H')
  | H : item_number ?a ?x, H' : item_number ?a ?y |- ?x = ?y => apply (item_number_fun a x y H H')
  | H : mode ?a ?x, H' : mode ?a ?y |- ?x = ?y => apply (mode_fun a x y H H')
  | H : border_style ?a ?x, H' : border_style ?a ?y |- ?x = ?y => apply (border_fun a x y H H')
  | H : one_of ?l ?a ?x, H' : one_of ?l ?a ?y |- ?x = ?y => apply (one_of_fun _ l ltac:(nodup) a x y H H')
  | H : one_of_opt ?l ?a ?x, H' : one_of_opt ?l ?a ?y |- ?x = ?y => apply (one_of_opt_fun _ l ltac:(nodup) a x y H H')
  | H : one_of_any ?l ?a ?x, H' : one_of_any ?l ?a ?y |- ?x = ?y => apply (one_of_any_fun _ l ltac:(nodup) a x y H H')
  | H : text_of ?a ?x, H' : text_of ?a ?y |- ?x = ?y => apply (p_text_fun a x y H H')
  end ].
Ltac parts H := repeat match type of H with _ /\ _ => let X := fresh "R" in destruct H as [X H] end.
Ltac unique rf :=
  let e := fresh "e" in let f := fresh "f" in let g := fresh "g" in let H := fresh "H" in let H' := fresh "H'" in
  intros e f g H H'; destruct f, g; cbn in H, H';
  unfold ReadingSpec.toc_heading, ReadingSpec.appended, ReadingSpec.suppl_appended in H, H'; cbn in H, H'; parts H; parts H'; f_equal; same rf.

(** ** Kinds without special features *)
Ltac conjs := repeat match goal with |- _ /\ _ => split end.
Ltac split_state H :=
  repeat match type of H with
  | match ?x with (_, _) => _ end = Ok _ => destruct x
  | match ?x with Some _ => _ | None => _ end = Ok _ => destruct x; [|discriminate]
  end;
  repeat match goal with s : unit |- _ => destruct s end.
Ltac forward :=
  let H := fresh "H" in
  intros e f H; peel H; split_state H; injection H as <-;
  match goal with Hrun : run _ _ _ _ _ = Ok _ |- _ =>
    cbn; unfold ReadingSpec.toc_heading, ReadingSpec.appended, ReadingSpec.suppl_appended; cbn; conjs;
    first [solve [attr] | solve [known_done Hrun] | solve [fields Hrun]]
  end.

Ltac prepare :=
  try match goal with
  | H : number _ _ |- _ => let X := fresh in pose proof H as X; apply number_steps in X as (? & ? & ?)
  | H : item_number _ _ |- _ => let X := fresh in pose proof H as X; apply item_number_steps in X as (? & ? & ?)
  end.
Ltac needed rf Hrun :=
  match goal with
  | |- exists g, match ?o with Some _ => _ | None => _ end = Ok g =>
      match goal with
      | H : latest ?P ?t ?l (Some ?x) |- _ =>
          let Y := fresh in
          assert (Y : o = Some x) by (apply (latest_fun _ P t ltac:(rf) l o (Some x)); [solve [fields Hrun]|exact H]);
          rewrite Y
      end
  | _ => idtac
  end.
Ltac open_state :=
  cbv beta;
  repeat match goal with |- exists g, match ?x with (_, _) => _ end = Ok g => destruct x end;
  repeat match goal with s : unit |- _ => destruct s end.
Ltac accepts rf :=
  let H := fresh "H" in
  intros e f H; destruct f; cbn in H; unfold ReadingSpec.toc_heading, ReadingSpec.appended, ReadingSpec.suppl_appended in H; cbn in H; parts H; prepare;
  apply ex_with_name; [assumption|];
  repeat match goal with
  | |- exists g, bind (run ?t ?d ?tb ?l ?s) _ = Ok g =>
      let st := fresh "st" in let Hst := fresh "Hst" in
      destruct (run_accept _ t d tb l s) as [st Hst]; [solve [accepted]|];
      apply (ex_bind _ _ _ _ _ Hst); open_state; needed rf Hst; eexists; reflexivity
  | |- exists g, bind _ _ = Ok g => eapply ex_bind; [solve [attr]|]
  end.

(** Choices whose values are collected in one list. *)
Ltac choice_rows := let c := fresh "c" in let u := fresh "u" in let Hu := fresh "Hu" in
  intros c u Hu; rows Hu; row_done Hu.
Ltac choice_accept :=
  let c := fresh "c" in let x := fresh "x" in let H := fresh "H" in
  intros c x H; destruct x; try (destruct H; fail);
  repeat match goal with l : lvl |- _ => destruct l | s : sname |- _ => destruct s end;
  cbn in H; destruct H as [?E H]; unfold lookup;
  match goal with E : name c = _ |- _ => rewrite E end;
  cbn [assoc app map fst snd String.eqb Ascii.eqb Bool.eqb];
  eexists; (split; [unfold h_push; apply bind_iff; eexists; split; [solve [back H]|reflexivity]|reflexivity]).
