(** The readers panic only because of a missing law number or an article without body. *)
From Coq Require Import String List Arith NArith Bool Lia.
From Verif Require Import Base NumStr BaseFacts NumStrFacts Xml Ast XmlWrite XmlParse XmlSpec XmlSim.
Import ListNotations.
Open Scope string_scope.
Open Scope list_scope.

Definition np {A} (x : R A) : Prop := x <> Panic.

Lemma np_ok : forall A (a : A), np (Ok a). Proof. discriminate. Qed.
Lemma np_err : forall A e, np (@Err A e). Proof. discriminate. Qed.
Lemma np_bind : forall A B (x : R A) (f : A -> R B), np x -> (forall a, x = Ok a -> np (f a)) -> np (bind x f).
Proof. intros A B [a|e|] f H K; cbn; [apply K; reflexivity|discriminate|exfalso; apply H; reflexivity]. Qed.
Lemma np_ok_ : forall A (x : R A), np x -> np (ok x).
Proof. intros A [a|e|] H; [discriminate|discriminate|exfalso; apply H; reflexivity]. Qed.
Lemma np_with_name : forall A e n x (k : R A), np k -> np (with_name e n x k).
Proof. intros. unfold with_name. destruct (String.eqb _ _); [assumption|discriminate]. Qed.
Lemma np_get_attribute : forall e n, np (get_attribute e n).
Proof. intros. unfold get_attribute. destruct (get e n); discriminate. Qed.
Lemma np_attr : forall T (f : string -> option T) e n, np (get_attribute_with_parse f e n).
Proof. intros. unfold get_attribute_with_parse. destruct (get e n) as [s|]; [destruct (f s)|]; discriminate. Qed.
Lemma np_attr_opt : forall T (f : string -> option T) e n, np (get_attribute_opt_with_parse f e n).
Proof. intros. unfold get_attribute_opt_with_parse. destruct (get e n) as [s|]; [destruct (f s)|]; discriminate. Qed.
Lemma np_flag : forall e n, np (get_flag e n).
Proof. intros. apply np_bind; [apply np_attr_opt|discriminate]. Qed.
Lemma np_string_opt : forall e n, np (get_string_opt e n).
Proof. intros. apply np_attr_opt. Qed.
Lemma np_enum_opt : forall T a (l : list (string * T)) e, np (enum_opt a l e).
Proof. intros. destruct a as [s|]; cbn; [destruct (assoc s l)|]; discriminate. Qed.
Lemma np_enum_req : forall T a (l : list (string * T)) e, np (enum_req a l e).
Proof. intros. destruct a as [s|]; cbn; [destruct (assoc s l)|]; discriminate. Qed.
Lemma np_num : forall s, np (from_num_str s).
Proof. exact from_num_str_no_panic. Qed.

Lemma np_run : forall S (txt : string -> S -> S) dflt tbl l s,
  (forall c, In (NElement c) l -> np (lookup dflt tbl c)) -> np (run txt dflt tbl l s).
Proof.
  intros S txt dflt tbl l. induction l as [|[c|t|t] r IH]; intros s H; cbn; try discriminate.
  - apply np_bind; [apply H; left; reflexivity|]. intros u _. apply IH. intros d Hd. apply H. right. exact Hd.
  - apply IH. intros d Hd. apply H. right. exact Hd.
  - apply IH. intros d Hd. apply H. right. exact Hd.
Qed.

Lemma np_lookup : forall S (dflt : handler S) tbl c,
  np (dflt c) -> Forall (fun th => np (snd th c)) tbl -> np (lookup dflt tbl c).
Proof.
  intros S dflt tbl c Hd H. unfold lookup. induction H as [|[t h] r Hh Hr IH]; cbn; [assumption|].
  destruct (String.eqb (name c) t); assumption.
Qed.

Lemma np_reject : forall S e c, np (@reject S e c). Proof. discriminate. Qed.
Lemma np_skip : forall S c, np (@skip S c). Proof. discriminate. Qed.
Lemma np_push : forall S X Y ix inj (f : Element -> R X) c, np (f c) -> np (@h_push S X Y ix inj f c).
Proof. intros. apply np_bind; [assumption|discriminate]. Qed.
Lemma np_some : forall S X ix (f : Element -> R X) c, np (f c) -> np (@h_some S X ix f c).
Proof. intros. apply np_bind; [assumption|discriminate]. Qed.
Lemma np_put : forall S X ix (f : Element -> R X) c, np (f c) -> np (@h_put S X ix f c).
Proof. intros. apply np_bind; [assumption|discriminate]. Qed.
Lemma np_push_ok : forall S X Y ix inj (f : Element -> R X) c, np (f c) -> np (@h_push_ok S X Y ix inj f c).
Proof. intros. apply np_bind; [apply np_ok_; assumption|discriminate]. Qed.
Lemma np_parse_all : forall X (f : Element -> R X) l,
  (forall c, In (NElement c) l -> np (f c)) -> np (parse_all f l).
Proof.
  intros X f l. induction l as [|[c|t|t] r IH]; intros H; cbn; try discriminate.
  - apply np_bind; [apply H; left; reflexivity|]. intros u _. apply np_bind; [|discriminate].
    apply IH. intros d Hd. apply H. right. exact Hd.
  - apply IH. intros d Hd. apply H. right. exact Hd.
  - apply IH. intros d Hd. apply H. right. exact Hd.
Qed.

Lemma np_forall_app : forall A (P : A -> Prop) l l', Forall P l -> Forall P l' -> Forall P (l ++ l').
Proof. intros. apply Forall_app. split; assumption. Qed.

(** No article without body anywhere. *)
Definition clean (e : Element) : Prop := forall a, inside a e -> ~ bodyless a.

Lemma clean_child : forall e c, clean e -> In (NElement c) (children e) -> clean c.
Proof. intros e c H Hc a Ha. apply H. econstructor; eassumption. Qed.

Lemma clean_height : forall e c h, height e <= S h -> In (NElement c) (children e) -> height c <= h.
Proof.
  intros [n a l] c h. cbn. induction l as [|x r IH]; cbn; [contradiction|].
  intros H [->|Hc]; [lia|]. apply IH; [|assumption]. lia.
Qed.

Section Step.
Context {K : kind -> Type}.
Context (p : forall k, Element -> R (K k)).
Context (h : nat).

Definition fine (c : Element) : Prop := clean c /\ height c <= h.
Hypothesis Hp : forall k c, k <> KVoid -> fine c -> np (p k c).

Lemma below : forall e c, clean e -> height e <= S h -> In (NElement c) (children e) -> fine c.
Proof. intros e c Hc Hh Hi. split; [eapply clean_child; eassumption|eapply clean_height; eassumption]. Qed.
Lemma below' : forall e c, fine e -> In (NElement c) (children e) -> fine c.
Proof. intros e c [Hc Hh] Hi. apply (below e c); auto. Qed.

Ltac np_tac :=
  repeat (match goal with
  | |- np (Ok _) => apply np_ok
  | |- np (Err _) => apply np_err
  | |- np (missing_required_tag _) => apply np_err
  | |- np (wrong_tag_name _ _) => apply np_err
  | |- np (unexpected_tag _ _) => apply np_err
  | |- np (bind _ _) => apply np_bind; [|intros ? ?]
  | |- np (ok _) => apply np_ok_
  | |- np (with_name _ _ _ _) => apply np_with_name
  | |- np (get_attribute _ _) => apply np_get_attribute
  | |- np (get_attribute_with_parse _ _ _) => apply np_attr
  | |- np (get_attribute_opt_with_parse _ _ _) => apply np_attr_opt
  | |- np (get_flag _ _) => apply np_flag
  | |- np (get_string_opt _ _) => apply np_string_opt
  | |- np (enum_opt _ _ _) => apply np_enum_opt
  | |- np (from_num_str _) => apply np_num
  | |- np (run _ _ _ _ _) => apply np_run; intros ? ?
  | |- np (lookup _ _ _) => apply np_lookup
  | |- np (reject _ _) => apply np_reject
  | |- np (skip _) => apply np_skip
  | |- np (h_push _ _ _ _) => apply np_push
  | |- np (h_some _ _ _) => apply np_some
  | |- np (h_put _ _ _) => apply np_put
  | |- np (h_push_ok _ _ _ _) => apply np_push_ok
  | |- np (parse_all _ _) => apply np_parse_all; intros ? ?
  | |- np (p _ _) => apply Hp; [discriminate|solve [eauto using below, below']]
  | |- Forall _ (_ ++ _) => apply np_forall_app
  | |- Forall _ (_ :: _) => constructor
  | |- Forall _ [] => constructor
  | |- np (let '(_, _) := ?x in _) => destruct x
  | |- np (match ?x with _ => _ end) => destruct x eqn:?
  | |- context [snd (_, _)] => cbn [snd]
  end).

Lemma sup_np : forall c, np (parse_sup c). Proof. intros. unfold parse_sup. np_tac. Qed.
Lemma sub_np : forall c, np (parse_sub c). Proof. intros. unfold parse_sub. np_tac. Qed.
Lemma fig_np : forall c, np (parse_fig c). Proof. intros. unfold parse_fig. np_tac. Qed.

Lemma children_np : forall l, (forall c, In (NElement c) l -> fine c) -> np (from_children p l).
Proof.
  intros l H. unfold from_children, text_table. np_tac; auto using sup_np, sub_np.
Qed.
Lemma text_np : forall e, fine e -> np (p_text p e).
Proof. intros e H. apply children_np. intros c Hc. eapply below'; eassumption. Qed.
Lemma twm_np : forall e, fine e -> np (parse_twm p e).
Proof. intros e H. unfold parse_twm. np_tac. apply text_np, H. Qed.
Lemma caption_np : forall e, fine e -> np (parse_caption p e).
Proof. intros e H. unfold parse_caption. np_tac. apply text_np, H. Qed.
Lemma arith_np : forall e, fine e -> np (parse_arith p e).
Proof. intros e H. unfold parse_arith. np_tac. Qed.
Lemma sct_np : forall e, fine e -> np (parse_sct p e).
Proof. intros e H. unfold parse_sct. np_tac. Qed.
Lemma items_np : forall T inj c, fine c -> Forall (fun th => np (snd th c)) (@item_rows K p T inj).
Proof. intros. unfold item_rows, all_lvls. cbn [map]. np_tac. Qed.

Lemma header_row_np : forall e, fine e -> np (parse_header_row p e).
Proof. intros e H. unfold parse_header_row. np_tac. eapply text_np, below'; eassumption. Qed.
Lemma remarks_label_np : forall e, fine e -> np (parse_remarks_label p e).
Proof. intros e H. unfold parse_remarks_label. np_tac. apply text_np, H. Qed.
Lemma amend_sentence_np : forall e, fine e -> np (parse_amend_sentence p e).
Proof.
  intros e H. unfold parse_amend_sentence. pose proof (below' e) as B.
  destruct (children e) as [|[c|t|t] r]; try discriminate. apply Hp; [discriminate|].
  apply B; [assumption|]. left. reflexivity.
Qed.
Lemma list_sentences_np : forall e c, fine c -> np (parse_list_sentences p e c).
Proof. intros e c H. unfold parse_list_sentences. np_tac. Qed.
Lemma struct_rows_np : forall S ix c, fine c -> Forall (fun th => np (snd th c)) (@struct_rows K p S ix).
Proof. intros. unfold struct_rows. np_tac. Qed.
Lemma struct_remarks_np : forall T B c, fine c -> np (@h_struct_remarks K p T B c).
Proof. intros. unfold h_struct_remarks. np_tac. Qed.
Lemma sentences_np : forall S ix c, fine c -> np (@h_sentences K p S ix c).
Proof. intros. unfold h_sentences. np_tac. Qed.

Ltac parts :=
  repeat first
    [ progress np_tac
    | match goal with
      | |- np (parse_sup _) => apply sup_np
      | |- np (parse_sub _) => apply sub_np
      | |- np (parse_fig _) => apply fig_np
      | |- np (p_text p _) => apply text_np
      | |- np (from_children p _) => apply children_np; intros ? ?
      | |- np (parse_twm p _) => apply twm_np
      | |- np (parse_caption p _) => apply caption_np
      | |- np (parse_arith p _) => apply arith_np
      | |- np (parse_sct p _) => apply sct_np
      | |- np (parse_header_row p _) => apply header_row_np
      | |- np (parse_remarks_label p _) => apply remarks_label_np
      | |- np (parse_amend_sentence p _) => apply amend_sentence_np
      | |- np (parse_list_sentences p _ _) => apply list_sentences_np
      | |- np (h_struct_remarks p _) => apply struct_remarks_np
      | |- np (h_sentences p _ _) => apply sentences_np
      | |- Forall _ (item_rows p _) => apply items_np
      | |- Forall _ (struct_rows p _) => apply struct_rows_np
      | |- fine _ => solve [eauto using below, below']
      end ].

Section One.
Context (e : Element) (He : clean e) (Hh : height e <= S h).

Lemma struct_np : forall T B n tn bn pt pb,
  (forall c, fine c -> np (pt c)) -> (forall c, fine c -> np (pb c)) ->
  np (@parse_struct K p T B n tn bn pt pb e).
Proof.
  intros T B n tn bn pt pb Ht Hb. unfold parse_struct. parts; [apply Ht|apply Hb]; parts.
Qed.

Lemma list_np : forall l, np (parse_list p l e).
Proof.
  intros l. unfold parse_list. pose proof (below e) as B. apply np_with_name.
  destruct (children e) as [|[c|t|t] r]; try apply np_err.
  assert (D : forall x, In (NElement x) r -> fine x).
  { intros x Hx. apply B; auto. right. exact Hx. }
  destruct (String.eqb _ _); [|apply np_err].
  apply np_bind; [apply list_sentences_np, B; auto; left; reflexivity|]. intros ss _.
  apply np_bind; [|intros; apply np_ok].
  destruct l; try apply np_ok; apply np_parse_all; intros x Hx; apply Hp; auto; discriminate.
Qed.

Lemma item_np : forall l, np (parse_item p l e).
Proof.
  intros l. unfold parse_item, item_table. parts. destruct l; cbn; parts.
Qed.

Lemma article_head_np : forall l cap title,
  (forall c, In (NElement c) l -> fine c) ->
  (exists c, In (NElement c) l /\ name c <> "ArticleCaption" /\ name c <> "ArticleTitle") ->
  np (article_head p l cap title).
Proof.
  induction l as [|[c|t|t] r IH]; intros cap title Hf [d [Hd [Hc Ht]]]; cbn.
  - contradiction.
  - assert (Fr : forall x, In (NElement x) r -> fine x) by (intros x Hx; apply Hf; right; exact Hx).
    destruct (String.eqb_spec (name c) "ArticleCaption") as [E|N].
    { assert (X : exists c0, In (NElement c0) r /\ name c0 <> "ArticleCaption" /\ name c0 <> "ArticleTitle").
      { exists d. destruct Hd as [Hd|Hd]; [injection Hd as ->; contradiction|auto]. }
      apply np_bind; [apply caption_np, Hf; left; reflexivity|]. intros ? _. apply IH; assumption. }
    destruct (String.eqb_spec (name c) "ArticleTitle") as [E|N'].
    { assert (X : exists c0, In (NElement c0) r /\ name c0 <> "ArticleCaption" /\ name c0 <> "ArticleTitle").
      { exists d. destruct Hd as [Hd|Hd]; [injection Hd as ->; contradiction|auto]. }
      apply np_bind; [apply text_np, Hf; left; reflexivity|]. intros ? _. apply IH; assumption. }
    discriminate.
  - apply IH; [intros x Hx; apply Hf; right; exact Hx|]. exists d. destruct Hd; [discriminate|auto].
  - apply IH; [intros x Hx; apply Hf; right; exact Hx|]. exists d. destruct Hd; [discriminate|auto].
Qed.

Lemma has_body : name e = "Article" ->
  exists c, In (NElement c) (children e) /\ name c <> "ArticleCaption" /\ name c <> "ArticleTitle".
Proof.
  intros Hn.
  assert (D : forall l,
    (exists c, In (NElement c) l /\ name c <> "ArticleCaption" /\ name c <> "ArticleTitle") \/
    (forall c, In (NElement c) l -> name c = "ArticleCaption" \/ name c = "ArticleTitle")).
  { induction l as [|[c|t|t] r [[d [Hd X]]|IH]].
    - right. contradiction.
    - left. exists d. split; [right; exact Hd|exact X].
    - destruct (String.eqb_spec (name c) "ArticleCaption") as [E|N];
        [|destruct (String.eqb_spec (name c) "ArticleTitle") as [E|N']].
      + right. intros d [Hd|Hd]; [injection Hd as ->; auto|auto].
      + right. intros d [Hd|Hd]; [injection Hd as ->; auto|auto].
      + left. exists c. split; [left; reflexivity|auto].
    - left. exists d. split; [right; exact Hd|exact X].
    - right. intros d [Hd|Hd]; [discriminate|auto].
    - left. exists d. split; [right; exact Hd|exact X].
    - right. intros d [Hd|Hd]; [discriminate|auto]. }
  destruct (D (children e)) as [X|X]; [exact X|].
  exfalso. apply (He e (inside_here e)). split; assumption.
Qed.

Lemma article_head_rest : forall l cap title cap' title' rest,
  article_head p l cap title = Ok (cap', (title', rest)) -> forall x, In x rest -> In x l.
Proof.
  induction l as [|[c|t|t] r IH]; intros cap title cap' title' rest; cbn.
  - discriminate.
  - destruct (String.eqb _ _); [|destruct (String.eqb _ _)].
    + destruct (parse_caption p c); cbn; try discriminate. intros H x Hx. right. eauto.
    + destruct (p_text p c); cbn; try discriminate. intros H x Hx. right. eauto.
    + intros H. injection H as <- <- <-. auto.
  - intros H x Hx. right. eauto.
  - intros H x Hx. right. eauto.
Qed.

Lemma article_np : np (parse_article p e).
Proof.
  unfold parse_article, with_name.
  destruct (String.eqb_spec (name e) "Article") as [E|N]; [|discriminate].
  parts.
  - apply article_head_np; [|apply has_body, E]. intros c Hc. parts.
  - subst. match goal with H : article_head _ _ _ _ = _ |- _ => pose proof (article_head_rest _ _ _ _ _ _ H) as R end.
    parts; apply (below e); auto.
  - subst. match goal with H : article_head _ _ _ _ = _ |- _ => pose proof (article_head_rest _ _ _ _ _ _ H) as R end.
    parts; apply (below e); auto.
Qed.

Lemma head_np : forall C n tbl, (forall c, fine c -> Forall (fun th => np (snd th c)) tbl) ->
  np (@parse_head K p C n tbl e).
Proof.
  intros C n tbl H. unfold parse_head. pose proof (below e) as B.
  destruct (children e) as [|[c|t|t] r]; try (parts; fail). parts.
  - apply B; auto. left. reflexivity.
  - apply H. apply B; auto. right. assumption.
Qed.

Lemma appdx_np : forall C n rows, (forall c, fine c -> Forall (fun th => np (snd th c)) rows) ->
  np (@parse_appdx_t K p C n rows e).
Proof. intros C n rows H. unfold parse_appdx_t. parts. apply H. parts. Qed.

Lemma toc_head_np : forall C n tn rows, (forall c, fine c -> Forall (fun th => np (snd th c)) rows) ->
  np (@parse_toc_head K p C n tn rows e).
Proof. intros C n tn rows H. unfold parse_toc_head. parts. apply H. parts. Qed.

Lemma suppl_ts_np : forall C n x tn ms cn dflt pc, (forall c, np (dflt c)) -> (forall c, fine c -> np (pc c)) ->
  np (@parse_suppl_ts K p C n x tn ms cn dflt pc e).
Proof. intros C n x tn ms cn dflt pc Hd Hc. unfold parse_suppl_ts. parts; [apply Hd|apply Hc]; parts. Qed.

Lemma pstep_np : forall k, k <> KVoid -> np (pstep p k e).
Proof.
  intros k Hk. destruct k; cbn [pstep]; [contradiction|..].
  - unfold parse_ruby. parts.
  - unfold parse_line, line_table. parts.
  - unfold parse_cont, contents_table. parts.
  - unfold parse_sentence, sentence_table. parts.
  - unfold parse_column. parts.
  - unfold parse_table. parts.
  - unfold parse_table_row. parts.
  - unfold parse_table_column, cell_table. parts.
  - unfold parse_remarks. parts.
  - apply struct_np; intros; parts.
  - apply struct_np; intros; parts.
  - apply struct_np; intros; parts.
  - apply list_np.
  - unfold parse_class. parts.
  - apply item_np.
  - unfold parse_paragraph, paragraph_table. parts.
  - apply article_np.
  - apply head_np. intros. unfold part_table. parts.
  - apply head_np. intros. unfold chapter_table. parts.
  - apply head_np. intros. unfold section_table. parts.
  - apply head_np. intros. unfold subsection_table. parts.
  - apply head_np. intros. unfold division_table. parts.
  - unfold parse_amend, new_provision_table. parts.
  - unfold parse_law_title. parts.
  - unfold parse_preamble. parts.
  - unfold parse_main, main_table. parts.
  - unfold parse_suppl, suppl_table. parts.
  - apply suppl_ts_np; intros; parts.
  - apply suppl_ts_np; intros; parts.
  - unfold parse_suppl_appdx. parts.
  - apply appdx_np. intros. unfold appdx_table_rows. parts.
  - apply appdx_np. intros. unfold appdx_note_rows. parts.
  - apply appdx_np. intros. unfold appdx_style_rows. parts.
  - apply appdx_np. intros. unfold appdx_format_rows. parts.
  - unfold parse_appdx. parts.
  - unfold parse_appdx_fig. parts.
  - unfold parse_toc. parts.
  - apply toc_head_np. intros. unfold toc_part_rows. parts.
  - apply toc_head_np. intros. unfold toc_chapter_rows. parts.
  - apply toc_head_np. intros. unfold toc_section_rows. parts.
  - apply toc_head_np. intros. unfold toc_subsection_rows. parts.
  - apply toc_head_np. intros. parts.
  - unfold parse_toc_article. parts.
  - unfold parse_toc_suppl. parts.
  - unfold parse_law_body, law_body_table. parts.
Qed.
End One.
End Step.

Lemma parse_n_np : forall n k e, k <> KVoid -> clean e -> height e <= n -> np (parse_n n k e).
Proof.
  induction n as [|n IH]; intros k e Hk Hc Hh.
  - rewrite height_eq in Hh. lia.
  - cbn [parse_n]. apply np_bind; [|intros; apply np_ok]. apply (pstep_np (parse_n n) n); auto.
    intros j c Hj [Hc' Hh']. apply IH; assumption.
Qed.

Lemma bodyless_dec : forall e, bodyless e \/ ~ bodyless e.
Proof.
  intros e. unfold bodyless.
  destruct (String.eqb_spec (name e) "Article") as [E|N]; [|right; intros [H _]; contradiction].
  assert (D : forall l,
    (forall c, In (NElement c) l -> name c = "ArticleCaption" \/ name c = "ArticleTitle") \/
    ~ (forall c, In (NElement c) l -> name c = "ArticleCaption" \/ name c = "ArticleTitle")).
  { induction l as [|[c|t|t] r [IH|IH]].
    - left. contradiction.
    - destruct (String.eqb_spec (name c) "ArticleCaption") as [E1|N1];
        [|destruct (String.eqb_spec (name c) "ArticleTitle") as [E2|N2]].
      + left. intros d [Hd|Hd]; [injection Hd as ->; auto|auto].
      + left. intros d [Hd|Hd]; [injection Hd as ->; auto|auto].
      + right. intros H. destruct (H c (or_introl eq_refl)); contradiction.
    - right. intros H. apply IH. intros d Hd. apply H. right. exact Hd.
    - left. intros d [Hd|Hd]; [discriminate|auto].
    - right. intros H. apply IH. intros d Hd. apply H. right. exact Hd.
    - left. intros d [Hd|Hd]; [discriminate|auto].
    - right. intros H. apply IH. intros d Hd. apply H. right. exact Hd. }
  destruct (D (children e)) as [X|X]; [left; auto|right; intros [_ H]; auto].
Qed.

Lemma clean_dec : forall n e, height e <= n -> clean e \/ exists a, inside a e /\ bodyless a.
Proof.
  induction n as [|n IH]; intros e Hh; [rewrite height_eq in Hh; lia|].
  destruct (bodyless_dec e) as [B|B]; [right; exists e; split; [constructor|assumption]|].
  assert (D : forall l, (forall c, In (NElement c) l -> height c <= n) ->
    (forall c, In (NElement c) l -> clean c) \/
    exists c a, In (NElement c) l /\ inside a c /\ bodyless a).
  { induction l as [|x r IHl]; intros Hl; [left; contradiction|].
    destruct IHl as [X|[c [a [Hc Ha]]]].
    - intros c Hc. apply Hl. right. exact Hc.
    - destruct x as [c|t|t].
      + destruct (IH c (Hl c (or_introl eq_refl))) as [C|[a Ha]].
        * left. intros d [Hd|Hd]; [injection Hd as <-; assumption|auto].
        * right. exists c, a. split; [left; reflexivity|assumption].
      + left. intros d [Hd|Hd]; [discriminate|auto].
      + left. intros d [Hd|Hd]; [discriminate|auto].
    - right. exists c, a. split; [right; exact Hc|exact Ha]. }
  destruct (D (children e)) as [X|[c [a [Hc [Ha Hb]]]]].
  - intros c Hc. eapply clean_height; eassumption.
  - left. intros a Ha. inversion Ha as [|? d ? Hd Hi]; subst; [assumption|]. exact (X d Hd a Hi).
  - right. exists a. split; [econstructor; eassumption|assumption].
Qed.

Theorem parse_panic : forall k e, k <> KVoid -> parse k e = Panic ->
  exists a, inside a e /\ bodyless a.
Proof.
  intros k e Hk H. destruct (clean_dec _ e (le_n _)) as [C|X]; [|exact X].
  exfalso. exact (parse_n_np (height e) k e Hk C (le_n _) H).
Qed.

Theorem parse_law_panic : forall e, parse_law e = Panic ->
  get e "Num" = None \/ exists a, inside a e /\ bodyless a.
Proof.
  intros e H. destruct (get e "Num") as [s|] eqn:G; [right|left; reflexivity].
  destruct (clean_dec _ e (le_n _)) as [C|X]; [|exact X]. exfalso. revert H. fold (np (parse_law e)).
  assert (D : forall a, np (parse_date_attr a)).
  { intros [t|]; cbn; [|discriminate]. destruct (String.eqb t ""); [discriminate|].
    destruct (parse_usize t); discriminate. }
  unfold parse_law. rewrite G. apply np_with_name.
  repeat (apply np_bind; [first [apply np_enum_req|apply np_attr|apply np_ok|apply D|idtac]|intros ? ?]).
  { destruct (String.eqb _ _); [discriminate|]. apply np_bind; [apply np_num|discriminate]. }
  pose proof (fun c => clean_child e c C) as X.
  destruct (children e) as [|[t| |] r]; try apply np_err.
  destruct (String.eqb (name t) "LawNum"); [|apply np_err].
  destruct r as [|[b| |] r]; try apply np_err.
  apply np_bind; [|intros; apply np_ok]. apply parse_n_np; [discriminate| |apply le_n].
  apply X. right. left. reflexivity.
Qed.

(** Such an article is never read. *)
Lemma article_head_bodyless : forall K (p : forall k, Element -> R (K k)) l cap title v,
  (forall c, In (NElement c) l -> name c = "ArticleCaption" \/ name c = "ArticleTitle") ->
  article_head p l cap title <> Ok v.
Proof.
  intros K p. induction l as [|[c|t|t] r IH]; intros cap title v H; cbn.
  - discriminate.
  - assert (Hr : forall d, In (NElement d) r -> name d = "ArticleCaption" \/ name d = "ArticleTitle").
    { intros d Hd. apply H. right. exact Hd. }
    destruct (H c (or_introl eq_refl)) as [-> | ->]; cbn.
    + destruct (parse_caption p c); try discriminate. apply IH, Hr.
    + destruct (p_text p c); try discriminate. apply IH, Hr.
  - apply IH. intros d Hd. apply H. right. exact Hd.
  - apply IH. intros d Hd. apply H. right. exact Hd.
Qed.

Theorem bodyless_unread : forall e v, bodyless e -> parse KArticle e <> Ok v.
Proof.
  intros e v [Hn H]. unfold parse. rewrite height_eq. cbn [parse_n pstep].
  generalize (parse_n (lheight (children e))). intros p.
  unfold parse_article, with_name. rewrite Hn. cbn [String.eqb Ascii.eqb Bool.eqb].
  destruct (get_attribute e "Num") as [n|x|]; cbn [bind]; try discriminate.
  destruct (from_num_str n) as [m|x|]; cbn [bind]; try discriminate.
  destruct (get_flag e "Delete") as [d|x|]; cbn [bind]; try discriminate.
  destruct (get_flag e "Hide") as [hd|x|]; cbn [bind]; try discriminate.
  destruct (article_head p (children e) None []) as [y|x|] eqn:E; cbn [bind]; try discriminate.
  exfalso. exact (article_head_bodyless _ p _ _ _ _ H E).
Qed.
