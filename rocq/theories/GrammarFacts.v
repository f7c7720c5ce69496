(** Whatever is read follows the grammar. *)
From Coq Require Import String List Arith NArith Bool Lia.
From Verif Require Import Base NumStr BaseFacts Xml Ast XmlWrite XmlParse XmlSim GrammarSpec.
Import ListNotations.
Open Scope string_scope.
Open Scope list_scope.

Lemma bind_ok : forall A B (x : R A) (f : A -> R B) b, bind x f = Ok b -> exists a, x = Ok a /\ f a = Ok b.
Proof. intros A B [a|e|] f b H; cbn in H; try discriminate. exists a. auto. Qed.

Lemma run_ok : forall S (txt : string -> S -> S) dflt tbl l s s',
  run txt dflt tbl l s = Ok s' -> forall c, In (NElement c) l -> exists u, lookup dflt tbl c = Ok u.
Proof.
  intros S txt dflt tbl l. induction l as [|[c|t|t] r IH]; intros s s' H d; cbn in *.
  - contradiction.
  - apply bind_ok in H as [u [Hu H]]. intros [E|Hd]; [injection E as <-; eauto|eauto].
  - intros [E|Hd]; [discriminate|eauto].
  - intros [E|Hd]; [discriminate|eauto].
Qed.

Lemma lookup_ok : forall S (P : Element -> Prop) (dflt : handler S) tbl c u,
  lookup dflt tbl c = Ok u -> (forall v, dflt c = Ok v -> P c) ->
  Forall (fun th => forall v, name c = fst th -> snd th c = Ok v -> P c) tbl -> P c.
Proof.
  intros S P dflt tbl c u H Hd Ht. unfold lookup in H.
  induction Ht as [|[t h] r Hh Hr IH]; cbn in H; [eauto|].
  destruct (String.eqb_spec (name c) t); [eauto|auto].
Qed.

Lemma parse_all_ok : forall X (f : Element -> R X) l v,
  parse_all f l = Ok v -> forall c, In (NElement c) l -> exists x, f c = Ok x.
Proof.
  intros X f l. induction l as [|[c|t|t] r IH]; intros v H d; cbn in *.
  - contradiction.
  - apply bind_ok in H as [x [Hx H]]. apply bind_ok in H as [y [Hy H]].
    intros [E|Hd]; [injection E as <-; eauto|eauto].
  - intros [E|Hd]; [discriminate|eauto].
  - intros [E|Hd]; [discriminate|eauto].
Qed.

Lemma with_name_ok : forall A e n x (k : R A) v,
  with_name e n x k = Ok v -> name e = n /\ k = Ok v.
Proof. intros A e n x k v. unfold with_name. destruct (String.eqb_spec (name e) n); [auto|discriminate]. Qed.

(** Elements that hold text. *)
Lemma conforms_text : forall e, assoc (name e) grammar = None -> assoc (name e) tolerant = None -> conforms e.
Proof. intros e Hg Ht. constructor; intros; congruence. Qed.

Lemma conforms_strict : forall e r,
  assoc (name e) grammar = Some r -> assoc (name e) tolerant = None -> first r = None ->
  (forall c, In (NElement c) (children e) ->
     In (name c) (plain r) \/ (In (name c) (nested r) /\ conforms c)) -> conforms e.
Proof.
  intros e r Hg Ht Hf H. constructor.
  - intros r' t Hr. congruence.
  - intros r' c Hr Hc. replace r' with r in * by congruence. unfold further in Hc. rewrite Hf in Hc. auto.
  - congruence.
Qed.

Lemma conforms_first : forall e r t c l,
  assoc (name e) grammar = Some r -> assoc (name e) tolerant = None -> first r = Some t ->
  children e = NElement c :: l -> name c = t -> conforms c ->
  (forall c, In (NElement c) l ->
     In (name c) (plain r) \/ (In (name c) (nested r) /\ conforms c)) -> conforms e.
Proof.
  intros e r t c l Hg Ht Hf Hc Hn Hcc H. constructor.
  - intros r' t' Hr Hf'. replace r' with r in * by congruence. exists c, l. split; [assumption|]. split; [congruence|assumption].
  - intros r' d Hr Hd. replace r' with r in * by congruence. unfold further in Hd. rewrite Hf, Hc in Hd. auto.
  - congruence.
Qed.

Lemma conforms_tolerant : forall e known,
  assoc (name e) grammar = None -> assoc (name e) tolerant = Some known ->
  (forall c, In (NElement c) (children e) -> In (name c) known -> conforms c) -> conforms e.
Proof. intros e known Hg Ht H. constructor; intros; try congruence. assert (known0 = known) by congruence. subst. auto. Qed.

Lemma cont_tagged : forall c e, name e = cont_tag c -> tagged (KCont c) e.
Proof. intros [] e H; exact H. Qed.

(** Membership in a list of tags, decided. *)
Lemma in_tags : forall x l, existsb (String.eqb x) l = true -> In x l.
Proof. intros x l H. apply existsb_exists in H as [y [Hy E]]. apply String.eqb_eq in E. subst. assumption. Qed.

Section Step.
Context {K : kind -> Type}.
Context (p : forall k, Element -> R (K k)).
Hypothesis Hp : forall k c v, k <> KVoid -> tagged k c -> p k c = Ok v -> conforms c.

(** A child accepted below a tag with rules [r]. *)
Definition fits (r : tag_rules) (c : Element) : Prop :=
  In (name c) (plain r) \/ (In (name c) (nested r) /\ conforms c).

Definition row_fits (r : tag_rules) {S} (c : Element) (th : string * handler S) : Prop :=
  forall v, name c = fst th -> snd th c = Ok v -> fits r c.

Lemma fits_plain : forall r c n, name c = n -> existsb (String.eqb n) (plain r) = true -> fits r c.
Proof. intros r c n <- H. left. apply in_tags, H. Qed.
Lemma fits_nested : forall r c n, name c = n -> existsb (String.eqb n) (nested r) = true -> conforms c -> fits r c.
Proof. intros r c n <- H Hc. right. split; [apply in_tags, H|assumption]. Qed.

Lemma push_ok : forall S X Y ix inj (f : Element -> R X) c v, @h_push S X Y ix inj f c = Ok v -> exists x, f c = Ok x.
Proof. intros. apply bind_ok in H as [x [Hx _]]. eauto. Qed.
Lemma some_ok : forall S X ix (f : Element -> R X) c v, @h_some S X ix f c = Ok v -> exists x, f c = Ok x.
Proof. intros. apply bind_ok in H as [x [Hx _]]. eauto. Qed.

Lemma strict_run : forall e r S (txt : string -> S -> S) tbl s s',
  assoc (name e) grammar = Some r -> assoc (name e) tolerant = None -> first r = None ->
  run txt (reject e) tbl (children e) s = Ok s' ->
  (forall c, Forall (row_fits r c) tbl) -> conforms e.
Proof.
  intros e r S txt tbl s s' Hg Ht Hf H Hr. apply (conforms_strict e r); auto.
  intros c Hc. destruct (run_ok _ _ _ _ _ _ _ H c Hc) as [u Hu].
  apply (lookup_ok _ (fits r) _ _ _ _ Hu); [discriminate|apply Hr].
Qed.

Lemma fits_run : forall e' r S (txt : string -> S -> S) tbl l s s',
  run txt (reject e') tbl l s = Ok s' ->
  (forall c, Forall (row_fits r c) tbl) -> forall c, In (NElement c) l -> fits r c.
Proof.
  intros e' r S txt tbl l s s' H Hr c Hc. destruct (run_ok _ _ _ _ _ _ _ H c Hc) as [u Hu].
  apply (lookup_ok _ (fits r) _ _ _ _ Hu); [discriminate|apply Hr].
Qed.

Ltac pl := solve [intros ? ? ?; cbn [fst] in *; eapply fits_plain; [eassumption|reflexivity]].
Ltac step_in H :=
  match type of H with
  | h_push _ _ _ _ = _ => apply push_ok in H as [? H]
  | h_some _ _ _ = _ => apply some_ok in H as [? H]
  end.
Ltac nest :=
  let v := fresh in let Hn := fresh in let H := fresh "H" in
  intros v Hn H; cbn [fst snd] in Hn, H;
  eapply fits_nested; [exact Hn|reflexivity|];
  first [ step_in H | idtac ];
  first [ eapply Hp; [| |exact H]; [discriminate|exact I + exact Hn]
        | idtac ].
Ltac rows := repeat match goal with
  | |- Forall _ (_ ++ _) => apply Forall_app; split
  | |- Forall _ (_ :: _) => constructor
  | |- Forall _ [] => constructor
  | |- row_fits _ _ _ => unfold row_fits; first [pl | nest]
  end.
Ltac tidy H := repeat match type of H with
  | with_name _ _ _ _ = Ok _ => let Hn := fresh "Hn" in apply with_name_ok in H as [Hn H]
  end.

Lemma arith_conforms : forall c v, name c = "ArithFormula" -> parse_arith p c = Ok v -> conforms c.
Proof.
  intros c v Hn H. apply bind_ok in H as [? [_ H]]. apply bind_ok in H as [? [H _]].
  eapply Hp; [| |exact H]; [discriminate|exact Hn].
Qed.

Lemma item_rows_fit : forall r T inj c, (forall l, existsb (String.eqb (item_tag l)) (nested r) = true) ->
  Forall (row_fits r c) (@item_rows K p T inj).
Proof.
  intros r T inj c H. unfold item_rows. apply Forall_forall. intros x Hx. apply in_map_iff in Hx as [l [<- _]].
  intros v Hn Hv. cbn [fst snd] in *. apply (fits_nested _ _ _ Hn (H l)). apply push_ok in Hv as [y Hy].
  eapply Hp; [| |exact Hy]; [discriminate|exact I].
Qed.

Ltac strict Hn H := eapply strict_run; [rewrite Hn; reflexivity|rewrite Hn; reflexivity|reflexivity|exact H|].
Ltac text_el Hn := apply conforms_text; rewrite Hn; reflexivity.

Lemma sct_conforms : forall c v, (forall r, assoc (name c) grammar = r -> r = Some sentence_rules) ->
  assoc (name c) tolerant = None -> parse_sct p c = Ok v -> conforms c.
Proof.
  intros c v Hg Ht H. apply bind_ok in H as [st [H _]].
  apply (strict_run c sentence_rules _ _ _ _ _ (Hg _ eq_refl) Ht eq_refl H). intros d. rows.
Qed.

Lemma sentences_conform : forall c v n, name c = n ->
  assoc n grammar = Some (rules None ["Sentence"] []) -> assoc n tolerant = None ->
  parse_all (p KSentence) (children c) = Ok v ->
  (forall d x, p KSentence d = Ok x -> name d = "Sentence") -> conforms c.
Proof.
  intros c v n <- Hg Ht H Hs. apply (conforms_strict c _ Hg Ht eq_refl). intros d Hd.
  destruct (parse_all_ok _ _ _ _ H d Hd) as [x Hx]. right. split.
  - rewrite (Hs _ _ Hx). left. reflexivity.
  - eapply Hp; [| |exact Hx]; [discriminate|exact I].
Qed.

(** The readers checking the tag. *)
Hypothesis Hs : forall c v, p KSentence c = Ok v -> name c = "Sentence".
Hypothesis Hl : forall l c v, p (KList l) c = Ok v -> name c = list_tag l.

Lemma struct_rows_fit : forall r S ix c,
  existsb (String.eqb "TableStruct") (nested r) = true -> existsb (String.eqb "FigStruct") (nested r) = true ->
  existsb (String.eqb "StyleStruct") (nested r) = true -> existsb (String.eqb "List") (nested r) = true ->
  Forall (row_fits r c) (@struct_rows K p S ix).
Proof.
  intros r S ix c H1 H2 H3 H4. unfold struct_rows.
  repeat (apply Forall_cons || apply Forall_nil); intros v Hn H; cbn [fst snd] in Hn, H;
    (eapply fits_nested; [exact Hn|assumption|]); apply push_ok in H as [x Hx];
    (eapply Hp; [| |exact Hx]; [discriminate|exact I]).
Qed.

Lemma struct_conforms : forall T B n tn bn pt pb e v,
  @parse_struct K p T B n tn bn pt pb e = Ok v ->
  assoc n grammar = Some (rules None [bn] [tn; "Remarks"]) -> assoc n tolerant = None ->
  (forall c x, name c = bn -> pb c = Ok x -> conforms c) -> conforms e.
Proof.
  intros T B n tn bn pt pb e v H Hg Ht Hb. unfold parse_struct in H.
  apply with_name_ok in H as [Hn H]. apply bind_ok in H as [st [H _]].
  rewrite <- Hn in Hg, Ht. apply (strict_run e _ _ _ _ _ _ Hg Ht eq_refl H). intros c.
  repeat (apply Forall_cons || apply Forall_nil); intros u Hc Hu; cbn [fst snd] in Hc, Hu.
  - left. cbn. auto.
  - left. cbn. auto.
  - right. split; [cbn; auto|]. apply some_ok in Hu as [x Hx]. eauto.
Qed.

Lemma head_conforms : forall C n tbl e v r,
  @parse_head K p C n tbl e = Ok v ->
  assoc n grammar = Some r -> assoc n tolerant = None -> first r = Some (n ++ "Title")%string ->
  assoc (n ++ "Title")%string grammar = None -> assoc (n ++ "Title")%string tolerant = None ->
  (forall c, Forall (row_fits r c) tbl) -> conforms e.
Proof.
  intros C n tbl e v r H Hg Ht Hf Hg' Ht' Hr. unfold parse_head in H.
  apply with_name_ok in H as [Hn H].
  do 4 (apply bind_ok in H as [? [_ H]]).
  rewrite <- Hn in Hg, Ht.
  destruct (children e) as [|[t| |] rest] eqn:Hc; try discriminate.
  destruct (String.eqb_spec (name t) (n ++ "Title")) as [Et|]; [|discriminate].
  apply bind_ok in H as [? [_ H]]. apply bind_ok in H as [st [H _]].
  apply (conforms_first e r _ t rest Hg Ht Hf Hc Et).
  - rewrite <- Et in Hg', Ht'. apply conforms_text; assumption.
  - exact (fits_run _ _ _ _ _ _ _ _ H Hr).
Qed.

Lemma appdx_conforms : forall C n rows e v r,
  @parse_appdx_t K p C n rows e = Ok v ->
  assoc n grammar = Some r -> assoc n tolerant = None -> first r = None ->
  existsb (String.eqb (n ++ "Title")) (plain r) = true ->
  existsb (String.eqb "RelatedArticleNum") (plain r) = true ->
  existsb (String.eqb "Remarks") (nested r) = true ->
  (forall c, Forall (row_fits r c) rows) -> conforms e.
Proof.
  intros C n rows e v r H Hg Ht Hf H1 H2 H3 Hr. unfold parse_appdx_t in H.
  apply with_name_ok in H as [Hn H]. rewrite <- Hn in Hg, Ht.
  apply bind_ok in H as [? [_ H]]. apply bind_ok in H as [st [H _]].
  apply (strict_run e r _ _ _ _ _ Hg Ht Hf H). intros c. cbn [app]. constructor; [|constructor].
  - intros u Hc _. exact (fits_plain _ _ _ Hc H1).
  - intros u Hc _. exact (fits_plain _ _ _ Hc H2).
  - apply Forall_app. split; [apply Hr|]. constructor; [|constructor].
    intros u Hc Hu. cbn [fst snd] in Hc, Hu. apply (fits_nested _ _ _ Hc H3).
    apply some_ok in Hu as [y Hy]. eapply Hp; [| |exact Hy]; [discriminate|exact I].
Qed.

Lemma toc_head_conforms : forall C n tn rows e v r,
  @parse_toc_head K p C n tn rows e = Ok v ->
  assoc n grammar = Some r -> assoc n tolerant = None -> first r = None ->
  existsb (String.eqb tn) (plain r) = true ->
  existsb (String.eqb "ArticleRange") (plain r) = true ->
  (forall c, Forall (row_fits r c) rows) -> conforms e.
Proof.
  intros C n tn rows e v r H Hg Ht Hf H1 H2 Hr. unfold parse_toc_head in H.
  apply with_name_ok in H as [Hn H]. rewrite <- Hn in Hg, Ht.
  do 2 (apply bind_ok in H as [? [_ H]]). apply bind_ok in H as [st [H _]].
  apply (strict_run e r _ _ _ _ _ Hg Ht Hf H). intros c. cbn [app]. constructor; [|constructor].
  - intros u Hc _. exact (fits_plain _ _ _ Hc H1).
  - intros u Hc _. exact (fits_plain _ _ _ Hc H2).
  - apply Hr.
Qed.

Lemma suppl_ts_conforms : forall C n x tn ms cn dflt pc e v r,
  @parse_suppl_ts K p C n x tn ms cn dflt pc e = Ok v ->
  assoc n grammar = Some r -> assoc n tolerant = None -> first r = None ->
  existsb (String.eqb tn) (plain r) = true ->
  existsb (String.eqb "RelatedArticleNum") (plain r) = true ->
  existsb (String.eqb cn) (nested r) = true ->
  (forall c u, dflt c <> Ok u) -> (forall c y, pc c = Ok y -> conforms c) -> conforms e.
Proof.
  intros C n x tn ms cn dflt pc e v r H Hg Ht Hf H1 H2 H3 Hd Hc. unfold parse_suppl_ts in H.
  apply with_name_ok in H as [Hn H]. rewrite <- Hn in Hg, Ht.
  apply bind_ok in H as [? [_ H]]. apply bind_ok in H as [st [H _]].
  apply (conforms_strict e r Hg Ht Hf). intros c Hi.
  destruct (run_ok _ _ _ _ _ _ _ H c Hi) as [u Hu].
  apply (lookup_ok _ (fits r) _ _ _ _ Hu); [intros w Hw; destruct (Hd _ _ Hw)|].
  repeat (apply Forall_cons || apply Forall_nil); intros w Hw Hx; cbn [fst snd] in Hw, Hx.
  - exact (fits_plain _ _ _ Hw H1).
  - exact (fits_plain _ _ _ Hw H2).
  - apply (fits_nested _ _ _ Hw H3). apply push_ok in Hx as [y Hy]. eauto.
Qed.

Lemma list_conforms : forall l e v, parse_list p l e = Ok v -> conforms e.
Proof.
  intros l e v H. unfold parse_list in H. apply with_name_ok in H as [Hn H].
  destruct (children e) as [|[t| |] rest] eqn:Hc; try discriminate.
  destruct (String.eqb_spec (name t) (list_tag l ++ "Sentence")) as [Et|]; [|discriminate].
  apply bind_ok in H as [ss [H1 H]]. apply bind_ok in H as [cs [H2 _]].
  assert (Ct : conforms t).
  { apply (conforms_strict t list_sentence_rules).
    - rewrite Et. destruct l; reflexivity.
    - rewrite Et. destruct l; reflexivity.
    - reflexivity.
    - unfold parse_list_sentences in H1. apply (fits_run _ list_sentence_rules _ _ _ _ _ _ H1).
      intros d. rows. }
  assert (T : assoc (name e) tolerant = None) by (rewrite Hn; destruct l; reflexivity).
  destruct l; cbn in Et.
  4: { apply conforms_text; [rewrite Hn; reflexivity|exact T]. }
  all: eapply (conforms_first e _ _ t rest); [rewrite Hn; reflexivity|exact T|reflexivity|exact Hc|exact Et|exact Ct|].
  all: intros d Hd; destruct (parse_all_ok _ _ _ _ H2 d Hd) as [x Hx]; right; split;
    [rewrite (Hl _ _ _ Hx); left; reflexivity|eapply Hp; [| |exact Hx]; [discriminate|exact I]].
Qed.

Lemma article_conforms : forall e v, parse_article p e = Ok v -> conforms e.
Proof.
  intros e v H. unfold parse_article in H. apply with_name_ok in H as [Hn H].
  do 4 (apply bind_ok in H as [? [_ H]]). apply bind_ok in H as [[cap [title rest]] [Hh H]].
  apply bind_ok in H as [st [H _]].
  eapply conforms_strict; [rewrite Hn; reflexivity|rewrite Hn; reflexivity|reflexivity|].
  assert (F : forall c, In (NElement c) rest -> fits (rules None ["Paragraph"] ["ArticleCaption"; "ArticleTitle"; "SupplNote"]) c).
  { apply (fits_run _ _ _ _ _ _ _ _ H). intros c. rows. }
  clear H. revert Hh. generalize (@None (Caption K)), (@nil (TextElement K)).
  induction (children e) as [|[c|t|t] r IH]; intros ca ti Hh d Hd; cbn in Hh.
  - destruct Hd.
  - destruct (String.eqb_spec (name c) "ArticleCaption") as [E|];
      [|destruct (String.eqb_spec (name c) "ArticleTitle") as [E|]].
    + apply bind_ok in Hh as [? [_ Hh]]. destruct Hd as [Hd|Hd]; [injection Hd as <-|eauto].
      left. rewrite E. cbn. auto.
    + apply bind_ok in Hh as [? [_ Hh]]. destruct Hd as [Hd|Hd]; [injection Hd as <-|eauto].
      left. rewrite E. cbn. auto.
    + injection Hh as _ _ <-. apply F, Hd.
  - destruct Hd as [Hd|Hd]; [discriminate|eauto].
  - destruct Hd as [Hd|Hd]; [discriminate|eauto].
Qed.

Lemma item_conforms : forall l e v, parse_item p l e = Ok v -> conforms e.
Proof.
  intros l e v H. unfold parse_item in H. apply with_name_ok in H as [Hn H].
  do 4 (apply bind_ok in H as [? [_ H]]). apply bind_ok in H as [st [H _]].
  apply (strict_run e (item_rules (item_tag l) match sub_tag (sub_item l) with Some t => [t] | None => [] end))
    in H; [exact H|rewrite Hn; destruct l; reflexivity|rewrite Hn; destruct l; reflexivity|reflexivity|].
  intros c. unfold item_table. cbn [app].
  apply Forall_cons; [|apply Forall_cons].
  - intros u Hc _. cbn [fst] in Hc. left. rewrite Hc. left. reflexivity.
  - intros u Hc Hu. cbn [fst snd] in Hc, Hu. right. split; [rewrite Hc; left; reflexivity|].
    apply some_ok in Hu as [y Hy]. apply (sct_conforms c y); [|rewrite Hc; destruct l; reflexivity|exact Hy].
    intros r <-. rewrite Hc. destruct l; reflexivity.
  - apply Forall_app. split; [destruct l; apply struct_rows_fit; reflexivity|].
    destruct l; cbn [sub_item sub_tag]; rows.
Qed.

Lemma pstep_conforms : forall k e v, k <> KVoid -> tagged k e -> pstep p k e = Ok v -> conforms e.
Proof.
  intros k e v Hk Ht H. destruct k; cbn [pstep] in H; [contradiction|..].
  - apply with_name_ok in H as [Hn _]. text_el Hn.
  - apply with_name_ok in H as [Hn H]. destruct (linestyle_of _); [|discriminate].
    apply bind_ok in H as [st [H _]]. strict Hn H. intros d. unfold line_table. rows.
    eapply arith_conforms; eassumption.
  - assert (Hc : name e = cont_tag c) by (destruct c; exact Ht). clear Ht. rename Hc into Ht.
    apply (strict_run e contents_rules) in H;
      [exact H|rewrite Ht; destruct c; reflexivity|rewrite Ht; destruct c; reflexivity|reflexivity|].
    intros d. unfold contents_table. rows.
    + apply item_rows_fit. intros []; reflexivity.
    + eapply arith_conforms; eassumption.
  - apply with_name_ok in H as [Hn H]. do 3 (apply bind_ok in H as [? [_ H]]).
    apply bind_ok in H as [st [H _]]. strict Hn H. intros d. unfold sentence_table. rows.
    eapply arith_conforms; eassumption.
  - apply with_name_ok in H as [Hn H]. do 2 (apply bind_ok in H as [? [_ H]]).
    apply bind_ok in H as [st [H _]].
    apply (sentences_conform e st "Column" Hn eq_refl eq_refl H Hs).
  - apply with_name_ok in H as [Hn H]. apply bind_ok in H as [st [H _]]. strict Hn H.
    intros d. rows. match goal with X : parse_header_row p d = _ |- _ => apply with_name_ok in X as [X _]; text_el X end.
  - apply with_name_ok in H as [Hn H].
    eapply conforms_tolerant; [rewrite Hn; reflexivity|rewrite Hn; reflexivity|].
    intros c Hc [Hnc|[]]. destruct (run_ok _ _ _ _ _ _ _ H c Hc) as [u Hu].
    unfold lookup in Hu. rewrite <- Hnc in Hu. cbn [assoc String.eqb Ascii.eqb Bool.eqb] in Hu.
    apply push_ok in Hu as [x Hx]. eapply Hp; [| |exact Hx]; [discriminate|exact I].
  - apply with_name_ok in H as [Hn H]. do 2 (apply bind_ok in H as [? [_ H]]).
    apply bind_ok in H as [st [H _]]. strict Hn H. intros d. unfold cell_table. rows.
    apply item_rows_fit. intros []; reflexivity.
  - apply with_name_ok in H as [Hn H]. apply bind_ok in H as [st [H _]]. strict Hn H. intros d. rows.
  - eapply struct_conforms; [exact H|destruct s; reflexivity|destruct s; reflexivity|].
    intros c x Hc Hx. eapply Hp; [| |exact Hx]; [discriminate|apply cont_tagged, Hc].
  - eapply struct_conforms; [exact H|reflexivity|reflexivity|]. intros c x Hc Hx. text_el Hc.
  - eapply struct_conforms; [exact H|reflexivity|reflexivity|].
    intros c x Hc Hx. eapply Hp; [| |exact Hx]; [discriminate|exact I].
  - eapply list_conforms, H.
  - apply with_name_ok in H as [Hn H]. apply bind_ok in H as [? [_ H]].
    apply bind_ok in H as [st [H _]]. strict Hn H. intros d. rows.
    match goal with X : parse_sct p d = _, Y : name d = _ |- _ =>
      apply (sct_conforms d _) in X; [exact X| |rewrite Y; reflexivity]; intros r <-; rewrite Y; reflexivity end.
  - eapply item_conforms, H.
  - apply with_name_ok in H as [Hn H]. do 5 (apply bind_ok in H as [? [_ H]]).
    apply bind_ok in H as [st [H _]]. strict Hn H. intros d. unfold paragraph_table. rows.
    + match goal with X : h_sentences p _ d = _, Y : name d = _ |- _ =>
        apply bind_ok in X as [z [X _]]; exact (sentences_conform d z _ Y eq_refl eq_refl X Hs) end.
    + apply struct_rows_fit; reflexivity.
  - eapply article_conforms, H.
  - eapply head_conforms; [exact H|reflexivity..|]. intros d. unfold part_table. rows.
  - eapply head_conforms; [exact H|reflexivity..|]. intros d. unfold chapter_table. rows.
  - eapply head_conforms; [exact H|reflexivity..|]. intros d. unfold section_table. rows.
  - eapply head_conforms; [exact H|reflexivity..|]. intros d. unfold subsection_table. rows.
  - eapply head_conforms; [exact H|reflexivity..|]. intros d. unfold division_table. rows.
  - apply with_name_ok in H as [Hn H]. apply bind_ok in H as [st [H _]]. strict Hn H. intros d. rows.
    + match goal with X : parse_amend_sentence p d = _, Y : name d = _ |- _ => rename X into Hd; rename Y into Hnd end.
      unfold parse_amend_sentence in Hd. text_el Hnd.
    + match goal with X : bind _ _ = _, Y : name d = _ |- _ =>
        apply bind_ok in X as [z [X _]]; rename X into Hd; rename Y into Hnd end.
      eapply conforms_strict; [rewrite Hnd; reflexivity|rewrite Hnd; reflexivity|reflexivity|].
      apply (fits_run _ _ _ _ _ _ _ _ Hd). intros b. unfold new_provision_table. rows.
      apply item_rows_fit. intros []; reflexivity.
  - apply with_name_ok in H as [Hn _]. text_el Hn.
  - apply with_name_ok in H as [Hn H].
    eapply conforms_tolerant; [rewrite Hn; reflexivity|rewrite Hn; reflexivity|].
    intros c Hc [Hnc|[]]. destruct (run_ok _ _ _ _ _ _ _ H c Hc) as [u Hu].
    unfold lookup in Hu. rewrite <- Hnc in Hu. cbn [assoc String.eqb Ascii.eqb Bool.eqb] in Hu.
    apply push_ok in Hu as [x Hx]. eapply Hp; [| |exact Hx]; [discriminate|exact I].
  - apply with_name_ok in H as [Hn H]. apply bind_ok in H as [? [_ H]].
    apply bind_ok in H as [st [H _]]. strict Hn H. intros d. unfold main_table. rows.
  - apply with_name_ok in H as [Hn H]. do 2 (apply bind_ok in H as [? [_ H]]).
    apply bind_ok in H as [st [H _]]. strict Hn H. intros d. unfold suppl_table. rows.
  - eapply suppl_ts_conforms; [exact H|reflexivity..| |].
    + discriminate.
    + intros c x Hx. eapply Hp; [| |exact Hx]; [discriminate|exact I].
  - eapply suppl_ts_conforms; [exact H|reflexivity..| |].
    + discriminate.
    + intros c x Hx. eapply Hp; [| |exact Hx]; [discriminate|exact I].
  - apply with_name_ok in H as [Hn H]. apply bind_ok in H as [? [_ H]].
    apply bind_ok in H as [st [H _]]. strict Hn H. intros d. rows.
    eapply arith_conforms; eassumption.
  - eapply appdx_conforms; [exact H|reflexivity..|]. intros d. unfold appdx_table_rows. rows.
  - eapply appdx_conforms; [exact H|reflexivity..|]. intros d. unfold appdx_note_rows. rows.
  - eapply appdx_conforms; [exact H|reflexivity..|]. intros d. unfold appdx_style_rows. rows.
  - eapply appdx_conforms; [exact H|reflexivity..|]. intros d. unfold appdx_format_rows. rows.
  - apply with_name_ok in H as [Hn H]. apply bind_ok in H as [st [H _]]. strict Hn H. intros d. rows.
    eapply arith_conforms; eassumption.
  - apply with_name_ok in H as [Hn H]. apply bind_ok in H as [? [_ H]].
    apply bind_ok in H as [st [H _]]. strict Hn H. intros d. rows.
  - apply with_name_ok in H as [Hn H]. apply bind_ok in H as [st [H _]]. strict Hn H. intros d. rows.
  - eapply toc_head_conforms; [exact H|reflexivity..|]. intros d. unfold toc_part_rows. rows.
  - eapply toc_head_conforms; [exact H|reflexivity..|]. intros d. unfold toc_chapter_rows. rows.
  - eapply toc_head_conforms; [exact H|reflexivity..|]. intros d. unfold toc_section_rows. rows.
  - eapply toc_head_conforms; [exact H|reflexivity..|]. intros d. unfold toc_subsection_rows. rows.
  - eapply toc_head_conforms; [exact H|reflexivity..|]. intros d. rows.
  - apply with_name_ok in H as [Hn H]. do 2 (apply bind_ok in H as [? [_ H]]).
    apply bind_ok in H as [st [H _]]. strict Hn H. intros d. rows.
  - apply with_name_ok in H as [Hn H]. apply bind_ok in H as [st [H _]]. strict Hn H. intros d. rows.
  - apply with_name_ok in H as [Hn H]. apply bind_ok in H as [? [_ H]].
    apply bind_ok in H as [st [H _]]. strict Hn H. intros d. unfold law_body_table. rows.
Qed.

End Step.

Lemma parse_n_name : forall n k t, match k with KSentence => t = "Sentence" | KList l => t = list_tag l | _ => False end ->
  forall c v, parse_n n k c = Ok v -> name c = t.
Proof.
  intros [|n] k t Hk c v H; [discriminate|]. cbn [parse_n] in H. apply bind_ok in H as [f [H _]].
  destruct k; try contradiction; subst t; apply with_name_ok in H as [H _]; exact H.
Qed.

Lemma parse_n_conforms : forall n k e v, k <> KVoid -> tagged k e -> parse_n n k e = Ok v -> conforms e.
Proof.
  induction n as [|n IH]; intros k e v Hk Ht H; [discriminate|].
  cbn [parse_n] in H. apply bind_ok in H as [f [H _]].
  apply (pstep_conforms (parse_n n) IH) with (k := k) (v := f); auto.
  - intros c x Hx. exact (parse_n_name n KSentence _ eq_refl c x Hx).
  - intros l c x Hx. exact (parse_n_name n (KList l) _ eq_refl c x Hx).
Qed.

Theorem parse_conforms : forall k e v, k <> KVoid -> tagged k e -> parse k e = Ok v -> conforms e.
Proof. intros k e v. apply parse_n_conforms. Qed.

Theorem parse_law_conforms : forall e l, parse_law e = Ok l ->
  exists n b rest, children e = NElement n :: NElement b :: rest /\
    name n = "LawNum" /\ name b = "LawBody" /\ conforms b.
Proof.
  intros e l H. unfold parse_law in H. apply with_name_ok in H as [_ H].
  do 8 (apply bind_ok in H as [? [_ H]]).
  destruct (children e) as [|[t| |] [|[b| |] rest]]; try discriminate.
  - destruct (String.eqb _ _); discriminate.
  - destruct (String.eqb_spec (name t) "LawNum") as [Et|]; [|discriminate].
    apply bind_ok in H as [y [H _]]. exists t, b, rest. split; [reflexivity|]. split; [exact Et|].
    split; [|eapply parse_conforms; [| |exact H]; [discriminate|exact I]].
    unfold parse in H. destruct (height b); [discriminate|]. cbn [parse_n] in H.
    apply bind_ok in H as [f [H _]]. apply with_name_ok in H as [H _]. exact H.
  - destruct (String.eqb _ _); discriminate.
  - destruct (String.eqb _ _); discriminate.
Qed.

(** An unknown child. *)
Theorem unknown_child : forall k e r c v, k <> KVoid -> tagged k e ->
  assoc (name e) grammar = Some r -> In (NElement c) (further r (children e)) ->
  ~ In (name c) (nested r) -> ~ In (name c) (plain r) -> parse k e <> Ok v.
Proof.
  intros k e r c v Hk Ht Hr Hc Hn Hp H. destruct (parse_conforms k e v Hk Ht H) as [_ F _].
  destruct (F r c Hr Hc) as [X|[X _]]; auto.
Qed.

Lemma reached_conforms : forall a e, reached a e -> conforms e -> conforms a.
Proof.
  intros a e H. induction H as [|e r t c l Hr Hf Hc _ IH|e r c Hr Hc Hn _ IH|e known c Hk Hc Hn _ IH];
    intros He; [assumption|..]; apply IH; destruct He as [S F T].
  - destruct (S r t Hr Hf) as [c' [l' [E [_ X]]]]. rewrite Hc in E. injection E as <- <-. exact X.
  - destruct (F r c Hr Hc) as [X|[_ X]]; [contradiction|exact X].
  - exact (T known c Hk Hc Hn).
Qed.

Theorem unknown_inside : forall k e a r c v, k <> KVoid -> tagged k e -> reached a e ->
  assoc (name a) grammar = Some r -> In (NElement c) (further r (children a)) ->
  ~ In (name c) (nested r) -> ~ In (name c) (plain r) -> parse k e <> Ok v.
Proof.
  intros k e a r c v Hk Ht Ha Hr Hc Hn Hp H.
  destruct (reached_conforms a e Ha (parse_conforms k e v Hk Ht H)) as [_ F _].
  destruct (F r c Hr Hc) as [X|[X _]]; auto.
Qed.

(** The tolerant elements. *)
Lemma run_skip_child : forall S (txt : string -> S -> S) tbl l r c s,
  assoc (name c) tbl = None ->
  run txt skip tbl (l ++ NElement c :: r) s = run txt skip tbl (l ++ r) s.
Proof.
  intros S txt tbl l r c s H. revert s. induction l as [|[d|t|t] l IH]; intros s; cbn.
  - unfold lookup at 1. rewrite H. reflexivity.
  - destruct (lookup skip tbl d); cbn; auto.
  - apply IH.
  - apply IH.
Qed.

Theorem preamble_drops : forall a l c r, name c <> "Paragraph" ->
  parse KPreamble (mkElement "Preamble" a (l ++ NElement c :: r)) =
  parse KPreamble (mkElement "Preamble" a (l ++ r)).
Proof.
  intros a l c r H. rewrite !parse_unfold by exact I. cbn [pstep].
  unfold parse_preamble, with_name. cbn [name children String.eqb Ascii.eqb Bool.eqb].
  rewrite run_skip_child; [reflexivity|]. cbn [assoc].
  destruct (String.eqb_spec (name c) "Paragraph"); [contradiction|reflexivity].
Qed.

Theorem table_row_drops : forall a l c r, name c <> "TableColumn" ->
  parse KTableRow (mkElement "TableRow" a (l ++ NElement c :: r)) =
  parse KTableRow (mkElement "TableRow" a (l ++ r)).
Proof.
  intros a l c r H. rewrite !parse_unfold by exact I. cbn [pstep].
  unfold parse_table_row, with_name. cbn [name children String.eqb Ascii.eqb Bool.eqb].
  rewrite run_skip_child; [reflexivity|]. cbn [assoc].
  destruct (String.eqb_spec (name c) "TableColumn"); [contradiction|reflexivity].
Qed.
