(** The texts listed for what was read are those of the XML tree. *)
From Coq Require Import String List Arith NArith Bool Lia.
From Verif Require Import Base NumStr NumStrSpec BaseFacts NumStrFacts Xml Ast XmlWrite XmlParse XmlSim
  KnotFacts GrammarSpec GrammarFacts ReadSpec ReadFacts PartsFacts Utils UtilsSpec UtilsFacts
  ReadingSpec ReadingLib ReadingFacts ReadingRules5 ReadingRules7 ReadingExact DocTextSpec.
Import ListNotations.
Open Scope string_scope.
Open Scope list_scope.

Lemma forall2_map : forall (X Y Z : Type) (P : X -> Y -> Prop) (f : X -> Z) (g : Y -> Z) l m,
  (forall x y, P x y -> f x = g y) -> Forall2 P l m -> map f l = map g m.
Proof. intros X Y Z P f g l m H F. induction F as [|x y l m Hx F IH]; cbn; [reflexivity|]. rewrite (H x y Hx), IH. reflexivity. Qed.
Lemma forall2_flat : forall (X Y A B : Type) (P : X -> Y -> Prop) (Q : A -> B -> Prop) (f : X -> list A) (g : Y -> list B) l m,
  (forall x y, P x y -> Forall2 Q (f x) (g y)) -> Forall2 P l m -> Forall2 Q (flat_map f l) (flat_map g m).
Proof.
  intros X Y A B P Q f g l m H F. induction F as [|x y l m Hx F IH]; cbn; [constructor|]. apply Forall2_app; [apply H, Hx|exact IH].
Qed.
Lemma forall2_maps : forall (X Y A B : Type) (P : X -> Y -> Prop) (Q : A -> B -> Prop) (f : X -> A) (g : Y -> B) l m,
  (forall x y, P x y -> Q (f x) (g y)) -> Forall2 P l m -> Forall2 Q (map f l) (map g m).
Proof. intros X Y A B P Q f g l m H F. induction F as [|x y l m Hx F IH]; cbn; constructor; auto. Qed.

Lemma read_rule : forall k e v, tagged k e -> reads k e v -> reading k e (un k v).
Proof. intros k e v Ht H. apply parse_exact; assumption. Qed.

Lemma title_str : forall c t, text_of c t -> text_str t = title_text c.
Proof. intros c t H. apply text_of_iff in H. apply text_read_str, H. Qed.
Lemma column_str : forall c v, reads KColumn c v ->
  map sentence_str (col_sentence (un KColumn v)) = map sentence_text (elements (children c)).
Proof.
  intros c v H. apply read_rule in H as (_ & _ & _ & _ & F); [|exact I]. symmetry.
  eapply forall2_map; [|exact F]. intros s x Hs. symmetry. apply sentence_read, Hs.
Qed.
Lemma mixed_texts : forall X (P : XMLNode -> X -> Prop) (f : XMLNode -> string) (g : X -> string) l xs,
  (forall s, f (NOther s) = "") -> (forall n x, P n x -> f n = g x) -> mixed P l xs ->
  concat_strings (map f l) = concat_strings (map g xs).
Proof.
  intros X P f g l xs Ho H F. unfold mixed in F. rewrite <- (forall2_map _ _ _ _ f g _ _ H F). clear F.
  induction l as [|[c|s|s] l IH]; cbn [filter not_other map]; [reflexivity| | |]; cbn [concat_strings fold_right].
  - change (fold_right String.append "" (map f l)) with (concat_strings (map f l)). rewrite IH. reflexivity.
  - change (fold_right String.append "" (map f l)) with (concat_strings (map f l)). rewrite IH. reflexivity.
  - rewrite Ho. change (fold_right String.append "" (map f l)) with (concat_strings (map f l)). rewrite IH. reflexivity.
Qed.
Lemma cell_read : forall e v, reads KTableColumn e v ->
  concat_strings (map cell_str (tc_contents (un KTableColumn v))) = cell_text e.
Proof.
  intros e v H. apply read_rule in H as (_ & _ & _ & _ & _ & _ & _ & _ & _ & H); [|exact I].
  symmetry. eapply mixed_texts; [reflexivity| |exact H]. intros [c|s|s] x Hx.
  - destruct x; cbn in Hx; try contradiction; destruct Hx as [E Hx]; cbn [cell_node_text cell_str];
      try (rewrite E; reflexivity).
    + rewrite E. destruct l; reflexivity.
    + rewrite E. symmetry. apply sentence_read, Hx.
    + rewrite E. cbn [String.eqb Ascii.eqb Bool.eqb]. rewrite <- (column_str _ _ Hx). reflexivity.
  - destruct x; cbn in Hx; try contradiction. subst. reflexivity.
  - destruct x; cbn in Hx; contradiction.
Qed.
Lemma row_read : forall e v, reads KTableRow e v ->
  join " " (map (fun c => concat_strings (map cell_str (tc_contents (un KTableColumn c)))) (un KTableRow v)) = row_text e.
Proof.
  intros e v H. apply read_rule in H as (_ & F); [|exact I]. unfold row_text. f_equal. symmetry.
  eapply forall2_map; [|exact F]. intros c x Hx. symmetry. apply cell_read, Hx.
Qed.
Theorem table_read : forall e v, parse KTable e = Ok v -> table_to_str v = table_text e.
Proof.
  intros e v H. apply read_rule in H as (_ & _ & _ & F1 & F2); [|exact I]. unfold table_to_str, table_text.
  f_equal; [f_equal|].
  - symmetry. eapply forall2_map; [|exact F1]. intros c x (_ & Hx). unfold header_text. f_equal.
    eapply forall2_map; [|exact Hx]. intros d y Hy. symmetry. apply title_str, Hy.
  - f_equal. f_equal. symmetry. eapply forall2_map; [|exact F2]. intros c x Hx. symmetry. apply row_read, Hx.
Qed.

Lemma forall2_rev : forall (X Y : Type) (P : X -> Y -> Prop) l m, Forall2 P l m -> Forall2 P (rev l) (rev m).
Proof. intros X Y P l m F. induction F as [|x y l m Hx F IH]; cbn; [constructor|]. apply Forall2_app; [exact IH|]. constructor; [exact Hx|constructor]. Qed.
Lemma latest_some : forall X (P : Element -> X -> Prop) t l x, latest P t l (Some x) ->
  exists c r, rev (with_tag t l) = c :: r /\ P c x.
Proof.
  intros X P t l x (xs & F & E). unfold ReadingSpec.each in F. apply forall2_rev in F.
  destruct (rev xs) as [|y ys]; [discriminate|]. injection E as <-. inversion F as [|c ? r ? Hc Hr E1 E2]. eauto.
Qed.
Lemma latest_none : forall X (P : Element -> X -> Prop) t l, latest P t l None -> with_tag t l = [].
Proof.
  intros X P t l (xs & F & E). destruct (rev xs) as [|y ys] eqn:Er; [|discriminate].
  apply (f_equal (@rev X)) in Er. rewrite rev_involutive in Er. cbn in Er. subst xs. inversion F. reflexivity.
Qed.
Lemma each_nil : forall X (P : Element -> X -> Prop) t l, ReadingSpec.each P t l [] -> with_tag t l = [].
Proof. intros X P t l F. inversion F. reflexivity. Qed.
Lemma sct_read : forall table table' c x, (forall d v, reads KTable d v -> table d = table' v) -> sct_reads c x ->
  item_sentence_text table c = item_str table' x.
Proof.
  intros table table' c x Ht (_ & ss & cs & t & F1 & F2 & F3 & H). unfold item_sentence_text. destruct x as [l|l|b]; cbn [item_str].
  - destruct H as (-> & -> & Hne). rewrite (each_nil _ _ _ _ F2). unfold ReadingSpec.each in F1.
    assert (E : map sentence_text (with_tag "Sentence" (children c)) = map sentence_str ss).
    { eapply forall2_map; [|exact F1]. intros d v Hd. symmetry. apply sentence_read, Hd. }
    destruct (with_tag "Sentence" (children c)) as [|d ds] eqn:Ed.
    + inversion F1. subst. contradiction.
    + rewrite E. reflexivity.
  - destruct H as (-> & Hne). unfold ReadingSpec.each in F2.
    assert (E : map sentence_text (flat_map (fun d => elements (children d)) (with_tag "Column" (children c))) =
      flat_map (fun d => map sentence_str (col_sentence (un KColumn d))) cs).
    { clear -F2. induction F2 as [|d v ds vs Hd F IH]; [reflexivity|]. cbn [flat_map]. rewrite map_app, IH, (column_str _ _ Hd). reflexivity. }
    destruct (with_tag "Column" (children c)) as [|d ds] eqn:Ed.
    + inversion F2. subst. contradiction.
    + rewrite E. reflexivity.
  - destruct H as (-> & -> & ->). rewrite (each_nil _ _ _ _ F1), (each_nil _ _ _ _ F2).
    apply latest_some in F3 as (d & r & -> & Hd). apply Ht, Hd.
Qed.

Lemma item_text_str : forall l x, item_text_of l x = item_str (match l with Sub6 => fun _ => "" | _ => table_to_str end) x.
Proof.
  intros l x. assert (E : forall cs, map sentence_str (flat_map (fun c => col_sentence (un KColumn c)) cs) =
    flat_map (fun c => map sentence_str (col_sentence (un KColumn c))) cs).
  { induction cs as [|c cs IH]; [reflexivity|]. cbn [flat_map]. rewrite map_app, IH. reflexivity. }
  destruct l, x; cbn [item_text_of item_str]; rewrite ?E; reflexivity.
Qed.

(** The tags below a level. *)
Definition tags_below (l : lvl) : list string :=
  match l with
  | Item0 => subitem_tags | Sub1 => skipn 1 subitem_tags | Sub2 => skipn 2 subitem_tags | Sub3 => skipn 3 subitem_tags
  | Sub4 => skipn 4 subitem_tags | Sub5 => skipn 5 subitem_tags | Sub6 => skipn 6 subitem_tags | Sub7 => skipn 7 subitem_tags
  | Sub8 => skipn 8 subitem_tags | Sub9 => skipn 9 subitem_tags | Sub10 => []
  end.
Definition item_listed (x : list (option string) * string) (y : list (option ArticleNumber) * lvl * SentenceOrColumnOrTable Knot) : Prop :=
  Forall2 item_number (fst x) (fst (fst y)) /\ snd x = item_text_of (snd (fst y)) (snd y).
Lemma with_tags_one : forall t l, with_tags [t] l = with_tag t l.
Proof. intros t l. unfold with_tags, with_tag. apply filter_ext. intros c. cbn. apply orb_false_r. Qed.

Lemma items_unfold : forall l (v : Knot (KItem l)), items_of (KItem l) v =
  ([it_num (un (KItem l) v)], l, it_sentence (un (KItem l) v)) ::
  map (fun '(p, l', s) => (it_num (un (KItem l) v) :: p, l', s)) (flat_map (items_of (sub_item l)) (it_children (un (KItem l) v))).
Proof.
  intros l v. rewrite <- (mk_un _ v) at 1. destruct l; reflexivity.
Qed.
Lemma item_step : forall l, l <> Sub10 ->
  (forall c x, reads (sub_item l) c x -> Forall2 item_listed (item_lines (item_child_tag l) (tl (tags_below l)) c) (items_of (sub_item l) x)) ->
  forall e v, reads (KItem l) e v -> Forall2 item_listed (item_lines (level_tag l) (tags_below l) e) (items_of (KItem l) v).
Proof.
  intros l Hl IH e v H. apply read_rule in H as (_ & Hn & _ & _ & _ & _ & Hs & _ & F); [|exact I].
  rewrite items_unfold.
  assert (E : tags_below l = item_child_tag l :: tl (tags_below l)) by (destruct l; try reflexivity; contradiction).
  rewrite E. cbn [item_lines tl]. constructor.
  - split; [constructor; [exact Hn|constructor]|]. cbn [fst snd]. rewrite item_text_str. unfold item_element_text.
    apply latest_some in Hs as (c & r & -> & Hc). apply sct_read; [|exact Hc].
    intros d w Hd. destruct l; cbn [level_tag String.eqb Ascii.eqb Bool.eqb]; try reflexivity; symmetry; apply table_read, Hd.
  - assert (Et : with_tags (sub_level_tags l) (children e) = with_tag (item_child_tag l) (children e)).
    { destruct l; try contradiction; apply with_tags_one. }
    rewrite Et in F. eapply forall2_maps; [|eapply forall2_flat; [exact IH|exact F]].
    intros [p s] [[q l'] x] [H1 H2]. split; [constructor; assumption|exact H2].
Qed.
Lemma item_last : forall e v, reads (KItem Sub10) e v -> Forall2 item_listed (item_lines "Subitem10" [] e) (items_of (KItem Sub10) v).
Proof.
  intros e v H. apply read_rule in H as (_ & Hn & _ & _ & _ & _ & Hs & _ & F); [|exact I].
  rewrite items_unfold. cbn [item_lines]. constructor.
  - split; [constructor; [exact Hn|constructor]|]. cbn [fst snd]. rewrite item_text_str. unfold item_element_text.
    apply latest_some in Hs as (c & r & Er & Hc).
    change (level_tag Sub10) with "Subitem10" in Er. rewrite Er. apply sct_read; [|exact Hc]. intros d w Hd. symmetry. apply table_read, Hd.
  - change (sub_level_tags Sub10) with (@nil string) in F.
    assert (E : it_children (un (KItem Sub10) v) = []).
    { assert (Z : with_tags [] (children e) = []) by (unfold with_tags; induction (elements (children e)); cbn; auto).
      rewrite Z in F. inversion F. reflexivity. }
    rewrite E. constructor.
Qed.
Lemma item_read : forall e v, reads (KItem Item0) e v ->
  Forall2 item_listed (item_lines "Item" subitem_tags e) (items_of (KItem Item0) v).
Proof.
  pose proof item_last as H10.
  pose proof (item_step Sub9 ltac:(discriminate) H10) as H9. pose proof (item_step Sub8 ltac:(discriminate) H9) as H8.
  pose proof (item_step Sub7 ltac:(discriminate) H8) as H7. pose proof (item_step Sub6 ltac:(discriminate) H7) as H6.
  pose proof (item_step Sub5 ltac:(discriminate) H6) as H5. pose proof (item_step Sub4 ltac:(discriminate) H5) as H4.
  pose proof (item_step Sub3 ltac:(discriminate) H4) as H3. pose proof (item_step Sub2 ltac:(discriminate) H3) as H2.
  pose proof (item_step Sub1 ltac:(discriminate) H2) as H1. exact (item_step Item0 ltac:(discriminate) H1).
Qed.

Theorem paragraph_listed : forall e v, parse KParagraph e = Ok v ->
  Forall2 lists (paragraph_lines e) (text_info_list_from_paragraph [v]).
Proof.
  intros e v H. rewrite text_entries. cbn [flat_map]. rewrite app_nil_r. pose proof (paragraph_text_read e v H) as Ht.
  apply read_rule in H as (_ & Hn & _ & _ & _ & _ & _ & _ & _ & _ & _ & _ & F); [|exact I].
  unfold paragraph_lines, paragraph_entries. constructor.
  - repeat split; [exact Hn|constructor|]. symmetry. exact Ht.
  - eapply forall2_maps; [|eapply forall2_flat; [exact item_read|exact F]].
    intros [p s] [[q l'] x] [H1 H2]. repeat split; assumption.
Qed.
Lemma texts_app : forall a b, text_info_list_from_paragraph (a ++ b) = text_info_list_from_paragraph a ++ text_info_list_from_paragraph b.
Proof. intros a b. apply flat_map_app. Qed.
Theorem paragraphs_listed : forall es vs, Forall2 (reads KParagraph) es vs ->
  Forall2 lists (flat_map paragraph_lines es) (text_info_list_from_paragraph vs).
Proof.
  intros es vs F. induction F as [|e v es vs H F IH]; [constructor|]. cbn [flat_map].
  change (v :: vs) with ([v] ++ vs). rewrite texts_app. apply Forall2_app; [apply paragraph_listed, H|exact IH].
Qed.
Lemma with_tag_app : forall t a b, with_tag t (a ++ b) = with_tag t a ++ with_tag t b.
Proof.
  intros t a b. unfold with_tag. induction a as [|[c|s|s] a IH]; cbn; [reflexivity| |exact IH|exact IH].
  destruct (String.eqb (name c) t); cbn; rewrite IH; reflexivity.
Qed.
Lemma unknown_tag : forall ts t l, known ts l -> ~ In t ts -> with_tag t l = [].
Proof.
  intros ts t l HK Hn. destruct (with_tag t l) as [|c r] eqn:E; [reflexivity|].
  assert (Hc : In c (with_tag t l)) by (rewrite E; left; reflexivity). apply filter_In in Hc as [Hc Et].
  apply elements_in in Hc. apply String.eqb_eq in Et. destruct Hn. rewrite <- Et. apply HK, Hc.
Qed.
Lemma article_paragraphs : forall e v, parse KArticle e = Ok v ->
  Forall2 (reads KParagraph) (with_tag "Paragraph" (children e)) (art_paragraph (un KArticle v)).
Proof.
  intros e v H. apply read_rule in H as (_ & _ & _ & _ & head & body & c & rest & Ec & Eb & K1 & _ & _ & _ & F & _); [|exact I].
  rewrite Ec, with_tag_app, (unknown_tag _ _ _ K1); [exact F|]. intros [X|[X|[]]]; discriminate.
Qed.
Theorem article_listed : forall e v, parse KArticle e = Ok v ->
  Forall2 lists (article_lines e) (text_info_list_from_paragraph (art_paragraph (un KArticle v))).
Proof. intros e v H. apply paragraphs_listed, article_paragraphs, H. Qed.
Theorem article_text_read : forall e v, parse KArticle e = Ok v -> text_from_article v = article_text e.
Proof.
  intros e v H. unfold text_from_article, article_text. change line_feed with nl. f_equal. symmetry.
  eapply forall2_map; [|apply article_listed, H]. intros x y (_ & _ & E). exact E.
Qed.
Theorem main_texts_read : forall e v, parse KMain e = Ok v ->
  map text_from_article (fst (article_list_from_main_provision v)) = map article_text (articles_in e).
Proof.
  intros e v H. symmetry. eapply forall2_map; [|apply articles_listed_as_read, H]. intros c x Hx. symmetry. apply article_text_read, Hx.
Qed.
