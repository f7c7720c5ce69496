(** The listings of what was read follow the headings and articles of the XML tree. *)
From Coq Require Import String List Arith NArith Bool Lia.
From Verif Require Import Base NumStr NumStrSpec BaseFacts NumStrFacts Xml Ast XmlWrite XmlParse XmlSim
  KnotFacts GrammarSpec GrammarFacts ReadSpec ReadFacts PartsFacts Utils UtilsSpec UtilsFacts
  ReadingSpec ReadingLib ReadingFacts ReadingRules5 ReadingRules7 ReadingExact DocTextSpec DocTextFacts DocListSpec.
Import ListNotations.
Open Scope string_scope.
Open Scope list_scope.

Lemma places_article : forall e, name e = "Article" -> places e = [([], e)].
Proof. intros [n a l] H. cbn in H. subst. reflexivity. Qed.
Lemma places_heading : forall e r, name e <> "Article" -> heading_rank (name e) = Some r ->
  places e = map (fun x => ((r, get e "Num") :: fst x, snd x)) (([], e) :: provision_places e).
Proof.
  intros [n a l] r N H. cbn [name] in *. unfold provision_places. cbn [places children].
  destruct (String.eqb_spec n "Article"); [contradiction|]. rewrite H. f_equal. f_equal.
  induction l as [|[c|s|s] l IH]; [reflexivity| | |]; cbn [flat_map elements]; rewrite ?IH; reflexivity.
Qed.
Lemma places_none : forall e, name e <> "Article" -> heading_rank (name e) = None -> places e = [].
Proof.
  intros [n a l] N H. cbn [name] in *. cbn [places]. destruct (String.eqb_spec n "Article"); [contradiction|].
  rewrite H. reflexivity.
Qed.

(** ** Entries *)
Lemma article_title_read : forall e v, reads KArticle e v -> text_str (art_title (un KArticle v)) = place_title e.
Proof.
  intros e v H. apply read_rule in H as (Hn & _ & _ & _ & h & b & c & rest & Ec & Eb & Kh & Kb & _ & Ht & _); [|exact I].
  unfold place_title, is_article. rewrite Hn. cbn [String.eqb Ascii.eqb Bool.eqb].
  assert (E : with_tag "ArticleTitle" (children e) = with_tag "ArticleTitle" h).
  { rewrite Ec. clear -Kb. unfold with_tag. assert (A : elements (h ++ b) = elements h ++ elements b).
    { induction h as [|[x|s|s] h IH]; cbn [app elements]; rewrite ?IH; reflexivity. }
    rewrite A, filter_app. replace (filter _ (elements b)) with (@nil Element); [apply app_nil_r|]. symmetry. clear A.
    induction b as [|[x|s|s] b IH]; cbn [elements filter]; [reflexivity| | |];
      try (apply IH; intros y Hy; apply Kb; right; exact Hy).
    rewrite IH by (intros y Hy; apply Kb; right; exact Hy).
    destruct (Kb x (or_introl eq_refl)) as [<-|[<-|[]]]; reflexivity. }
  rewrite E. destruct Ht as (xs & F & ->). unfold ReadingSpec.each in F. apply forall2_rev in F.
  rewrite <- (rev_involutive xs) at 1.
  destruct F as [|d t l m Hd F]; [reflexivity|]. cbn [rev]. rewrite last_last. apply title_str. exact Hd.
Qed.
Lemma article_place : forall c v, name c = "Article" -> reads KArticle c v ->
  Forall2 entry_for (places c) [article_entry v].
Proof.
  intros c v N H. rewrite (places_article c N). constructor; [|constructor]. split; [constructor|].
  cbn [en_title en_article article_entry fst snd]. split; [apply article_title_read; exact H|].
  split; [unfold is_article; rewrite N; reflexivity|]. apply read_rule in H as (_ & Hn & _); [exact Hn|exact I].
Qed.

Lemma heading_place : forall C (P : Element -> C -> Prop) n r e (f : HeadF Knot C) (ent : C -> list UtilsSpec.entry),
  heading_rank n = Some r -> n <> "Article" -> heading_rank (n ++ "Title")%string = None ->
  (n ++ "Title")%string <> "Article" ->
  heading n P e f -> (forall c x, P c x -> Forall2 entry_for (places c) (ent x)) ->
  Forall2 entry_for (places e) (with_heading r f (flat_map ent (hd_children f))).
Proof.
  intros C P n r e f ent R N T T' (Hn & Hm & _ & _ & t & rest & Ec & Et & Ht & F) IH.
  rewrite <- Hn in R, N. rewrite (places_heading e r N R). unfold with_heading.
  apply forall2_maps with (P := entry_for).
  - intros p x (H1 & H2 & H3). split; [|split; [exact H2|exact H3]]. constructor; [split; [reflexivity|exact Hm]|exact H1].
  - constructor.
    + split; [constructor|]. cbn [en_title en_article fst snd]. unfold place_title, is_article.
      destruct (String.eqb_spec (name e) "Article"); [contradiction|]. rewrite Ec. cbn [elements].
      split; [apply title_str; exact Ht|reflexivity].
    + unfold provision_places. rewrite Ec. cbn [elements flat_map].
      rewrite (places_none t) by (rewrite Et; assumption). cbn [app].
      apply forall2_flat with (P := P); [exact IH|exact F].
Qed.
Ltac rule H := apply read_rule in H; [|exact I].

Lemma division_places : forall e v, reads KDivision e v -> Forall2 entry_for (places e) (division_entries v).
Proof.
  intros e v H. rule H. unfold division_entries.
  replace (map article_entry (hd_children (un KDivision v))) with
    (flat_map (fun a => [article_entry a]) (hd_children (un KDivision v))).
  - eapply heading_place with (n := "Division"); [reflexivity|discriminate|reflexivity|discriminate|exact H|].
    intros c x (N & Hx). apply article_place; assumption.
  - generalize (hd_children (un KDivision v)). intros l. induction l as [|a l IH]; [reflexivity|]. cbn [flat_map map app].
    rewrite IH. reflexivity.
Qed.
Lemma subsection_places : forall e v, reads KSubsection e v -> Forall2 entry_for (places e) (subsection_entries v).
Proof.
  intros e v H. rule H. eapply heading_place with (n := "Subsection"); [reflexivity|discriminate|reflexivity|discriminate|exact H|].
  intros c [a|d] (N & Hx); [apply article_place; assumption|apply division_places; exact Hx].
Qed.
Lemma section_places : forall e v, reads KSection e v -> Forall2 entry_for (places e) (section_entries v).
Proof.
  intros e v H. rule H. eapply heading_place with (n := "Section"); [reflexivity|discriminate|reflexivity|discriminate|exact H|].
  intros c [a|d|d] (N & Hx);
    [apply article_place; assumption|apply subsection_places; exact Hx|apply division_places; exact Hx].
Qed.
Lemma chapter_places : forall e v, reads KChapter e v -> Forall2 entry_for (places e) (chapter_entries v).
Proof.
  intros e v H. rule H. eapply heading_place with (n := "Chapter"); [reflexivity|discriminate|reflexivity|discriminate|exact H|].
  intros c [a|d] (N & Hx); [apply article_place; assumption|apply section_places; exact Hx].
Qed.
Lemma part_places : forall e v, reads KPart e v -> Forall2 entry_for (places e) (part_entries v).
Proof.
  intros e v H. rule H. eapply heading_place with (n := "Part"); [reflexivity|discriminate|reflexivity|discriminate|exact H|].
  intros c [a|d] (N & Hx); [apply article_place; assumption|apply chapter_places; exact Hx].
Qed.
Theorem main_places : forall e v, parse KMain e = Ok v -> Forall2 entry_for (provision_places e) (main_entries v).
Proof.
  intros e v H. rule H. destruct H as (_ & _ & F). unfold provision_places, main_entries.
  eapply forall2_flat; [|exact F]. intros c [d|d|d|a|p] (N & Hx).
  - apply part_places, Hx.
  - apply chapter_places, Hx.
  - apply section_places, Hx.
  - apply article_place; assumption.
  - rewrite places_none; [constructor|rewrite N; discriminate|rewrite N; reflexivity].
Qed.

(** The label of a supplementary provision is no place. *)
Lemma suppl_flat : forall (B : Type) (g : Element -> list B) l,
  known ["SupplProvisionLabel"; "Chapter"; "Article"; "Paragraph"; "SupplProvisionAppdxTable";
         "SupplProvisionAppdxStyle"; "SupplProvisionAppdx"] l ->
  (forall c, name c = "SupplProvisionLabel" -> g c = []) ->
  flat_map g (elements l) = flat_map g (with_tags ["Chapter"; "Article"; "Paragraph"; "SupplProvisionAppdxTable";
                    "SupplProvisionAppdxStyle"; "SupplProvisionAppdx"] l).
Proof.
  intros B g l K G. induction l as [|[c|s|s] l IH]; unfold with_tags in *; cbn [elements filter flat_map]; [reflexivity| | |];
    try (apply IH; intros y Hy; apply K; right; exact Hy).
  rewrite IH by (intros y Hy; apply K; right; exact Hy).
  destruct (K c (or_introl eq_refl)) as [E|I].
  - rewrite (G c) by (symmetry; exact E). rewrite <- E. reflexivity.
  - replace (existsb _ _) with true; [reflexivity|]. symmetry. apply existsb_exists. exists (name c).
    split; [exact I|apply String.eqb_refl].
Qed.
Theorem suppl_places : forall e v, parse KSuppl e = Ok v -> Forall2 entry_for (provision_places e) (suppl_entries v).
Proof.
  intros e v H. rule H. destruct H as (_ & _ & _ & _ & K & _ & F). unfold provision_places, suppl_entries.
  rewrite (suppl_flat _ _ _ K).
  - eapply forall2_flat; [|exact F]. intros c [d|a|p|d|d|d] (N & Hx);
      [apply chapter_places, Hx|apply article_place; assumption| | | |];
      (rewrite places_none; [constructor|rewrite N; discriminate|rewrite N; reflexivity]).
  - intros c N. apply places_none; rewrite N; [discriminate|reflexivity].
Qed.

(** ** Articles *)
Definition own (e : Element) : list (written_trail * Element) := filter (fun p => is_article (snd p)) (places e).
Lemma filter_flat : forall (X Y : Type) (f : Y -> bool) (g : X -> list Y) l,
  filter f (flat_map g l) = flat_map (fun x => filter f (g x)) l.
Proof. intros X Y f g l. induction l as [|x l IH]; [reflexivity|]. cbn [flat_map]. rewrite filter_app, IH. reflexivity. Qed.
Lemma own_heading : forall e r, name e <> "Article" -> heading_rank (name e) = Some r ->
  own e = map (fun x => ((r, get e "Num") :: fst x, snd x)) (flat_map own (elements (children e))).
Proof.
  intros e r N R. unfold own. rewrite (places_heading e r N R). cbn [map filter fst snd]. unfold is_article at 1.
  destruct (String.eqb_spec (name e) "Article"); [contradiction|]. unfold provision_places.
  rewrite <- filter_flat. generalize (flat_map places (elements (children e))). intros l.
  induction l as [|[w c] l IH]; [reflexivity|]. cbn [map filter fst snd].
  destruct (is_article c); cbn [map fst snd]; [f_equal|]; exact IH.
Qed.
Lemma own_article : forall c v, name c = "Article" -> reads KArticle c v -> Forall2 article_for (own c) [([], v)].
Proof.
  intros c v N H. unfold own. rewrite (places_article c N). cbn [filter snd]. unfold is_article. rewrite N.
  cbn [String.eqb Ascii.eqb Bool.eqb]. constructor; [|constructor]. split; [constructor|exact H].
Qed.
Lemma own_none : forall c, name c <> "Article" -> heading_rank (name c) = None -> own c = [].
Proof. intros c N R. unfold own. rewrite (places_none c N R). reflexivity. Qed.
Lemma heading_own : forall C (P : Element -> C -> Prop) n r e (f : HeadF Knot C) (tr : C -> list (trail * Knot KArticle)),
  heading_rank n = Some r -> n <> "Article" -> heading_rank (n ++ "Title")%string = None ->
  (n ++ "Title")%string <> "Article" ->
  heading n P e f -> (forall c x, P c x -> Forall2 article_for (own c) (tr x)) ->
  Forall2 article_for (own e) (map (under r (hd_num f)) (flat_map tr (hd_children f))).
Proof.
  intros C P n r e f tr R N T T' (Hn & Hm & _ & _ & t & rest & Ec & Et & Ht & F) IH.
  rewrite <- Hn in R, N. rewrite (own_heading e r N R). apply forall2_maps with (P := article_for).
  - intros p x (H1 & H2). split; [|exact H2]. constructor; [split; [reflexivity|exact Hm]|exact H1].
  - rewrite Ec. cbn [elements flat_map]. rewrite (own_none t) by (rewrite Et; assumption). cbn [app].
    apply forall2_flat with (P := P); [exact IH|exact F].
Qed.
Lemma division_own : forall e v, reads KDivision e v -> Forall2 article_for (own e) (division_trails v).
Proof.
  intros e v H. rule H. unfold division_trails.
  replace (map _ (hd_children (un KDivision v))) with
    (map (under RDivision (hd_num (un KDivision v))) (flat_map (fun a : Knot KArticle => [([] : trail, a)]) (hd_children (un KDivision v)))).
  - eapply heading_own with (n := "Division"); [reflexivity|discriminate|reflexivity|discriminate|exact H|].
    intros c x (N & Hx). apply own_article; assumption.
  - generalize (hd_children (un KDivision v)). intros l. induction l as [|a l IH]; [reflexivity|]. cbn [flat_map map app].
    rewrite IH. reflexivity.
Qed.
Lemma subsection_own : forall e v, reads KSubsection e v -> Forall2 article_for (own e) (subsection_trails v).
Proof.
  intros e v H. rule H. eapply heading_own with (n := "Subsection"); [reflexivity|discriminate|reflexivity|discriminate|exact H|].
  intros c [a|d] (N & Hx); [apply own_article; assumption|apply division_own; exact Hx].
Qed.
Lemma section_own : forall e v, reads KSection e v -> Forall2 article_for (own e) (section_trails v).
Proof.
  intros e v H. rule H. eapply heading_own with (n := "Section"); [reflexivity|discriminate|reflexivity|discriminate|exact H|].
  intros c [a|d|d] (N & Hx); [apply own_article; assumption|apply subsection_own; exact Hx|apply division_own; exact Hx].
Qed.
Lemma chapter_own_places : forall e v, reads KChapter e v -> Forall2 article_for (own e) (chapter_trails v).
Proof.
  intros e v H. rule H. eapply heading_own with (n := "Chapter"); [reflexivity|discriminate|reflexivity|discriminate|exact H|].
  intros c [a|d] (N & Hx); [apply own_article; assumption|apply section_own; exact Hx].
Qed.
Lemma part_own : forall e v, reads KPart e v -> Forall2 article_for (own e) (part_trails v).
Proof.
  intros e v H. rule H. eapply heading_own with (n := "Part"); [reflexivity|discriminate|reflexivity|discriminate|exact H|].
  intros c [a|d] (N & Hx); [apply own_article; assumption|apply chapter_own_places; exact Hx].
Qed.
Theorem main_articles_places : forall e v, parse KMain e = Ok v -> Forall2 article_for (article_places e) (main_trails v).
Proof.
  intros e v H. rule H. destruct H as (_ & _ & F). unfold article_places, provision_places, main_trails.
  rewrite filter_flat. eapply forall2_flat; [|exact F]. intros c [d|d|d|a|p] (N & Hx).
  - apply part_own, Hx.
  - apply chapter_own_places, Hx.
  - apply section_own, Hx.
  - apply own_article; assumption.
  - change (Forall2 article_for (own c) []).
    rewrite own_none; [constructor|rewrite N; discriminate|rewrite N; reflexivity].
Qed.
Theorem suppl_articles_places : forall e v, parse KSuppl e = Ok v -> Forall2 article_for (article_places e) (suppl_trails v).
Proof.
  intros e v H. rule H. destruct H as (_ & _ & _ & _ & K & _ & F). unfold article_places, provision_places, suppl_trails.
  rewrite filter_flat, (suppl_flat _ _ _ K).
  - eapply forall2_flat; [|exact F]. intros c [d|a|p|d|d|d] (N & Hx);
      [apply chapter_own_places, Hx|apply own_article; assumption| | | |];
      (change (Forall2 article_for (own c) []);
       rewrite own_none; [constructor|rewrite N; discriminate|rewrite N; reflexivity]).
  - intros c N. apply own_none; rewrite N; [discriminate|reflexivity].
Qed.

(** ** Laws *)
Theorem law_provisions : forall e l, parse_law e = Ok l ->
  (exists m, law_main e m /\ parse KMain m = Ok (lb_main_provision (un KLawBody (law_body l)))) /\
  (exists ss, law_suppl e ss /\ Forall2 (reads KSuppl) ss (lb_suppl_provision (un KLawBody (law_body l)))).
Proof.
  intros e l H. apply law_exact in H. destruct H as (_ & _ & _ & _ & _ & _ & _ & _ & n & b & rest & Ec & _ & _ & H).
  apply (read_exact KLawBody b (law_body l) I) in H. rule H.
  destruct H as (_ & _ & _ & _ & _ & _ & _ & M & S & _). split.
  - apply latest_some in M as (m & r & Er & Hm). exists m. split; [|exact Hm]. exists n, b, rest, r. auto.
  - exists (with_tag "SupplProvision" (children b)). split; [|exact S]. exists n, b, rest. auto.
Qed.
