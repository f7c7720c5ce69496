(** The listings. *)
From Coq Require Import String List NArith Bool Lia Arith.
From Verif Require Import Base BaseFacts NumStr Xml XmlSpec XmlSim Ast XmlWrite RoundTripSpec KnotFacts XmlParse RoundTripLib ReadSpec ReadFacts Utils UtilsSpec.
Import ListNotations.
Open Scope string_scope.
Open Scope list_scope.

(** ** Loops *)
Lemma list_loop_spec : forall C W (act : C -> child_action W) cs v pv tmp,
  list_loop act cs v pv tmp =
  (v ++ flat_map (fun c => match act c with Articles l => l | _ => [] end) cs,
   pv ++ snd (list_loop act cs v [] tmp)).
Proof.
  intros C W act. induction cs as [|c cs IH]; intros v pv tmp; cbn [list_loop flat_map].
  - rewrite app_nil_r. reflexivity.
  - destruct (act c) as [p|l|].
    + rewrite IH. reflexivity.
    + rewrite IH. rewrite (IH (v ++ l) ([] ++ [tmp])). cbn [snd app]. rewrite <- !app_assoc. reflexivity.
    + rewrite IH. reflexivity.
Qed.
Lemma list_loop_groups : forall C W (act : C -> child_action W) cs v w tmp,
  snd (list_loop act cs v [] tmp) = snd (list_loop act cs w [] tmp).
Proof.
  intros C W act. induction cs as [|c cs IH]; intros v w tmp; cbn [list_loop]; [reflexivity|].
  destruct (act c); auto. rewrite (list_loop_spec _ _ _ cs (v ++ l)), (list_loop_spec _ _ _ cs (w ++ l)). cbn [snd].
  rewrite (IH (v ++ l) (w ++ l)). reflexivity.
Qed.
Lemma list_loop_woven : forall C W (act : C -> child_action W) inj (keep par : C -> bool),
  (forall p, act (inj p) = Add p) ->
  (forall c, match act c with Add p => c = inj p /\ keep c = true /\ par c = true | Articles _ => keep c = true /\ par c = false
             | Skip => keep c = false end) ->
  forall cs v tmp l, woven inj (snd (list_loop act cs v [] tmp)) (filter (fun c => keep c && negb (par c)) cs) l <->
    l = map inj tmp ++ filter keep cs.
Proof.
  intros C W act inj keep par Hi Hc. induction cs as [|c cs IH]; intros v tmp l; cbn [list_loop filter snd app].
  - cbn [woven]. rewrite app_nil_r. reflexivity.
  - specialize (Hc c). destruct (act c) as [p|a|] eqn:E.
    + destruct Hc as [-> [H1 H2]]. rewrite H1, H2. cbn [andb negb]. rewrite IH, map_app, <- app_assoc. reflexivity.
    + destruct Hc as [H1 H2]. rewrite H1, H2. cbn [andb negb].
      rewrite list_loop_spec. cbn [snd app]. cbn [woven].
      assert (N : exists g gs, snd (list_loop act cs (v ++ a) [] []) = g :: gs).
      { clear. generalize (v ++ a), (@nil (Knot KParagraph)). induction cs as [|c cs IH]; intros w t; cbn [list_loop snd app]; [eauto|].
        destruct (act c); auto. rewrite list_loop_spec. cbn [snd app]. eauto. }
      destruct N as [g [gs N]].
      assert (X : forall r, woven inj (snd (list_loop act cs (v ++ a) [] [])) (filter (fun c => keep c && negb (par c)) cs) r <-> r = filter keep cs)
        by (intros r; rewrite IH; reflexivity).
      rewrite N in X |- *. split.
      * intros [r [-> Hr]]. apply X in Hr as ->. reflexivity.
      * intros ->. eexists. split; [reflexivity|]. apply X. reflexivity.
    + rewrite Hc. cbn [andb]. apply IH.
Qed.

(** ** Articles *)
Ltac sets := rewrite ?map_map; cbn [wn_article set_part set_chapter set_section set_subsection set_division wn_new].
Lemma division_list : forall t, map wn_article (article_list_from_division t) = division_articles t.
Proof. intros t. unfold article_list_from_division, division_articles. rewrite map_map. cbn. apply map_id. Qed.
Lemma flat_map_list : forall C (f : C -> list WithNumberArticle) (g : C -> list (Knot KArticle)) l,
  (forall c, map wn_article (f c) = g c) -> map wn_article (flat_map f l) = flat_map g l.
Proof. intros C f g l H. induction l as [|c l IH]; cbn; [reflexivity|]. rewrite map_app, IH, H. reflexivity. Qed.
Lemma subsection_list : forall t, map wn_article (article_list_from_subsection t) = subsection_articles t.
Proof. intros t. apply flat_map_list. intros [a|d]; [reflexivity|]. rewrite map_map. apply division_list. Qed.
Lemma section_list : forall t, map wn_article (article_list_from_section t) = section_articles t.
Proof.
  intros t. apply flat_map_list. intros [a|d|d]; [reflexivity| |]; rewrite map_map; [apply subsection_list|apply division_list].
Qed.
Lemma chapter_list : forall t, map wn_article (article_list_from_chapter t) = chapter_articles t.
Proof. intros t. apply flat_map_list. intros [a|d]; [reflexivity|]. rewrite map_map. apply section_list. Qed.
Lemma part_list : forall t, map wn_article (article_list_from_part t) = part_articles t.
Proof. intros t. apply flat_map_list. intros [a|d]; [reflexivity|]. rewrite map_map. apply chapter_list. Qed.

Lemma main_with_numbers : forall m, fst (with_number_article_list_from_main_provision m) =
  flat_map (fun c => match c with
    | MC_Article t => [wn_new t] | MC_Part t => article_list_from_part t | MC_Chapter t => article_list_from_chapter t
    | MC_Section t => article_list_from_section t | MC_Paragraph _ => [] end) (main_children (un KMain m)).
Proof.
  intros m. unfold with_number_article_list_from_main_provision. rewrite list_loop_spec. cbn [fst app].
  apply flat_map_ext. intros []; reflexivity.
Qed.
Theorem main_list : forall m, fst (article_list_from_main_provision m) = main_articles m.
Proof.
  intros m. unfold article_list_from_main_provision.
  destruct (with_number_article_list_from_main_provision m) as [v pv] eqn:E. cbn [fst].
  apply (f_equal fst) in E. cbn [fst] in E. rewrite <- E, main_with_numbers. unfold main_articles.
  apply flat_map_list. intros []; try reflexivity; [apply part_list|apply chapter_list|apply section_list].
Qed.
Lemma suppl_with_numbers : forall m, fst (with_number_article_list_from_suppl_provision m) =
  flat_map (fun c => match c with SP_Article t => [wn_new t] | SP_Chapter t => article_list_from_chapter t | _ => [] end)
    (sp_children (un KSuppl m)).
Proof.
  intros m. unfold with_number_article_list_from_suppl_provision. rewrite list_loop_spec. cbn [fst app].
  apply flat_map_ext. intros []; reflexivity.
Qed.
Theorem suppl_list : forall s, fst (article_list_from_suppl_provision s) = suppl_articles s /\
  map wn_article (fst (with_number_article_list_from_suppl_provision s)) = suppl_articles s.
Proof.
  intros s. split.
  - unfold article_list_from_suppl_provision. rewrite list_loop_spec. cbn [fst app]. apply flat_map_ext.
    intros []; try reflexivity. apply chapter_list.
  - rewrite suppl_with_numbers. apply flat_map_list. intros []; try reflexivity. apply chapter_list.
Qed.

(** ** Groups of paragraphs *)
Lemma filter_all : forall A (l : list A), filter (fun _ => true) l = l.
Proof. induction l as [|x l IH]; cbn; [reflexivity|f_equal; exact IH]. Qed.
Theorem main_groups : forall m, woven (@MC_Paragraph Knot) (snd (article_list_from_main_provision m))
  (filter (fun c => negb (main_paragraph c)) (main_children (un KMain m))) (main_children (un KMain m)).
Proof.
  intros m. unfold article_list_from_main_provision.
  destruct (with_number_article_list_from_main_provision m) as [v pv] eqn:E. cbn [snd].
  apply (f_equal snd) in E. cbn [snd] in E. rewrite <- E. clear E.
  eapply (list_loop_woven _ _ _ (@MC_Paragraph Knot) (fun _ => true) main_paragraph); [reflexivity| |].
  - intros []; repeat split.
  - symmetry. apply filter_all.
Qed.
Lemma suppl_groups_gen : forall W (act : SupplContents Knot -> child_action W),
  (forall p, act (SP_Paragraph p) = Add p) -> (forall a, exists l, act (SP_Article a) = Articles l) ->
  (forall a, exists l, act (SP_Chapter a) = Articles l) ->
  (forall a, act (SP_Table a) = Skip) -> (forall a, act (SP_Style a) = Skip) -> (forall a, act (SP_Appdx a) = Skip) ->
  forall cs, woven (@SP_Paragraph Knot) (snd (list_loop act cs [] [] []))
    (filter (fun c => suppl_structure c && negb (suppl_paragraph c)) cs) (filter suppl_structure cs).
Proof.
  intros W act H1 H2 H3 H4 H5 H6 cs.
  apply (list_loop_woven _ _ act (@SP_Paragraph Knot) suppl_structure suppl_paragraph H1); [|reflexivity].
  intros [v|v|v|v|v|v].
  - destruct (H3 v) as [l ->]. split; reflexivity.
  - destruct (H2 v) as [l ->]. split; reflexivity.
  - rewrite H1. repeat split.
  - rewrite H4. reflexivity.
  - rewrite H5. reflexivity.
  - rewrite H6. reflexivity.
Qed.
Theorem suppl_groups : forall s,
  let cs := sp_children (un KSuppl s) in
  let seps := filter (fun c => suppl_structure c && negb (suppl_paragraph c)) cs in
  woven (@SP_Paragraph Knot) (snd (article_list_from_suppl_provision s)) seps (filter suppl_structure cs) /\
  woven (@SP_Paragraph Knot) (snd (with_number_article_list_from_suppl_provision s)) seps (filter suppl_structure cs).
Proof. intros s cs seps. split; apply suppl_groups_gen; intros; try reflexivity; eexists; reflexivity. Qed.

(** ** Numbers noted *)
Definition bump (r : rank) (w : WithNumberArticle) (n : ArticleNumber) : WithNumberArticle :=
  match r with
  | RPart => set_part (Some n) w | RChapter => set_chapter (Some n) w | RSection => set_section (Some n) w
  | RSubsection => set_subsection (Some n) w | RDivision => set_division (Some n) w
  end.
Lemma noted_bump : forall r r' w n, noted (bump r w n) r' = if match r, r' with
  | RPart, RPart | RChapter, RChapter | RSection, RSection | RSubsection, RSubsection | RDivision, RDivision => true
  | _, _ => false end then Some n else noted w r'.
Proof. intros [] []; reflexivity. Qed.
(** One more heading around: the number noted is that of what is below it. *)
Lemma noted_under : forall r m t a w, r <> RDivision -> noted_as (t, a) w -> (forall n, ~ In (r, n) t) ->
  noted_as (under r m (t, a)) (bump r w (hd (art_num (un KArticle a)) (map snd t))).
Proof.
  intros r m t a w Hr [H1 [H2 H3]] Hn. cbn [fst snd] in *. split; [destruct r; exact H1|]. cbn [under fst snd]. split.
  - intros n. rewrite noted_bump. destruct r; try contradiction; rewrite H2; unfold number_at; cbn [In]; (split; [auto|]);
      intros [E|E]; [discriminate|exact E|discriminate|exact E|discriminate|exact E|discriminate|exact E].
  - intros r' n Hr'. rewrite noted_bump.
    assert (S : forall r', r' <> r -> number_below ((r, m) :: t) a r' n <-> number_below t a r' n).
    { intros q Hq. split; intros [x [k [y [E ->]]]].
      - destruct x as [|z x]; cbn [app] in E; injection E as E1 E2; [congruence|]. exists x, k, y. auto.
      - exists ((r, m) :: x), k, y. subst t. auto. }
    assert (T : number_below ((r, m) :: t) a r n <-> Some (hd (art_num (un KArticle a)) (map snd t)) = Some n).
    { split.
      - intros [x [k [y [E ->]]]]. destruct x as [|z x]; cbn [app] in E; injection E as E1 E2; [subst; reflexivity|].
        exfalso. apply (Hn k). rewrite E2. apply in_or_app. right. left. reflexivity.
      - intros E. injection E as <-. exists [], m, t. auto. }
    destruct r, r'; try contradiction; try (rewrite T; tauto); rewrite S by discriminate; apply H3; discriminate.
Qed.
Lemma noted_new : forall a, noted_as ([], a) (wn_new a).
Proof.
  intros a. split; [reflexivity|]. split; [intros n; split; [discriminate|intros []]|].
  intros r n Hr. split; [destruct r; discriminate|]. intros [x [k [y [E _]]]]. cbn in E. destruct x; discriminate.
Qed.
Lemma forall2_map_both : forall A B A' B' (P : A -> B -> Prop) (Q : A' -> B' -> Prop) f g l m,
  (forall a b, In a l -> P a b -> Q (f a) (g b)) -> Forall2 P l m -> Forall2 Q (map f l) (map g m).
Proof.
  intros A B A' B' P Q f g l m H F. induction F as [|a b l m Hab F IH]; cbn [map]; constructor.
  - apply H; [left; reflexivity|exact Hab].
  - apply IH. intros. apply H; [right; assumption|assumption].
Qed.
Lemma division_noted : forall t, Forall2 noted_as (division_trails t) (article_list_from_division t).
Proof.
  intros t. unfold division_trails, article_list_from_division. induction (hd_children (un KDivision t)) as [|a l IH];
    cbn [map]; constructor; [|exact IH]. split; [reflexivity|]. cbn [under fst snd]. split.
  - intros n. cbn. split; [intros E; injection E as <-; auto|intros [E|[]]; injection E as <-; reflexivity].
  - intros r n Hr. split; [destruct r; try contradiction; discriminate|]. intros [x [k [y [E _]]]].
    destruct x as [|z x]; cbn [app] in E; injection E as E1 E2; [congruence|]. destruct x; discriminate.
Qed.
(** The ranks below a heading. *)
Definition ranks_in (rs : list rank) (t : trail) : Prop := Forall (fun x => In (fst x) rs) t.
Lemma ranks_not : forall rs t r n, ranks_in rs t -> ~ In r rs -> ~ In (r, n) t.
Proof. intros rs t r n H Hr Hi. apply Hr. exact (proj1 (Forall_forall _ _) H _ Hi). Qed.
Lemma ranks_under : forall rs r n (l : list (trail * Knot KArticle)), Forall (fun x => ranks_in rs (fst x)) l ->
  Forall (fun x => ranks_in (r :: rs) (fst x)) (map (under r n) l).
Proof.
  intros rs r n l H. apply Forall_map. eapply Forall_impl; [|exact H]. intros [t a] Ht. constructor; [left; reflexivity|].
  eapply Forall_impl; [|exact Ht]. intros x Hx. right. exact Hx.
Qed.
Lemma ranks_flat : forall C rs (f : C -> list (trail * Knot KArticle)) l, (forall c, Forall (fun x => ranks_in rs (fst x)) (f c)) ->
  Forall (fun x => ranks_in rs (fst x)) (flat_map f l).
Proof. intros C rs f l H. induction l as [|c l IH]; cbn; [constructor|]. apply Forall_app. auto. Qed.
Lemma ranks_weaken : forall rs rs' (l : list (trail * Knot KArticle)), incl rs rs' -> Forall (fun x => ranks_in rs (fst x)) l ->
  Forall (fun x => ranks_in rs' (fst x)) l.
Proof. intros rs rs' l H. apply Forall_impl. intros x. apply Forall_impl. intros y Hy. apply H, Hy. Qed.
Lemma ranks_one : forall rs a, Forall (fun x : trail * Knot KArticle => ranks_in rs (fst x)) [([], a)].
Proof. intros. repeat constructor. Qed.
Ltac rw := eapply ranks_weaken; [|eassumption]; intros ? ?; cbn in *; tauto.
Lemma division_ranks : forall t, Forall (fun x => ranks_in [RDivision] (fst x)) (division_trails t).
Proof. intros t. apply Forall_map, Forall_forall. intros a _. repeat constructor. Qed.
Lemma subsection_ranks : forall t, Forall (fun x => ranks_in [RSubsection; RDivision] (fst x)) (subsection_trails t).
Proof. intros t. apply ranks_under, ranks_flat. intros [a|d]; [apply ranks_one|apply division_ranks]. Qed.
Lemma section_ranks : forall t, Forall (fun x => ranks_in [RSection; RSubsection; RDivision] (fst x)) (section_trails t).
Proof.
  intros t. apply ranks_under, ranks_flat. intros [a|d|d]; [apply ranks_one|apply subsection_ranks|].
  apply (ranks_weaken [RDivision]); [intros ? ?; cbn in *; tauto|apply division_ranks].
Qed.
Lemma chapter_ranks : forall t, Forall (fun x => ranks_in [RChapter; RSection; RSubsection; RDivision] (fst x)) (chapter_trails t).
Proof. intros t. apply ranks_under, ranks_flat. intros [a|d]; [apply ranks_one|apply section_ranks]. Qed.
(** A group of articles below one heading. *)
Lemma noted_group : forall r rs m n set l ws, r <> RDivision -> ~ In r rs -> (forall w, set w = bump r w n) ->
  Forall (fun x => ranks_in rs (fst x)) l ->
  (forall x, In x l -> hd (art_num (un KArticle (snd x))) (map snd (fst x)) = n) ->
  Forall2 noted_as l ws -> Forall2 noted_as (map (under r m) l) (map set ws).
Proof.
  intros r rs m n set l ws Hr Hrs Hset Hl Hn F. eapply forall2_map_both; [|exact F].
  intros [t a] w Hi Hw. rewrite Hset. rewrite <- (Hn (t, a) Hi). cbn [fst snd].
  apply noted_under; [exact Hr|exact Hw|]. intros k. eapply ranks_not; [|exact Hrs].
  exact (proj1 (Forall_forall _ _) Hl _ Hi).
Qed.
Lemma heads_under : forall r n l x, In x (map (under r n) l) -> hd (art_num (un KArticle (snd x))) (map snd (fst x)) = n.
Proof. intros r n l x H. apply in_map_iff in H as [[t a] [<- _]]. reflexivity. Qed.
Lemma noted_children : forall C r m (f : C -> list (trail * Knot KArticle)) (g : C -> list WithNumberArticle) l,
  (forall c, Forall2 noted_as (map (under r m) (f c)) (g c)) ->
  Forall2 noted_as (map (under r m) (flat_map f l)) (flat_map g l).
Proof.
  intros C r m f g l H. induction l as [|c l IH]; cbn; [constructor|]. rewrite map_app. apply Forall2_app; auto.
Qed.
Lemma noted_article : forall r m a set n, r <> RDivision -> (forall w, set w = bump r w n) -> n = art_num (un KArticle a) ->
  Forall2 noted_as (map (under r m) [([], a)]) [set (wn_new a)].
Proof.
  intros r m a set n Hr Hs ->. constructor; [|constructor]. rewrite Hs.
  apply (noted_under r m [] a (wn_new a) Hr (noted_new a)). intros k [].
Qed.
Ltac grp l := eapply noted_group with (rs := l);
  [discriminate|cbn; intuition discriminate|reflexivity|idtac|idtac|idtac].
Lemma division_heads : forall t x, In x (division_trails t) -> hd (art_num (un KArticle (snd x))) (map snd (fst x)) = hd_num (un KDivision t).
Proof. intros t x H. apply in_map_iff in H as [a [<- _]]. reflexivity. Qed.
Lemma subsection_noted : forall t, Forall2 noted_as (subsection_trails t) (article_list_from_subsection t).
Proof.
  intros t. apply noted_children. intros [a|d]; [eapply noted_article; [discriminate|reflexivity|reflexivity]|].
  grp [RDivision]; [apply division_ranks|apply division_heads|apply division_noted].
Qed.
Lemma section_noted : forall t, Forall2 noted_as (section_trails t) (article_list_from_section t).
Proof.
  intros t. apply noted_children. intros [a|d|d]; [eapply noted_article; [discriminate|reflexivity|reflexivity]| |].
  - grp [RSubsection; RDivision]; [apply subsection_ranks|apply heads_under|apply subsection_noted].
  - grp [RDivision]; [apply division_ranks|apply division_heads|apply division_noted].
Qed.
Lemma chapter_noted : forall t, Forall2 noted_as (chapter_trails t) (article_list_from_chapter t).
Proof.
  intros t. apply noted_children. intros [a|d]; [eapply noted_article; [discriminate|reflexivity|reflexivity]|].
  grp [RSection; RSubsection; RDivision]; [apply section_ranks|apply heads_under|apply section_noted].
Qed.
Lemma part_noted : forall t, Forall2 noted_as (part_trails t) (article_list_from_part t).
Proof.
  intros t. apply noted_children. intros [a|d]; [eapply noted_article; [discriminate|reflexivity|reflexivity]|].
  grp [RChapter; RSection; RSubsection; RDivision]; [apply chapter_ranks|apply heads_under|apply chapter_noted].
Qed.
Lemma forall2_flat_same : forall A B C (P : B -> C -> Prop) (f : A -> list B) (g : A -> list C) l, (forall x, Forall2 P (f x) (g x)) ->
  Forall2 P (flat_map f l) (flat_map g l).
Proof. intros A B C P f g l H. induction l as [|x l IH]; cbn; [constructor|]. apply Forall2_app; auto. Qed.
Theorem main_noted : forall m, Forall2 noted_as (main_trails m) (fst (with_number_article_list_from_main_provision m)).
Proof.
  intros m. rewrite main_with_numbers. apply forall2_flat_same. intros [d|d|d|a|p];
    [apply part_noted|apply chapter_noted|apply section_noted|constructor; [apply noted_new|constructor]|constructor].
Qed.
Theorem suppl_noted : forall m, Forall2 noted_as (suppl_trails m) (fst (with_number_article_list_from_suppl_provision m)).
Proof.
  intros m. rewrite suppl_with_numbers. apply forall2_flat_same.
  intros [d|a|p|p|p|p]; [apply chapter_noted|constructor; [apply noted_new|constructor]|constructor..].
Qed.
(** The trails are those of the articles listed. *)
Lemma trails_flat : forall C (f : C -> list (trail * Knot KArticle)) (g : C -> list (Knot KArticle)) l,
  (forall c, map snd (f c) = g c) -> map snd (flat_map f l) = flat_map g l.
Proof. intros C f g l H. induction l as [|c l IH]; cbn; [reflexivity|]. rewrite map_app, IH, H. reflexivity. Qed.
Lemma trails_under : forall r n (l : list (trail * Knot KArticle)), map snd (map (under r n) l) = map snd l.
Proof. intros. rewrite map_map. reflexivity. Qed.
Theorem main_trails_articles : forall m, map snd (main_trails m) = main_articles m.
Proof.
  assert (D : forall d, map snd (division_trails d) = division_articles d)
    by (intros d; unfold division_trails; rewrite map_map; apply map_id).
  assert (U : forall d, map snd (subsection_trails d) = subsection_articles d).
  { intros d. unfold subsection_trails. rewrite trails_under. apply trails_flat. intros [a|e]; [reflexivity|apply D]. }
  assert (S : forall d, map snd (section_trails d) = section_articles d).
  { intros d. unfold section_trails. rewrite trails_under. apply trails_flat. intros [a|e|e]; [reflexivity|apply U|apply D]. }
  assert (C : forall d, map snd (chapter_trails d) = chapter_articles d).
  { intros d. unfold chapter_trails. rewrite trails_under. apply trails_flat. intros [a|e]; [reflexivity|apply S]. }
  intros m. apply trails_flat. intros [d|d|d|a|p]; try reflexivity; [|apply C|apply S].
  unfold part_trails. rewrite trails_under. apply trails_flat. intros [a|e]; [reflexivity|apply C].
Qed.

(** ** Texts of paragraphs *)
Lemma flat_map_map_out : forall A B C (f : B -> C) (g : A -> list B) l, map f (flat_map g l) = flat_map (fun x => map f (g x)) l.
Proof. intros A B C f g l. induction l as [|x l IH]; cbn; [reflexivity|]. rewrite map_app, IH. reflexivity. Qed.
Lemma items_of_eq : forall l x, items_of (KItem l) x =
  ([it_num (un (KItem l) x)], l, it_sentence (un (KItem l) x)) ::
  map (fun '(p, l', s) => (it_num (un (KItem l) x) :: p, l', s)) (flat_map (items_of (sub_item l)) (it_children (un (KItem l) x))).
Proof. intros l x. rewrite <- (mk_un (KItem l) x) at 1. reflexivity. Qed.
Lemma item_str_eq : forall l s, l <> Sub6 -> item_str table_to_str s = item_text_of l s.
Proof.
  intros l s H. destruct s as [ss|cs|t]; cbn [item_str].
  - destruct l; reflexivity.
  - rewrite <- flat_map_map_out. destruct l; reflexivity.
  - destruct l; try reflexivity. contradiction.
Qed.
Lemma item_str_eq6 : forall s, item_str (fun _ => "") s = item_text_of Sub6 s.
Proof. intros [ss|cs|t]; cbn [item_str]; try reflexivity. rewrite <- flat_map_map_out. reflexivity. Qed.
(** The entries of items with a path before them. *)
Definition entries_at pn (items : list (option ArticleNumber)) :=
  map (fun '(q, l, s) => (mkTI pn (items ++ q), item_text_of l s)).
Lemma level_entries : forall l table sub pn, (forall s, item_str table s = item_text_of l s) ->
  (forall items ch, sub items ch = entries_at pn items (flat_map (items_of (sub_item l)) ch)) ->
  forall items ch, text_list_level l table sub pn items ch = entries_at pn items (flat_map (items_of (KItem l)) ch).
Proof.
  intros l table sub pn Ht Hs items ch. unfold text_list_level, entries_at. rewrite flat_map_map_out. apply flat_map_ext.
  intros x. rewrite items_of_eq. cbn [map]. rewrite Ht, Hs. f_equal. unfold entries_at. rewrite map_map. apply map_ext.
  intros [[q l'] s]. rewrite <- app_assoc. reflexivity.
Qed.
Lemma no_void : forall (f : Knot KVoid -> list (list (option ArticleNumber) * lvl * SentenceOrColumnOrTable Knot)) l, flat_map f l = [].
Proof. intros f [|x l]; [reflexivity|]. destruct (un KVoid x). Qed.
Theorem text_entries : forall ps, text_info_list_from_paragraph ps = flat_map paragraph_entries ps.
Proof.
  intros ps. apply flat_map_ext. intros x. unfold paragraph_entries. f_equal. set (p := un KParagraph x).
  change (map (fun '(q, l, s) => (mkTI (par_num p) q, item_text_of l s))) with (entries_at (par_num p) []).
  assert (N : forall l s, l <> Sub6 -> item_str table_to_str s = item_text_of l s) by exact item_str_eq.
  apply level_entries; [intros s; apply N; discriminate|]. apply level_entries; [intros s; apply N; discriminate|].
  apply level_entries; [intros s; apply N; discriminate|]. apply level_entries; [intros s; apply N; discriminate|].
  apply level_entries; [intros s; apply N; discriminate|]. apply level_entries; [intros s; apply N; discriminate|].
  apply level_entries; [exact item_str_eq6|]. apply level_entries; [intros s; apply N; discriminate|].
  apply level_entries; [intros s; apply N; discriminate|]. apply level_entries; [intros s; apply N; discriminate|].
  apply level_entries; [intros s; apply N; discriminate|].
  intros items ch. unfold entries_at. cbn [sub_item]. rewrite no_void. reflexivity.
Qed.
Lemma item_in_inv : forall k x p l s, item_in k x p l s ->
  match k as k return Knot k -> Prop with
  | KItem l0 => fun x => let f := un (KItem l0) x in
      (p = [it_num f] /\ l = l0 /\ s = it_sentence f) \/
      exists c q, In c (it_children f) /\ p = it_num f :: q /\ item_in (sub_item l0) c q l s
  | _ => fun _ => False
  end x.
Proof.
  intros k x p l s H. destruct H as [l f|l f c p l' s Hc H].
  - left. repeat split.
  - right. exists c, p. repeat split; assumption.
Qed.
Lemma items_of_in : forall k (x : Knot k) p l s, In (p, l, s) (items_of k x) <-> item_in k x p l s.
Proof.
  intros k x. pattern k, x. apply knot_ind. clear k x. intros k f IH p l s. split.
  - destruct k; try (destruct f; fail); try (intros []; fail). rewrite items_of_eq, un_mk. intros [E|H].
    + injection E as <- <- <-. apply II_self.
    + apply in_map_iff in H as [[[q l'] s'] [E H]]. injection E as <- <- <-. apply in_flat_map in H as [c [Hc H]].
      apply II_below with (c := c); [exact Hc|]. apply IH; [|exact H].
      cbn [kids collect]. unfold kids. cbn [collect]. apply in_or_app. right. apply in_or_app. right. apply in_or_app. left. apply in_map, Hc.
  - intros H. apply item_in_inv in H. destruct k; try contradiction. cbn zeta in H. rewrite un_mk in H.
    rewrite items_of_eq, un_mk. destruct H as [[-> [-> ->]]|[c [q [Hc [-> H]]]]]; [left; reflexivity|]. right.
    apply in_map_iff. exists (q, l, s). split; [reflexivity|]. apply in_flat_map. exists c. split; [exact Hc|].
    apply IH; [|exact H]. unfold kids. cbn [collect]. apply in_or_app. right. apply in_or_app. right. apply in_or_app. left. apply in_map, Hc.
Qed.
Theorem text_entry_iff : forall ps i s, In (i, s) (text_info_list_from_paragraph ps) <->
  exists x, In x ps /\ ti_paragraph i = par_num (un KParagraph x) /\
    ((ti_items i = [] /\ s = concat_strings (map sentence_str (par_sentence (un KParagraph x)))) \/
     exists c l b, In c (par_children (un KParagraph x)) /\ item_in (KItem Item0) c (ti_items i) l b /\ s = item_text_of l b).
Proof.
  intros ps i s. rewrite text_entries, in_flat_map. split.
  - intros [x [Hx [E|H]]]; exists x; (split; [exact Hx|]).
    + injection E as <- <-. split; [reflexivity|]. left. split; reflexivity.
    + apply in_map_iff in H as [[[q l] b] [E H]]. injection E as <- <-. split; [reflexivity|]. right.
      apply in_flat_map in H as [c [Hc H]]. exists c, l, b. split; [exact Hc|]. split; [apply items_of_in, H|reflexivity].
  - intros [x [Hx [E H]]]. exists x. split; [exact Hx|]. destruct i as [pn its]. cbn [ti_paragraph ti_items] in *. subst pn.
    destruct H as [[-> ->]|[c [l [b [Hc [H ->]]]]]]; [left; reflexivity|]. right. apply in_map_iff. exists (its, l, b).
    split; [reflexivity|]. apply in_flat_map. exists c. split; [exact Hc|apply items_of_in, H].
Qed.

(** ** Table of contents *)
Lemma toc_loop_each : forall C (f : C -> Toc -> Toc * list Toc) (g : list C -> C -> list Toc) (st : list C -> Toc -> Prop),
  (forall before c toc, st before toc -> snd (f c toc) = g before c /\ st (before ++ [c]) (fst (f c toc))) ->
  forall l before toc, st before toc -> snd (toc_loop f l toc) = each g before l /\ st (before ++ l) (fst (toc_loop f l toc)).
Proof.
  intros C f g st H. induction l as [|c l IH]; intros before toc Hs; cbn [toc_loop each].
  - rewrite app_nil_r. split; [reflexivity|exact Hs].
  - destruct (H before c toc Hs) as [H1 H2]. destruct (f c toc) as [t1 l1]. cbn [fst snd] in *.
    destruct (IH _ _ H2) as [H3 H4]. destruct (toc_loop f l t1) as [t2 l2]. cbn [fst snd] in *. subst.
    rewrite <- app_assoc in H4. split; [reflexivity|exact H4].
Qed.
(** All fields but the title. *)
Definition toc_is (p c s u d : option ArticleNumber) (t : Toc) : Prop :=
  toc_part t = p /\ toc_chapter t = c /\ toc_section t = s /\ toc_subsection t = u /\ toc_division t = d /\ toc_article t = None.
Lemma toc_is_eq : forall p c s u d t, toc_is p c s u d t -> t = mkToc p c s u d None (toc_title t).
Proof. intros p c s u d [] (<- & <- & <- & <- & <- & H). cbn in *. rewrite H. reflexivity. Qed.
Lemma article_step_is : forall p c s u d a t, toc_is p c s u d t -> toc_article_step a t = (article_toc p c s u a, [article_toc p c s u a]).
Proof. intros p c s u d a t H. rewrite (toc_is_eq _ _ _ _ _ _ H). reflexivity. Qed.
Lemma article_toc_is : forall p c s u a, toc_is p c s u (Some (article_no a)) (article_toc p c s u a).
Proof. repeat split. Qed.
Lemma last_or_snoc : forall l n d, last_or (l ++ [n]) d = Some n.
Proof. intros. unfold last_or. rewrite rev_app_distr. reflexivity. Qed.
Lemma last_or_app : forall l m d, last_or (l ++ m) d = last_or m (last_or l d).
Proof.
  intros l m d. unfold last_or at 1 2. rewrite rev_app_distr. destruct (rev m) as [|n r]; reflexivity.
Qed.
Lemma each_map : forall C T (f : C -> T) l before, each (fun _ x => [f x]) before l = map f l.
Proof. induction l as [|x l IH]; intros before; cbn; [reflexivity|]. f_equal. apply IH. Qed.
Lemma each_flat : forall C T (f : C -> list T) l before, each (fun _ x => f x) before l = flat_map f l.
Proof. induction l as [|x l IH]; intros before; cbn; [reflexivity|]. f_equal. apply IH. Qed.

Lemma division_toc_eq : forall v p c s u d t, toc_is p c s u d t -> snd (toc_list_from_division v t) = division_toc p c s u v.
Proof.
  intros v p c s u d t H. rewrite (toc_is_eq _ _ _ _ _ _ H). unfold toc_list_from_division, division_toc.
  unfold toc_set_title, toc_set_division. cbn [toc_part toc_chapter toc_section toc_subsection toc_article toc_title toc_division].
  set (t0 := mkToc p c s u (Some (hd_num (un KDivision v))) None (Some _)). set (h := un KDivision v) in *.
  destruct (toc_loop_each _ toc_article_step (fun _ a => [article_toc p c s u a]) (fun _ t => exists d, toc_is p c s u d t)) with
    (l := hd_children h) (before := @nil (Knot KArticle)) (toc := t0) as [E _].
  - intros _ a t1 [d1 Ht]. rewrite (article_step_is _ _ _ _ _ a _ Ht). split; [reflexivity|]. eexists. apply article_toc_is.
  - exists (Some (hd_num h)). repeat split.
  - destruct (toc_loop _ _ _) as [t1 l1]. cbn [snd] in *. subst l1. rewrite each_map. reflexivity.
Qed.
Lemma subsection_toc_eq : forall v p c s d t, toc_is p c s None d t -> snd (toc_list_from_subsection v t) = subsection_toc p c s d v.
Proof.
  intros v p c s d t H. rewrite (toc_is_eq _ _ _ _ _ _ H). unfold toc_list_from_subsection, subsection_toc.
  unfold toc_set_title, toc_set_subsection. cbn [toc_part toc_chapter toc_section toc_subsection toc_article toc_title toc_division].
  set (t0 := mkToc p c s (Some (hd_num (un KSubsection v))) d None (Some _)). set (h := un KSubsection v) in *.
  match goal with |- context [toc_loop ?f _ _] =>
    destruct (toc_loop_each _ f (fun _ x => match x with
      | SuC_Article a => [article_toc p c s (Some (hd_num h)) a] | SuC_Division e => division_toc p c s (Some (hd_num h)) e end)
      (fun _ t => exists d, toc_is p c s (Some (hd_num h)) d t)) with
      (l := hd_children h) (before := @nil (SubsectionContents Knot)) (toc := t0) as [E _] end.
  - intros _ [a|e] t1 [d1 Ht].
    + rewrite (article_step_is _ _ _ _ _ a _ Ht). split; [reflexivity|]. eexists. apply article_toc_is.
    + unfold on_clone. cbn [fst snd]. split; [exact (division_toc_eq _ _ _ _ _ _ _ Ht)|eauto].
  - exists d. repeat split.
  - destruct (toc_loop _ _ _) as [t1 l1]. cbn [snd] in *. subst l1. rewrite each_flat. reflexivity.
Qed.
Lemma section_toc_eq : forall v p c d t, toc_is p c None None d t -> snd (toc_list_from_section v t) = section_toc p c d v.
Proof.
  intros v p c d t H. rewrite (toc_is_eq _ _ _ _ _ _ H). unfold toc_list_from_section, section_toc.
  unfold toc_set_title, toc_set_section. cbn [toc_part toc_chapter toc_section toc_subsection toc_article toc_title toc_division].
  set (t0 := mkToc p c (Some (hd_num (un KSection v))) None d None (Some _)). set (h := un KSection v) in *.
  match goal with |- context [each ?g _ _] => match goal with |- context [toc_loop ?f _ _] =>
    destruct (toc_loop_each _ f g
      (fun before t => toc_is p c (Some (hd_num h)) None
         (last_or (flat_map (fun y => match y with SeC_Article a => [article_no a] | _ => [] end) before) d) t)) with
      (l := hd_children h) (before := @nil (SectionContents Knot)) (toc := t0) as [E _] end end.
  - intros before [a|e|e] t1 Ht; rewrite flat_map_app; cbn [flat_map]; rewrite ?app_nil_r.
    + rewrite (article_step_is _ _ _ _ _ a _ Ht), last_or_snoc. split; [reflexivity|]. apply article_toc_is.
    + unfold on_clone. cbn [fst snd]. split; [exact (subsection_toc_eq _ _ _ _ _ _ Ht)|exact Ht].
    + unfold on_clone. cbn [fst snd]. split; [exact (division_toc_eq _ _ _ _ _ _ _ Ht)|exact Ht].
  - repeat split.
  - destruct (toc_loop _ _ _) as [t1 l1]. cbn [snd] in *. subst l1. reflexivity.
Qed.
Lemma chapter_toc_eq : forall v p c d t, toc_is p c None None d t ->
  snd (toc_list_from_chapter v t) = chapter_toc p d v /\
  toc_is p (Some (hd_num (un KChapter v))) None None (last_or (chapter_own v) d) (fst (toc_list_from_chapter v t)).
Proof.
  intros v p c d t H. rewrite (toc_is_eq _ _ _ _ _ _ H). unfold toc_list_from_chapter, chapter_toc, chapter_own.
  unfold toc_set_title, toc_set_chapter. cbn [toc_part toc_chapter toc_section toc_subsection toc_article toc_title toc_division].
  set (t0 := mkToc p (Some (hd_num (un KChapter v))) None None d None (Some _)). set (h := un KChapter v) in *.
  match goal with |- context [each ?g _ _] => match goal with |- context [toc_loop ?f _ _] =>
    destruct (toc_loop_each _ f g
      (fun before t => toc_is p (Some (hd_num h)) None None
         (last_or (flat_map (fun y => match y with ChC_Article a => [article_no a] | _ => [] end) before) d) t)) with
      (l := hd_children h) (before := @nil (ChapterContents Knot)) (toc := t0) as [E F] end end.
  - intros before [a|e] t1 Ht; rewrite flat_map_app; cbn [flat_map]; rewrite ?app_nil_r.
    + rewrite (article_step_is _ _ _ _ _ a _ Ht), last_or_snoc. split; [reflexivity|]. apply article_toc_is.
    + unfold on_clone. cbn [fst snd]. split; [exact (section_toc_eq _ _ _ _ _ Ht)|exact Ht].
  - repeat split.
  - destruct (toc_loop _ _ _) as [t1 l1]. cbn [fst snd app] in *. subst l1. split; [reflexivity|exact F].
Qed.
Lemma part_toc_eq : forall v, toc_list_from_part v = part_toc v.
Proof.
  intros v. unfold toc_list_from_part, part_toc, toc_default.
  unfold toc_set_title, toc_set_part. cbn [toc_part toc_chapter toc_section toc_subsection toc_article toc_title toc_division].
  set (t0 := mkToc (Some (hd_num (un KPart v))) None None None None None (Some _)). set (h := un KPart v) in *.
  match goal with |- context [each ?g _ _] => match goal with |- context [toc_loop ?f _ _] =>
    destruct (toc_loop_each _ f g
      (fun before t => toc_is (Some (hd_num h))
         (last_or (flat_map (fun y => match y with PC_Chapter e => [hd_num (un KChapter e)] | _ => [] end) before) None) None None
         (last_or (flat_map (fun y => match y with PC_Article a => [article_no a] | PC_Chapter e => chapter_own e end) before) None) t)) with
      (l := hd_children h) (before := @nil (PartContents Knot)) (toc := t0) as [E F] end end.
  - intros before [a|e] t1 Ht; rewrite !flat_map_app; cbn [flat_map]; rewrite ?app_nil_r.
    + rewrite (article_step_is _ _ _ _ _ a _ Ht), last_or_snoc. split; [reflexivity|]. apply article_toc_is.
    + rewrite last_or_snoc, last_or_app. exact (chapter_toc_eq _ _ _ _ _ Ht).
  - repeat split.
  - destruct (toc_loop _ _ _) as [t1 l1]. cbn [fst snd app] in *. subst l1. reflexivity.
Qed.
Theorem main_toc_eq : forall m, toc_list_from_main_provision m = main_toc m.
Proof.
  intros m. apply flat_map_ext. intros [d|d|d|a|p]; try reflexivity.
  - apply part_toc_eq.
  - apply (chapter_toc_eq d None None None). repeat split.
  - apply (section_toc_eq d None None None). repeat split.
Qed.
Theorem suppl_toc_eq : forall m, toc_list_from_suppl_provision m = suppl_toc m.
Proof. intros m. apply flat_map_ext. intros [d|d|d|a|p|q]; try reflexivity. apply (chapter_toc_eq d None None None). repeat split. Qed.

(** What the entries are. *)
Definition shift (pre : trail) (e : entry) : entry := mkEntry (pre ++ en_trail e) (en_article e) (en_title e).
Lemma shift_under : forall pre r n e, shift pre (en_under r n e) = shift (pre ++ [(r, n)]) e.
Proof. intros. unfold shift, en_under. cbn. rewrite <- app_assoc. reflexivity. Qed.
Definition says_at (pre : trail) (e : entry) (t : Toc) : Prop := toc_says (shift pre e) t.
Record ctx_ok (pre : trail) (p c s u : option ArticleNumber) : Prop := {
  ok_p : listed_number p pre RPart;
  ok_s : listed_number s pre RSection;
  ok_u : listed_number u pre RSubsection;
  ok_c : forall n, number_at pre RChapter n -> c = Some n;
  ok_d : forall n, ~ number_at pre RDivision n
}.
Lemma number_at_snoc : forall pre r m r' n, number_at (pre ++ [(r, m)]) r' n <-> number_at pre r' n \/ (r = r' /\ m = n).
Proof.
  intros. unfold number_at. rewrite in_app_iff. cbn [In]. split.
  - intros [H|[H|[]]]; [auto|]. injection H as -> ->. auto.
  - intros [H|[-> ->]]; auto.
Qed.
Lemma listed_other : forall o pre r m r', r <> r' -> listed_number o pre r' -> listed_number o (pre ++ [(r, m)]) r'.
Proof. intros o pre r m r' H L n. rewrite number_at_snoc, (L n). intuition. Qed.
Lemma listed_own : forall pre r m, listed_number None pre r -> listed_number (Some m) (pre ++ [(r, m)]) r.
Proof.
  intros pre r m L n. rewrite number_at_snoc, <- (L n). split; [intros E; injection E as <-; auto|].
  intros [E|[_ <-]]; [discriminate|reflexivity].
Qed.
Lemma says_article : forall pre p c s u a, ctx_ok pre p c s u -> says_at pre (article_entry a) (article_toc p c s u a).
Proof.
  intros pre p c s u a [Hp Hs Hu Hc Hd]. unfold says_at, shift, article_entry. cbn. rewrite app_nil_r.
  split; [reflexivity|]. split; [reflexivity|]. split; [exact Hp|]. split; [exact Hs|]. split; [exact Hu|]. split; [exact Hc|].
  split; [intros n E; exact E|intros n E; discriminate].
Qed.
(** An entry of a heading that is no division. *)
Lemma says_heading : forall pre p c s u d x, ctx_ok pre p c s u -> says_at pre (mkEntry [] None x) (mkToc p c s u d None (Some x)).
Proof.
  intros pre p c s u d x [Hp Hs Hu Hc Hd]. unfold says_at, shift. cbn. rewrite app_nil_r.
  split; [reflexivity|]. split; [reflexivity|]. split; [exact Hp|]. split; [exact Hs|]. split; [exact Hu|]. split; [exact Hc|].
  split; [discriminate|]. intros n _ Hn. destruct (Hd n Hn).
Qed.
Lemma says_under : forall pre r n l ts, Forall2 (says_at (pre ++ [(r, n)])) l ts -> Forall2 (says_at pre) (map (en_under r n) l) ts.
Proof.
  intros pre r n l ts F. induction F as [|e t l ts H F IH]; cbn [map]; constructor; [|exact IH].
  unfold says_at in *. rewrite shift_under. exact H.
Qed.
Lemma says_each : forall C pre (f : C -> list entry) (g : list C -> C -> list Toc) l before,
  (forall b x, Forall2 (says_at pre) (f x) (g b x)) -> Forall2 (says_at pre) (flat_map f l) (each g before l).
Proof.
  intros C pre f g l before H. revert before. induction l as [|x l IH]; intros before; cbn; [constructor|]. apply Forall2_app; auto.
Qed.
Lemma says_one : forall pre e t, says_at pre e t -> Forall2 (says_at pre) [e] [t].
Proof. intros. constructor; [assumption|constructor]. Qed.
Lemma ctx_sub : forall pre p c s m, ctx_ok pre p c s None -> ctx_ok (pre ++ [(RSubsection, m)]) p c s (Some m).
Proof.
  intros pre p c s m [Hp Hs Hu Hc Hd]. split; try (apply listed_other; [discriminate|assumption]); [apply listed_own, Hu| |].
  - intros n Hn. apply number_at_snoc in Hn as [Hn|[E _]]; [auto|discriminate].
  - intros n Hn. apply number_at_snoc in Hn as [Hn|[E _]]; [exact (Hd n Hn)|discriminate].
Qed.
Lemma ctx_sec : forall pre p c m, ctx_ok pre p c None None -> ctx_ok (pre ++ [(RSection, m)]) p c (Some m) None.
Proof.
  intros pre p c m [Hp Hs Hu Hc Hd]. split; try (apply listed_other; [discriminate|assumption]); [apply listed_own, Hs| |].
  - intros n Hn. apply number_at_snoc in Hn as [Hn|[E _]]; [auto|discriminate].
  - intros n Hn. apply number_at_snoc in Hn as [Hn|[E _]]; [exact (Hd n Hn)|discriminate].
Qed.
Lemma ctx_cha : forall pre p c m, ctx_ok pre p c None None -> (forall n, ~ number_at pre RChapter n) ->
  ctx_ok (pre ++ [(RChapter, m)]) p (Some m) None None.
Proof.
  intros pre p c m [Hp Hs Hu Hc Hd] N. split; try (apply listed_other; [discriminate|assumption]).
  - intros n Hn. apply number_at_snoc in Hn as [Hn|[_ ->]]; [destruct (N n Hn)|reflexivity].
  - intros n Hn. apply number_at_snoc in Hn as [Hn|[E _]]; [exact (Hd n Hn)|discriminate].
Qed.
Lemma ctx_nil : forall c, ctx_ok [] None c None None.
Proof. intros c. split; try (intros n; split; [discriminate|intros []]); intros n []. Qed.
Lemma ctx_part : forall m c, ctx_ok [(RPart, m)] (Some m) c None None.
Proof.
  intros m c. split.
  - intros n. cbn. split; [intros E; injection E as <-; auto|intros [E|[]]; injection E as <-; reflexivity].
  - intros n. split; [discriminate|intros [E|[]]; discriminate].
  - intros n. split; [discriminate|intros [E|[]]; discriminate].
  - intros n [E|[]]. discriminate.
  - intros n [E|[]]. discriminate.
Qed.
Lemma division_says : forall pre p c s u v, ctx_ok pre p c s u -> Forall2 (says_at pre) (division_entries v) (division_toc p c s u v).
Proof.
  intros pre p c s u v H. unfold division_entries, with_heading, division_toc. apply says_under. constructor.
  - destruct H as [Hp Hs Hu Hc Hd]. unfold says_at, shift. cbn. rewrite app_nil_r.
    assert (O : forall o r, r <> RDivision -> listed_number o pre r -> listed_number o (pre ++ [(RDivision, hd_num (un KDivision v))]) r)
      by (intros o r Hr; apply listed_other; congruence).
    split; [reflexivity|]. split; [reflexivity|]. split; [apply O; [discriminate|exact Hp]|]. split; [apply O; [discriminate|exact Hs]|].
    split; [apply O; [discriminate|exact Hu]|]. split.
    + intros n Hn. apply number_at_snoc in Hn as [Hn|[E _]]; [auto|discriminate].
    + split; [discriminate|]. intros n _ Hn. apply number_at_snoc in Hn as [Hn|[_ ->]]; [destruct (Hd n Hn)|reflexivity].
  - induction (hd_children (un KDivision v)) as [|a l IH]; cbn [map]; constructor; [|exact IH].
    destruct H as [Hp Hs Hu Hc Hd]. unfold says_at, shift, article_entry. cbn. rewrite app_nil_r.
    assert (O : forall o r, r <> RDivision -> listed_number o pre r -> listed_number o (pre ++ [(RDivision, hd_num (un KDivision v))]) r)
      by (intros o r Hr; apply listed_other; congruence).
    split; [reflexivity|]. split; [reflexivity|]. split; [apply O; [discriminate|exact Hp]|]. split; [apply O; [discriminate|exact Hs]|].
    split; [apply O; [discriminate|exact Hu]|]. split.
    + intros n Hn. apply number_at_snoc in Hn as [Hn|[E _]]; [auto|discriminate].
    + split; [intros n E; exact E|discriminate].
Qed.
Lemma subsection_says : forall pre p c s d v, ctx_ok pre p c s None -> Forall2 (says_at pre) (subsection_entries v) (subsection_toc p c s d v).
Proof.
  intros pre p c s d v H. apply says_under. constructor; [apply says_heading, ctx_sub, H|].
  apply forall2_flat_same. intros [a|e]; [apply says_one, says_article, ctx_sub, H|apply division_says, ctx_sub, H].
Qed.
Lemma section_says : forall pre p c d v, ctx_ok pre p c None None -> Forall2 (says_at pre) (section_entries v) (section_toc p c d v).
Proof.
  intros pre p c d v H. apply says_under. constructor; [apply says_heading, ctx_sec, H|].
  apply says_each. intros b [a|e|e]; [apply says_one, says_article, ctx_sec, H|apply subsection_says, ctx_sec, H|apply division_says, ctx_sec, H].
Qed.
Lemma chapter_says : forall pre p c d v, ctx_ok pre p c None None -> (forall n, ~ number_at pre RChapter n) ->
  Forall2 (says_at pre) (chapter_entries v) (chapter_toc p d v).
Proof.
  intros pre p c d v H N. apply says_under. constructor; [eapply says_heading, ctx_cha; eassumption|].
  apply says_each. intros b [a|e]; [eapply says_one, says_article, ctx_cha; eassumption|eapply section_says, ctx_cha; eassumption].
Qed.
Lemma part_says : forall v, Forall2 (says_at []) (part_entries v) (part_toc v).
Proof.
  intros v. apply says_under. constructor; [apply says_heading, ctx_part|].
  apply says_each. intros b [a|e]; [apply says_one, says_article, ctx_part|].
  eapply chapter_says; [exact (ctx_part _ None)|]. intros n [E|[]]. discriminate.
Qed.
Lemma says_at_nil : forall l ts, Forall2 (says_at []) l ts -> Forall2 toc_says l ts.
Proof. intros l ts F. induction F as [|[tr ar ti] t l ts H F IH]; constructor; assumption. Qed.
Theorem main_toc_says : forall m, Forall2 toc_says (main_entries m) (toc_list_from_main_provision m).
Proof.
  intros m. rewrite main_toc_eq. apply says_at_nil, forall2_flat_same. intros [d|d|d|a|p].
  - apply part_says.
  - eapply chapter_says; [apply ctx_nil|]. intros n [].
  - apply section_says, ctx_nil.
  - apply says_one, says_article, ctx_nil.
  - constructor.
  Unshelve. exact None.
Qed.
Theorem suppl_toc_says : forall m, Forall2 toc_says (suppl_entries m) (toc_list_from_suppl_provision m).
Proof.
  intros m. rewrite suppl_toc_eq. apply says_at_nil, forall2_flat_same. intros [d|a|x|x|x|x]; [| |constructor..].
  - eapply chapter_says; [apply (ctx_nil None)|]. intros n [].
  - apply says_one, says_article, ctx_nil.
Qed.

(** ** Texts of sentences and titles *)
Lemma concat_app : forall l m, concat_strings (l ++ m) = (concat_strings l ++ concat_strings m)%string.
Proof.
  unfold concat_strings. induction l as [|x l IH]; intros m; cbn; [reflexivity|]. rewrite IH. clear.
  induction x as [|c x IH]; cbn; [reflexivity|]. f_equal. exact IH.
Qed.
(** A ruby as read has its text in one piece for each text node. *)
Lemma ruby_read : forall e v, parse KRuby e = Ok v -> ruby_str v = direct_text e.
Proof.
  intros e v H. destruct (parse_inv KRuby e v I H) as [g [Hg ->]]. cbn [pstep] in Hg. unfold parse_ruby, with_name in Hg.
  destruct (String.eqb _ _); [|discriminate]. apply bind_ok in Hg as [[t [r x]] [Hs Hg]]. injection Hg as <-.
  unfold ruby_str. cbn [mk ruby_str_k ruby_text].
  cut (forall l (s s' : Text Knot * (string * unit)), run (fun s => at0 (fun t => app t [TE_Text s])) skip
    [("Rt", h_put at1 (fun c => Ok (nodes_text (children c))))] l s = Ok s' ->
    concat_strings (map (te_str (ruby_str_k KRuby)) (fst s')) = (concat_strings (map (te_str (ruby_str_k KRuby)) (fst s)) ++
      concat_strings (map (fun n => match n with NText s => s | _ => "" end) l))%string).
  { intros X. apply X in Hs. exact Hs. }
  clear. induction l as [|[c|t|t] l IH]; intros s s' H; cbn [run] in H; cbn [map].
  - injection H as <-. cbn. rewrite append_nil_r_s. reflexivity.
  - apply bind_ok in H as [u [Hu H]]. apply IH in H. rewrite H. cbn [concat_strings fold_right append]. f_equal. f_equal. f_equal.
    unfold lookup in Hu. cbn [assoc] in Hu. destruct (String.eqb _ _).
    + unfold h_put in Hu. cbn [bind] in Hu. injection Hu as <-. destruct s as [a [b k]]. reflexivity.
    + injection Hu as <-. reflexivity.
  - apply IH in H. rewrite H. destruct s as [a [b k]]. cbn [at0 fst]. rewrite map_app, concat_app. cbn. rewrite append_nil_r_s.
    rewrite append_assoc_s. reflexivity.
  - apply IH in H. rewrite H. reflexivity.
Qed.

(** Reading a list of pieces, each with a text. *)
Lemma run_texts : forall X (g : X -> string) (inj : string -> X) dflt tbl nt,
  (forall s, g (inj s) = s) -> (forall s, nt (NText s) = s) -> (forall s, nt (NOther s) = "") ->
  (forall c u, lookup dflt tbl c = Ok u -> exists xs, (forall s, u s = s ++ xs) /\ concat_strings (map g xs) = nt (NElement c)) ->
  forall l s s', run (fun t s => app s [inj t]) dflt tbl l s = Ok s' ->
    concat_strings (map g s') = (concat_strings (map g s) ++ concat_strings (map nt l))%string.
Proof.
  intros X g inj dflt tbl nt Hi Ht Ho Hu. induction l as [|[c|t|t] l IH]; intros s s' H; cbn [run] in H; cbn [map].
  - injection H as <-. cbn. rewrite append_nil_r_s. reflexivity.
  - apply bind_ok in H as [u [E H]]. apply IH in H. destruct (Hu c u E) as [xs [Hs Hx]]. rewrite H, Hs, map_app, concat_app, Hx.
    cbn [concat_strings fold_right]. rewrite append_assoc_s. reflexivity.
  - apply IH in H. rewrite H, map_app, concat_app, Ht. cbn [map concat_strings fold_right]. rewrite Hi, append_nil_r_s, append_assoc_s. reflexivity.
  - apply IH in H. rewrite H, Ho. reflexivity.
Qed.
Lemma first_text_leading : forall e, first_text (children e) = leading_text e.
Proof. reflexivity. Qed.
Lemma one_text : forall X (g : X -> string) x s, g x = s -> concat_strings (map g [x]) = s.
Proof. intros X g x s <-. cbn. apply append_nil_r_s. Qed.
Ltac sup_sub H := unfold parse_sup, parse_sub, with_name in H; destruct (String.eqb _ _); [|discriminate]; injection H as <-.
Lemma contents_read : forall c e v, well_tagged (KCont c) e -> parse (KCont c) e = Ok v ->
  concat_strings (map contents_element_str (un (KCont c) v)) = concat_strings (map (inline_text (mark "_") (mark "^")) (children e)).
Proof.
  intros c e v Hw H. destruct (parse_inv (KCont c) e v Hw H) as [g [Hg ->]]. cbn [pstep] in Hg. unfold parse_cont in Hg.
  change (un (KCont c) (mk (KCont c) g)) with g.
  eapply (run_texts _ contents_element_str (@CE_String Knot) _ _ (inline_text (mark "_") (mark "^"))) in Hg; try reflexivity.
  - exact Hg.
  - clear. intros c u Hu. unfold lookup in Hu. cbn [inline_text].
    unfold contents_table, item_rows, all_lvls in Hu. cbn [map app] in Hu.
    row_cases Hu; try discriminate; rewrite ?E; cbn [String.eqb Ascii.eqb Bool.eqb]; cbn; 
      apply bind_ok in Hu as [x [Hx Hu]]; injection Hu as <-; eexists; (split; [intros; reflexivity|]); apply one_text; try reflexivity.
    + exact (ruby_read _ _ Hx).
    + sup_sub Hx. reflexivity.
    + sup_sub Hx. reflexivity.
Qed.
Lemma sentence_read : forall e v, parse KSentence e = Ok v ->
  sentence_str v = concat_strings (map sentence_node_text (children e)).
Proof.
  intros e v H. destruct (parse_inv KSentence e v I H) as [g [Hg ->]]. cbn [pstep] in Hg.
  unfold parse_sentence in Hg. peel Hg. injection Hg as <-. unfold sentence_str, sentence_element_to_str. cbn [un mk sen_contents].
  match goal with |- concat_strings (map ?f _) = _ =>
    eapply (run_texts _ f (@SE_String Knot) _ _ sentence_node_text) in Ha2; try reflexivity end.
  - exact Ha2.
  - clear. intros c u Hu. unfold lookup in Hu. cbn [sentence_node_text inline_text].
    unfold sentence_table in Hu.
    row_cases Hu; try discriminate; rewrite ?E; cbn [String.eqb Ascii.eqb Bool.eqb]; cbn; 
      apply bind_ok in Hu as [x [Hx Hu]]; injection Hu as <-; eexists; (split; [intros; reflexivity|]); apply one_text; try reflexivity.
    + refine (contents_read _ _ _ _ Hx). unfold well_tagged; rewrite E; reflexivity.
    + unfold parse_arith in Hx. peel Hx. injection Hx as <-. refine (contents_read _ _ _ _ Ha0). unfold well_tagged; rewrite E; reflexivity.
    + exact (ruby_read _ _ Hx).
    + sup_sub Hx. reflexivity.
    + sup_sub Hx. reflexivity.
Qed.
Lemma run_total : forall S txt (dflt : handler S) tbl, (forall c, exists u, lookup dflt tbl c = Ok u) ->
  forall l s, exists s', run txt dflt tbl l s = Ok s'.
Proof.
  intros S txt dflt tbl H. induction l as [|[c|t|t] l IH]; intros s; cbn [run]; [eauto| |auto|auto].
  destruct (H c) as [u ->]. cbn [bind]. auto.
Qed.
Lemma ruby_total : forall e, name e = "Ruby" -> exists v, parse KRuby e = Ok v.
Proof.
  intros e H. rewrite parse_unfold by exact I. cbn [pstep]. unfold parse_ruby, with_name. rewrite H. cbn [String.eqb Ascii.eqb Bool.eqb].
  match goal with |- context [run ?t ?d ?b ?ns ?st] => destruct (run_total _ t d b) with (l := ns) (s := st) as [s' ->] end.
  - intros c. unfold lookup. cbn [assoc]. destruct (String.eqb _ _); eexists; reflexivity.
  - cbn [bind]. destruct s' as [t [r x]]. eexists. reflexivity.
Qed.
(** Titles and captions. *)
Lemma text_read_str : forall l t, from_children parse l = Ok t ->
  text_str t = concat_strings (map (inline_text (fun s => s) (fun s => s)) l).
Proof.
  intros l t H. unfold from_children in H. unfold text_str.
  eapply (run_texts _ (te_str ruby_str) (@TE_Text Knot) _ _ (inline_text (fun s => s) (fun s => s))) in H; try reflexivity.
  - exact H.
  - clear. intros c u Hu. unfold lookup in Hu. cbn [inline_text]. unfold text_table in Hu.
    row_cases Hu; rewrite ?E; cbn [String.eqb Ascii.eqb Bool.eqb];
      try (unfold h_push_ok in Hu; apply bind_ok in Hu as [o [Ho Hu]]; injection Hu as <-).
    + destruct (ruby_total c E) as [v Hv]. rewrite Hv in Ho. injection Ho as <-. eexists. split; [intros; reflexivity|].
      apply one_text. exact (ruby_read _ _ Hv).
    + destruct o as [v|]; [exists [TE_Line v]|exists []]; (split; [intros; rewrite ?app_nil_r; reflexivity|reflexivity]).
    + unfold parse_sup, with_name in Ho. rewrite E in Ho. cbn in Ho. injection Ho as <-. eexists. split; [intros; reflexivity|].
      apply one_text. reflexivity.
    + unfold parse_sub, with_name in Ho. rewrite E in Ho. cbn in Ho. injection Ho as <-. eexists. split; [intros; reflexivity|].
      apply one_text. reflexivity.
    + injection Hu as <-. exists []. split; [intros; rewrite app_nil_r; reflexivity|]. reflexivity.
Qed.

(** ** Together with reading *)
Theorem articles_listed_as_read : forall e v, parse KMain e = Ok v ->
  Forall2 (reads KArticle) (articles_in e) (fst (article_list_from_main_provision v)).
Proof. intros e v H. rewrite main_list. apply main_art, H. Qed.
Lemma head_title_read : forall C n tbl e (v : HeadF Knot C), parse_head parse n tbl e = Ok v ->
  exists t rest, children e = NElement t :: rest /\ name t = (n ++ "Title")%string /\
    text_str (hd_title v) = concat_strings (map (inline_text (fun s => s) (fun s => s)) (children t)).
Proof.
  intros C n tbl e v H. unfold parse_head in H. peel H. destruct (children e) as [|[t|t|t] rest]; try discriminate.
  destruct (String.eqb_spec (name t) (n ++ "Title")) as [Et|]; [|discriminate]. peel H. injection H as <-.
  exists t, rest. split; [reflexivity|]. split; [exact Et|]. apply text_read_str. assumption.
Qed.
Theorem titles_read : forall e,
  let titled (n : string) (t : Text Knot) := exists c rest, children e = NElement c :: rest /\ name c = (n ++ "Title")%string /\
    text_str t = concat_strings (map (inline_text (fun s => s) (fun s => s)) (children c)) in
  (forall v, parse KPart e = Ok v -> titled "Part" (hd_title (un KPart v))) /\
  (forall v, parse KChapter e = Ok v -> titled "Chapter" (hd_title (un KChapter v))) /\
  (forall v, parse KSection e = Ok v -> titled "Section" (hd_title (un KSection v))) /\
  (forall v, parse KSubsection e = Ok v -> titled "Subsection" (hd_title (un KSubsection v))) /\
  (forall v, parse KDivision e = Ok v -> titled "Division" (hd_title (un KDivision v))).
Proof.
  intros e titled.
  split; [|split; [|split; [|split]]]; intros v H; (destruct (parse_inv _ e v I H) as [g [Hg ->]]); rewrite un_mk; cbn [pstep] in Hg;
    exact (head_title_read _ _ _ _ _ Hg).
Qed.
Lemma forall2_concat_str : forall A B (P : A -> B -> Prop) (f : A -> string) (g : B -> string) l m,
  (forall a b, P a b -> g b = f a) -> Forall2 P l m -> concat_strings (map g m) = concat_strings (map f l).
Proof. intros A B P f g l m H F. induction F as [|a b l m Hab F IH]; cbn; [reflexivity|]. rewrite (H a b Hab). f_equal. exact IH. Qed.
Theorem paragraph_text_read : forall e v, parse KParagraph e = Ok v ->
  concat_strings (map sentence_str (par_sentence (un KParagraph v))) =
  concat_strings (map (fun s => concat_strings (map sentence_node_text (children s)))
    (flat_map (fun c => elements (children c)) (with_tag "ParagraphSentence" (children e)))).
Proof.
  intros e v H. eapply forall2_concat_str; [|apply paragraph_sentences_order, H]. intros s x Hs. apply sentence_read, Hs.
Qed.
Lemma noted_rank : forall x w r, noted_as x w -> ((exists n, noted w r = Some n) <-> in_rank (fst x) r).
Proof.
  intros [t a] w r [_ [H2 H3]]. cbn [fst snd] in *. unfold in_rank. destruct r;
    try (split; intros [n Hn]; exists n; apply H2, Hn);
    (split; [intros [n Hn]; apply H3 in Hn; [|discriminate]; destruct Hn as [y [m [z [-> _]]]]; exists m; apply in_or_app; right; left; reflexivity|];
     intros [n Hn]; apply in_split in Hn as [y [z ->]]; eexists; apply H3; [discriminate|]; exists y, n, z; split; reflexivity).
Qed.
