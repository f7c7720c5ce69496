(** The table of contents is computed from the headings and articles in their order. *)
From Coq Require Import String List NArith Lia.
From Verif Require Import Base NumStr Xml Ast Utils UtilsSpec TocRowSpec.
Import ListNotations.
Open Scope string_scope.
Open Scope list_scope.

Definition over (st s : open_rows) : Prop := exists u, st = u ++ s.
Lemma over_refl : forall s, over s s.
Proof. intros s. exists []. reflexivity. Qed.
Lemma over_cons : forall x st s, over st (x :: s) -> over st s.
Proof. intros x st s [u ->]. exists (u ++ [x]). rewrite <- app_assoc. reflexivity. Qed.
Lemma over_keep : forall st s, over st s -> keep_open (length s) st = s.
Proof.
  intros st s [u ->]. unfold keep_open. rewrite app_length.
  replace (length u + length s - length s) with (length u) by lia.
  induction u; [reflexivity|exact IHu].
Qed.
Lemma shared_length : forall r t s, length (shared r t s) = length s.
Proof. intros [] t [|[[] u] s]; reflexivity. Qed.
Lemma shared_shared : forall r t u s, shared r t (shared r u s) = shared r t s.
Proof. intros [] t u [|[[] w] s]; reflexivity. Qed.

Lemma scan_app : forall a b s, scan_rows s (a ++ b) =
  (fst (scan_rows s a) ++ fst (scan_rows (snd (scan_rows s a)) b), snd (scan_rows (snd (scan_rows s a)) b)).
Proof.
  induction a as [|e a IH]; intros b s; cbn [app scan_rows].
  - cbn [fst snd app]. destruct (scan_rows s b); reflexivity.
  - destruct (step_row s e) as [t s']. rewrite IH. destruct (scan_rows s' a) as [ts s'']. reflexivity.
Qed.

Definition inside (p : trail) (e : entry) : entry := mkEntry (p ++ en_trail e) (en_article e) (en_title e).
Lemma inside_under : forall p r n l, map (inside p) (map (en_under r n) l) = map (inside (p ++ [(r, n)])) l.
Proof. intros p r n l. rewrite map_map. apply map_ext. intros e. unfold inside, en_under. cbn. rewrite <- app_assoc. reflexivity. Qed.
Lemma inside_nil : forall l, map (inside []) l = l.
Proof. induction l as [|[] l IH]; [reflexivity|]. cbn. rewrite IH. reflexivity. Qed.

(** A child of a heading of rank [r]. *)
Definition child_ok {C} (r : rank) (f : C -> Toc -> Toc * list Toc) (g : C -> list entry) (c : C) : Prop :=
  forall p s toc st, over st ((r, toc) :: shared r toc s) -> length p = S (length s) ->
  fst (scan_rows st (map (inside p) (g c))) = snd (f c toc) /\
  over (snd (scan_rows st (map (inside p) (g c)))) ((r, fst (f c toc)) :: shared r (fst (f c toc)) s).
(** A heading of rank [r]. *)
Definition heading_ok (r : rank) (f : Toc -> Toc * list Toc) (l : list entry) : Prop :=
  forall p s st, over st s -> length p = length s ->
  fst (scan_rows st (map (inside p) l)) = snd (f (last_row s)) /\
  over (snd (scan_rows st (map (inside p) l))) (shared r (fst (f (last_row s))) s).

Lemma loop_ok : forall C r (f : C -> Toc -> Toc * list Toc) g cs, (forall c, child_ok r f g c) -> child_ok r (toc_loop f) (flat_map g) cs.
Proof.
  intros C r f g cs H. induction cs as [|c cs IH]; intros p s toc st O L.
  - cbn. split; [reflexivity|exact O].
  - cbn [flat_map toc_loop]. rewrite map_app, scan_app. cbn [fst snd].
    destruct (H c p s toc st O L) as [E1 O1]. destruct (f c toc) as [toc1 l1]. cbn [fst snd] in *.
    destruct (IH p s toc1 _ O1 L) as [E2 O2]. destruct (toc_loop f cs toc1) as [toc2 l2]. cbn [fst snd] in *.
    split; [rewrite E1, E2; reflexivity|exact O2].
Qed.

Lemma article_ok : forall r a, child_ok r toc_article_step (fun a => [article_entry a]) a.
Proof.
  intros r a p s toc st O L. cbn [map scan_rows]. unfold step_row, inside, article_entry. cbn [en_trail en_article en_title].
  rewrite app_nil_r, L. apply over_keep in O. cbn [length] in O. rewrite shared_length in O. rewrite O.
  cbn [last_row shows fst snd]. unfold toc_article_step, toc_at_article. cbn [fst snd]. destruct toc.
  split; [reflexivity|]. rewrite shared_shared. apply over_refl.
Qed.
Lemma clone_ok : forall C r k (f : C -> Toc -> Toc * list Toc) g c, k <> RChapter -> heading_ok k (f c) (g c) ->
  child_ok r (fun c => on_clone (f c)) g c.
Proof.
  intros C r k f g c N H p s toc st O L. destruct (H p _ st O) as [E O1]; [cbn [length]; rewrite shared_length; exact L|].
  cbn [last_row] in *. unfold on_clone. cbn [fst snd]. split; [exact E|].
  destruct k; [exact O1|congruence|exact O1..].
Qed.

Lemma headed_ok : forall C r (h : HeadF Knot C) (f : C -> Toc -> Toc * list Toc) g,
  (forall c, child_ok r f g c) ->
  heading_ok r (fun toc => let toc := heading_row r (hd_num h) (text_str (hd_title h)) toc in
    let '(toc', l) := toc_loop f (hd_children h) toc in (toc', toc :: l)) (with_heading r h (flat_map g (hd_children h))).
Proof.
  intros C r h f g H p s st O L. unfold with_heading. rewrite inside_under. cbn [map scan_rows].
  unfold step_row, inside. cbn [en_trail en_article en_title]. rewrite app_nil_r, app_length, last_last. cbn [length].
  replace (pred (length p + 1)) with (length s) by lia. rewrite (over_keep _ _ O).
  set (t := heading_row r (hd_num h) (text_str (hd_title h)) (last_row s)).
  destruct (loop_ok C r f g (hd_children h) H (p ++ [(r, hd_num h)]) s t ((r, t) :: shared r t s)) as [E O1];
    [apply over_refl|rewrite app_length; cbn [length]; lia|].
  unfold inside in E, O1. destruct (scan_rows _ _) as [ts s']. destruct (toc_loop f (hd_children h) t) as [toc' l]. cbn [fst snd] in *.
  split; [rewrite E; reflexivity|]. eapply over_cons. exact O1.
Qed.
(** The same with the setters. *)
Lemma headed : forall C r (h : HeadF Knot C) (f : C -> Toc -> Toc * list Toc) g set l,
  (forall t, set t = heading_row r (hd_num h) (text_str (hd_title h)) t) -> l = flat_map g (hd_children h) ->
  (forall c, child_ok r f g c) ->
  heading_ok r (fun toc => let '(toc', l) := toc_loop f (hd_children h) (set toc) in (toc', set toc :: l)) (with_heading r h l).
Proof.
  intros C r h f g set l S -> H p s st O L. rewrite (S (last_row s)). exact (headed_ok C r h f g H p s st O L).
Qed.

Ltac setters := let t := fresh in intros t; destruct t; reflexivity.
Lemma map_flat : forall A B (f : A -> B) l, map f l = flat_map (fun x => [f x]) l.
Proof. induction l as [|x l IH]; [reflexivity|]. cbn. rewrite IH. reflexivity. Qed.

Lemma division_ok : forall v, heading_ok RDivision (toc_list_from_division v) (division_entries v).
Proof.
  intros v. apply (headed _ RDivision (un KDivision v) toc_article_step (fun a => [article_entry a]) (fun toc =>
    toc_set_title (Some (text_str (hd_title (un KDivision v)))) (toc_set_division (Some (hd_num (un KDivision v))) toc))); [setters|apply map_flat|].
  apply article_ok.
Qed.
Lemma subsection_ok : forall v, heading_ok RSubsection (toc_list_from_subsection v) (subsection_entries v).
Proof.
  intros v. apply (headed _ RSubsection (un KSubsection v) (fun c => match c with
    | SuC_Article a => toc_article_step a
    | SuC_Division d => on_clone (toc_list_from_division d)
    end) (fun c => match c with SuC_Article a => [article_entry a] | SuC_Division d => division_entries d end) (fun toc =>
    toc_set_title (Some (text_str (hd_title (un KSubsection v)))) (toc_set_subsection (Some (hd_num (un KSubsection v))) toc))); [setters|reflexivity|].
  intros [a|d].
  - exact (article_ok RSubsection a).
  - exact (clone_ok _ RSubsection RDivision toc_list_from_division division_entries d ltac:(discriminate) (division_ok d)).
Qed.
Lemma section_ok : forall v, heading_ok RSection (toc_list_from_section v) (section_entries v).
Proof.
  intros v. apply (headed _ RSection (un KSection v) (fun c => match c with
    | SeC_Article a => toc_article_step a
    | SeC_Subsection d => on_clone (toc_list_from_subsection d)
    | SeC_Division d => on_clone (toc_list_from_division d)
    end) (fun c => match c with
      | SeC_Article a => [article_entry a] | SeC_Subsection d => subsection_entries d | SeC_Division d => division_entries d end) (fun toc =>
    toc_set_title (Some (text_str (hd_title (un KSection v)))) (toc_set_section (Some (hd_num (un KSection v))) toc))); [setters|reflexivity|].
  intros [a|d|d].
  - exact (article_ok RSection a).
  - exact (clone_ok _ RSection RSubsection toc_list_from_subsection subsection_entries d ltac:(discriminate) (subsection_ok d)).
  - exact (clone_ok _ RSection RDivision toc_list_from_division division_entries d ltac:(discriminate) (division_ok d)).
Qed.
Lemma chapter_ok : forall v, heading_ok RChapter (toc_list_from_chapter v) (chapter_entries v).
Proof.
  intros v. apply (headed _ RChapter (un KChapter v) (fun c => match c with
    | ChC_Article a => toc_article_step a
    | ChC_Section d => on_clone (toc_list_from_section d)
    end) (fun c => match c with ChC_Article a => [article_entry a] | ChC_Section d => section_entries d end) (fun toc =>
    toc_set_title (Some (text_str (hd_title (un KChapter v)))) (toc_set_chapter (Some (hd_num (un KChapter v))) toc))); [setters|reflexivity|].
  intros [a|d].
  - exact (article_ok RChapter a).
  - exact (clone_ok _ RChapter RSection toc_list_from_section section_entries d ltac:(discriminate) (section_ok d)).
Qed.
Lemma part_ok : forall v st, fst (scan_rows st (part_entries v)) = toc_list_from_part v.
Proof.
  intros v st. rewrite <- (inside_nil (part_entries v)).
  destruct (headed _ RPart (un KPart v) (fun c => match c with
    | PC_Article a => toc_article_step a
    | PC_Chapter d => toc_list_from_chapter d
    end) (fun c => match c with PC_Article a => [article_entry a] | PC_Chapter d => chapter_entries d end) (fun toc =>
    toc_set_title (Some (text_str (hd_title (un KPart v)))) (toc_set_part (Some (hd_num (un KPart v))) toc))
    _ ltac:(setters) eq_refl) with (p := @nil (rank * ArticleNumber)) (s := @nil (rank * Toc)) (st := st) as [E _].
  - intros [a|d]; [exact (article_ok RPart a)|].
    intros p s toc st' O L. destruct (chapter_ok d p _ st' O) as [E O1]; [exact L|]. cbn [last_row shared] in *. split; [exact E|exact O1].
  - exists st. symmetry. apply app_nil_r.
  - reflexivity.
  - unfold part_entries at 1. rewrite E. unfold toc_list_from_part.
    change (last_row []) with toc_default. destruct (toc_loop _ _ _); reflexivity.
Qed.
Lemma top_ok : forall r f l st, heading_ok r f l -> fst (scan_rows st l) = snd (f toc_default).
Proof.
  intros r f l st H. rewrite <- (inside_nil l). apply (H [] [] st); [|reflexivity].
  exists st. symmetry. apply app_nil_r.
Qed.
Lemma top_article : forall a st, fst (scan_rows st [article_entry a]) = [toc_at_article a toc_default].
Proof.
  intros a st. cbn. unfold step_row, keep_open. cbn [article_entry en_trail en_article en_title length].
  rewrite PeanoNat.Nat.sub_0_r, skipn_all. reflexivity.
Qed.
Lemma flat_rows : forall C (g : C -> list entry) (h : C -> list Toc) cs st,
  (forall c st, fst (scan_rows st (g c)) = h c) -> fst (scan_rows st (flat_map g cs)) = flat_map h cs.
Proof.
  intros C g h cs st H. revert st. induction cs as [|c cs IH]; intros st; [reflexivity|].
  cbn [flat_map]. rewrite scan_app. cbn [fst]. rewrite H, IH. reflexivity.
Qed.

Theorem main_rows : forall v, toc_list_from_main_provision v = rows (main_entries v).
Proof.
  intros v. symmetry. apply flat_rows. intros [d|d|d|a|p] st.
  - apply part_ok.
  - apply (top_ok _ _ _ _ (chapter_ok d)).
  - apply (top_ok _ _ _ _ (section_ok d)).
  - apply top_article.
  - reflexivity.
Qed.
Theorem suppl_rows : forall v, toc_list_from_suppl_provision v = rows (suppl_entries v).
Proof.
  intros v. symmetry. apply flat_rows. intros [d|d|d|d|d|d] st; try reflexivity.
  - apply (top_ok _ _ _ _ (chapter_ok d)).
  - apply top_article.
Qed.

(** Rows do not depend on what comes after them. *)
Lemma rows_app : forall a b, exists c, rows (a ++ b) = rows a ++ c.
Proof. intros a b. unfold rows. rewrite scan_app. cbn [fst]. eexists. reflexivity. Qed.
Lemma rows_length : forall l, length (rows l) = length l.
Proof.
  assert (L : forall l s, length (fst (scan_rows s l)) = length l).
  { induction l as [|e l IH]; intros s; [reflexivity|]. cbn [scan_rows]. destruct (step_row s e) as [t s'].
    specialize (IH s'). destruct (scan_rows s' l). cbn in *. f_equal. exact IH. }
  intros l. apply L.
Qed.
(** Outside of all headings the table starts anew. *)
Lemma scan_anew : forall e l s, outermost e -> scan_rows s (e :: l) = scan_rows [] (e :: l).
Proof.
  intros e l s H. cbn [scan_rows]. assert (step_row s e = step_row [] e) as ->; [|reflexivity].
  unfold outermost in H. unfold step_row.
  assert (K : forall t n, n = 0 -> keep_open n t = []) by (intros t n ->; unfold keep_open; rewrite PeanoNat.Nat.sub_0_r; apply skipn_all).
  destruct (en_article e); rewrite !K by lia; reflexivity.
Qed.
Lemma rows_anew : forall a e l, outermost e -> rows (a ++ e :: l) = rows a ++ rows (e :: l).
Proof. intros a e l H. unfold rows. rewrite scan_app. cbn [fst]. f_equal. rewrite scan_anew by exact H. reflexivity. Qed.
