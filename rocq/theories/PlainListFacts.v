(** Listings of a law body that was read from plain text. *)
From Coq Require Import String List NArith Bool Arith Lia.
From Verif Require Import Base BaseFacts NumStr Ast KnotFacts Regex NumText TextParse TextSpec OutlineFacts ListingFacts ReadSpec
  Utils UtilsSpec UtilsFacts PlainListSpec.
Import ListNotations.
Open Scope string_scope.
Open Scope list_scope.

Notation ent := TextSpec.entry.
Definition up_rank (r : TextSpec.rank) : UtilsSpec.rank :=
  match r with
  | TextSpec.RPart => RPart | TextSpec.RChapter => RChapter | TextSpec.RSection => RSection
  | TextSpec.RSubsection => RSubsection | TextSpec.RDivision => RDivision
  end.

(** ** The same listings of entries *)
Fixpoint e_more (es : list ent) : string :=
  match es with ESent s :: r => (sentence_str s ++ e_more r)%string | _ => "" end.
Fixpoint e_rows (n : ArticleNumber) (path : list (option ArticleNumber)) (es : list ent) : list (TextIndex * string) :=
  match es with
  | ESent _ :: r => e_rows n path r
  | EPar _ p :: r => (mkTI (par_num p) [], e_more r) :: e_rows (par_num p) [] r
  | EItem k _ _ m _ _ :: r => let path' := firstn k path ++ [m] in (mkTI n path', e_more r) :: e_rows n path' r
  | _ => []
  end.
Fixpoint e_arts (es : list ent) : list (ArticleNumber * list (TextIndex * string)) :=
  match es with
  | [] => []
  | EArt _ _ _ _ n _ _ :: r => (n, e_rows (mkAN 0 [] []) [] r) :: e_arts r
  | _ :: r => e_arts r
  end.
Fixpoint e_toc (path : trail) (es : list ent) : list UtilsSpec.entry :=
  match es with
  | [] => []
  | EHead d k t n _ _ :: r => let path' := firstn d path ++ [(up_rank k, n)] in mkEntry path' None (text_str t) :: e_toc path' r
  | EArt d _ t _ n _ _ :: r => mkEntry (firstn d path) (Some n) (text_str t) :: e_toc (firstn d path) r
  | _ :: r => e_toc path r
  end.

(** ** From lines to entries *)
Lemma add_ends : forall l x es r, add l x = (es, Ends r) -> exists es', x = (es', Ends r) /\ es = l ++ es'.
Proof. intros l [es' e] es r E. unfold add in E. cbn [fst snd] in E. inversion E. exists es'. auto. Qed.
Ltac lines_step E :=
  cbn [outline_from] in E; cbv zeta in E;
  repeat match type of E with context [match ?x with _ => _ end] => lazymatch x with context [outline_from] => fail | _ => destruct x eqn:? end end;
  try discriminate E; try (apply add_ends in E; destruct E as (es' & E & ->)).
Lemma sentence_text : forall k t, sentence_str (mkSentence (mkSentenceF [SE_String (enc t)] (Some k) None None Vertical)) = enc t.
Proof. intros k t. cbn. apply BaseFacts.append_nil_r_s. Qed.
Lemma title_text : forall t, text_str (as_text t) = enc t.
Proof. intros t. cbn. apply BaseFacts.append_nil_r_s. Qed.
Lemma lines_top : forall lines open m es, outline_from open m lines = (es, Ends []) ->
  match m with MTop _ => e_more es = "" /\ forall n path, e_rows n path es = [] | _ => True end.
Proof.
  induction lines as [|l lines IH]; intros open [k|cap|its k] es E; try exact I.
  - cbn [outline_from] in E. injection E as <-. auto.
  - destruct l as [s|n t|n t|n t|n t|n t|n t|n t|i t|o|s]; lines_step E; auto.
    exact (IH _ (MTop (Some s)) _ E).
Qed.
Lemma lines_more : forall lines open m es, outline_from open m lines = (es, Ends []) ->
  match m with MArt _ _ => e_more es = more_text lines | _ => True end.
Proof.
  induction lines as [|l lines IH]; intros open [k|cap|its k] es E; try exact I.
  - cbn [outline_from] in E. injection E as <-. reflexivity.
  - destruct l as [s|n t|n t|n t|n t|n t|n t|n t|i t|o|s]; lines_step E; try reflexivity.
    + apply (proj1 (lines_top _ _ _ _ E)).
    + cbn [more_text e_more app sentence]. rewrite sentence_text. f_equal. exact (IH _ _ _ E).
Qed.
Lemma lines_rows : forall lines open m es, outline_from open m lines = (es, Ends []) ->
  match m with MArt its _ => forall n path, e_rows n path es = rows_below n its path lines | _ => True end.
Proof.
  induction lines as [|l lines IH]; intros open [k|cap|its k] es E; try exact I; intros n path.
  - cbn [outline_from] in E. injection E as <-. reflexivity.
  - destruct l as [s|n' t|n' t|n' t|n' t|n' t|n' t|n' t|i t|o|s]; lines_step E; try reflexivity.
    + apply (proj2 (lines_top _ _ _ _ E)).
    + cbn [rows_below app paragraph sentence e_rows e_more par_num]. rewrite sentence_text.
      rewrite (lines_more _ _ _ _ E). f_equal. exact (IH _ _ _ E n' []).
    + cbn [rows_below app sentence e_rows e_more]. rewrite Heqo. cbv zeta. rewrite sentence_text.
      rewrite (lines_more _ _ _ _ E). f_equal. exact (IH _ _ _ E _ _).
    + cbn [rows_below app sentence e_rows]. exact (IH _ _ _ E _ _).
Qed.
Lemma lines_arts : forall lines open m es, outline_from open m lines = (es, Ends []) -> e_arts es = article_rows lines.
Proof.
  induction lines as [|l lines IH]; intros open m es E.
  - cbn [outline_from] in E. injection E as <-. reflexivity.
  - destruct l as [s|n t|n t|n t|n t|n t|n t|n t|i t|o|s]; lines_step E; cbn [article_rows app e_arts paragraph sentence];
      try (exact (IH _ _ _ E)).
    all: f_equal; [|exact (IH _ _ _ E)]; f_equal; unfold paragraph, sentence; cbn [e_rows e_more par_num]; rewrite sentence_text,
      (lines_more _ _ _ _ E); f_equal; exact (lines_rows _ _ _ _ E _ _).
Qed.
(** Headings. *)
Lemma close_nearest : forall r open t, map fst t = map up_rank open -> map fst (nearest (up_rank r) t) = map up_rank (close_to r open).
Proof.
  intros r open. induction open as [|x open IH]; intros [|[y n] t] E; try discriminate E; [reflexivity|].
  cbn [map fst] in E. injection E as -> E. cbn [nearest close_to fst].
  assert (S : same (up_rank x) (up_rank r) = rank_eqb x r) by (destruct x, r; reflexivity). rewrite S.
  destruct (rank_eqb x r); [cbn [map fst]; f_equal; exact E|apply IH, E].
Qed.
Lemma place_around : forall r open t up, map fst t = map up_rank open -> place r open = Some up ->
  map fst (around (up_rank r) t) = map up_rank up.
Proof.
  intros r open t up E P. destruct r; cbn [place up_rank around above] in *.
  - injection P as <-. reflexivity.
  - injection P as <-. apply (close_nearest TextSpec.RPart), E.
  - injection P as <-. apply (close_nearest TextSpec.RChapter), E.
  - unfold around, above. change RSection with (up_rank TextSpec.RSection). rewrite (close_nearest _ _ _ E).
    destruct (close_to TextSpec.RSection open); [discriminate P|]. injection P as <-. reflexivity.
  - unfold around, above. change RSubsection with (up_rank TextSpec.RSubsection). rewrite (close_nearest _ _ _ E).
    destruct (close_to TextSpec.RSubsection open); [discriminate P|]. injection P as <-. reflexivity.
Qed.
Lemma nearest_suffix : forall r t, exists x, t = x ++ nearest r t.
Proof.
  intros r t. induction t as [|y t [x IH]]; [exists []; reflexivity|]. cbn [nearest]. destruct (same (fst y) r).
  - exists []. reflexivity.
  - exists (y :: x). cbn [app]. rewrite <- IH. reflexivity.
Qed.
Lemma around_suffix : forall r t, exists x, t = x ++ around r t.
Proof. intros r t. unfold around. destruct (above r); [apply nearest_suffix|]. exists t. symmetry. apply app_nil_r. Qed.
Lemma around_path : forall r open t up, map fst t = map up_rank open -> place r open = Some up ->
  firstn (length up) (rev t) = rev (around (up_rank r) t).
Proof.
  intros r open t up E P. pose proof (place_around _ _ _ _ E P) as Q. apply (f_equal (@length _)) in Q. rewrite !map_length in Q.
  destruct (around_suffix (up_rank r) t) as [x H]. rewrite H at 1. rewrite rev_app_distr, <- Q, <- rev_length.
  rewrite firstn_app, firstn_all, Nat.sub_diag. cbn. apply app_nil_r.
Qed.
Lemma lines_toc : forall lines open m es t, outline_from open m lines = (es, Ends []) -> map fst t = map up_rank open ->
  e_toc (rev t) es = line_entries t lines.
Proof.
  induction lines as [|l lines IH]; intros open m es tr E H.
  - cbn [outline_from] in E. injection E as <-. reflexivity.
  - destruct l as [s|n t|n t|n t|n t|n t|n t|n t|i t|o|s]; lines_step E; cbn [line_entries heading_of app e_toc paragraph sentence up_rank];
      cbv zeta; try (exact (IH _ _ _ _ E H));
      try (match goal with P : place ?r open = Some ?up |- _ =>
        let A := fresh in pose proof (around_path r open tr up H P) as A; cbn [up_rank] in A; rewrite A, title_text; cbn [rev]; f_equal;
        match goal with |- _ = line_entries ?T _ => refine (IH _ _ _ T E _) end; cbn [map fst]; f_equal; exact (place_around r open tr up H P) end).
    all: assert (L : length open = length (rev tr)) by (rewrite rev_length, <- (map_length fst tr), H, map_length; reflexivity);
      rewrite L, firstn_all, title_text; f_equal; exact (IH _ _ _ _ E H).
Qed.

(** ** From the law body to entries *)
Definition quiet (es : list ent) : Prop := match es with ESent _ :: _ => False | _ => True end.
Definition at_top (es : list ent) : Prop := match es with [] => True | EHead _ _ _ _ _ _ :: _ | EArt _ _ _ _ _ _ _ :: _ => True | _ => False end.
Lemma top_quiet : forall es, at_top es -> quiet es.
Proof. intros [|[] es] H; cbn in *; tauto. Qed.
Lemma quiet_more : forall es, quiet es -> e_more es = "".
Proof. intros [|[] es] H; try reflexivity. destruct H. Qed.
Lemma top_rows : forall es n path, at_top es -> e_rows n path es = [].
Proof. intros es n path H. destruct es as [|[] es]; try reflexivity; destruct H. Qed.
Lemma more_sents : forall ss es, quiet es -> e_more (map ESent ss ++ es) = concat_strings (map sentence_str ss).
Proof. intros ss es Q. induction ss as [|s ss IH]; cbn; [apply quiet_more, Q|]. rewrite IH. reflexivity. Qed.
Lemma rows_sents : forall ss es n path, e_rows n path (map ESent ss ++ es) = e_rows n path es.
Proof. intros ss es n path. induction ss as [|s ss IH]; cbn; auto. Qed.

(** Items. *)
Definition rows_at n p (l : list (list (option ArticleNumber) * lvl * SentenceOrColumnOrTable Knot)) :=
  map (fun '(q, l, s) => (mkTI n (p ++ q), item_text_of l s)) l.
Definition rows_good (k : kind) (d : nat) : Prop := forall (c : list (Knot k)) p q n es,
  length p = d -> known (flat_map (fun y => list_item y) c) -> quiet es ->
  quiet (flat_map (fun y => list_item y) c ++ es) /\
  exists q', e_rows n (p ++ q) (flat_map (fun y => list_item y) c ++ es) =
    rows_at n p (flat_map (UtilsSpec.items_of k) c) ++ e_rows n (p ++ q') es.
Lemma void_rows : forall d, rows_good KVoid d.
Proof.
  intros d [|x c] p q n es L K Q.
  - split; [exact Q|]. exists q. reflexivity.
  - cbn [flat_map] in K. rewrite (void_item KVoid x eq_refl) in K. destruct K. left. reflexivity.
Qed.
Lemma level_rows : forall l, rows_good (sub_item l) (S (lvl_nat l)) -> rows_good (KItem l) (lvl_nat l).
Proof.
  intros l G c. induction c as [|x c IH]; intros p q n es L K Q.
  - split; [exact Q|]. exists q. reflexivity.
  - cbn [flat_map] in K |- *. apply known_app in K as [K1 K2]. rewrite items_of_eq.
    assert (I0 : list_item x = item_entry (un (KItem l) x) :: list_sentences (it_sentence (un (KItem l) x)) ++
      flat_map (fun y => list_item y) (it_children (un (KItem l) x))) by (rewrite <- (mk_un _ x) at 1; reflexivity).
    rewrite I0 in *. clear I0. set (f := un (KItem l) x) in *. apply known_cons in K1 as [_ K1].
    apply known_app in K1 as [K3 K4]. apply known_sentences in K3 as (ss & S). rewrite S. cbn [list_sentences].
    rewrite <- !app_comm_cons, <- !app_assoc. split; [exact I|].
    assert (Q1 : quiet (flat_map (fun y => list_item y) c ++ es)) by (apply (IH p q n es L K2 Q)).
    destruct (G (it_children f) (p ++ [it_num f]) [] n (flat_map (fun y => list_item y) c ++ es)) as [Q2 (q1 & E1)];
      [rewrite app_length, L; cbn; lia|exact K4|exact Q1|].
    destruct (IH p ([it_num f] ++ q1) n es L K2 Q) as [_ (q2 & E2)].
    exists q2. cbn [e_rows item_entry]. cbv zeta.
    assert (P : firstn (lvl_nat l) (p ++ q) ++ [it_num f] = p ++ [it_num f]).
    { rewrite <- L, firstn_app, firstn_all, Nat.sub_diag. cbn [firstn]. rewrite app_nil_r. reflexivity. }
    rewrite P, more_sents, rows_sents by exact Q2. rewrite app_nil_r in E1. rewrite E1.
    rewrite <- (app_assoc p), E2. unfold rows_at. cbn [map app]. rewrite map_app, map_map.
    cbn [app]. f_equal; [f_equal; destruct l; reflexivity|]. rewrite <- app_assoc. f_equal.
    apply map_ext. intros [[r l'] s]. rewrite <- app_assoc. reflexivity.
Qed.
Lemma items_rows : rows_good (KItem Item0) 0.
Proof.
  apply (level_rows Item0), (level_rows Sub1), (level_rows Sub2), (level_rows Sub3), (level_rows Sub4), (level_rows Sub5), (level_rows Sub6),
    (level_rows Sub7), (level_rows Sub8), (level_rows Sub9), (level_rows Sub10), void_rows.
Qed.
(** Paragraphs. *)
Lemma paragraphs_rows : forall ps n path es, known (flat_map (list_paragraph false) ps) -> at_top es ->
  quiet (flat_map (list_paragraph false) ps ++ es) /\
  e_rows n path (flat_map (list_paragraph false) ps ++ es) = flat_map paragraph_entries ps.
Proof.
  induction ps as [|x ps IH]; intros n path es K T.
  - split; [apply top_quiet, T|apply top_rows, T].
  - cbn [flat_map] in K |- *. apply known_app in K as [K1 K2]. unfold list_paragraph at 1 3. cbv zeta. unfold list_paragraph at 1 in K1. cbv zeta in K1.
    set (p := un KParagraph x) in *. apply known_cons in K1 as [_ K1]. apply known_app in K1 as [_ K1].
    rewrite <- !app_comm_cons, <- !app_assoc. split; [exact I|].
    assert (Q : forall m q, quiet (flat_map (list_paragraph false) ps ++ es) /\
      e_rows m q (flat_map (list_paragraph false) ps ++ es) = flat_map paragraph_entries ps) by (intros m q; apply IH; assumption).
    destruct (items_rows (par_children p) [] [] (par_num p) (flat_map (list_paragraph false) ps ++ es) eq_refl K1 (proj1 (Q n path)))
      as [Q2 (q' & E)].
    cbn [e_rows bare par_num]. rewrite more_sents, rows_sents by exact Q2. cbn [app] in E. rewrite E, (proj2 (Q _ _)).
    unfold paragraph_entries at 2. fold p. reflexivity.
Qed.
Lemma under_arts : forall a es, Forall ListingFacts.under a -> e_arts (a ++ es) = e_arts es.
Proof. intros a es F. induction F as [|e a H F IH]; [reflexivity|]. destruct e; try destruct H; exact IH. Qed.
Lemma under_toc : forall a es p, Forall ListingFacts.under a -> e_toc p (a ++ es) = e_toc p es.
Proof. intros a es p F. induction F as [|e a H F IH]; [reflexivity|]. destruct e; try destruct H; exact IH. Qed.

(** Articles and headings. *)
Definition row_of (x : Knot KArticle) := (art_num (un KArticle x), text_info_list_from_paragraph (art_paragraph (un KArticle x))).
Definition at_depth (p : trail) (e : UtilsSpec.entry) : UtilsSpec.entry := mkEntry (p ++ en_trail e) (en_article e) (en_title e).
Definition lists_good {C} (f : nat -> C -> list ent) (arts : C -> list (Knot KArticle)) (toc : C -> list UtilsSpec.entry) : Prop :=
  forall d x es, known (f d x) ->
  at_top (f d x ++ es) /\
  (at_top es -> e_arts (f d x ++ es) = map row_of (arts x) ++ e_arts es) /\
  (forall p q, length p = d -> exists q', e_toc (p ++ q) (f d x ++ es) = map (at_depth p) (toc x) ++ e_toc (p ++ q') es).
Lemma firstn_exact : forall A (p q : list A), firstn (length p) (p ++ q) = p.
Proof. intros A p q. rewrite firstn_app, firstn_all, Nat.sub_diag. cbn [firstn]. apply app_nil_r. Qed.
Lemma article_lists : lists_good list_article (fun x => [x]) (fun x => [article_entry x]).
Proof.
  intros d x es K. unfold list_article in *. cbv zeta in *. apply known_cons in K as [_ K]. split; [exact I|]. split.
  - intros T. cbn [app e_arts map]. rewrite (proj2 (paragraphs_rows _ _ _ _ K T)), under_arts by (apply (paragraphs_under false), K).
    unfold row_of. rewrite text_entries. reflexivity.
  - intros p q <-. exists []. cbn [app e_toc map]. rewrite firstn_exact, under_toc by (apply (paragraphs_under false), K).
    rewrite app_nil_r. unfold at_depth, article_entry. cbn [en_trail en_article en_title]. rewrite app_nil_r. reflexivity.
Qed.
Lemma flat_lists : forall C (f : nat -> C -> list ent) arts toc d l es, lists_good f arts toc -> known (flat_map (f d) l) -> 
  (at_top es -> at_top (flat_map (f d) l ++ es) /\ e_arts (flat_map (f d) l ++ es) = map row_of (flat_map arts l) ++ e_arts es) /\
  (forall p q, length p = d -> exists q', e_toc (p ++ q) (flat_map (f d) l ++ es) = map (at_depth p) (flat_map toc l) ++ e_toc (p ++ q') es).
Proof.
  intros C f arts toc d l es G. induction l as [|x l IH]; intros K; cbn [flat_map] in *.
  - split; [auto|]. intros p q _. exists q. reflexivity.
  - apply known_app in K as [K1 K2]. destruct (IH K2) as [H1 H2]. destruct (G d x (flat_map (f d) l ++ es) K1) as (G1 & G2 & G3).
    rewrite <- app_assoc. split.
    + intros T. destruct (H1 T) as [H3 H4]. split; [exact G1|]. rewrite (G2 H3), H4, map_app, app_assoc. reflexivity.
    + intros p q L. destruct (G3 p q L) as [q1 E1]. destruct (H2 p q1 L) as [q2 E2]. exists q2. rewrite E1, E2, map_app, app_assoc. reflexivity.
Qed.
Lemma head_lists : forall C r (below : nat -> C -> list ent) arts toc, lists_good below arts toc ->
  lists_good (fun d h => list_head d r below h) (fun h => flat_map arts (hd_children h))
    (fun h => with_heading (up_rank r) h (flat_map toc (hd_children h))).
Proof.
  intros C r below arts toc G d h es K. unfold list_head in *. apply known_cons in K as [_ K].
  destruct (flat_lists _ _ _ _ (S d) _ es G K) as [H1 H2]. split; [exact I|]. split.
  - intros T. cbn [app e_arts]. apply (H1 T).
  - intros p q <-. cbn [app e_toc]. cbv zeta. rewrite firstn_exact. destruct (H2 (p ++ [(up_rank r, hd_num h)]) []) as [q' E].
    { rewrite app_length. cbn. lia. }
    exists ((up_rank r, hd_num h) :: q'). rewrite app_nil_r in E. rewrite E. unfold with_heading. cbn [map app].
    f_equal. rewrite map_map, <- (app_assoc p). f_equal. apply map_ext. intros e. unfold at_depth, en_under. cbn [en_trail en_article en_title].
    rewrite <- app_assoc. reflexivity.
Qed.
Lemma lists_same : forall C (f f' : nat -> C -> list ent) arts arts' toc toc', lists_good f arts toc ->
  (forall d x, f' d x = f d x) -> (forall x, arts' x = arts x) -> (forall x, toc' x = toc x) -> lists_good f' arts' toc'.
Proof. intros C f f' arts arts' toc toc' G E1 E2 E3 d x es K. rewrite E1 in *. rewrite E2, E3. apply G, K. Qed.
Lemma lists_un : forall k (f : nat -> F Knot k -> list ent) arts toc, lists_good f arts toc ->
  lists_good (fun d x => f d (un k x)) (fun x => arts (un k x)) (fun x => toc (un k x)).
Proof. intros k f arts toc G d x es K. apply (G d (un k x) es K). Qed.
Lemma flat_one : forall A B (f : A -> B) l, flat_map (fun x => [f x]) l = map f l.
Proof. intros A B f l. induction l as [|x l IH]; cbn; [|rewrite IH]; reflexivity. Qed.
Lemma division_lists : lists_good list_division division_articles division_entries.
Proof.
  eapply lists_same; [apply (lists_un KDivision), (head_lists _ TextSpec.RDivision), article_lists|reflexivity| |].
  - intros x. unfold division_articles. cbv beta. rewrite (flat_one _ _ (fun x => x)), map_id. reflexivity.
  - intros x. unfold division_entries. cbv beta. rewrite (flat_one _ _ article_entry). reflexivity.
Qed.
Lemma subsection_lists : lists_good list_subsection subsection_articles subsection_entries.
Proof.
  refine (lists_un KSubsection _ _ _ (head_lists _ TextSpec.RSubsection _ (fun c => match c with SuC_Article a => [a] | SuC_Division d => division_articles d end)
    (fun c => match c with SuC_Article a => [article_entry a] | SuC_Division d => division_entries d end) _)).
  intros d [x|x] es K; [apply (article_lists d)|apply (division_lists d)]; exact K.
Qed.
Lemma section_lists : lists_good list_section section_articles section_entries.
Proof.
  refine (lists_un KSection _ _ _ (head_lists _ TextSpec.RSection _ (fun c => match c with
      SeC_Article a => [a] | SeC_Subsection d => subsection_articles d | SeC_Division d => division_articles d end)
    (fun c => match c with SeC_Article a => [article_entry a] | SeC_Subsection d => subsection_entries d | SeC_Division d => division_entries d end) _)).
  intros d [x|x|x] es K; [apply (article_lists d)|apply (subsection_lists d)|apply (division_lists d)]; exact K.
Qed.
Lemma chapter_lists : lists_good list_chapter chapter_articles chapter_entries.
Proof.
  refine (lists_un KChapter _ _ _ (head_lists _ TextSpec.RChapter _ (fun c => match c with ChC_Article a => [a] | ChC_Section d => section_articles d end)
    (fun c => match c with ChC_Article a => [article_entry a] | ChC_Section d => section_entries d end) _)).
  intros d [x|x] es K; [apply (article_lists d)|apply (section_lists d)]; exact K.
Qed.
Lemma part_lists : lists_good list_part part_articles part_entries.
Proof.
  refine (lists_un KPart _ _ _ (head_lists _ TextSpec.RPart _ (fun c => match c with PC_Article a => [a] | PC_Chapter d => chapter_articles d end)
    (fun c => match c with PC_Article a => [article_entry a] | PC_Chapter d => chapter_entries d end) _)).
  intros d [x|x] es K; [apply (article_lists d)|apply (chapter_lists d)]; exact K.
Qed.
(** The main provision. *)
Definition child_articles (c : MainContents Knot) : list (Knot KArticle) :=
  match c with
  | MC_Part d => part_articles d | MC_Chapter d => chapter_articles d | MC_Section d => section_articles d
  | MC_Article a => [a] | MC_Paragraph _ => [] end.
Definition child_entries (c : MainContents Knot) : list UtilsSpec.entry :=
  match c with
  | MC_Part d => part_entries d | MC_Chapter d => chapter_entries d | MC_Section d => section_entries d
  | MC_Article a => [article_entry a] | MC_Paragraph _ => [] end.
Definition list_child (d : nat) (c : MainContents Knot) : list ent :=
  match c with
  | MC_Part x => list_part d x | MC_Chapter x => list_chapter d x | MC_Section x => list_section d x
  | MC_Article x => list_article d x | MC_Paragraph _ => [EOther] end.
Lemma child_lists : lists_good list_child child_articles child_entries.
Proof.
  intros d [x|x|x|x|x] es K; [apply (part_lists d)|apply (chapter_lists d)|apply (section_lists d)|apply (article_lists d)|]; try exact K.
  destruct K. left. reflexivity.
Qed.
Lemma body_lists : forall title b, plain_body title b -> known (list_body b) ->
  let m := lb_main_provision (un KLawBody b) in
  e_arts (list_body b) = map row_of (main_articles m) /\ e_toc [] (list_body b) = main_entries m.
Proof.
  intros title b (pre & main & ->) K. unfold list_body in *. cbn [un lb_preamble lb_main_provision main_children] in *. cbv zeta.
  apply known_app in K as [K1 K2].
  assert (U : Forall ListingFacts.under (list_preamble pre)) by (destruct pre as [p|]; [apply (paragraphs_under true), K1|constructor]).
  rewrite under_arts, under_toc by exact U. 
  change (flat_map list_main main) with (flat_map (list_child 0) main) in *.
  destruct (flat_lists _ _ _ _ 0 main [] child_lists K2) as [H1 H2]. rewrite app_nil_r in *. split.
  - destruct (H1 I) as [_ E]. rewrite E. apply app_nil_r.
  - destruct (H2 [] [] eq_refl) as [q' E]. cbn [app] in E. rewrite E, app_nil_r.
    rewrite (map_ext _ (fun e => e)), map_id; [reflexivity|]. intros []. reflexivity.
Qed.

(** Articles with the headings around them. *)
Definition article_trail (x : trail * Knot KArticle) : trail * ArticleNumber := (fst x, art_num (un KArticle (snd x))).
Definition articles_of (l : list UtilsSpec.entry) : list (trail * ArticleNumber) :=
  flat_map (fun e => match en_article e with Some n => [(en_trail e, n)] | None => [] end) l.
Lemma articles_app : forall a b, articles_of (a ++ b) = articles_of a ++ articles_of b.
Proof. intros a b. unfold articles_of. apply flat_map_app. Qed.
Lemma articles_flat : forall C (f : C -> list (trail * Knot KArticle)) (g : C -> list UtilsSpec.entry) l,
  (forall x, map article_trail (f x) = articles_of (g x)) -> map article_trail (flat_map f l) = articles_of (flat_map g l).
Proof. intros C f g l H. induction l as [|x l IH]; [reflexivity|]. cbn [flat_map]. rewrite map_app, articles_app, H, IH. reflexivity. Qed.
Lemma articles_under : forall C r (h : HeadF Knot C) t es, map article_trail t = articles_of es ->
  map article_trail (map (under r (hd_num h)) t) = articles_of (with_heading r h es).
Proof.
  intros C r h t es E. unfold with_heading. cbn [map]. change (articles_of (?a :: ?l)) with (articles_of l).
  assert (G : articles_of (map (en_under r (hd_num h)) es) = map (fun x => ((r, hd_num h) :: fst x, snd x)) (articles_of es)).
  { clear E. induction es as [|e es IH]; [reflexivity|]. unfold articles_of in *. cbn [map flat_map]. rewrite map_app, IH.
    f_equal. destruct e as [tr [n|] ti]; reflexivity. }
  rewrite G, <- E, !map_map. reflexivity.
Qed.
Lemma trails_articles : forall m, map article_trail (main_trails m) = articles_of (main_entries m).
Proof.
  assert (D : forall d, map article_trail (division_trails d) = articles_of (division_entries d)).
  { intros d. unfold division_trails, division_entries. rewrite <- (map_map (fun a => ([] : trail, a)) (under RDivision _)).
    apply articles_under. rewrite map_map. induction (hd_children (un KDivision d)) as [|a l IH]; [reflexivity|].
    cbn [map]. rewrite IH. reflexivity. }
  assert (U : forall d, map article_trail (subsection_trails d) = articles_of (subsection_entries d)).
  { intros d. apply articles_under, articles_flat. intros [a|e]; [reflexivity|apply D]. }
  assert (S : forall d, map article_trail (section_trails d) = articles_of (section_entries d)).
  { intros d. apply articles_under, articles_flat. intros [a|e|e]; [reflexivity|apply U|apply D]. }
  assert (C : forall d, map article_trail (chapter_trails d) = articles_of (chapter_entries d)).
  { intros d. apply articles_under, articles_flat. intros [a|e]; [reflexivity|apply S]. }
  intros m. apply articles_flat. intros [d|d|d|a|p]; try reflexivity; [|apply C|apply S].
  apply articles_under, articles_flat. intros [a|e]; [reflexivity|apply C].
Qed.

(** C79. *)
Lemma read_part : forall fuel title lines b, parse_lines fuel title lines = Some (Ok b) ->
  plain_body title b /\ known (list_body b) /\
  exists a rest, lines = a ++ rest /\ readable a /\ (rest = [] \/ exists l r, rest = l :: r /\ misplaced a l) /\
    outline a = (list_body b, Ends []).
Proof.
  intros fuel title lines b E. destruct (parsed _ _ _ _ E) as [P [rest O]]. split; [exact P|]. split.
  { change (list_body b) with (fst (list_body b, Ends rest)). rewrite <- O. apply outline_known. }
  destruct (reading_ends lines) as [[R [es E']]|[a [l [r [El [R [[M [es E']]|[[M [es E']]|[M [es E']]]]]]]]]];
    rewrite O in E'; try discriminate E'.
  - injection E' as <- ->. exists lines, []. rewrite app_nil_r. auto.
  - injection E' as <- ->. exists a, (l :: r). split; [exact El|]. split; [exact R|]. split; [right; eauto|].
    destruct (outline_after a l r R) as [H _]. destruct (H M) as [_ H2]. rewrite <- El, O in H2. cbn [fst] in H2.
    destruct (readable_outline a R) as [es E1]. rewrite E1 in *. cbn [fst] in H2. rewrite H2. reflexivity.
Qed.
Theorem plain_lists : forall fuel title lines b, parse_lines fuel title lines = Some (Ok b) ->
  let m := lb_main_provision (un KLawBody b) in
  exists a rest, lines = a ++ rest /\ readable a /\ (rest = [] \/ exists l r, rest = l :: r /\ misplaced a l) /\
    map row_of (fst (article_list_from_main_provision m)) = article_rows a /\
    main_entries m = line_entries [] a /\
    map article_trail (main_trails m) = line_trails a.
Proof.
  intros fuel title lines b E. cbv zeta. destruct (read_part _ _ _ _ E) as (P & K & a & rest & El & R & M & O). exists a, rest.
  split; [exact El|]. split; [exact R|]. split; [exact M|]. destruct (body_lists _ _ P K) as [H1 H2].
  assert (T : main_entries (lb_main_provision (un KLawBody b)) = line_entries [] a).
  { rewrite <- H2. exact (lines_toc _ _ _ _ [] O eq_refl). }
  split; [|split; [exact T|]].
  - rewrite main_list, <- H1. exact (lines_arts _ _ _ _ O).
  - rewrite trails_articles, T. reflexivity.
Qed.
