(** The listing of a law body (TextSpec.v) determines the body. *)
From Coq Require Import String List NArith Bool Arith Lia.
From Verif Require Import Base NumStr Ast KnotFacts Regex NumText TextParse TextSpec TextFacts OutlineFacts ShapeSpec ShapeFacts.
Import ListNotations.
Open Scope list_scope.

Definition known (l : list entry) : Prop := ~ In EOther l.
Lemma known_app : forall a b, known (a ++ b) <-> known a /\ known b.
Proof. intros a b. unfold known. rewrite in_app_iff. tauto. Qed.
Lemma known_cons : forall e b, known (e :: b) <-> e <> EOther /\ known b.
Proof. intros e b. unfold known. cbn [In]. tauto. Qed.
Lemma known_flat : forall A (f : A -> list entry) l, known (flat_map f l) <-> Forall (fun x => known (f x)) l.
Proof.
  intros A f l. induction l as [|x l IH]; cbn [flat_map]; [split; [constructor|intros _ []]|].
  rewrite known_app, IH, Forall_cons_iff. reflexivity.
Qed.

(** Lists in two parts, the second of which starts with something that the first does not have. *)
Definition starts_with (q : entry -> bool) (l : list entry) : Prop := match l with [] => True | e :: _ => q e = true end.
Lemma split_at : forall q a a' b b', Forall (fun e => q e = false) a -> Forall (fun e => q e = false) a' ->
  starts_with q b -> starts_with q b' -> a ++ b = a' ++ b' -> a = a' /\ b = b'.
Proof.
  intros q a. induction a as [|e a IH]; intros [|e' a'] b b' Ha Ha' Hb Hb' E.
  - auto.
  - cbn [app] in E. subst b. inversion_clear Ha' as [|? ? H _]. cbn in Hb. congruence.
  - cbn [app] in E. subst b'. inversion_clear Ha as [|? ? H _]. cbn in Hb'. congruence.
  - injection E as -> E. inversion_clear Ha. inversion_clear Ha'. destruct (IH a' b b') as [-> ->]; auto.
Qed.
(** Lists of pieces, each of which starts with something that occurs nowhere else in it. *)
Definition piece_by (q : entry -> bool) (l : list entry) : Prop :=
  exists e r, l = e :: r /\ q e = true /\ Forall (fun e => q e = false) r.
Lemma pieces_start : forall A q (f : A -> list entry) l, Forall (fun x => piece_by q (f x)) l -> starts_with q (flat_map f l).
Proof. intros A q f [|x l] H; [exact I|]. inversion_clear H as [|? ? (e & r & E & Q & _) _]. cbn [flat_map]. rewrite E. exact Q. Qed.
Lemma pieces_inj : forall A q (f : A -> list entry), (forall x y, known (f x) -> f x = f y -> x = y) ->
  (forall x, known (f x) -> piece_by q (f x)) ->
  forall l l', known (flat_map f l) -> flat_map f l = flat_map f l' -> l = l'.
Proof.
  intros A q f Hi Hp. induction l as [|x l IH]; intros l' K E.
  - destruct l' as [|y l']; [reflexivity|]. cbn [flat_map] in E, K. rewrite E in K. apply known_app in K as [K _].
    destruct (Hp y K) as (e & r & F & _). rewrite F in E. discriminate E.
  - destruct l' as [|y l'].
    { cbn [flat_map] in E, K. apply known_app in K as [K _]. destruct (Hp x K) as (e & r & F & _). rewrite F in E. discriminate E. }
    assert (K' := K). rewrite E in K'. cbn [flat_map] in E, K, K'. apply known_app in K as [K1 K2]. apply known_app in K' as [K3 K4].
    destruct (Hp x K1) as (e & r & F & Q & R). destruct (Hp y K3) as (e' & r' & F' & Q' & R').
    rewrite F, F' in E. cbn [app] in E. injection E as E0 E.
    assert (S1 : starts_with q (flat_map f l)).
    { apply pieces_start. apply known_flat in K2. rewrite Forall_forall in *. intros z Hz. apply Hp, K2, Hz. }
    assert (S2 : starts_with q (flat_map f l')).
    { apply pieces_start. apply known_flat in K4. rewrite Forall_forall in *. intros z Hz. apply Hp, K4, Hz. }
    destruct (split_at q _ _ _ _ R R' S1 S2 E) as [E1 E2]. subst e' r'.
    rewrite (Hi x y K1) by congruence. rewrite (IH l' K2 E2). reflexivity.
Qed.

(** Which entry starts what. *)
Definition q_item (k : nat) (e : entry) : bool := match e with EItem j _ _ _ _ _ => Nat.eqb j k | _ => false end.
Definition q_any_item (e : entry) : bool := match e with EItem _ _ _ _ _ _ => true | _ => false end.
Definition q_par (e : entry) : bool := match e with EPar _ _ => true | _ => false end.
Definition q_top (d : nat) (e : entry) : bool :=
  match e with EHead j _ _ _ _ _ | EArt j _ _ _ _ _ _ => Nat.eqb j d | _ => false end.

Lemma sents_inj : forall l l', map ESent l = map ESent l' -> l = l'.
Proof. induction l as [|x l IH]; intros [|y l'] E; try discriminate E; [reflexivity|]. injection E as -> E. rewrite (IH l' E). reflexivity. Qed.
Lemma sents_not : forall q l, (forall s, q (ESent s) = false) -> Forall (fun e => q e = false) (map ESent l).
Proof. intros q l H. apply Forall_forall. intros e He. apply in_map_iff in He as (s & <- & _). apply H. Qed.
Lemma flat_forall : forall A (f : A -> list entry) (P : entry -> Prop) l, (forall x, known (f x) -> Forall P (f x)) ->
  known (flat_map f l) -> Forall P (flat_map f l).
Proof.
  intros A f P l H. induction l as [|x l IH]; intros K; cbn [flat_map] in *; [constructor|].
  apply known_app in K as [K1 K2]. apply Forall_app. auto.
Qed.

(** Items. *)
Definition low (k : nat) (e : entry) : Prop := match e with ESent _ => True | EItem j _ _ _ _ _ => k <= j | _ => False end.
Lemma low_weak : forall k j l, k <= j -> Forall (low j) l -> Forall (low k) l.
Proof. intros k j l H F. eapply Forall_impl; [|exact F]. intros [] L; cbn in *; try exact L; lia. Qed.
Definition item_good (k : kind) (n : nat) : Prop :=
  (forall x y : Knot k, known (list_item x) -> list_item x = list_item y -> x = y) /\
  (forall x : Knot k, known (list_item x) -> Forall (low n) (list_item x) /\ piece_by (q_item n) (list_item x)).
Lemma void_item : forall k (x : Knot k), k = KVoid -> list_item x = [EOther].
Proof. intros k x. destruct x; intros E; try discriminate E; reflexivity. Qed.
Lemma void_good : forall n, item_good KVoid n.
Proof.
  intros n. split; [intros x y K _|intros x K]; rewrite (void_item KVoid x eq_refl) in K; destruct K; left; reflexivity.
Qed.
Lemma list_item_eq : forall l (f : ItemF Knot l), list_item (@mkItem l f) =
  item_entry f :: list_sentences (it_sentence f) ++ flat_map (fun y => list_item y) (it_children f).
Proof. reflexivity. Qed.
Lemma known_sentences : forall s, known (list_sentences s) -> exists l, s = SCT_Sentence l.
Proof. intros [] K; try (destruct K; left; reflexivity). eauto. Qed.
Lemma item_step : forall l, item_good (sub_item l) (S (lvl_nat l)) -> item_good (KItem l) (lvl_nat l).
Proof.
  intros l [Hi Hp]. set (n := lvl_nat l) in *.
  assert (Hf : forall c, known (flat_map (fun y : Knot (sub_item l) => list_item y) c) ->
    Forall (low (S n)) (flat_map (fun y => list_item y) c) /\ starts_with (q_item (S n)) (flat_map (fun y => list_item y) c)).
  { intros c K. split; [apply flat_forall; [intros x Kx; apply (Hp x Kx)|exact K]|]. apply pieces_start.
    apply known_flat in K. rewrite Forall_forall in *. intros z Hz. apply Hp, K, Hz. }
  split.
  - intros x y K E. assert (K' := K). rewrite E in K'. rewrite <- (mk_un _ x), <- (mk_un _ y) in *. destruct (un (KItem l) x) as [t s c st n1 d h].
    destruct (un (KItem l) y) as [t' s' c' st' n1' d' h']. cbn [mk] in *. rewrite list_item_eq in E, K. rewrite list_item_eq in E, K'.
    cbn [it_sentence it_children it_title it_struct_list it_num it_delete it_hide item_entry] in E, K, K'.
    injection E as -> -> -> -> -> E.
    apply known_cons in K as [_ K]. apply known_app in K as [K1 K2]. apply known_cons in K' as [_ K']. apply known_app in K' as [K3 K4].
    apply known_sentences in K1 as (ss & ->). apply known_sentences in K3 as (ss' & ->). cbn [list_sentences] in E.
    apply (split_at (q_item (S n))) in E as [E1 E2]; try (apply sents_not; reflexivity); try (apply Hf; assumption).
    apply sents_inj in E1 as ->. apply (pieces_inj _ (q_item (S n))) in E2 as ->; auto. intros z Kz. apply Hp, Kz.
  - intros x K. rewrite <- (mk_un _ x) in *. destruct (un (KItem l) x) as [t s c st n1 d h]. cbn [mk] in *. rewrite list_item_eq in K |- *.
    cbn [it_sentence it_children] in K |- *. apply known_cons in K as [_ K]. apply known_app in K as [K1 K2].
    apply known_sentences in K1 as (ss & ->). cbn [list_sentences]. destruct (Hf c K2) as [F1 F2].
    assert (L : Forall (low (S n)) (map ESent ss ++ flat_map (fun y => list_item y) c)).
    { apply Forall_app. split; [|exact F1]. apply Forall_forall. intros e He. apply in_map_iff in He as (z & <- & _). exact I. }
    split.
    + constructor; [apply le_n|]. apply (low_weak n (S n)); [lia|exact L].
    + eexists _, _. split; [reflexivity|]. split; [apply Nat.eqb_refl|]. eapply Forall_impl; [|exact L].
      intros [] Q; cbn in *; try reflexivity. apply Nat.eqb_neq. lia.
Qed.
Lemma items_good : item_good (KItem Item0) 0.
Proof.
  apply (item_step Item0), (item_step Sub1), (item_step Sub2), (item_step Sub3), (item_step Sub4), (item_step Sub5), (item_step Sub6),
    (item_step Sub7), (item_step Sub8), (item_step Sub9), (item_step Sub10), void_good.
Qed.

(** Paragraphs. *)
Definition inner (e : entry) : Prop := match e with ESent _ | EItem _ _ _ _ _ _ => True | _ => False end.
Lemma items_inner : forall c : list (Knot (KItem Item0)), known (flat_map (fun y => list_item y) c) ->
  Forall inner (flat_map (fun y => list_item y) c) /\ starts_with (q_item 0) (flat_map (fun y => list_item y) c).
Proof.
  intros c K. split.
  - apply flat_forall; [|exact K]. intros x Kx. destruct (proj2 items_good x Kx) as [F _]. eapply Forall_impl; [|exact F].
    intros []; cbn; auto.
  - apply pieces_start. apply known_flat in K. rewrite Forall_forall in *. intros z Hz. apply items_good, K, Hz.
Qed.
Lemma paragraph_good : forall pre, 
  (forall x y, known (list_paragraph pre x) -> list_paragraph pre x = list_paragraph pre y -> x = y) /\
  (forall x, known (list_paragraph pre x) -> exists p r, list_paragraph pre x = EPar pre p :: r /\ Forall inner r).
Proof.
  intros pre. split.
  - intros x y K E. assert (K' := K). rewrite E in K'. unfold list_paragraph in *. cbv zeta in *.
    rewrite <- (mk_un _ x), <- (mk_un _ y). destruct (un KParagraph x) as [a1 a2 a3 a4 a5 a6 a7 a8 a9 a10 a11].
    destruct (un KParagraph y) as [b1 b2 b3 b4 b5 b6 b7 b8 b9 b10 b11].
    unfold bare in E. cbn [par_caption par_paragraph_num par_amend_provision par_class par_sentence par_struct_list par_children par_num
      par_old_style par_old_num par_hide] in E, K, K'.
    injection E as -> -> -> -> -> -> -> -> -> E. apply known_cons in K as [_ K]. apply known_app in K as [_ K].
    apply known_cons in K' as [_ K']. apply known_app in K' as [_ K'].
    apply (split_at (q_item 0)) in E as [E1 E2]; try (apply sents_not; reflexivity); try (apply items_inner; assumption).
    apply sents_inj in E1 as ->. apply (pieces_inj _ (q_item 0)) in E2 as ->; [reflexivity|apply items_good| |exact K].
    intros z Kz. apply items_good, Kz.
  - intros x K. unfold list_paragraph in *. cbv zeta in *. eexists _, _. split; [reflexivity|].
    apply known_cons in K as [_ K]. apply known_app in K as [_ K]. apply Forall_app. split; [|apply items_inner, K].
    apply Forall_forall. intros e He. apply in_map_iff in He as (z & <- & _). exact I.
Qed.
Lemma paragraph_piece : forall pre x, known (list_paragraph pre x) -> piece_by q_par (list_paragraph pre x).
Proof.
  intros pre x K. destruct (proj2 (paragraph_good pre) x K) as (p & r & E & F). exists (EPar pre p), r. split; [exact E|]. split; [reflexivity|].
  eapply Forall_impl; [|exact F]. intros []; cbn; tauto.
Qed.
Definition under (e : entry) : Prop := match e with ESent _ | EItem _ _ _ _ _ _ | EPar _ _ => True | _ => False end.
Lemma paragraphs_under : forall pre l, known (flat_map (list_paragraph pre) l) -> Forall under (flat_map (list_paragraph pre) l).
Proof.
  intros pre l. apply flat_forall. intros x K. destruct (proj2 (paragraph_good pre) x K) as (p & r & E & F). rewrite E.
  constructor; [exact I|]. eapply Forall_impl; [|exact F]. intros []; cbn; tauto.
Qed.
Lemma paragraphs_inj : forall pre l l', known (flat_map (list_paragraph pre) l) ->
  flat_map (list_paragraph pre) l = flat_map (list_paragraph pre) l' -> l = l'.
Proof. intros pre. apply (pieces_inj _ q_par); [apply paragraph_good|apply paragraph_piece]. Qed.

(** Articles and headings: what stands at depth [d]. *)
Definition deeper (d : nat) (e : entry) : Prop :=
  match e with EHead j _ _ _ _ _ | EArt j _ _ _ _ _ _ => d <= j | EOther => False | _ => True end.
Lemma deeper_weak : forall d j l, d <= j -> Forall (deeper j) l -> Forall (deeper d) l.
Proof. intros d j l H F. eapply Forall_impl; [|exact F]. intros [] L; cbn in *; try exact L; lia. Qed.
Definition good {C} (list : nat -> C -> list entry) : Prop := forall d,
  (forall x y, known (list d x) -> list d x = list d y -> x = y) /\
  (forall x, known (list d x) -> exists e r, list d x = e :: r /\ q_top d e = true /\ Forall (deeper (S d)) r).
Lemma good_piece : forall C (f : nat -> C -> list entry) d x, good f -> known (f d x) -> piece_by (q_top d) (f d x).
Proof.
  intros C f d x G K. destruct (proj2 (G d) x K) as (e & r & E & Q & R). exists e, r. split; [exact E|]. split; [exact Q|].
  eapply Forall_impl; [|exact R]. intros [] L; cbn in *; try reflexivity; apply Nat.eqb_neq; lia.
Qed.
Lemma good_deeper : forall C (f : nat -> C -> list entry) d x, good f -> known (f d x) -> Forall (deeper d) (f d x).
Proof.
  intros C f d x G K. destruct (proj2 (G d) x K) as (e & r & E & Q & R). rewrite E. constructor; [|apply (deeper_weak d (S d)); [lia|exact R]].
  destruct e; try discriminate Q; cbn in *; apply Nat.eqb_eq in Q; lia.
Qed.
Lemma article_good : good list_article.
Proof.
  intros d. split.
  - intros x y K E. unfold list_article in *. cbv zeta in *. rewrite <- (mk_un _ x), <- (mk_un _ y).
    destruct (un KArticle x) as [a1 a2 a3 a4 a5 a6 a7]. destruct (un KArticle y) as [b1 b2 b3 b4 b5 b6 b7].
    cbn [art_caption art_title art_suppl_note art_num art_delete art_hide art_paragraph] in *.
    injection E as -> -> -> -> -> -> E. apply known_cons in K as [_ K]. apply paragraphs_inj in E as ->; [reflexivity|exact K].
  - intros x K. unfold list_article in *. cbv zeta in *. eexists _, _. split; [reflexivity|]. split; [apply Nat.eqb_refl|].
    apply known_cons in K as [_ K]. apply paragraphs_under in K. eapply Forall_impl; [|exact K]. intros []; cbn; tauto.
Qed.
Lemma head_good : forall C r (below : nat -> C -> list entry), good below -> good (fun d h => list_head d r below h).
Proof.
  intros C r below G d. split.
  - intros [a1 a2 a3 a4 a5] [b1 b2 b3 b4 b5] K E. unfold list_head in *.
    cbn [hd_title hd_num hd_delete hd_hide hd_children] in *. injection E as -> -> -> -> E.
    apply known_cons in K as [_ K]. apply (pieces_inj _ (q_top (S d))) in E as ->; [reflexivity|apply G| |exact K].
    intros x Kx. apply good_piece; assumption.
  - intros h K. unfold list_head in *. eexists _, _. split; [reflexivity|]. split; [apply Nat.eqb_refl|].
    apply known_cons in K as [_ K]. apply flat_forall; [|exact K]. intros x Kx. apply good_deeper; assumption.
Qed.
Lemma un_good : forall k (f : nat -> F Knot k -> list entry), good f -> good (fun d x => f d (un k x)).
Proof.
  intros k f G d. split.
  - intros x y K E. rewrite <- (mk_un _ x), <- (mk_un _ y). f_equal. exact (proj1 (G d) _ _ K E).
  - intros x K. exact (proj2 (G d) _ K).
Qed.
(** Two sorts of children are told apart by their first entries. *)
Definition headed (r : rank) (e : entry) : Prop := match e with EHead _ q _ _ _ _ => q = r | _ => False end.
Definition articled (e : entry) : Prop := match e with EArt _ _ _ _ _ _ _ => True | _ => False end.
Lemma division_good : good list_division.
Proof. apply (un_good KDivision _ (head_good _ RDivision list_article article_good)). Qed.
Lemma subsection_good : good list_subsection.
Proof.
  refine (un_good KSubsection _ (head_good _ RSubsection _ _)). intros d. split.
  - intros [x|x] [y|y] K E; try discriminate E; f_equal; [apply (article_good d)|apply (division_good d)]; assumption.
  - intros [x|x] K; [apply (article_good d)|apply (division_good d)]; assumption.
Qed.
Lemma section_good : good list_section.
Proof.
  refine (un_good KSection _ (head_good _ RSection _ _)). intros d. split.
  - intros [x|x|x] [y|y|y] K E; try discriminate E; f_equal; [apply (article_good d)|apply (subsection_good d)|apply (division_good d)]; assumption.
  - intros [x|x|x] K; [apply (article_good d)|apply (subsection_good d)|apply (division_good d)]; assumption.
Qed.
Lemma chapter_good : good list_chapter.
Proof.
  refine (un_good KChapter _ (head_good _ RChapter _ _)). intros d. split.
  - intros [x|x] [y|y] K E; try discriminate E; f_equal; [apply (article_good d)|apply (section_good d)]; assumption.
  - intros [x|x] K; [apply (article_good d)|apply (section_good d)]; assumption.
Qed.
Lemma part_good : good list_part.
Proof.
  refine (un_good KPart _ (head_good _ RPart _ _)). intros d. split.
  - intros [x|x] [y|y] K E; try discriminate E; f_equal; [apply (article_good d)|apply (chapter_good d)]; assumption.
  - intros [x|x] K; [apply (article_good d)|apply (chapter_good d)]; assumption.
Qed.
Lemma main_inj : forall x y, known (list_main x) -> list_main x = list_main y -> x = y.
Proof.
  intros [x|x|x|x|x] [y|y|y|y|y] K E; try discriminate E; try (destruct K; left; reflexivity); f_equal;
    [apply (part_good 0)|apply (chapter_good 0)|apply (section_good 0)|apply (article_good 0)]; assumption.
Qed.
Lemma main_piece : forall x, known (list_main x) -> piece_by (q_top 0) (list_main x).
Proof.
  intros [x|x|x|x|x] K; [apply (good_piece _ list_part)|apply (good_piece _ list_chapter)|apply (good_piece _ list_section)
    |apply (good_piece _ list_article)|destruct K; left; reflexivity]; auto using part_good, chapter_good, section_good, article_good.
Qed.

(** The body. *)
Definition no_empty_preamble (b : Knot KLawBody) : Prop := lb_preamble (un KLawBody b) <> Some (mkPreamble []).
Theorem listing_determines : forall title b b', plain_body title b -> plain_body title b' ->
  no_empty_preamble b -> no_empty_preamble b' -> known (list_body b) -> list_body b = list_body b' -> b = b'.
Proof.
  intros title b b' (pre & main & ->) (pre' & main' & ->) N N' K E. assert (K' := K). rewrite E in K'. unfold list_body, no_empty_preamble in *.
  cbn [un lb_preamble lb_main_provision main_children] in *. apply known_app in K as [K1 K2]. apply known_app in K' as [K3 K4].
  assert (U : forall o, known (list_preamble o) -> Forall (fun e => q_top 0 e = false) (list_preamble o)).
  { intros [p|] K; [|constructor]. cbn [list_preamble] in *. apply paragraphs_under in K. eapply Forall_impl; [|exact K]. intros []; cbn; tauto. }
  assert (M : forall m, known (flat_map list_main m) -> starts_with (q_top 0) (flat_map list_main m)).
  { intros m K. apply pieces_start. apply known_flat in K. rewrite Forall_forall in *. intros z Hz. apply main_piece, K, Hz. }
  apply (split_at (q_top 0)) in E as [E1 E2]; auto.
  assert (P0 : forall (p : Knot KPreamble), Some p <> Some (mkPreamble []) -> known (flat_map (list_paragraph true) (un KPreamble p)) ->
    flat_map (list_paragraph true) (un KPreamble p) <> []).
  { intros p Np Kp Ep. apply Np. f_equal. rewrite <- (mk_un _ p). change (mkPreamble []) with (mk KPreamble []). f_equal.
    apply (paragraphs_inj true); assumption. }
  assert (X : pre = pre').
  { destruct pre as [p|], pre' as [p'|]; cbn [list_preamble] in *.
    - f_equal. rewrite <- (mk_un _ p), <- (mk_un _ p'). f_equal. apply (paragraphs_inj true); assumption.
    - destruct (P0 p N K1 E1).
    - destruct (P0 p' N' K3 (eq_sym E1)).
    - reflexivity. }
  subst pre'. f_equal. f_equal. f_equal. f_equal. apply (pieces_inj _ (q_top 0)) in E2; auto using main_inj, main_piece.
Qed.

(** What the machine lists is known. *)
Lemma outline_known : forall lines open m, known (fst (outline_from open m lines)).
Proof.
  assert (A : forall l x, known l -> known (fst x) -> known (fst (add l x))).
  { intros l x H1 H2. unfold add. cbn [fst]. apply known_app. auto. }
  assert (Z : known []) by (intros []).
  induction lines as [|l lines IH]; intros open m; [exact Z|].
  destruct l as [s|n t|n t|n t|n t|n t|n t|n t|i t|o|s]; cbn [outline_from]; cbv zeta;
    repeat match goal with |- context [match ?x with _ => _ end] => lazymatch x with context [outline_from] => fail | _ => destruct x end end;
    try exact Z; try apply IH; (apply A; [intros H; repeat (destruct H as [H|H]; [discriminate H|]); exact H|apply IH]).
Qed.
Theorem parser_exact : forall title lines fuel b, length lines < fuel ->
  (parse_lines fuel title lines = Some (Ok b) <->
   plain_body title b /\ no_empty_preamble b /\ exists rest, outline lines = (list_body b, Ends rest)).
Proof.
  assert (NE : forall fuel title lines b, parse_lines fuel title lines = Some (Ok b) -> no_empty_preamble b).
  { intros fuel title lines b E. apply (body_is_shaped (fun _ => True)) in E; [|apply Forall_forall; auto].
    destruct E as (pre & main & -> & [->|(ts & ps & -> & H & _ & P)] & _); unfold no_empty_preamble; cbn [un lb_preamble]; [discriminate|].
    intros Q. injection Q as ->. inversion P. subst ts. apply H. reflexivity. }
  intros title lines fuel b L. split.
  - intros E. destruct (parsed fuel title lines b E) as [P R]. eauto.
  - intros (P & N & rest & E). pose proof (parse_lines_outline title lines) as H. rewrite E in H. destruct H as (b' & P' & Lb & H).
    specialize (H fuel L). rewrite H. do 2 f_equal. apply (listing_determines title); auto; [exact (NE _ _ _ _ H)|].
    rewrite Lb. change (list_body b) with (fst (list_body b, Ends rest)). rewrite <- E. apply outline_known.
Qed.
