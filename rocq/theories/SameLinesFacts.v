(** When two sequences of lines give the same law body. *)
From Coq Require Import String List NArith Bool Arith Lia.
From Verif Require Import Base NumStr Ast Regex NumText NumTextSpec TextParse TextSpec TextFacts OutlineFacts ShapeSpec ShapeFacts
  ListingFacts ApiSpec DebugFacts SameLinesSpec.
Import ListNotations.
Open Scope list_scope.

(** ** Lost captions *)
Lemma kept_outline : forall ls open m m', snd (outline_from open m ls) = Ends [] ->
  (m = m' \/ ((exists c, m = MTop c) /\ forall n t r, ls <> LArticle n t :: r)) ->
  outline_from open m' (kept_lines ls) = outline_from open m ls.
Proof.
  induction ls as [|l ls IH]; intros open m m' E H; [reflexivity|].
  assert (I : forall o x, snd (outline_from o x ls) = Ends [] -> outline_from o x (kept_lines ls) = outline_from o x ls).
  { intros o x Ex. apply IH; auto. }
  assert (C : forall s, l = LCaption s -> outline_from open m' (kept_lines (l :: ls)) = outline_from open m (l :: ls)).
  { intros s ->. cbn [outline_from] in E |- *.
    assert (J : (forall n t r, ls <> LArticle n t :: r) -> outline_from open m' (kept_lines ls) = outline_from open (MTop (Some s)) ls).
    { intros Hn. apply IH; [exact E|]. right. eauto. }
    destruct ls as [|l' ls']; [exact (J ltac:(discriminate))|].
    destruct l'; try (apply J; discriminate). exact (I open (MTop (Some s)) E). }
  destruct H as [->|[[c ->] H]].
  - destruct l as [s|n t|n t|n t|n t|n t|n t|n t|i t|o|s]; try (eapply C; reflexivity); clear C;
      cbn [kept_lines outline_from] in E |- *; cbv zeta in E |- *;
      repeat match goal with |- context [match ?x with _ => _ end] => lazymatch x with context [outline_from] => fail | _ => destruct x end end;
      cbn [snd] in E; try discriminate E; unfold add in E |- *; cbn [snd] in E; rewrite I by exact E; reflexivity.
  - destruct l as [s|n t|n t|n t|n t|n t|n t|n t|i t|o|s]; try (eapply C; reflexivity); clear C; try (destruct (H n t ls); reflexivity);
      cbn [kept_lines outline_from] in E |- *; cbv zeta in E |- *; try discriminate E;
      match goal with |- context [place ?r ?o] => destruct (place r o) end; cbn [snd] in E; try discriminate E;
      unfold add in E |- *; cbn [snd] in E; rewrite I by exact E; reflexivity.
Qed.
Lemma kept_levels : forall ls open, levels open (kept_lines ls) = levels open ls.
Proof.
  induction ls as [|l ls IH]; intros open; [reflexivity|]. destruct l; cbn [kept_lines levels]; auto.
  - destruct ls as [|[]]; apply IH.
  - destruct (next_items _ _); [rewrite IH|]; reflexivity.
Qed.

(** Captions only directly before articles. *)
Inductive neat : list line -> Prop :=
| neat_nil : neat []
| neat_line l r : (forall s, l <> LCaption s) -> neat r -> neat (l :: r)
| neat_article s n t r : neat r -> neat (LCaption s :: LArticle n t :: r).
Lemma kept_neat : forall ls, neat (kept_lines ls).
Proof.
  induction ls as [|l ls IH]; [constructor|]. destruct l; try (cbn [kept_lines]; apply neat_line; [discriminate|exact IH]).
  cbn [kept_lines]. destruct ls as [|l' ls']; [exact IH|]. destruct l'; try exact IH.
  cbn [kept_lines] in *. inversion IH; subst. apply neat_article. assumption.
Qed.
Lemma kept_words : forall P ls, Forall (fun l => P (words_of l)) ls -> Forall (fun l => P (words_of l)) (kept_lines ls).
Proof.
  intros P ls H. induction H as [|l ls Hl Hs IH]; [constructor|]. destruct l; try (cbn [kept_lines]; constructor; assumption).
  cbn [kept_lines]. destruct ls as [|[]]; try exact IH. constructor; assumption.
Qed.

(** ** What a line adds *)
Definition head_line (r : rank) (n : ArticleNumber) (t : ustr) : line :=
  match r with
  | RPart => LPart n t | RChapter => LChapter n t | RSection => LSection n t
  | RSubsection => LSubsection n t | RDivision => LDivision n t
  end.
Definition pending_caption (m : mode) : option (Caption Knot) :=
  match m with MTop (Some s) => Some (mkCaption (as_text s) None) | _ => None end.
Inductive emits (open : list rank) : mode -> line -> list entry -> list rank -> mode -> Prop :=
| em_head m r n t up : place r open = Some up ->
    emits open m (head_line r n t) [EHead (length up) r (as_text t) n (says_deleted t) false] (r :: up) (MTop None)
| em_art m n t : emits open m (LArticle n t)
    [EArt (length open) (pending_caption m) (as_text []) None n (says_deleted t) false; paragraph false (mkAN 1 [] []); sentence 1 t]
    open (MArt [] 2)
| em_par its k n t : emits open (MArt its k) (LParagraph n t) [paragraph false n; sentence 1 t] open (MArt [] 2)
| em_item its its' k i t : next_items (inum_pattern i) its = Some its' ->
    emits open (MArt its k) (LItem i t)
      [EItem (length its' - 1) None [] (Some (mkAN (inum_base i) (inum_eda i) (inum_range i))) (says_deleted t) false; sentence 1 t]
      open (MArt its' 2)
| em_pre k s : emits open (MPre k) (LText s) [paragraph true (mkAN k [] []); sentence 0 s] open (MPre (k + 1))
| em_text its k s : emits open (MArt its k) (LText s) [sentence k s] open (MArt its (k + 1)).

Lemma emitted : forall open m l r, (forall s, l <> LCaption s) -> snd (outline_from open m (l :: r)) = Ends [] ->
  exists es o' m', emits open m l es o' m' /\ outline_from open m (l :: r) = add es (outline_from o' m' r).
Proof.
  intros open m l r Hl E. destruct l as [s|n t|n t|n t|n t|n t|n t|n t|i t|o|s]; cbn [outline_from] in E |- *; cbv zeta in E |- *.
  - destruct (Hl s eq_refl).
  - destruct (place RPart open) as [up|] eqn:P; [|discriminate E]. do 3 eexists. split; [apply (em_head open m RPart); exact P|reflexivity].
  - destruct (place RChapter open) as [up|] eqn:P; [|discriminate E]. do 3 eexists. split; [apply (em_head open m RChapter); exact P|reflexivity].
  - destruct (place RSection open) as [up|] eqn:P; [|discriminate E]. do 3 eexists. split; [apply (em_head open m RSection); exact P|reflexivity].
  - destruct (place RSubsection open) as [up|] eqn:P; [|discriminate E]. do 3 eexists. split; [apply (em_head open m RSubsection); exact P|reflexivity].
  - destruct (place RDivision open) as [up|] eqn:P; [|discriminate E]. do 3 eexists. split; [apply (em_head open m RDivision); exact P|reflexivity].
  - do 3 eexists. split; [apply em_art|reflexivity].
  - destruct m; try discriminate E. do 3 eexists. split; [apply em_par|reflexivity].
  - destruct m as [| |its k]; try discriminate E. destruct (next_items (inum_pattern i) its) as [its'|] eqn:Q; [|discriminate E].
    do 3 eexists. split; [apply em_item; exact Q|reflexivity].
  - discriminate E.
  - destruct m; try discriminate E; do 3 eexists; (split; [constructor|reflexivity]).
Qed.
Lemma next_items_some : forall p its its', next_items p its = Some its' -> 1 <= length its'.
Proof.
  intros p [|now up] its' H; cbn [next_items] in H.
  - injection H as <-. cbn. lia.
  - destruct (pat_eqb p now); [injection H as <-; cbn; lia|]. destruct up as [|pa up]; [injection H as <-; cbn; lia|].
    destruct (pat_eqb p pa); [injection H as <-; cbn; lia|]. destruct (Nat.ltb _ _); [injection H as <-; cbn; lia|discriminate H].
Qed.

(** ** Two runs side by side *)
Inductive near : mode -> mode -> list ItemPattern -> list ItemPattern -> Prop :=
| near_art its its' k : length its = length its' -> near (MArt its k) (MArt its' k) its its'
| near_pre k o o' : near (MPre k) (MPre k) o o'
| near_top c o o' : near (MTop c) (MTop c) o o'.
Lemma near_caption : forall m m' o o', near m m' o o' -> pending_caption m = pending_caption m'.
Proof. intros m m' o o' []; reflexivity. Qed.

Lemma levels_step : forall open m l es o' m' its r, emits open m l es o' m' -> (forall i k, m = MArt i k -> its = i) ->
  exists here its', levels its (l :: r) = here ++ levels its' r /\ (forall i k, m' = MArt i k -> its' = i) /\
    here = match l with LItem _ _ => match es with EItem d _ _ _ _ _ :: _ => [d] | _ => [] end | _ => [] end.
Proof.
  intros open m l es o' m' its r H Hm. destruct H.
  - exists [], its. split; [destruct r0; reflexivity|]. split; [discriminate|destruct r0; reflexivity].
  - exists [], []. repeat split. intros i k H. injection H as <- _. reflexivity.
  - exists [], []. repeat split. intros i k' H. injection H as <- _. reflexivity.
  - rewrite (Hm _ _ eq_refl). exists [length its' - 1], its'. cbn [levels]. rewrite H. repeat split. intros i' k' H'. injection H' as <- _. reflexivity.
  - exists [], its. repeat split. discriminate.
  - exists [], its. rewrite (Hm _ _ eq_refl). repeat split. intros i' k' H'. injection H' as <- _. reflexivity.
Qed.

Definition scalar_line (l : line) : Prop := Forall scalar (words_of l).
Lemma enc_same : forall t t', Forall scalar t -> Forall scalar t' -> enc t = enc t' -> t = t'.
Proof. intros t t' H H' E. rewrite <- (chars_enc t H), <- (chars_enc t' H'), E. reflexivity. Qed.
Lemma as_text_same : forall t t', Forall scalar t -> Forall scalar t' -> as_text t = as_text t' -> t = t'.
Proof. intros t t' H H' E. apply enc_same; auto. unfold as_text in E. injection E as E. exact E. Qed.
Lemma sentence_same : forall k k' t t', Forall scalar t -> Forall scalar t' -> sentence k t = sentence k' t' -> t = t'.
Proof. intros k k' t t' H H' E. apply enc_same; auto. unfold sentence in E. injection E as E _. exact E. Qed.

(** Lines that add the same are alike, and what follows goes on in like modes. *)
Lemma emits_same : forall open m m' its its' l l' es es' o1 o1' m1 m1' x x', near m m' its its' -> (forall s, m <> MTop (Some s)) ->
  emits open m l es o1 m1 -> emits open m' l' es' o1' m1' -> scalar_line l -> scalar_line l' -> es ++ x = es' ++ x' ->
  like l l' /\ o1 = o1' /\ x = x' /\ es = es' /\ (forall s, m1 <> MTop (Some s)) /\
  forall i i', (forall a k, m1 = MArt a k -> i = a) -> (forall a k, m1' = MArt a k -> i' = a) -> near m1 m1' i i'.
Proof.
  intros open m m' its its' l l' es es' o1 o1' m1 m1' x x' N Q A B S S' E. unfold scalar_line in *.
  destruct A; destruct B; cbn [app] in E; try discriminate E.
  all: unfold sentence, paragraph, as_text in E; injection E; clear E; intros; cbn [words_of] in *.
  all: try match goal with r : rank, r' : rank |- _ => destruct r, r'; try discriminate; cbn [head_line words_of] in * end.
  all: repeat match goal with X : enc _ = enc _ |- _ => apply enc_same in X; [|assumption|assumption] end; subst.
  all: try match goal with X : place ?r ?o = Some _, Y : place ?r ?o = Some _ |- _ => rewrite X in Y; injection Y as -> end.
  all: try (inversion N; subst).
  all: split; [try reflexivity; cbn [like]; auto|].
  all: split; [reflexivity|].
  all: split; [reflexivity|].
  all: split; [congruence|].
  all: split; [discriminate|].
  all: intros i1 i2 Hi Hi'; try rewrite (Hi _ _ eq_refl), (Hi' _ _ eq_refl); try (constructor; reflexivity); try (constructor; assumption).
  constructor. apply next_items_some in H, H0. lia.
Qed.

Lemma snd_add : forall l x, snd (add l x) = snd x.
Proof. reflexivity. Qed.
Lemma captioned : forall open m s n t r, outline_from open m (LCaption s :: LArticle n t :: r) =
  add [EArt (length open) (Some (mkCaption (as_text s) None)) (as_text []) None n (says_deleted t) false;
       paragraph false (mkAN 1 [] []); sentence 1 t] (outline_from open (MArt [] 2) r).
Proof. reflexivity. Qed.
Lemma emits_first : forall open m l es o' m', (forall s, m <> MTop (Some s)) -> emits open m l es o' m' ->
  exists e r, es = e :: r /\ forall d c t o n x y, e <> EArt d (Some c) t o n x y.
Proof.
  intros open m l es o' m' Q H. destruct H; do 2 eexists; (split; [reflexivity|]); try discriminate.
  destruct m as [|[s|]|]; try discriminate. destruct (Q s eq_refl).
Qed.

Lemma same_listing : forall x, neat x -> forall x' open m m' i i', neat x' -> Forall scalar_line x -> Forall scalar_line x' ->
  near m m' i i' -> (forall s, m <> MTop (Some s)) -> (forall a k, m = MArt a k -> i = a) -> (forall a k, m' = MArt a k -> i' = a) ->
  snd (outline_from open m x) = Ends [] -> snd (outline_from open m' x') = Ends [] ->
  fst (outline_from open m x) = fst (outline_from open m' x') -> Forall2 like x x' /\ levels i x = levels i' x'.
Proof.
  induction 1 as [|l r Hl Hr IH|s n t r Hr IH]; intros x' open m m' i i' X' S S' N Q Hi Hi' E E' F.
  - destruct X' as [|l' r' Hl' Hr'|s' n' t' r' Hr'].
    + split; [constructor|reflexivity].
    + destruct (emitted _ _ _ _ Hl' E') as (es & o1 & m1 & A & O). rewrite O in F. cbn in F.
      assert (Q' : forall s, m' <> MTop (Some s)) by (inversion N; subst; auto; discriminate).
      destruct (emits_first _ _ _ _ _ _ Q' A) as (e & es' & -> & _). discriminate F.
    + rewrite captioned in F. discriminate F.
  - destruct (emitted _ _ _ _ Hl E) as (es & o1 & m1 & A & O). rewrite O in E, F. rewrite snd_add in E.
    inversion S as [|? ? Sl Sr]; subst. destruct X' as [|l' r' Hl' Hr'|s' n' t' r' Hr'].
    + destruct (emits_first _ _ _ _ _ _ Q A) as (e & es' & -> & _). discriminate F.
    + destruct (emitted _ _ _ _ Hl' E') as (es' & o1' & m1' & A' & O'). rewrite O' in E', F. rewrite snd_add in E'. cbn [add fst] in F.
      inversion S' as [|? ? Sl' Sr']; subst.
      destruct (emits_same _ _ _ _ _ _ _ _ _ _ _ _ _ _ _ N Q A A' Sl Sl' F) as (L & <- & F' & <- & Q1 & N1).
      destruct (levels_step _ _ _ _ _ _ i r A Hi) as (h & i1 & V & Hi1 & Eh).
      destruct (levels_step _ _ _ _ _ _ i' r' A' Hi') as (h' & i1' & V' & Hi1' & Eh').
      destruct (IH r' o1 m1 m1' i1 i1' Hr' Sr Sr' (N1 _ _ Hi1 Hi1') Q1 Hi1 Hi1' E E' F') as [H1 H2].
      split; [constructor; assumption|]. rewrite V, V', H2. f_equal. subst h h'.
      destruct l, l'; cbn [like] in L; try reflexivity; discriminate L.
    + rewrite captioned in F. destruct (emits_first _ _ _ _ _ _ Q A) as (e & es' & -> & Z). cbn [add fst app] in F. injection F as F _.
      destruct (Z _ _ _ _ _ _ _ F).
  - rewrite captioned in E, F. rewrite snd_add in E. inversion S as [|? ? S1 S2]; subst. inversion S2 as [|? ? S3 S4]; subst.
    assert (Q' : forall s, m' <> MTop (Some s)) by (inversion N; subst; auto; discriminate).
    destruct X' as [|l' r' Hl' Hr'|s' n' t' r' Hr'].
    + discriminate F.
    + destruct (emitted _ _ _ _ Hl' E') as (es & o1 & m1 & A & O). rewrite O in F.
      destruct (emits_first _ _ _ _ _ _ Q' A) as (e & es' & -> & Z). cbn [add fst app] in F. injection F as F _.
      destruct (Z _ _ _ _ _ _ _ (eq_sym F)).
    + rewrite captioned in E', F. rewrite snd_add in E'. inversion S' as [|? ? S1' S2']; subst. inversion S2' as [|? ? S3' S4']; subst.
      unfold scalar_line in S1, S1', S3, S3'. cbn [words_of] in *. cbn [add fst app] in F. unfold sentence, as_text in F. injection F; clear F; intros F F1 F2 F3 F4.
      repeat match goal with Z : enc _ = enc _ |- _ => apply enc_same in Z; [|assumption|assumption] end. subst.
      destruct (IH r' open (MArt [] 2) (MArt [] 2) [] []) as [H1 H2]; auto; try discriminate; try (constructor; reflexivity);
        try (intros a k Ha; injection Ha as <- _; reflexivity).
      split; [|exact H2]. constructor; [reflexivity|]. constructor; [reflexivity|exact H1].
Qed.

Lemma same_entries : forall x x', Forall2 like x x' -> forall open m m' i i', near m m' i i' ->
  (forall a k, m = MArt a k -> i = a) -> (forall a k, m' = MArt a k -> i' = a) -> levels i x = levels i' x' ->
  snd (outline_from open m x) = Ends [] -> snd (outline_from open m' x') = Ends [] ->
  fst (outline_from open m x) = fst (outline_from open m' x').
Proof.
  induction 1 as [|l l' r r' L Hs IH]; intros open m m' i i' N Hi Hi' V E E'; [reflexivity|].
  destruct l as [s|n t|n t|n t|n t|n t|n t|n t|it t|o|s]; try (cbn [like] in L; subst l').
  - cbn [outline_from levels] in *. apply (IH open _ _ i i'); auto; try discriminate. constructor.
  - cbn [outline_from levels] in *. cbv zeta in *. destruct (place RPart open) as [up|]; [|reflexivity]. cbn [add fst snd] in *. f_equal.
    apply (IH _ _ _ i i'); auto; try discriminate. constructor.
  - cbn [outline_from levels] in *. cbv zeta in *. destruct (place RChapter open) as [up|]; [|reflexivity]. cbn [add fst snd] in *. f_equal.
    apply (IH _ _ _ i i'); auto; try discriminate. constructor.
  - cbn [outline_from levels] in *. cbv zeta in *. destruct (place RSection open) as [up|]; [|reflexivity]. cbn [add fst snd] in *. f_equal.
    apply (IH _ _ _ i i'); auto; try discriminate. constructor.
  - cbn [outline_from levels] in *. cbv zeta in *. destruct (place RSubsection open) as [up|]; [|reflexivity]. cbn [add fst snd] in *. f_equal.
    apply (IH _ _ _ i i'); auto; try discriminate. constructor.
  - cbn [outline_from levels] in *. cbv zeta in *. destruct (place RDivision open) as [up|]; [|reflexivity]. cbn [add fst snd] in *. f_equal.
    apply (IH _ _ _ i i'); auto; try discriminate. constructor.
  - cbn [outline_from levels] in *. cbv zeta in *. cbn [add fst snd] in *. pose proof (near_caption _ _ _ _ N) as C. unfold pending_caption in C. rewrite C. f_equal.
    apply (IH open (MArt [] 2) (MArt [] 2) [] []); auto; try (constructor; reflexivity); intros a k Ha; injection Ha as <- _; reflexivity.
  - cbn [outline_from levels] in *. cbv zeta in *. destruct m; try discriminate E. destruct m'; try discriminate E'. cbn [add fst snd] in *. f_equal.
    apply (IH open (MArt [] 2) (MArt [] 2) [] []); auto; try (constructor; reflexivity); intros a k' Ha; injection Ha as <- _; reflexivity.
  - destruct l' as [| | | | | | | |it' t'| |]; cbn [like] in L; try discriminate L. destruct L as (L1 & L2 & L3 & <-).
    cbn [outline_from levels] in *. cbv zeta in *. destruct m as [| |its k]; try discriminate E. destruct m' as [| |its' k']; try discriminate E'.
    rewrite (Hi _ _ eq_refl), (Hi' _ _ eq_refl) in V. destruct (next_items (inum_pattern it) its) as [a|] eqn:Na; [|discriminate E].
    destruct (next_items (inum_pattern it') its') as [a'|] eqn:Na'; [|discriminate E']. injection V as V0 V. cbn [add fst snd] in *.
    rewrite V0, L1, L2, L3. f_equal. apply (IH open (MArt a 2) (MArt a' 2) a a'); auto;
      try (intros b k2 Hb; injection Hb as <- _; reflexivity). constructor. apply next_items_some in Na, Na'. lia.
  - reflexivity.
  - cbn [outline_from levels] in *. destruct N as [its its' k Ln|k o o'|c o o'].
    + cbn [add fst snd] in *. f_equal. apply (IH open (MArt its (k + 1)) (MArt its' (k + 1)) its its'); auto;
        try (intros b k2 Hb; injection Hb as <- _; reflexivity). constructor. exact Ln.
    + cbn [add fst snd] in *. f_equal. apply (IH open _ _ o o'); auto; try discriminate. constructor.
    + reflexivity.
Qed.

(** ** Lines that are read *)
Theorem lines_same_outline : forall a a', readable a -> readable a' -> Forall scalar_line a -> Forall scalar_line a' ->
  (fst (outline a) = fst (outline a') <-> same_lines a a').
Proof.
  intros a a' R R' S S'. destruct (readable_outline _ R) as [es E]. destruct (readable_outline _ R') as [es' E'].
  assert (K : outline (kept_lines a) = outline a) by (apply kept_outline; [unfold outline in E; rewrite E; reflexivity|left; reflexivity]).
  assert (K' : outline (kept_lines a') = outline a') by (apply kept_outline; [unfold outline in E'; rewrite E'; reflexivity|left; reflexivity]).
  assert (D : snd (outline (kept_lines a)) = Ends []) by (rewrite K, E; reflexivity).
  assert (D' : snd (outline (kept_lines a')) = Ends []) by (rewrite K', E'; reflexivity).
  rewrite <- K, <- K'. unfold same_lines. rewrite <- (kept_levels a), <- (kept_levels a'). split.
  - intros F. apply (same_listing _ (kept_neat a) _ [] (MPre 0) (MPre 0) [] []); auto using kept_neat; try discriminate; try constructor.
    + apply (kept_words (Forall scalar)), S.
    + apply (kept_words (Forall scalar)), S'.
  - intros [F V]. apply (same_entries _ _ F [] (MPre 0) (MPre 0) [] []); auto; try discriminate. constructor.
Qed.

Lemma read_listing : forall fuel title ls b, parse_lines fuel title ls = Some (Ok b) ->
  exists a, read_part ls a /\ list_body b = fst (outline a).
Proof.
  intros fuel title ls b E. destruct (parsed _ _ _ _ E) as [_ [rest O]]. destruct (body_contents _ _ _ _ E) as (_ & a & rs & -> & R & H & _).
  exists a. split; [exists rs; auto|]. destruct H as [->|(l & r & -> & M)].
  - rewrite app_nil_r in O. rewrite O. reflexivity.
  - destruct (outline_after a l r R) as [Z _]. destruct (Z M) as [_ Z2]. rewrite O in Z2. exact Z2.
Qed.
Lemma parsed_preamble : forall fuel title lines b, parse_lines fuel title lines = Some (Ok b) -> no_empty_preamble b.
Proof.
  intros fuel title lines b E. apply (body_is_shaped (fun _ => True)) in E; [|apply Forall_forall; auto].
  destruct E as (pre & main & -> & [->|(ts & ps & -> & H & _ & P)] & _); unfold no_empty_preamble; cbn [un lb_preamble]; [discriminate|].
  intros Q. injection Q as ->. inversion P. subst ts. apply H. reflexivity.
Qed.
Lemma read_part_in : forall ls a (P : line -> Prop), read_part ls a -> Forall P ls -> Forall P a.
Proof. intros ls a P (rest & -> & _) H. apply Forall_app in H. tauto. Qed.

Theorem bodies_same : forall title title' fuel fuel' ls ls' b b', Forall scalar title -> Forall scalar title' ->
  Forall scalar_line ls -> Forall scalar_line ls' ->
  parse_lines fuel title ls = Some (Ok b) -> parse_lines fuel' title' ls' = Some (Ok b') ->
  exists a a', read_part ls a /\ read_part ls' a' /\ (b = b' <-> title = title' /\ same_lines a a').
Proof.
  intros title title' fuel fuel' ls ls' b b' T T' S S' E E'. destruct (read_listing _ _ _ _ E) as (a & P & L).
  destruct (read_listing _ _ _ _ E') as (a' & P' & L'). exists a, a'. split; [exact P|]. split; [exact P'|].
  assert (X : fst (outline a) = fst (outline a') <-> same_lines a a').
  { apply lines_same_outline; [destruct P as (? & _ & R & _); exact R|destruct P' as (? & _ & R & _); exact R|exact (read_part_in _ _ _ P S)|exact (read_part_in _ _ _ P' S')]. }
  rewrite <- L, <- L' in X. rewrite <- X. destruct (parsed _ _ _ _ E) as [B _]. destruct (parsed _ _ _ _ E') as [B' _]. split.
  - intros <-. split; [|reflexivity]. destruct B as (p & m & ->). destruct B' as (p' & m' & Z). injection Z as Z _ _. apply enc_same; assumption.
  - intros [<- Z]. apply (listing_determines title); auto; [exact (parsed_preamble _ _ _ _ E)|exact (parsed_preamble _ _ _ _ E')|].
    rewrite L. apply outline_known.
Qed.
