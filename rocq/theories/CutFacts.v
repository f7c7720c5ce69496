(** Proofs about reading plain text in parts. *)
From Coq Require Import String List NArith Arith Bool Lia.
From Verif Require Import Base NumStr Ast Regex NumText NumTextSpec TextParse TextSpec TextFacts OutlineFacts ListingFacts
  ClassifyFacts KnotFacts CutSpec.
Import ListNotations.
Open Scope list_scope.

(** ** Where the machine is *)
Definition of_rank (r : rank) (l : line) : Prop :=
  match l, r with
  | LPart _ _, RPart | LChapter _ _, RChapter | LSection _ _, RSection | LSubsection _ _, RSubsection
  | LDivision _ _, RDivision => True
  | _, _ => False
  end.
Lemma close_in : forall r r' o, In r (close_to r' o) -> In r o.
Proof.
  induction o as [|x o IH]; intros H; [exact H|]. cbn [close_to] in H. destruct (rank_eqb x r'); [exact H|right; auto].
Qed.
Lemma place_in : forall r r' o o', place r' o = Some o' -> In r o' -> In r o.
Proof.
  intros r r' o o' P H. destruct r'; cbn [place] in P.
  - injection P as <-. destruct H.
  - injection P as <-. apply (close_in _ _ _ H).
  - injection P as <-. apply (close_in _ _ _ H).
  - destruct (close_to RSection o) eqn:E; [discriminate P|]. injection P as <-. rewrite <- E in H. apply (close_in _ _ _ H).
  - destruct (close_to RSubsection o) eqn:E; [discriminate P|]. injection P as <-. rewrite <- E in H. apply (close_in _ _ _ H).
Qed.
Lemma step_open : forall o m l o' m' r, step (o, m) l = Next (o', m') -> In r o' -> In r o \/ of_rank r l.
Proof.
  intros o m l o' m' r E H. destruct l; cbn [step] in E;
    try match type of E with context [place ?k o] => destruct (place k o) as [up|] eqn:P; [|discriminate E];
      injection E as <- <-; destruct H as [<-|H]; [right; exact I|left; exact (place_in _ _ _ _ P H)] end;
    try (injection E as <- <-; auto; fail); try discriminate E.
  - destruct m; try discriminate E. injection E as <- <-. auto.
  - destruct m; try discriminate E. destruct (next_items _ _); [|discriminate E]. injection E as <- <-. auto.
  - destruct m; try discriminate E; injection E as <- <-; auto.
Qed.
Lemma run_open : forall a o m r, steps ([], MPre 0) a = Next (o, m) -> In r o -> exists l, In l a /\ of_rank r l.
Proof.
  induction a as [|l a IH] using rev_ind; intros o m r E H.
  - injection E as <- <-. destruct H.
  - rewrite steps_app in E. destruct (steps ([], MPre 0) a) as [[o0 m0]| | |]; try discriminate E.
    cbn [steps] in E. destruct (step (o0, m0) l) as [[o1 m1]| | |] eqn:S; try discriminate E. injection E as <- <-.
    destruct (step_open _ _ _ _ _ _ S H) as [X|X].
    + destruct (IH _ _ _ eq_refl X) as [x [I1 I2]]. exists x. split; [apply in_or_app; left; exact I1|exact I2].
    + exists l. split; [apply in_or_app; right; left; reflexivity|exact X].
Qed.
Lemma run_caption : forall a o s, steps ([], MPre 0) a = Next (o, MTop (Some s)) -> ends_in_caption a.
Proof.
  intros a o s E. destruct a as [|l a _] using rev_ind; [discriminate E|]. exists a, s. f_equal. f_equal.
  rewrite steps_app in E. destruct (steps ([], MPre 0) a) as [[o0 m0]| | |]; try discriminate E.
  cbn [steps] in E. destruct (step (o0, m0) l) as [st| | |] eqn:S; try discriminate E. injection E as ->.
  destruct l; cbn [step] in S; try (destruct (place _ o0); discriminate S); try discriminate S.
  - injection S as _ <-. reflexivity.
  - destruct m0; discriminate S.
  - destruct m0; try discriminate S. destruct (next_items _ _); discriminate S.
  - destruct m0; discriminate S.
Qed.
Lemma close_none : forall r o, ~ In r o -> close_to r o = [].
Proof.
  intros r o. induction o as [|x o IH]; intros H; [reflexivity|]. cbn [close_to]. destruct (rank_eqb x r) eqn:E.
  - destruct H. left. destruct x, r; try discriminate E; reflexivity.
  - apply IH. intros X. apply H. right. exact X.
Qed.

(** A line that starts anew is read as the first one. *)
Lemma anew : forall a o m l b, steps ([], MPre 0) a = Next (o, m) -> starts_anew a l ->
  outline_from o m (l :: b) = outline (l :: b).
Proof.
  intros a o m l b E H.
  assert (NH : Forall (fun x => ~ is_heading x) a -> o = []).
  { intros F. destruct o as [|r o]; [reflexivity|]. exfalso.
    destruct (run_open _ _ _ r E (or_introl eq_refl)) as [x [I1 I2]].
    rewrite Forall_forall in F. apply (F x I1). destruct x, r; try exact I2; exact I. }
  unfold outline. destruct l; try (destruct H; fail); cbn [starts_anew] in H.
  - rewrite (NH H). reflexivity.
  - reflexivity.
  - cbn [outline_from place]. rewrite (close_none RPart o); [reflexivity|]. intros X.
    destruct (run_open _ _ _ _ E X) as [x [I1 I2]]. rewrite Forall_forall in H. apply (H x I1). destruct x; try destruct I2; exact I.
  - cbn [outline_from place]. rewrite (close_none RChapter o); [reflexivity|]. intros X.
    destruct (run_open _ _ _ _ E X) as [x [I1 I2]]. rewrite Forall_forall in H. apply (H x I1). destruct x; try destruct I2; exact I.
  - destruct H as [F C]. rewrite (NH F). cbn [outline_from]. destruct m as [k|[s|]|its k]; try reflexivity.
    destruct C. exact (run_caption _ _ _ E).
Qed.

(** ** Parts *)
Lemma no_preamble : forall title fuel l b v, starts_anew [] l -> parse_lines fuel title (l :: b) = Some (Ok v) ->
  exists mb, v = plain title None mb.
Proof.
  intros title fuel l b v H E. destruct (parsed _ _ _ _ E) as [(pre & main & ->) [rest O]].
  exists main. unfold plain. f_equal. f_equal. destruct pre as [p|]; [exfalso|reflexivity].
  assert (E' : parse_lines (fuel + S (length (l :: b))) title (l :: b) =
    Some (Ok (mkLawBody (mkLawBodyF (Some (mkLawTitle (mkLawTitleF None None None (as_text title)))) [] None None
      (Some p) (mkMain (mkMainF main None)) [] [] [] [] [] [] [])))).
  { apply (parse_lines_more fuel); [lia|exact E]. }
  apply parser_exact in E'; [|lia]. destruct E' as (_ & N & _).
  pose proof (outline_preamble (l :: b) [] (MPre 0)) as P. change (outline_from [] (MPre 0)) with outline in P. rewrite O in P.
  cbn [fst] in P. assert (L : leading_texts (l :: b) = 0) by (destruct l; try destruct H; reflexivity).
  rewrite L in P. cbn [seq map] in P. unfold list_body in P. cbn [un lb_preamble lb_main_provision] in P.
  unfold preamble_numbers in P. rewrite flat_map_app in P. apply app_eq_nil in P as [P _].
  unfold no_empty_preamble in N. cbn [un lb_preamble] in N. cbn [list_preamble] in P.
  destruct (un KPreamble p) as [|x r] eqn:U.
  - apply N. f_equal. refine (_ : p = mkPreamble []).
    rewrite <- (KnotFacts.mk_un KPreamble p), U. reflexivity.
  - cbn [flat_map list_paragraph app] in P. discriminate P.
Qed.

Lemma fits : forall title lines fuel v rest, length lines < fuel -> plain_body title v -> no_empty_preamble v ->
  outline lines = (list_body v, Ends rest) -> parse_lines fuel title lines = Some (Ok v).
Proof. intros title lines fuel v rest L P N O. apply parser_exact; eauto. Qed.

Theorem parts : forall title a l b fuel, readable a -> starts_anew a l -> length (a ++ l :: b) < fuel ->
  exists pre ma, parse_lines fuel title a = Some (Ok (plain title pre ma)) /\
  match parse_lines fuel title (l :: b) with
  | Some (Ok v) => exists mb, v = plain title None mb /\
      parse_lines fuel title (a ++ l :: b) = Some (Ok (plain title pre (ma ++ mb)))
  | r => parse_lines fuel title (a ++ l :: b) = r
  end.
Proof.
  intros title a l b fuel R H L. assert (La : length a < fuel) by (rewrite app_length in L; lia).
  assert (Lb : length (l :: b) < fuel) by (rewrite app_length in L; lia).
  destruct (body_exists title a R) as [va [Ea _]]. specialize (Ea fuel La).
  assert (Xa := Ea). apply parser_exact in Xa; [|exact La]. destruct Xa as (Pa & Na & ra & Oa).
  assert (Pa' := Pa). destruct Pa' as (pre & ma & ->). exists pre, ma. split; [exact Ea|].
  apply readable_run in R as [[o m] R]. pose proof (outline_run a [] (MPre 0)) as O. rewrite R in O. destruct O as [es O].
  assert (Oab : outline (a ++ l :: b) = add es (outline (l :: b))).
  { unfold outline at 1. rewrite O. f_equal. exact (anew _ _ _ _ _ R H). }
  assert (Es : es = list_body (plain title pre ma)).
  { specialize (O []). rewrite app_nil_r in O. unfold outline in Oa. rewrite O in Oa. unfold add in Oa. cbn [outline_from fst snd] in Oa.
    rewrite app_nil_r in Oa. injection Oa as -> _. reflexivity. }
  assert (Hn : starts_anew [] l).
  { destruct l; cbn [starts_anew] in *; auto. split; [constructor|]. intros (x & s & X). destruct x; discriminate X. }
  pose proof (parse_lines_outline title (a ++ l :: b)) as G. rewrite Oab in G.
  pose proof (parse_lines_outline title (l :: b)) as Gb.
  destruct (outline (l :: b)) as [eb [rest| |]] eqn:Ob; cbn [add fst snd] in G.
  - destruct Gb as (vb & _ & Lvb & Gb). specialize (Gb fuel Lb). rewrite Gb.
    destruct (no_preamble _ _ _ _ _ Hn Gb) as [mb ->]. exists mb. split; [reflexivity|].
    apply (fits _ _ _ _ rest L); [do 2 eexists; reflexivity|exact Na|]. rewrite Oab. unfold add. cbn [fst snd]. f_equal.
    rewrite Es, <- Lvb. unfold list_body, plain. cbn [un lb_preamble lb_main_provision main_children list_preamble app].
    rewrite flat_map_app, app_assoc. reflexivity.
  - rewrite (Gb fuel Lb). apply G, L.
  - rewrite (Gb fuel). apply G.
Qed.

(** What follows lines that are not read to the end does not matter. *)
Theorem unread_end : forall title a b fuel, ~ readable a -> length (a ++ b) < fuel ->
  parse_lines fuel title (a ++ b) = parse_lines fuel title a.
Proof.
  intros title a b fuel NR L. assert (La : length a < fuel) by (rewrite app_length in L; lia).
  destruct (reading_ends a) as [[R _]|(a0 & l & r & -> & R & K)]; [contradiction|].
  rewrite <- app_assoc. cbn [app]. rewrite <- app_assoc in L. cbn [app] in L.
  destruct (outline_after a0 l r R) as (M & D & S). destruct (outline_after a0 l (r ++ b) R) as (M' & D' & S').
  pose proof (parse_lines_outline title (a0 ++ l :: r)) as G. pose proof (parse_lines_outline title (a0 ++ l :: r ++ b)) as G'.
  destruct K as [[K _]|[[K _]|[K _]]].
  - destruct (M K) as [E1 E2]. destruct (M' K) as [E1' E2'].
    destruct (outline (a0 ++ l :: r)) as [es en]. destruct (outline (a0 ++ l :: r ++ b)) as [es' en'] eqn:O'.
    cbn [fst snd] in *. subst en en'. destruct G as (v & P & Lv & G). specialize (G fuel La). rewrite G.
    assert (G2 := G). apply parser_exact in G2; [|exact La]. destruct G2 as (_ & N & _).
    apply (fits _ _ _ _ (l :: r ++ b) L P N). rewrite O', Lv. f_equal. congruence.
  - specialize (D K). specialize (D' K). destruct (outline (a0 ++ l :: r)) as [es en].
    destruct (outline (a0 ++ l :: r ++ b)) as [es' en']. cbn [snd] in *. subst en en'. rewrite G, G' by assumption. reflexivity.
  - specialize (S K). specialize (S' K). destruct (outline (a0 ++ l :: r)) as [es en].
    destruct (outline (a0 ++ l :: r ++ b)) as [es' en']. cbn [snd] in *. subst en en'. rewrite G, G'. reflexivity.
Qed.

(** ** Texts *)
Lemma usplit_two : forall s t, usplit 10 (s ++ 10%N :: t) = usplit 10 s ++ usplit 10 t.
Proof.
  induction s as [|c s IH]; intros t; [reflexivity|]. cbn [app usplit]. rewrite IH. destruct (N.eqb c 10); [reflexivity|].
  destruct (usplit 10 s) as [|h r] eqn:E; [|reflexivity]. destruct (usplit_join s) as (ls & x & X & _). rewrite E in X. destruct ls; discriminate X.
Qed.
Lemma lines_two : forall s t, text_lines (s ++ 10%N :: t) = text_lines (s ++ [10%N]) ++ text_lines t.
Proof.
  intros s t. unfold text_lines. rewrite !usplit_two. change (usplit 10 []) with [@nil N]. rewrite drop_last_snoc.
  destruct (usplit_join t) as (ls & x & X & _). rewrite X, app_assoc. destruct x as [|c x].
  - rewrite !drop_last_snoc. reflexivity.
  - rewrite !drop_last_keep by discriminate. symmetry. apply app_assoc.
Qed.
Lemma map_r_two : forall A B (f : A -> R B) a b, map_r f (a ++ b) = bind (map_r f a) (fun x => bind (map_r f b) (fun y => Ok (x ++ y))).
Proof.
  intros A B f a b. induction a as [|x a IH]; cbn [app map_r bind].
  - destruct (map_r f b); reflexivity.
  - destruct (f x); cbn [bind]; try reflexivity. rewrite IH. destruct (map_r f a); cbn [bind]; try reflexivity.
    destruct (map_r f b); reflexivity.
Qed.
Theorem classify_two : forall cd s t, classify cd (s ++ 10%N :: t) =
  bind (classify cd (s ++ [10%N])) (fun x => bind (classify cd t) (fun y => Ok (x ++ y))).
Proof. intros cd s t. unfold classify. rewrite lines_two. apply map_r_two. Qed.
Lemma classify_length : forall cd s ls, classify cd s = Ok ls -> length ls = length (text_lines s).
Proof. intros cd s ls H. apply classify_ok in H. induction H as [|x y xs ys _ _ IH]; [reflexivity|cbn [length]; rewrite IH; reflexivity]. Qed.

Theorem text_parts : forall cd title s t a l b fuel, classify cd (s ++ [10%N]) = Ok a -> classify cd t = Ok (l :: b) ->
  readable a -> starts_anew a l -> length (text_lines (s ++ 10%N :: t)) < fuel ->
  exists pre ma, parse_body cd fuel title (s ++ [10%N]) = Some (Ok (plain title pre ma)) /\
  match parse_body cd fuel title t with
  | Some (Ok v) => exists mb, v = plain title None mb /\
      parse_body cd fuel title (s ++ 10%N :: t) = Some (Ok (plain title pre (ma ++ mb)))
  | r => parse_body cd fuel title (s ++ 10%N :: t) = r
  end.
Proof.
  intros cd title s t a l b fuel Ca Cb R H L.
  assert (C : classify cd (s ++ 10%N :: t) = Ok (a ++ l :: b)) by (rewrite classify_two, Ca, Cb; reflexivity).
  rewrite <- (classify_length _ _ _ C) in L. unfold parse_body. rewrite C, Ca, Cb. exact (parts title a l b fuel R H L).
Qed.
Theorem text_unread : forall cd title s t a b fuel, classify cd (s ++ [10%N]) = Ok a -> classify cd t = Ok b ->
  ~ readable a -> length (text_lines (s ++ 10%N :: t)) < fuel ->
  parse_body cd fuel title (s ++ 10%N :: t) = parse_body cd fuel title (s ++ [10%N]).
Proof.
  intros cd title s t a b fuel Ca Cb R L.
  assert (C : classify cd (s ++ 10%N :: t) = Ok (a ++ b)) by (rewrite classify_two, Ca, Cb; reflexivity).
  rewrite <- (classify_length _ _ _ C) in L. unfold parse_body. rewrite C, Ca. exact (unread_end title a b fuel R L).
Qed.

(** ** One article *)
Definition inner (e : entry) : Prop := match e with EPar _ _ | EItem _ _ _ _ _ _ | ESent _ => True | _ => False end.
Lemma below_inner : forall ls o its k, Forall below_article ls -> Forall inner (fst (outline_from o (MArt its k) ls)).
Proof.
  induction ls as [|l ls IH]; intros o its k F; [constructor|]. apply Forall_cons_iff in F as [H F].
  destruct l; try (destruct H; fail); cbn [outline_from].
  - unfold add. cbn [fst app]. repeat constructor; try exact I. apply IH, F.
  - destruct (next_items _ _); [|constructor]. unfold add. cbn [fst app]. repeat constructor; try exact I. apply IH, F.
  - unfold add. cbn [fst app]. repeat constructor; try exact I. apply IH, F.
Qed.
Lemma top_first : forall ls o cap, Forall inner (fst (outline_from o (MTop cap) ls)) -> fst (outline_from o (MTop cap) ls) = [].
Proof.
  induction ls as [|l ls IH]; intros o cap F; [reflexivity|]. destruct l; cbn [outline_from] in *;
    try match type of F with context [place ?r o] => destruct (place r o); [|reflexivity]; exfalso;
      unfold add in F; cbn [fst app] in F; apply Forall_cons_iff in F as [[] _] end; try reflexivity.
  - exact (IH _ _ F).
  - exfalso. unfold add in F. cbn [fst app] in F. apply Forall_cons_iff in F as [[] _].
Qed.

(** Captions before an article line. *)
Fixpoint last_caption (c : option ustr) (caps : list line) : option ustr :=
  match caps with LCaption s :: r => last_caption (Some s) r | _ => c end.
Definition mode_caption (m : mode) : option ustr := match m with MTop c => c | _ => None end.
Lemma caption_run : forall caps o m n t r, Forall is_caption caps ->
  outline_from o m (caps ++ LArticle n t :: r) = outline_from o (MTop (last_caption (mode_caption m) caps)) (LArticle n t :: r).
Proof.
  induction caps as [|l caps IH]; intros o m n t r F.
  - cbn [app last_caption outline_from]. destruct m as [k|[s|]|its k]; reflexivity.
  - apply Forall_cons_iff in F as [H F]. destruct l; try (destruct H; fail). cbn [app last_caption]. cbn [outline_from].
    rewrite (IH o (MTop (Some s)) n t r F). reflexivity.
Qed.
Lemma caption_steps : forall caps o m n t r, Forall is_caption caps ->
  steps (o, m) (caps ++ LArticle n t :: r) = steps (o, MArt [] 2) r.
Proof.
  induction caps as [|l caps IH]; intros o m n t r F; [reflexivity|].
  apply Forall_cons_iff in F as [H F]. destruct l; try (destruct H; fail). cbn [app steps step]. apply IH, F.
Qed.
Lemma below_steps : forall r o o' its k, Forall below_article r ->
  match steps (o, MArt its k) r with
  | Next (o1, MArt its1 k1) => o1 = o /\ steps (o', MArt its k) r = Next (o', MArt its1 k1)
  | Fall => steps (o', MArt its k) r = Fall
  | _ => False
  end.
Proof.
  induction r as [|l r IH]; intros o o' its k F; [split; reflexivity|]. apply Forall_cons_iff in F as [H F].
  destruct l; try (destruct H; fail); cbn [steps step].
  - apply IH, F.
  - destruct (next_items _ _); [apply IH, F|reflexivity].
  - apply IH, F.
Qed.

Lemma own_mode : forall a o m x, steps ([], MPre 0) a = Next (o, m) -> own_caption a x ->
  forall caps r, x = caps ++ r -> Forall is_caption caps -> (forall s r', r <> LCaption s :: r') ->
  last_caption (mode_caption m) caps = last_caption None caps.
Proof.
  intros a o m x E H caps r -> F N. destruct caps as [|l caps].
  - cbn [last_caption]. destruct m as [k|[s|]|its k]; try reflexivity. exfalso. assert (Q : ends_in_caption a) by exact (run_caption _ _ _ E).
    cbn [app] in H. destruct r as [|l r]; [exact (H Q)|]. destruct l; try exact (H Q). exact (N _ _ eq_refl).
  - apply Forall_cons_iff in F as [G F]. destruct l; try (destruct G; fail). reflexivity.
Qed.

(** The lines of an article give one article, wherever they are. *)
Lemma one_article_lines : forall title x, article_lines x -> readable x ->
  exists v, (forall fuel, length x < fuel -> parse_lines fuel title x = Some (Ok (plain title None [MC_Article v]))) /\
  forall a o m, steps ([], MPre 0) a = Next (o, m) -> own_caption a x ->
    exists its k, steps (o, m) x = Next (o, MArt its k) /\
      forall c, outline_from o m (x ++ c) = add (list_article (length o) v) (outline_from o (MArt its k) c).
Proof.
  intros title x (caps & n & t & r & -> & Fc & Fr) R.
  set (cap := last_caption None caps).
  apply readable_run in R as [[o1 m1] R]. rewrite caption_steps in R by exact Fc.
  assert (ART : exists v, forall o, outline_from o (MTop cap) (LArticle n t :: r) = (list_article (length o) v, Ends [])).
  { assert (END : forall o, exists es, outline_from o (MTop cap) (LArticle n t :: r) = (es, Ends []) /\
       exists e es', es = e :: es' /\ Forall inner es').
    { intros o. pose proof (below_steps r [] o [] 2%N Fr) as B. rewrite R in B. destruct m1 as [| |its k]; try (destruct B; fail).
      destruct B as [-> B]. pose proof (outline_run r o (MArt [] 2)) as O. rewrite B in O. destruct O as [es O].
      specialize (O []). rewrite app_nil_r in O. cbn [outline_from] in O. unfold add in O. cbn [fst snd] in O. rewrite app_nil_r in O.
      cbn [outline_from]. rewrite O. unfold add. cbn [fst snd app]. eexists. split; [reflexivity|]. do 2 eexists. split; [reflexivity|].
      constructor; [exact I|]. constructor; [exact I|]. pose proof (below_inner r o [] 2%N Fr) as J. rewrite O in J. exact J. }
    pose proof (parse_article_spec (S (length r)) cap n t r) as P.
    destruct (parse_article (S (length r)) cap n t r) as [[[v rest]|e|]|].
    - exists v. intros o. destruct (P o) as (_ & _ & Q). destruct (END o) as (es & E & e & es' & -> & J). rewrite Q in E |- *.
      assert (Z : fst (outline_from o (MTop None) rest) = []).
      { apply top_first. unfold add in E. apply (f_equal fst) in E. cbn [fst] in E. unfold list_article in E. cbn [app] in E. apply (f_equal (@tl entry)) in E. cbn [tl] in E.
        rewrite <- E in J. apply Forall_app in J as [_ J]. exact J. }
      unfold add in *. rewrite Z in *. rewrite app_nil_r in *. f_equal. apply (f_equal snd) in E. exact E.
    - destruct (P []).
    - exfalso. destruct (P []) as [es P']. destruct (END []) as (es' & E & _). rewrite P' in E. discriminate E.
    - specialize (P []). cbn in P. lia. }
  destruct ART as [v A]. exists v. split.
  - intros fuel L. apply (fits _ _ _ _ [] L); [do 2 eexists; reflexivity|unfold no_empty_preamble; discriminate|].
    unfold outline. rewrite caption_run by exact Fc. cbn [mode_caption]. fold cap. rewrite A.
    unfold list_body, plain. cbn [un lb_preamble lb_main_provision main_children list_preamble app flat_map list_main length].
    rewrite app_nil_r. reflexivity.
  - intros a o m Sa OC. pose proof (below_steps r [] o [] 2%N Fr) as B. rewrite R in B. destruct m1 as [| |its k]; try (destruct B; fail).
    destruct B as [-> B]. exists its, k. assert (SX : steps (o, m) (caps ++ LArticle n t :: r) = Next (o, MArt its k)).
    { rewrite caption_steps by exact Fc. exact B. }
    split; [exact SX|]. pose proof (outline_run (caps ++ LArticle n t :: r) o m) as O. rewrite SX in O. destruct O as [es O].
    intros c. rewrite O. f_equal. specialize (O []). rewrite app_nil_r, caption_run in O by exact Fc.
    rewrite (own_mode a o m _ Sa OC caps (LArticle n t :: r) eq_refl Fc) in O by discriminate. fold cap in O. rewrite A in O.
    unfold add in O. cbn [outline_from fst snd] in O. rewrite app_nil_r in O. injection O as O. symmetry. exact O.
Qed.
Lemma after_article : forall o its k c, not_below c -> outline_from o (MArt its k) c = outline_from o (MTop None) c.
Proof. intros o its k [|l c] H; [reflexivity|]. destruct l; try reflexivity; destruct (H I). Qed.

Theorem article_exchanged : forall title a x x' c fuel, readable a -> article_lines x -> article_lines x' ->
  readable x -> readable x' -> own_caption a x -> own_caption a x' -> not_below c ->
  length (a ++ x ++ c) < fuel -> length (a ++ x' ++ c) < fuel ->
  exists v v', parse_lines fuel title x = Some (Ok (plain title None [MC_Article v])) /\
    parse_lines fuel title x' = Some (Ok (plain title None [MC_Article v'])) /\
  match parse_lines fuel title (a ++ x ++ c), parse_lines fuel title (a ++ x' ++ c) with
  | Some (Ok b), Some (Ok b') => exists d before after,
      list_body b = before ++ list_article d v ++ after /\ list_body b' = before ++ list_article d v' ++ after
  | Some Panic, Some Panic => True
  | None, None => True
  | _, _ => False
  end.
Proof.
  intros title a x x' c fuel Ra Bx Bx' Rx Rx' Ox Ox' N L L'.
  destruct (one_article_lines title x Bx Rx) as (v & Pv & Hv). destruct (one_article_lines title x' Bx' Rx') as (v' & Pv' & Hv').
  exists v, v'. split; [apply Pv; rewrite !app_length in L; lia|]. split; [apply Pv'; rewrite !app_length in L'; lia|].
  apply readable_run in Ra as [[o m] Ra]. pose proof (outline_run a [] (MPre 0)) as O. rewrite Ra in O. destruct O as [es O].
  destruct (Hv a o m Ra Ox) as (its & k & _ & E). destruct (Hv' a o m Ra Ox') as (its' & k' & _ & E').
  assert (G : outline (a ++ x ++ c) = add es (add (list_article (length o) v) (outline_from o (MTop None) c))).
  { unfold outline. rewrite O, E, after_article by exact N. reflexivity. }
  assert (G' : outline (a ++ x' ++ c) = add es (add (list_article (length o) v') (outline_from o (MTop None) c))).
  { unfold outline. rewrite O, E', after_article by exact N. reflexivity. }
  pose proof (parse_lines_outline title (a ++ x ++ c)) as P. pose proof (parse_lines_outline title (a ++ x' ++ c)) as P'.
  rewrite G in P. rewrite G' in P'. destruct (outline_from o (MTop None) c) as [ec [rest| |]]; cbn [add fst snd] in P, P'.
  - destruct P as (b & _ & Lb & P). destruct P' as (b' & _ & Lb' & P'). rewrite P, P' by assumption.
    exists (length o), es, ec. split; assumption.
  - rewrite P, P' by assumption. exact I.
  - rewrite P, P'. exact I.
Qed.
