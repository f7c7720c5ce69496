(** Facts about the machine of [TextSpec] and, with [TextFacts], about the plain-text parser. *)
From Coq Require Import String List NArith Arith Bool Lia.
From Verif Require Import Base NumStr Ast Regex NumText NumTextSpec TextParse TextSpec TextFacts.
Import ListNotations.
Open Scope list_scope.

(** ** Reading line by line *)
Definition state : Type := list rank * mode.
Inductive move := Next (st : state) | Stop | Fall | Stuck.

Definition step (st : state) (l : line) : move :=
  let (open, m) := st in
  let heading r := match place r open with Some up => Next (r :: up, MTop None) | None => Stop end in
  match l with
  | LPart _ _ => heading RPart
  | LChapter _ _ => heading RChapter
  | LSection _ _ => heading RSection
  | LSubsection _ _ => heading RSubsection
  | LDivision _ _ => heading RDivision
  | LCaption s => Next (open, MTop (Some s))
  | LArticle _ _ => Next (open, MArt [] 2)
  | LParagraph _ _ => match m with MArt _ _ => Next (open, MArt [] 2) | _ => Stop end
  | LItem i _ =>
      match m with
      | MArt its _ => match next_items (inum_pattern i) its with Some its' => Next (open, MArt its' 2) | None => Fall end
      | _ => Stop
      end
  | LText _ =>
      match m with
      | MPre k => Next (open, MPre (k + 1))
      | MTop _ => Stuck
      | MArt its k => Next (open, MArt its (k + 1))
      end
  | LSuppl _ => Stuck
  end.

Fixpoint steps (st : state) (a : list line) : move :=
  match a with
  | [] => Next st
  | l :: r => match step st l with Next st' => steps st' r | x => x end
  end.

Lemma steps_app : forall a b st, steps st (a ++ b) = match steps st a with Next st' => steps st' b | x => x end.
Proof. induction a as [|l a IH]; intros b st; [reflexivity|]. cbn [app steps]. destruct (step st l); auto. Qed.

(** The entries of one line. *)
Lemma outline_step : forall open m l rest,
  match step (open, m) l with
  | Next (open', m') => exists es, forall rest', outline_from open m (l :: rest') = add es (outline_from open' m' rest')
  | Stop => outline_from open m (l :: rest) = ([], Ends (l :: rest))
  | Fall => outline_from open m (l :: rest) = ([], Crashes)
  | Stuck => outline_from open m (l :: rest) = ([], Loops)
  end.
Proof.
  intros open m l rest. destruct l; cbn [step outline_from];
    repeat match goal with
    | |- context [place ?r open] => destruct (place r open); [eexists; intros; reflexivity|reflexivity]
    end; try (eexists; intros; reflexivity); try reflexivity.
  - exists []. intros. rewrite add_nil. reflexivity.
  - destruct m; try reflexivity. eexists; intros; reflexivity.
  - destruct m; try reflexivity. destruct (next_items _ _); [eexists; intros|]; reflexivity.
  - destruct m; try reflexivity; eexists; intros; reflexivity.
Qed.

Lemma outline_run : forall a open m, match steps (open, m) a with
  | Next (open', m') => exists es, forall b, outline_from open m (a ++ b) = add es (outline_from open' m' b)
  | _ => True
  end.
Proof.
  induction a as [|l a IH]; intros open m.
  - cbn [steps]. exists []. intros b. rewrite add_nil. reflexivity.
  - cbn [steps]. pose proof (outline_step open m l []) as H. destruct (step (open, m) l) as [[o' m']| | |]; try exact I.
    destruct H as [e1 H]. specialize (IH o' m'). destruct (steps (o', m') a) as [[o2 m2]| | |]; try exact I.
    destruct IH as [e2 IH]. exists (e1 ++ e2). intros b. cbn [app]. rewrite H, IH, add_add. reflexivity.
Qed.

(** ** Where the machine is *)
Definition opens : list (list rank) :=
  let up := [[]; [RPart]; [RChapter]; [RChapter; RPart]] in
  up ++ map (fun o => RSection :: o) up ++ map (fun o => RSubsection :: RSection :: o) up
     ++ map (fun o => RDivision :: RSubsection :: RSection :: o) up.

Lemma opens_place : forall r o o', In o opens -> place r o = Some o' -> In (r :: o') opens.
Proof.
  assert (H : forallb (fun r => forallb (fun o => match place r o with
      | Some o' => existsb (fun x => if list_eq_dec (fun a b : rank => ltac:(decide equality)) x (r :: o') then true else false) opens
      | None => true end) opens) [RPart; RChapter; RSection; RSubsection; RDivision] = true) by (vm_compute; reflexivity).
  rewrite forallb_forall in H. intros r o o' Ho Hp. specialize (H r). rewrite forallb_forall in H.
  assert (Hr : In r [RPart; RChapter; RSection; RSubsection; RDivision]) by (destruct r; cbn; tauto).
  specialize (H Hr o Ho). rewrite Hp in H. apply existsb_exists in H. destruct H as [x [Hx H]].
  destruct (list_eq_dec _ x (r :: o')) as [->|]; [exact Hx|discriminate H].
Qed.

Definition has (r : rank) (o : list rank) : bool := match close_to r o with [] => false | _ => true end.

Definition at_head (a : list line) : Prop := exists b h, a = b ++ [h] /\ heading_or_caption h.

(** What the state knows about the lines read. *)
Definition knows (a : list line) (st : state) : Prop :=
  let (open, m) := st in
  In open opens /\
  (has RSection open = true <-> in_section a) /\
  (has RSubsection open = true <-> in_subsection a) /\
  (match m with MTop _ => True | _ => False end <-> at_head a) /\
  (match m with MArt its _ => in_article a /\ open_items [] (patterns_of [] a) = Some its | _ => ~ in_article a end).

Lemma snoc_case : forall {A} (a b c : list A) l x, a ++ [l] = b ++ x :: c ->
  (c = [] /\ l = x /\ a = b) \/ exists c', c = c' ++ [l] /\ a = b ++ x :: c'.
Proof.
  intros A a b c l x E. destruct c as [|y c'] using rev_ind.
  - left. apply app_inj_tail in E. destruct E as [-> ->]. auto.
  - right. exists c'. change (b ++ x :: c' ++ [y]) with (b ++ (x :: c') ++ [y]) in E. rewrite app_assoc in E.
    apply app_inj_tail in E. destruct E as [-> ->]. auto.
Qed.

Lemma in_article_snoc : forall a l, in_article (a ++ [l]) <->
  match l with LArticle _ _ => True | LParagraph _ _ | LItem _ _ | LText _ => in_article a | _ => False end.
Proof.
  intros a l. split.
  - intros [b [n [t [c [E H]]]]]. apply snoc_case in E. destruct E as [[-> [-> ->]]|[c' [-> ->]]]; [exact I|].
    apply Forall_app in H. destruct H as [H1 H2]. inversion H2 as [|x y H3 _]. subst.
    destruct l; try destruct H3; exists b, n, t, c'; auto.
  - intros H. destruct l; try (destruct H; fail);
      try (destruct H as [b [n' [t' [c [-> H]]]]]; eexists b, _, _, _; split;
           [rewrite <- app_assoc; reflexivity|apply Forall_app; split; [exact H|repeat constructor]]).
    eexists a, _, _, []. split; [reflexivity|constructor].
Qed.
Lemma in_section_snoc : forall a l, in_section (a ++ [l]) <->
  match l with LSection _ _ => True | LPart _ _ | LChapter _ _ => False | _ => in_section a end.
Proof.
  intros a l. split.
  - intros [b [n [t [c [E H]]]]]. apply snoc_case in E. destruct E as [[-> [-> ->]]|[c' [-> ->]]]; [exact I|].
    apply Forall_app in H. destruct H as [H1 H2]. inversion H2 as [|x y H3 _]. subst.
    destruct l; try destruct H3; exists b, n, t, c'; auto.
  - intros H. destruct l; try (destruct H; fail);
      try (destruct H as [b [n' [t' [c [-> H]]]]]; eexists b, _, _, _; split;
           [rewrite <- app_assoc; reflexivity|apply Forall_app; split; [exact H|repeat constructor]]).
    eexists a, _, _, []. split; [reflexivity|constructor].
Qed.
Lemma in_subsection_snoc : forall a l, in_subsection (a ++ [l]) <->
  match l with LSubsection _ _ => True | LPart _ _ | LChapter _ _ | LSection _ _ => False | _ => in_subsection a end.
Proof.
  intros a l. split.
  - intros [b [n [t [c [E H]]]]]. apply snoc_case in E. destruct E as [[-> [-> ->]]|[c' [-> ->]]]; [exact I|].
    apply Forall_app in H. destruct H as [H1 H2]. inversion H2 as [|x y H3 _]. subst.
    destruct l; try destruct H3; try exact I; exists b, n, t, c'; auto.
  - intros H. destruct l; try (destruct H; fail);
      try (destruct H as [b [n' [t' [c [-> H]]]]]; eexists b, _, _, _; split;
           [rewrite <- app_assoc; reflexivity|apply Forall_app; split; [exact H|repeat constructor]]).
    eexists a, _, _, []. split; [reflexivity|constructor].
Qed.
Lemma at_head_snoc : forall a l, at_head (a ++ [l]) <-> heading_or_caption l.
Proof.
  intros a l. split.
  - intros [b [h [E H]]]. apply app_inj_tail in E. destruct E as [_ ->]. exact H.
  - intros H. exists a, l. auto.
Qed.
Lemma patterns_snoc : forall a l acc, patterns_of acc (a ++ [l]) =
  match l with
  | LItem i _ => patterns_of acc a ++ [inum_pattern i]
  | LArticle _ _ | LParagraph _ _ => []
  | _ => patterns_of acc a
  end.
Proof. induction a as [|x a IH]; intros l acc; [destruct l; reflexivity|]. cbn [app patterns_of]. destruct x; apply IH. Qed.
Lemma open_items_app : forall a b o, open_items o (a ++ b) =
  match open_items o a with Some o' => open_items o' b | None => None end.
Proof. induction a as [|p a IH]; intros b o; [reflexivity|]. cbn [app open_items]. destruct (next_items p o); auto. Qed.

(** How headings change what is open. *)
Lemma open_part : forall o o', place RPart o = Some o' -> has RSection (RPart :: o') = false /\ has RSubsection (RPart :: o') = false.
Proof. intros o o' H. injection H as <-. split; reflexivity. Qed.
Ltac opens_cases H := cbn in H; repeat (destruct H as [H|H]; [subst; cbn; intros E; first [discriminate E | injection E as <-]; repeat split; reflexivity|]); destruct H.
Lemma open_chapter : forall o o', In o opens -> place RChapter o = Some o' ->
  has RSection (RChapter :: o') = false /\ has RSubsection (RChapter :: o') = false.
Proof. intros o o' H. opens_cases H. Qed.
Lemma open_section : forall o o', In o opens -> place RSection o = Some o' ->
  has RSection (RSection :: o') = true /\ has RSubsection (RSection :: o') = false.
Proof. intros o o' H. opens_cases H. Qed.
Lemma open_subsection : forall o o', In o opens -> place RSubsection o = Some o' ->
  has RSection (RSubsection :: o') = has RSection o /\ has RSubsection (RSubsection :: o') = true.
Proof. intros o o' H. opens_cases H. Qed.
Lemma open_division : forall o o', In o opens -> place RDivision o = Some o' ->
  has RSection (RDivision :: o') = has RSection o /\ has RSubsection (RDivision :: o') = has RSubsection o.
Proof. intros o o' H. opens_cases H. Qed.
Lemma place_subsection : forall o, place RSubsection o = None <-> has RSection o = false.
Proof. intros o. unfold place, has. destruct (close_to RSection o); split; intros H; try reflexivity; discriminate H. Qed.
Lemma place_division : forall o, place RDivision o = None <-> has RSubsection o = false.
Proof. intros o. unfold place, has. destruct (close_to RSubsection o); split; intros H; try reflexivity; discriminate H. Qed.

Lemma false_iff : forall (b : bool) (P : Prop), b = false -> ~ P -> (b = true <-> P).
Proof. intros b P -> H. split; [discriminate|intros X; destruct (H X)]. Qed.

Lemma knows_step : forall a st l st', knows a st -> step st l = Next st' -> knows (a ++ [l]) st'.
Proof.
  intros a [open m] l [open' m'] [Ho [Hs [Hu [Hh Ha]]]] E.
  unfold knows. rewrite in_section_snoc, in_subsection_snoc, at_head_snoc.
  pose proof (in_article_snoc a l) as IA. pose proof (patterns_snoc a l []) as PS.
  destruct l; cbn [step] in E; cbn [heading_or_caption].
  - injection E as <- <-. repeat split; try tauto.
  - destruct (place RPart open) eqn:P; [|discriminate E]. injection E as <- <-.
    split; [apply (opens_place _ _ _ Ho P)|]. destruct (open_part _ _ P) as [-> ->]. repeat split; try discriminate; tauto.
  - destruct (place RChapter open) eqn:P; [|discriminate E]. injection E as <- <-.
    split; [apply (opens_place _ _ _ Ho P)|]. destruct (open_chapter _ _ Ho P) as [-> ->]. repeat split; try discriminate; tauto.
  - destruct (place RSection open) eqn:P; [|discriminate E]. injection E as <- <-.
    split; [apply (opens_place _ _ _ Ho P)|]. destruct (open_section _ _ Ho P) as [-> ->]. repeat split; try discriminate; tauto.
  - destruct (place RSubsection open) eqn:P; [|discriminate E]. injection E as <- <-.
    split; [apply (opens_place _ _ _ Ho P)|]. destruct (open_subsection _ _ Ho P) as [-> ->].
    split; [exact Hs|]. repeat split; tauto.
  - destruct (place RDivision open) eqn:P; [|discriminate E]. injection E as <- <-.
    split; [apply (opens_place _ _ _ Ho P)|]. destruct (open_division _ _ Ho P) as [-> ->].
    split; [exact Hs|]. split; [exact Hu|]. repeat split; tauto.
  - injection E as <- <-. rewrite PS. repeat split; try tauto.
  - destruct m; try discriminate E. injection E as <- <-. rewrite PS. repeat split; try tauto.
  - destruct m as [k|c|its k]; try discriminate E. destruct (next_items (inum_pattern i) its) eqn:P; [|discriminate E].
    injection E as <- <-. destruct Ha as [Ha Hi]. split; [exact Ho|]. split; [exact Hs|]. split; [exact Hu|]. split; [tauto|].
    split; [tauto|]. rewrite PS, open_items_app, Hi. cbn [open_items]. rewrite P. reflexivity.
  - discriminate E.
  - destruct m; try discriminate E; injection E as <- <-; (split; [exact Ho|]; split; [exact Hs|]; split; [exact Hu|]; split; [tauto|rewrite ?PS; tauto]).
Qed.

Lemma knows_start : knows [] ([], MPre 0).
Proof.
  assert (N : forall (b : list line) x c, [] <> b ++ x :: c) by (intros [|] x c; discriminate).
  split; [left; reflexivity|]. split; [apply false_iff; [reflexivity|]|]. { intros [b [n [t [c [E _]]]]]. apply (N _ _ _ E). }
  split; [apply false_iff; [reflexivity|]|]. { intros [b [n [t [c [E _]]]]]. apply (N _ _ _ E). }
  split. { split; [tauto|]. intros [b [h [E _]]]. apply (N _ _ _ E). }
  intros [b [n [t [c [E _]]]]]. apply (N _ _ _ E).
Qed.

(** The four moves in terms of the lines read. *)
Lemma step_moves : forall a st l, knows a st ->
  match step st l with
  | Next _ => ~ misplaced a l /\ ~ stuck a l /\ ~ too_deep a l
  | Stop => misplaced a l
  | Fall => too_deep a l
  | Stuck => stuck a l
  end.
Proof.
  intros a [open m] l [Ho [Hs [Hu [Hh Ha]]]]. destruct l; cbn [step misplaced stuck too_deep]; try tauto.
  - destruct (place RPart open) eqn:P; [tauto|discriminate P].
  - destruct (place RChapter open) eqn:P; [tauto|discriminate P].
  - destruct (place RSection open) eqn:P; [tauto|discriminate P].
  - destruct (place RSubsection open) eqn:P.
    + assert (H : has RSection open = true).
      { destruct (has RSection open) eqn:E; [reflexivity|]. apply place_subsection in E. rewrite E in P. discriminate P. }
      tauto.
    + apply place_subsection in P. intros H. apply Hs in H. rewrite P in H. discriminate H.
  - destruct (place RDivision open) eqn:P.
    + assert (H : has RSubsection open = true).
      { destruct (has RSubsection open) eqn:E; [reflexivity|]. apply place_division in E. rewrite E in P. discriminate P. }
      tauto.
    + apply place_division in P. intros H. apply Hu in H. rewrite P in H. discriminate H.
  - destruct m; tauto.
  - destruct m as [k|c|its k]; try exact Ha. destruct Ha as [Ha Hi].
    destruct (next_items (inum_pattern i) its) eqn:P.
    + split; [tauto|]. split; [tauto|]. rewrite open_items_app, Hi. cbn [open_items]. rewrite P. intros [_ H]. discriminate H.
    + split; [exact Ha|]. rewrite open_items_app, Hi. cbn [open_items]. rewrite P. reflexivity.
  - fold (at_head a). destruct m; tauto.
Qed.

Lemma knows_run : forall a st, steps ([], MPre 0) a = Next st -> knows a st.
Proof.
  induction a as [|l a IH] using rev_ind; intros st E.
  - injection E as <-. apply knows_start.
  - rewrite steps_app in E. destruct (steps ([], MPre 0) a) as [st0| | |]; try discriminate E.
    cbn [steps] in E. destruct (step st0 l) as [s| | |] eqn:S; try discriminate E. injection E as <-.
    apply (knows_step a st0 l s); [apply IH; reflexivity|exact S].
Qed.

Lemma readable_run : forall a, readable a <-> exists st, steps ([], MPre 0) a = Next st.
Proof.
  intros a. split.
  - induction 1 as [|a l H [st IH] H1 H2 H3]; [eexists; reflexivity|].
    rewrite steps_app, IH. cbn [steps]. pose proof (step_moves a st l (knows_run _ _ IH)) as M.
    destruct (step st l); [eexists; reflexivity|tauto|tauto|tauto].
  - induction a as [|l a IH] using rev_ind; intros [st E]; [constructor|].
    rewrite steps_app in E. destruct (steps ([], MPre 0) a) as [st0| | |] eqn:E0; try discriminate E.
    cbn [steps] in E. pose proof (step_moves a st0 l (knows_run _ _ E0)) as M.
    destruct (step st0 l); try discriminate E. destruct M as [M1 [M2 M3]]. apply R_snoc; eauto.
Qed.

(** Each text is read to the end or up to a line at which reading ends in one of three ways. *)
Theorem reading_ends : forall lines,
  (readable lines /\ exists es, outline lines = (es, Ends [])) \/
  exists a l b, lines = a ++ l :: b /\ readable a /\
    ((misplaced a l /\ exists es, outline lines = (es, Ends (l :: b))) \/
     (too_deep a l /\ exists es, outline lines = (es, Crashes)) \/
     (stuck a l /\ exists es, outline lines = (es, Loops))).
Proof.
  assert (G : forall b a st, steps ([], MPre 0) a = Next st ->
    (exists st', steps ([], MPre 0) (a ++ b) = Next st') \/
    exists b1 l b2 st', b = b1 ++ l :: b2 /\ steps ([], MPre 0) (a ++ b1) = Next st' /\ forall s, step st' l <> Next s).
  { induction b as [|l b IH]; intros a st E.
    - left. rewrite app_nil_r. eauto.
    - destruct (step st l) as [s| | |] eqn:S.
      + assert (E' : steps ([], MPre 0) (a ++ [l]) = Next s) by (rewrite steps_app, E; cbn [steps]; rewrite S; reflexivity).
        destruct (IH _ _ E') as [[st' H]|[b1 [x [b2 [st' [-> [H1 H2]]]]]]].
        * left. exists st'. rewrite <- app_assoc in H. exact H.
        * right. exists (l :: b1), x, b2, st'. rewrite <- app_assoc in H1. auto.
      + right. exists [], l, b, st. rewrite app_nil_r. split; [reflexivity|]. split; [exact E|]. rewrite S. discriminate.
      + right. exists [], l, b, st. rewrite app_nil_r. split; [reflexivity|]. split; [exact E|]. rewrite S. discriminate.
      + right. exists [], l, b, st. rewrite app_nil_r. split; [reflexivity|]. split; [exact E|]. rewrite S. discriminate. }
  intros lines. destruct (G lines [] _ eq_refl) as [[st' H]|[a [l [b [st' [-> [H1 H2]]]]]]]; cbn [app] in *.
  - left. split; [apply readable_run; eauto|]. pose proof (outline_run lines [] (MPre 0)) as O. rewrite H in O.
    destruct st' as [o m]. destruct O as [es O]. specialize (O []). rewrite app_nil_r in O. exists es. unfold outline. rewrite O.
    unfold add. cbn [outline_from fst snd]. rewrite app_nil_r. reflexivity.
  - right. exists a, l, b. split; [reflexivity|]. split; [apply readable_run; eauto|].
    pose proof (step_moves a st' l (knows_run _ _ H1)) as M. pose proof (outline_run a [] (MPre 0)) as O. rewrite H1 in O.
    destruct st' as [o m]. destruct O as [es O]. specialize (O (l :: b)). unfold outline. rewrite O.
    pose proof (outline_step o m l b) as P. destruct (step (o, m) l) as [s| | |].
    + destruct (H2 s eq_refl).
    + left. split; [exact M|]. rewrite P. eexists. reflexivity.
    + right. left. split; [exact M|]. rewrite P. eexists. reflexivity.
    + right. right. split; [exact M|]. rewrite P. eexists. reflexivity.
Qed.

(** The end of reading after readable lines. *)
Lemma outline_after : forall a l b, readable a ->
  (misplaced a l -> snd (outline (a ++ l :: b)) = Ends (l :: b) /\ fst (outline (a ++ l :: b)) = fst (outline a)) /\
  (too_deep a l -> snd (outline (a ++ l :: b)) = Crashes) /\
  (stuck a l -> snd (outline (a ++ l :: b)) = Loops).
Proof.
  intros a l b R. apply readable_run in R. destruct R as [[o m] R].
  pose proof (step_moves a _ l (knows_run _ _ R)) as M. pose proof (outline_run a [] (MPre 0)) as O. rewrite R in O.
  destruct O as [es O]. pose proof (O (l :: b)) as O1. specialize (O []). rewrite app_nil_r in O.
  unfold outline. rewrite O1, O. pose proof (outline_step o m l b) as P. destruct (step (o, m) l) as [[o' m']| | |].
  - tauto.
  - rewrite P. split; [split; reflexivity|]. split; intros H; exfalso; destruct l; cbn in *; tauto.
  - rewrite P. split; [intros H; exfalso; destruct l; cbn in *; tauto|]. split; [reflexivity|]. intros H; exfalso; destruct l; cbn in *; tauto.
  - rewrite P. split; [intros H; exfalso; destruct l; cbn in *; tauto|]. split; [intros H; exfalso; destruct l; cbn in *; tauto|reflexivity].
Qed.
Lemma readable_outline : forall a, readable a -> exists es, outline a = (es, Ends []).
Proof.
  intros a R. apply readable_run in R. destruct R as [[o m] R]. pose proof (outline_run a [] (MPre 0)) as O. rewrite R in O.
  destruct O as [es O]. specialize (O []). rewrite app_nil_r in O. unfold outline. rewrite O. eexists. reflexivity.
Qed.

(** ** Nothing is lost or added in the lines that are read *)
Definition pending (m : mode) (a : list line) : list piece :=
  match m, a with MTop (Some s), LArticle _ _ :: _ => [PCaption (as_text s)] | _, _ => [] end.

Lemma outline_content : forall lines open m es rest, outline_from open m lines = (es, Ends rest) ->
  exists a, lines = a ++ rest /\ flat_map entry_content es = pending m a ++ content a.
Proof.
  assert (H : forall open m l lines e o m' es rest,
    outline_from open m (l :: lines) = (es, Ends rest) ->
    outline_from open m (l :: lines) = add e (outline_from o m' lines) ->
    (forall es' , outline_from o m' lines = (es', Ends rest) -> exists a, lines = a ++ rest /\ flat_map entry_content es' = pending m' a ++ content a) ->
    (forall a, pending m' a = []) ->
    (forall a, pending m (l :: a) ++ content (l :: a) = flat_map entry_content e ++ content a) ->
    exists a, l :: lines = a ++ rest /\ flat_map entry_content es = pending m a ++ content a).
  { intros open m l lines e o m' es rest E1 E2 IH H1 H2. rewrite E2 in E1. unfold add in E1.
    destruct (outline_from o m' lines) as [es' en]. cbn [fst snd] in E1. injection E1 as <- ->.
    destruct (IH _ eq_refl) as [a [-> E]]. exists (l :: a). split; [reflexivity|].
    rewrite flat_map_app, E, H1, H2. reflexivity. }
  induction lines as [|l lines IH]; intros open m es rest E.
  { injection E as <- <-. exists []. split; [reflexivity|]. destruct m as [k|[s|]|its k]; reflexivity. }
  assert (S0 : outline_from open m (l :: lines) = ([], Ends (l :: lines)) ->
    exists a, l :: lines = a ++ rest /\ flat_map entry_content es = pending m a ++ content a).
  { intros E0. rewrite E in E0. injection E0 as -> ->. exists []. split; [reflexivity|]. destruct m as [k|[s|]|its k]; reflexivity. }
  destruct l; cbn [outline_from] in S0.
  - (* caption *)
    cbn [outline_from] in E. destruct (IH _ _ _ _ E) as [a [-> E']]. exists (LCaption s :: a). split; [reflexivity|].
    rewrite E'. destruct m as [k|[s'|]|its k]; destruct a as [|[] a]; reflexivity.
  - destruct (place RPart open) eqn:P; [|apply S0; reflexivity].
    eapply H; [exact E|cbn [outline_from]; rewrite P; reflexivity|intros es' E'; apply (IH _ _ _ _ E')|intros a; reflexivity|].
    intros a. destruct m as [k|[s|]|its k]; reflexivity.
  - destruct (place RChapter open) eqn:P; [|apply S0; reflexivity].
    eapply H; [exact E|cbn [outline_from]; rewrite P; reflexivity|intros es' E'; apply (IH _ _ _ _ E')|intros a; reflexivity|].
    intros a. destruct m as [k|[s|]|its k]; reflexivity.
  - destruct (place RSection open) eqn:P; [|apply S0; reflexivity].
    eapply H; [exact E|cbn [outline_from]; rewrite P; reflexivity|intros es' E'; apply (IH _ _ _ _ E')|intros a; reflexivity|].
    intros a. destruct m as [k|[s|]|its k]; reflexivity.
  - destruct (place RSubsection open) eqn:P; [|apply S0; reflexivity].
    eapply H; [exact E|cbn [outline_from]; rewrite P; reflexivity|intros es' E'; apply (IH _ _ _ _ E')|intros a; reflexivity|].
    intros a. destruct m as [k|[s|]|its k]; reflexivity.
  - destruct (place RDivision open) eqn:P; [|apply S0; reflexivity].
    eapply H; [exact E|cbn [outline_from]; rewrite P; reflexivity|intros es' E'; apply (IH _ _ _ _ E')|intros a; reflexivity|].
    intros a. destruct m as [k|[s|]|its k]; reflexivity.
  - eapply H; [exact E|reflexivity|intros es' E'; apply (IH _ _ _ _ E')|intros a; reflexivity|].
    intros a. destruct m as [k|[s|]|its k]; reflexivity.
  - destruct m as [k|c|its k]; [apply S0; reflexivity|apply S0; reflexivity|].
    eapply H; [exact E|reflexivity|intros es' E'; apply (IH _ _ _ _ E')|intros a; reflexivity|intros a; reflexivity].
  - destruct m as [k|c|its k]; [apply S0; reflexivity|apply S0; reflexivity|].
    cbn [outline_from] in E. destruct (next_items (inum_pattern i) its) eqn:P; [|discriminate E].
    eapply (H open (MArt its k)); [cbn [outline_from]; rewrite P; exact E|cbn [outline_from]; rewrite P; reflexivity
      |intros es' E'; apply (IH _ _ _ _ E')|intros a; reflexivity|intros a; reflexivity].
  - discriminate E.
  - destruct m as [k|c|its k]; [|discriminate E|].
    + eapply H; [exact E|reflexivity|intros es' E'; apply (IH _ _ _ _ E')|intros a; reflexivity|intros a; reflexivity].
    + eapply H; [exact E|reflexivity|intros es' E'; apply (IH _ _ _ _ E')|intros a; reflexivity|intros a; reflexivity].
Qed.

(** ** Numbers *)
Lemma outline_counted : forall lines open m k, (forall its j, m = MArt its j -> k = j) ->
  counted k (fst (outline_from open m lines)).
Proof.
  induction lines as [|l lines IH]; intros open m k Hk; [exact I|].
  assert (Top : forall o c j, counted j (fst (outline_from o (MTop c) lines))) by (intros o c j; apply IH; intros its i E; discriminate E).
  assert (Art : forall o its j, counted j (fst (outline_from o (MArt its j) lines)))
    by (intros o its j; apply IH; intros its' i E; injection E as <- <-; reflexivity).
  destruct l; cbn [outline_from]; try (destruct (place _ open)); try exact I;
    cbn [add fst app counted sentence paragraph un par_num sen_num]; try apply Top.
  - split; [reflexivity|]. split; [reflexivity|]. apply (Art open [] 2%N).
  - destruct m; try exact I. cbn [add fst app counted paragraph sentence un sen_num]. split; [reflexivity|]. apply (Art open [] 2%N).
  - destruct m as [j|c|its j]; try exact I. destruct (next_items _ its) as [its'|]; try exact I.
    cbn [add fst app counted sentence un sen_num]. split; [reflexivity|]. apply (Art open its' 2%N).
  - destruct m as [j|c|its j]; try exact I; cbn [add fst app counted paragraph sentence un sen_num].
    + split; [reflexivity|]. apply IH. intros its i E. discriminate E.
    + rewrite (Hk _ _ eq_refl). split; [reflexivity|]. apply Art.
Qed.

Lemma outline_preamble : forall lines open m,
  preamble_numbers (fst (outline_from open m lines)) =
  match m with
  | MPre k => map (fun i => mkAN (k + N.of_nat i) [] []) (seq 0 (leading_texts lines))
  | _ => []
  end.
Proof.
  induction lines as [|l lines IH]; intros open m; [destruct m; reflexivity|].
  destruct l; cbn [outline_from leading_texts]; try (destruct (place _ open));
    cbn [add fst]; unfold preamble_numbers in *; rewrite ?flat_map_app, ?IH; cbn [flat_map app paragraph sentence seq map];
    try (destruct m; reflexivity).
  - destruct m; try reflexivity. cbn [add fst]. rewrite flat_map_app, IH. reflexivity.
  - destruct m as [j|c|its j]; try reflexivity. destruct (next_items _ its) as [its'|]; try reflexivity.
    cbn [add fst]. rewrite flat_map_app, IH. reflexivity.
  - destruct m as [j|c|its j]; try reflexivity; cbn [add fst]; rewrite flat_map_app, IH; [|reflexivity].
    cbn [flat_map app paragraph sentence par_num]. rewrite N.add_0_r, <- seq_shift, map_map. f_equal.
    apply map_ext. intros i. f_equal. lia.
Qed.

(** ** Items below the tenth level *)
Fixpoint growing (open ps : list ItemPattern) : Prop :=
  match ps with
  | [] => True
  | p :: r => match open with [] => True | x :: o => p <> x /\ match o with y :: _ => p <> y | [] => True end end /\ growing (p :: open) r
  end.
Lemma growing_open : forall ps open, growing open ps -> length open <= 11 ->
  open_items open ps = if Nat.leb (length open + length ps) 11 then Some (rev ps ++ open) else None.
Proof.
  induction ps as [|p ps IH]; intros open G L; cbn [open_items length rev app].
  - rewrite Nat.add_0_r. apply Nat.leb_le in L. rewrite L. reflexivity.
  - destruct G as [G1 G2].
    assert (N : next_items p open = if Nat.ltb (length open) 11 then Some (p :: open) else None).
    { destruct open as [|x [|y o]]; [reflexivity| |]; cbn [next_items].
      - destruct G1 as [G1 _]. rewrite (proj2 (pat_eqb_neq p x) G1). reflexivity.
      - destruct G1 as [G1 G3]. rewrite (proj2 (pat_eqb_neq p x) G1), (proj2 (pat_eqb_neq p y) G3). reflexivity. }
    rewrite N. destruct (Nat.ltb_spec (length open) 11) as [H|H].
    + rewrite IH by (try exact G2; cbn [length]; lia). cbn [length]. rewrite <- app_assoc. cbn [app].
      replace (S (length open) + length ps) with (length open + S (length ps)) by lia. reflexivity.
    + destruct (Nat.leb_spec (length open + S (length ps)) 11); [lia|reflexivity].
Qed.
Lemma all_new_growing : forall ps, all_new (rev ps) -> growing [] ps.
Proof.
  assert (G : forall ps open, all_new (rev ps ++ open) -> growing open ps).
  { induction ps as [|p ps IH]; intros open H; [exact I|]. cbn [rev] in H. rewrite <- app_assoc in H. cbn [app] in H. split.
    - assert (X : all_new (p :: open)).
      { clear IH. induction (rev ps) as [|q l IH]; [exact H|]. apply IH. destruct H as [_ H]. exact H. }
      destruct open as [|x o]; [exact I|]. destruct X as [X _]. exact X.
    - apply IH, H. }
  intros ps H. apply G. rewrite app_nil_r. exact H.
Qed.

(** ** The parser *)
Lemma parse_lines_more : forall f f', f <= f' -> forall title lines, keeps (parse_lines f title lines) (parse_lines f' title lines).
Proof. intros f f' H title lines. apply keeps_then; [apply body_loop_more, H|intros; apply keeps_refl]. Qed.
Lemma parsed : forall fuel title lines b, parse_lines fuel title lines = Some (Ok b) ->
  plain_body title b /\ exists rest, outline lines = (list_body b, Ends rest).
Proof.
  intros fuel title lines b E. pose proof (parse_lines_outline title lines) as H.
  assert (M : forall f, fuel <= f -> parse_lines f title lines = Some (Ok b)).
  { intros f Hf. apply (parse_lines_more _ _ Hf), E. }
  specialize (M (fuel + S (length lines)) ltac:(lia)).
  destruct (outline lines) as [es [rest| |]].
  - destruct H as [b' [P [L H]]]. rewrite (H (fuel + S (length lines))) in M by lia. injection M as ->.
    split; [exact P|]. exists rest. rewrite L. reflexivity.
  - rewrite (H (fuel + S (length lines))) in M by lia. discriminate M.
  - rewrite (H fuel) in E. discriminate E.
Qed.
Lemma panicked : forall fuel title lines, parse_lines fuel title lines = Some Panic -> exists es, outline lines = (es, Crashes).
Proof.
  intros fuel title lines E. pose proof (parse_lines_outline title lines) as H.
  assert (M : forall f, fuel <= f -> parse_lines f title lines = Some Panic).
  { intros f Hf. apply (parse_lines_more _ _ Hf), E. }
  specialize (M (fuel + S (length lines)) ltac:(lia)).
  destruct (outline lines) as [es [rest| |]].
  - destruct H as [b' [P [L H]]]. rewrite (H (fuel + S (length lines))) in M by lia. discriminate M.
  - eauto.
  - rewrite (H fuel) in E. discriminate E.
Qed.
Theorem no_error : forall fuel title lines e, parse_lines fuel title lines <> Some (Err e).
Proof.
  intros fuel title lines e E. pose proof (parse_lines_outline title lines) as H.
  assert (M : forall f, fuel <= f -> parse_lines f title lines = Some (Err e)).
  { intros f Hf. apply (parse_lines_more _ _ Hf), E. }
  specialize (M (fuel + S (length lines)) ltac:(lia)).
  destruct (outline lines) as [es [rest| |]].
  - destruct H as [b' [P [L H]]]. rewrite (H (fuel + S (length lines))) in M by lia. discriminate M.
  - rewrite (H (fuel + S (length lines))) in M by lia. discriminate M.
  - rewrite (H fuel) in E. discriminate E.
Qed.

(** C40. *)
Theorem loops_iff : forall title lines,
  (forall fuel, parse_lines fuel title lines = None) <->
  exists a l b, lines = a ++ l :: b /\ readable a /\ stuck a l.
Proof.
  intros title lines. split.
  - intros H. pose proof (parse_lines_outline title lines) as O.
    destruct (reading_ends lines) as [[_ [es E]]|[a [l [b [-> [R [[M [es E]]|[[M [es E]]|[M [es E]]]]]]]]]];
      rewrite E in O; [| | |eauto 7];
      specialize (H (S (length (a ++ l :: b)))) || specialize (H (S (length lines)));
      try (destruct O as [b' [_ [_ O]]]); rewrite O in H by lia; discriminate H.
  - intros [a [l [b [-> [R S]]]]] fuel. destruct (outline_after a l b R) as [_ [_ H]]. specialize (H S).
    pose proof (parse_lines_outline title (a ++ l :: b)) as O. destruct (outline (a ++ l :: b)) as [es en]. cbn [snd] in H. subst en.
    apply O.
Qed.

(** C41. *)
Theorem body_contents : forall fuel title lines b, parse_lines fuel title lines = Some (Ok b) ->
  plain_body title b /\
  exists a rest, lines = a ++ rest /\ readable a /\ (rest = [] \/ exists l r, rest = l :: r /\ misplaced a l) /\
    flat_map entry_content (list_body b) = content a.
Proof.
  intros fuel title lines b E. destruct (parsed _ _ _ _ E) as [P [rest O]]. split; [exact P|].
  destruct (outline_content _ _ _ _ _ O) as [a [El C]]. exists a, rest. split; [exact El|].
  destruct (reading_ends lines) as [[R [es E']]|[a' [l [r [El' [R [[M [es E']]|[[M [es E']]|[M [es E']]]]]]]]]];
    rewrite O in E'; try discriminate E'.
  - injection E' as _ ->. rewrite app_nil_r in El. subst a. auto.
  - injection E' as _ ->. rewrite El' in El. apply app_inv_tail in El. subst a'. eauto 7.
Qed.
Theorem body_exists : forall title lines, readable lines -> exists b,
  (forall fuel, length lines < fuel -> parse_lines fuel title lines = Some (Ok b)) /\ list_body b = fst (outline lines).
Proof.
  intros title lines R. destruct (readable_outline _ R) as [es E]. pose proof (parse_lines_outline title lines) as O.
  rewrite E in *. destruct O as [b [_ [L O]]]. exists b. auto.
Qed.

(** C42. *)
Theorem rest_dropped : forall title a l r fuel, readable a -> misplaced a l -> length (a ++ l :: r) < fuel ->
  exists b, parse_lines fuel title (a ++ l :: r) = Some (Ok b) /\ flat_map entry_content (list_body b) = content a.
Proof.
  intros title a l r fuel R M F. destruct (outline_after a l r R) as [H _]. destruct (H M) as [H1 H2].
  pose proof (parse_lines_outline title (a ++ l :: r)) as O. destruct (outline (a ++ l :: r)) as [es en]. cbn [fst snd] in *. subst en es.
  destruct O as [b [_ [L O]]]. exists b. split; [apply O, F|]. rewrite L.
  destruct (readable_outline _ R) as [es E]. rewrite E. destruct (outline_content _ _ _ _ _ E) as [a' [Ea C]].
  rewrite app_nil_r in Ea. subst a'. exact C.
Qed.

(** C43. *)
Theorem panics_iff : forall title lines,
  (exists fuel, parse_lines fuel title lines = Some Panic) <->
  exists a l b, lines = a ++ l :: b /\ readable a /\ too_deep a l.
Proof.
  intros title lines. split.
  - intros [fuel H]. destruct (panicked _ _ _ H) as [es0 E0].
    destruct (reading_ends lines) as [[_ [es E]]|[a [l [b [-> [R [[M [es E]]|[[M [es E]]|[M [es E]]]]]]]]]];
      rewrite E0 in E; try discriminate E. eauto 7.
  - intros [a [l [b [-> [R S]]]]]. destruct (outline_after a l b R) as [_ [H _]]. specialize (H S).
    pose proof (parse_lines_outline title (a ++ l :: b)) as O. destruct (outline (a ++ l :: b)) as [es en]. cbn [snd] in H. subst en.
    exists (1 + length (a ++ l :: b)). apply O. lia.
Qed.

Lemma items_open : forall ps a o its k, (exists st, steps ([], MPre 0) a = Next st /\ st = (o, MArt its k)) ->
  forall its', open_items its (map (fun x => inum_pattern (fst x)) ps) = Some its' ->
  exists k', steps ([], MPre 0) (a ++ items_of ps) = Next (o, MArt its' k').
Proof.
  induction ps as [|[i t] ps IH]; intros a o its k [st [E ->]] its' H.
  - injection H as <-. exists k. cbn. rewrite app_nil_r. exact E.
  - cbn [map open_items fst] in H. destruct (next_items (inum_pattern i) its) as [o1|] eqn:N; [|discriminate H].
    assert (E1 : steps ([], MPre 0) (a ++ [LItem i t]) = Next (o, MArt o1 2)).
    { rewrite steps_app, E. cbn [steps step]. rewrite N. reflexivity. }
    destruct (IH (a ++ [LItem i t]) o o1 2%N (ex_intro _ _ (conj E1 eq_refl)) its' H) as [k' E2].
    exists k'. rewrite <- app_assoc in E2. exact E2.
Qed.
Lemma in_article_state : forall a, readable a -> in_article a -> exists o its k,
  steps ([], MPre 0) a = Next (o, MArt its k) /\ open_items [] (patterns_of [] a) = Some its.
Proof.
  intros a R A. apply readable_run in R. destruct R as [[o m] R]. pose proof (knows_run _ _ R) as [_ [_ [_ [_ H]]]].
  destruct m as [k|c|its k]; try contradiction. destruct H as [_ H]. eauto 7.
Qed.

(** Twelve items without return to a pattern used two places before. *)
Theorem deep_items_panic : forall title a ps b fuel, readable a -> in_article a -> patterns_of [] a = [] ->
  length ps = 12 -> all_new (rev (map (fun x => inum_pattern (fst x)) ps)) ->
  length (a ++ items_of ps ++ b) < fuel -> parse_lines fuel title (a ++ items_of ps ++ b) = Some Panic.
Proof.
  intros title a ps b fuel R A P L N F. apply all_new_growing in N.
  destruct ps as [|x qs] using rev_ind; [discriminate L|]. clear IHqs. rewrite app_length in L. cbn in L.
  destruct (in_article_state a R A) as [o [its [k [E H]]]]. rewrite P in H. injection H as <-.
  rewrite map_app in N.
  assert (G : growing [] (map (fun x => inum_pattern (fst x)) qs)).
  { clear -N. revert N. generalize (@nil ItemPattern) as open. induction (map (fun x => inum_pattern (fst x)) qs) as [|q l IH]; intros open [H1 H2]; [exact I|].
    split; [exact H1|apply IH, H2]. }
  pose proof (growing_open _ [] G ltac:(cbn; lia)) as O1. pose proof (growing_open _ [] N ltac:(cbn; lia)) as O2.
  rewrite app_length, map_length in O2. rewrite map_length in O1. cbn [length map Nat.add] in O1, O2.
  replace (length qs) with 11 in O1, O2 by lia. cbn [Nat.leb Nat.add] in O1, O2.
  destruct (items_open qs a o [] k (ex_intro _ _ (conj E eq_refl)) _ O1) as [k' E1].
  assert (R1 : readable (a ++ items_of qs)) by (apply readable_run; eauto).
  assert (K := knows_run _ _ E1). destruct K as [_ [_ [_ [_ [A1 P1]]]]].
  assert (T : too_deep (a ++ items_of qs) (LItem (fst x) (snd x))).
  { split; [exact A1|]. rewrite open_items_app, P1. rewrite open_items_app, O1 in O2. exact O2. }
  destruct (outline_after _ (LItem (fst x) (snd x)) b R1) as [_ [H _]]. specialize (H T).
  unfold items_of in *. rewrite map_app in *. cbn [map] in *. rewrite <- app_assoc in *. cbn [app] in *.
  replace (a ++ map (fun x => LItem (fst x) (snd x)) qs ++ LItem (fst x) (snd x) :: b)
    with ((a ++ map (fun x => LItem (fst x) (snd x)) qs) ++ LItem (fst x) (snd x) :: b) in * by (rewrite <- app_assoc; reflexivity).
  pose proof (parse_lines_outline title ((a ++ map (fun x => LItem (fst x) (snd x)) qs) ++ LItem (fst x) (snd x) :: b)) as O.
  destruct (outline _) as [es en]. cbn [snd] in H. subst en. apply O, F.
Qed.

(** A return over two levels goes down. *)
Theorem return_goes_down : forall title a i1 t1 i2 t2 i3 t3 i4 t4 fuel,
  readable a -> in_article a -> patterns_of [] a = [] ->
  inum_pattern i2 <> inum_pattern i1 -> inum_pattern i3 <> inum_pattern i2 -> inum_pattern i3 <> inum_pattern i1 ->
  inum_pattern i4 = inum_pattern i1 ->
  let lines := a ++ [LItem i1 t1; LItem i2 t2; LItem i3 t3; LItem i4 t4] in
  length lines < fuel -> exists b, parse_lines fuel title lines = Some (Ok b) /\
    item_levels (list_body b) = item_levels (fst (outline a)) ++ [0; 1; 2; 3].
Proof.
  intros title a i1 t1 i2 t2 i3 t3 i4 t4 fuel R A P N1 N2 N3 N4 lines F.
  destruct (in_article_state a R A) as [o [its [k [E H]]]]. rewrite P in H. injection H as <-.
  pose proof (outline_run a [] (MPre 0)) as O. rewrite E in O. destruct O as [es O].
  pose proof (O []) as O0. rewrite app_nil_r in O0. cbn [outline_from] in O0.
  pose proof (parse_lines_outline title lines) as B. unfold lines, outline in *. rewrite O in B. rewrite O0.
  apply pat_eqb_neq in N1, N2, N3.
  cbn [outline_from next_items] in B. rewrite N1 in B. cbn [next_items] in B. rewrite N2, N3 in B.
  assert (N5 : pat_eqb (inum_pattern i4) (inum_pattern i3) = false).
  { rewrite N4. apply pat_eqb_neq. apply pat_eqb_neq in N3. intros X. apply N3. symmetry. exact X. }
  assert (N6 : pat_eqb (inum_pattern i4) (inum_pattern i2) = false).
  { rewrite N4. apply pat_eqb_neq. apply pat_eqb_neq in N1. intros X. apply N1. symmetry. exact X. }
  cbn [length Nat.ltb Nat.leb next_items] in B. rewrite N5, N6 in B. cbn [length Nat.ltb Nat.leb Nat.sub add fst snd app] in B.
  destruct B as [b [_ [L B]]]. exists b. split; [apply B, F|]. rewrite L. unfold item_levels, add. cbn [fst].
  rewrite !flat_map_app, app_nil_r. reflexivity.
Qed.
