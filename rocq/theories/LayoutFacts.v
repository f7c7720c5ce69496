(** Facts about the layout of plain text. *)
From Coq Require Import String List NArith Bool Lia.
From Verif Require Import Base Ast Regex NumText NumTextSpec TextParse TextSpec TextFacts OutlineFacts ItemFacts LineFacts
  ClassifyFacts LayoutSpec.
Import ListNotations.
Open Scope list_scope.

(** ** White space around lines *)
Lemma blank_start : forall y, blank y -> trim_start y = [].
Proof. intros y H. induction H as [|c y Hc _ IH]; [reflexivity|]. cbn [trim_start]. rewrite Hc. exact IH. Qed.
Lemma trim_start_tail : forall w y, blank y -> trim_start (w ++ y) = match trim_start w with [] => [] | s => s ++ y end.
Proof.
  intros w y H. induction w as [|c w IH]; [exact (blank_start y H)|]. cbn [app trim_start]. destruct (is_space c); [exact IH|reflexivity].
Qed.
Lemma trim_around : forall x w y, blank x -> blank y -> trim (x ++ w ++ y) = trim w.
Proof.
  intros x w y Hx Hy. unfold trim. rewrite (trim_start_pad x) by exact Hx. rewrite trim_start_tail by exact Hy.
  destruct (trim_start w) as [|c s]; [reflexivity|]. rewrite rev_app_distr. rewrite trim_start_pad by (apply Forall_rev, Hy). reflexivity.
Qed.
Lemma same_line_trim : forall l l', same_line l l' -> trim l = trim l'.
Proof.
  intros l l' (w & x & y & x' & y' & H1 & H2 & H3 & H4 & -> & ->). rewrite !trim_around by assumption. reflexivity.
Qed.
Theorem same_text_classify : forall cd t t', same_text t t' -> classify cd t = classify cd t'.
Proof.
  intros cd t t' (ls & ls' & J & J' & H). unfold classify. rewrite (text_lines_joined _ _ J), (text_lines_joined _ _ J').
  clear J J'. induction H as [|l l' ls ls' Hl _ IH]; [reflexivity|]. cbn [map_r]. rewrite (same_line_trim _ _ Hl), IH. reflexivity.
Qed.
Theorem same_text_body : forall cd t t' fuel title, same_text t t' -> parse_body cd fuel title t = parse_body cd fuel title t'.
Proof. intros cd t t' fuel title H. unfold parse_body. rewrite (same_text_classify cd t t' H). reflexivity. Qed.
Theorem same_text_law : forall cd cal fuel t t' year month day ty lang num law_num title, same_text t t' ->
  parse_text cd cal fuel t year month day ty lang num law_num title =
  parse_text cd cal fuel t' year month day ty lang num law_num title.
Proof.
  intros. unfold parse_text. rewrite (same_text_body cd t t' fuel title) by assumption. reflexivity.
Qed.

(** ** Ends of lines *)
Lemma ended_lf : forall ls, Forall (fun l => ~ In 10%N l) ls -> joined ls (ended [10%N] ls).
Proof. intros ls H. split; [exact H|]. left. reflexivity. Qed.
Lemma ended_wide : forall e ls, blank e -> ~ In 10%N e -> Forall (fun l => ~ In 10%N l) ls ->
  joined (map (fun l => l ++ e) ls) (ended (e ++ [10%N]) ls).
Proof.
  intros e ls He Hn H. split.
  - apply Forall_map. eapply Forall_impl; [|exact H]. intros l Hl X. apply in_app_or in X. destruct X as [X|X]; [exact (Hl X)|exact (Hn X)].
  - left. unfold ended. rewrite map_map. f_equal. apply map_ext. intros l. rewrite app_assoc. reflexivity.
Qed.
Theorem line_ends : forall e ls, blank e -> ~ In 10%N e -> Forall (fun l => ~ In 10%N l) ls ->
  same_text (ended [10%N] ls) (ended (e ++ [10%N]) ls).
Proof.
  intros e ls He Hn H. exists ls, (map (fun l => l ++ e) ls). split; [exact (ended_lf ls H)|]. split; [exact (ended_wide e ls He Hn H)|].
  clear H. induction ls as [|l ls IH]; constructor; [|exact IH]. exists l, [], [], [], e.
  split; [constructor|]. split; [constructor|]. split; [constructor|]. split; [exact He|]. cbn [app]. rewrite app_nil_r. auto.
Qed.
Lemma joined_same : forall ls t t', joined ls t -> joined ls t' -> same_text t t'.
Proof.
  intros ls t t' H H'. exists ls, ls. split; [exact H|]. split; [exact H'|]. clear. induction ls as [|l ls IH]; constructor; [|exact IH].
  exists l, [], [], [], []. split; [constructor|]. split; [constructor|]. split; [constructor|]. split; [constructor|]. cbn [app]. rewrite app_nil_r. auto.
Qed.
Theorem last_feed : forall t c, c <> 10%N -> same_text (t ++ [c]) (t ++ [c; 10%N]).
Proof.
  intros t c Hc. pose proof (text_is_joined (t ++ [c])) as J. apply (joined_same (text_lines (t ++ [c]))); [exact J|].
  destruct J as [F [E|[ls' [l [E [Hl Et]]]]]]; (split; [exact F|]).
  - exfalso. destruct (text_lines (t ++ [c])) as [|l ls _] using rev_ind.
    + apply (app_cons_not_nil t [] c). symmetry. exact E.
    + rewrite map_app, concat_app in E. cbn [map concat] in E. rewrite app_nil_r, app_assoc in E. apply app_inj_tail in E.
      destruct E as [_ E]. exact (Hc E).
  - left. rewrite E, map_app, concat_app. cbn [map concat]. rewrite app_nil_r. transitivity ((t ++ [c]) ++ [10%N]).
    + rewrite <- app_assoc. reflexivity.
    + rewrite Et. rewrite <- app_assoc. reflexivity.
Qed.

(** ** Blank lines *)
Lemma trim_nil : forall l, trim l = [] -> blank l.
Proof.
  intros l H. destruct (TextLawFacts.trim_split l) as (x & y & Hx & Hy & E). rewrite H in E. cbn [app] in E. rewrite E. apply Forall_app. auto.
Qed.
Lemma blank_trim : forall l, blank l -> trim l = [].
Proof. intros l H. unfold trim. rewrite (blank_start l H). reflexivity. Qed.
Lemma blank_text : forall cd l, blank l -> parse_line cd l = Ok (LText []).
Proof.
  intros cd l H. rewrite <- parse_line_trim, (blank_trim l H). reflexivity.
Qed.

(** ** One more line of text *)
Definition uncount (m : mode) : mode := match m with MPre _ => MPre 0 | MTop c => MTop c | MArt its _ => MArt its 0 end.
Definition alike (s s' : state) : Prop := fst s = fst s' /\ uncount (snd s) = uncount (snd s').
Lemma step_alike : forall s s' l, alike s s' ->
  match step s l, step s' l with
  | Next t, Next t' => alike t t'
  | Stop, Stop | Fall, Fall | Stuck, Stuck => True
  | _, _ => False
  end.
Proof.
  intros [o m] [o' m'] l [H1 H2]. cbn [fst snd] in H1, H2. subst o'.
  destruct m as [k|c|its k], m' as [k'|c'|its' k']; try discriminate H2; try injection H2 as <-;
    destruct l; cbn [step];
    repeat match goal with
    | |- context [match place ?r o with _ => _ end] => destruct (place r o)
    | |- context [match next_items ?p ?x with _ => _ end] => destruct (next_items p x)
    end; try exact I; split; reflexivity.
Qed.
Lemma steps_alike : forall b s s' t, alike s s' -> steps s b = Next t -> exists t', steps s' b = Next t'.
Proof.
  induction b as [|l b IH]; intros s s' t A E; [eexists; reflexivity|]. cbn [steps] in *.
  pose proof (step_alike s s' l A) as M. destruct (step s l) as [u| | |]; try discriminate E.
  destruct (step s' l) as [u'| | |]; try destruct M. exact (IH u u' t (conj H H0) E).
Qed.
Theorem text_inserted : forall a b s, readable (a ++ b) -> ~ after_heading a -> readable (a ++ LText s :: b).
Proof.
  intros a b s R H. apply readable_run in R as [t E]. rewrite steps_app in E.
  destruct (steps ([], MPre 0) a) as [[o m]| | |] eqn:Ea; try discriminate E.
  pose proof (knows_run _ _ Ea) as (_ & _ & _ & Hh & _). apply readable_run. rewrite steps_app, Ea. cbn [steps step].
  destruct m as [k|c|its k].
  - exact (steps_alike b (o, MPre k) (o, MPre (k + 1)) t (conj eq_refl eq_refl) E).
  - exfalso. apply H. apply Hh. exact I.
  - exact (steps_alike b (o, MArt its k) (o, MArt its (k + 1)) t (conj eq_refl eq_refl) E).
Qed.
Lemma content_cons : forall l r, content (l :: r) =
  match l with
  | LCaption s => match r with LArticle _ _ :: _ => [PCaption (as_text s)] | _ => [] end
  | _ => line_content l
  end ++ content r.
Proof. intros l r. destruct l; reflexivity. Qed.
Lemma content_app : forall a x, ~ after_heading a -> content (a ++ x) = content a ++ content x.
Proof.
  induction a as [|l a IH]; intros x H; [reflexivity|].
  assert (H' : ~ after_heading a). { intros (b & h & -> & X). apply H. exists (l :: b), h. auto. }
  cbn [app]. rewrite !content_cons, (IH x H'), app_assoc. f_equal. f_equal. destruct l; try reflexivity.
  destruct a as [|y a]; [exfalso; apply H; exists [], (LCaption s); split; [reflexivity|exact I]|]. reflexivity.
Qed.
Lemma read_content : forall title lines, readable lines -> exists b,
  (forall fuel, length lines < fuel -> parse_lines fuel title lines = Some (Ok b)) /\
  flat_map entry_content (list_body b) = content lines.
Proof.
  intros title lines R. destruct (body_exists title lines R) as [b [E L]]. exists b. split; [exact E|].
  rewrite L. destruct (readable_outline _ R) as [es E']. rewrite E'. destruct (outline_content _ _ _ _ _ E') as [a' [Ea C]].
  rewrite app_nil_r in Ea. subst a'. exact C.
Qed.
Lemma text_is_trimmed : forall cd l t, parse_line cd l = Ok (LText t) -> t = trim l.
Proof.
  intros cd l t. unfold parse_line. destruct (captures re_caption (trim l)) as [c|].
  - destruct (group_text "caption"%string c); discriminate.
  - destruct (split_number (trim l)) as [[[s r]|]| |]; cbn [bind]; try discriminate.
    + destruct (parse_article_number cd s) as [[n|]| |]; cbn [bind]; try discriminate.
      * repeat match goal with |- context [if ?b then _ else _] => destruct b end; discriminate.
      * destruct (parse_item_number cd s) as [[n|]| |]; cbn [bind]; try discriminate. intros E. injection E as <-. reflexivity.
    + destruct (captures re_suppl (trim l)); [discriminate|]. intros E. injection E as <-. reflexivity.
Qed.
Theorem blank_iff : forall cd l, parse_line cd l = Ok (LText []) <-> blank l.
Proof.
  intros cd l. split; [|apply blank_text]. intros H. apply trim_nil. symmetry. exact (text_is_trimmed cd l [] H).
Qed.

Lemma classify_joined : forall cd ls text lines, joined ls text -> Forall2 (fun l x => parse_line cd l = Ok x) ls lines ->
  classify cd text = Ok lines.
Proof. intros cd ls text lines J H. apply classify_ok. rewrite (text_lines_joined _ _ J). exact H. Qed.

Theorem blank_line_loops : forall cd title ls1 l ls2 text a b, joined (ls1 ++ l :: ls2) text -> blank l ->
  Forall2 (fun l x => parse_line cd l = Ok x) ls1 a -> Forall2 (fun l x => parse_line cd l = Ok x) ls2 b ->
  readable a -> after_heading a -> forall fuel, parse_body cd fuel title text = None.
Proof.
  intros cd title ls1 l ls2 text a b J B H1 H2 R (c & h & -> & Hh). apply text_loops. exists c, h, [], b.
  split; [|split; [exact R|exact Hh]]. apply (classify_joined cd _ _ _ J).
  replace (c ++ h :: LText [] :: b) with ((c ++ [h]) ++ LText [] :: b) by (rewrite <- app_assoc; reflexivity).
  apply Forall2_app; [exact H1|]. constructor; [apply blank_text, B|exact H2].
Qed.
Theorem blank_line_counts : forall cd title ls1 l ls2 text text' a b,
  joined (ls1 ++ ls2) text -> joined (ls1 ++ l :: ls2) text' -> blank l ->
  Forall2 (fun l x => parse_line cd l = Ok x) ls1 a -> Forall2 (fun l x => parse_line cd l = Ok x) ls2 b ->
  readable (a ++ b) -> ~ after_heading a ->
  exists v v', (forall fuel, length (a ++ b) < fuel -> parse_body cd fuel title text = Some (Ok v)) /\
    (forall fuel, S (length (a ++ b)) < fuel -> parse_body cd fuel title text' = Some (Ok v')) /\
    flat_map entry_content (list_body v) = content a ++ content b /\
    flat_map entry_content (list_body v') = content a ++ PText (bare_sentence []) :: content b.
Proof.
  intros cd title ls1 l ls2 text text' a b J J' B H1 H2 R N.
  pose proof (classify_joined cd _ _ _ J (Forall2_app H1 H2)) as C.
  assert (C' : classify cd text' = Ok (a ++ LText [] :: b)).
  { apply (classify_joined cd _ _ _ J'). apply Forall2_app; [exact H1|]. constructor; [apply blank_text, B|exact H2]. }
  destruct (read_content title _ R) as [v [E1 E2]].
  destruct (read_content title _ (text_inserted a b [] R N)) as [v' [E1' E2']].
  exists v, v'. unfold parse_body. rewrite C, C'. split; [exact E1|]. split.
  { intros fuel F. apply E1'. rewrite app_length in *. cbn [length]. lia. }
  rewrite E2, E2', !(content_app a) by exact N. auto.
Qed.

(** ** Blank lines at the beginning *)
Lemma preamble_grows : forall f st lines st' rest, body_loop f st lines = Some (Ok (st', rest)) ->
  bs_preamble st <> [] -> bs_preamble st' <> [].
Proof.
  induction f as [|f IH]; intros st lines st' rest E H; [discriminate E|]. cbn [body_loop] in E.
  destruct lines as [|l r]; [injection E as <- <-; exact H|].
  destruct l;
    try (match type of E with then_ ?x _ = _ => destruct x as [[[? ?]|?|]|] end; cbn [then_ fst snd] in E; try discriminate E;
         try (destruct (bs_suppl_num st)); (eapply IH; [exact E|exact H]));
    try (injection E as <- <-; exact H).
  - eapply IH; [exact E|exact H].
  - eapply IH; [exact E|exact H].
  - destruct (bs_is_preamble st); [|eapply IH; [exact E|exact H]]. eapply IH; [exact E|]. cbn [bs_preamble].
    intros X. apply app_eq_nil in X as [_ X]. discriminate X.
Qed.
Theorem blank_line_first : forall cd fuel title l ls text b, joined (l :: ls) text -> blank l ->
  parse_body cd fuel title text = Some (Ok b) -> exists p, lb_preamble (un KLawBody b) = Some p.
Proof.
  intros cd fuel title l ls text b J B. unfold parse_body. destruct (classify cd text) as [lines| |] eqn:C; try discriminate.
  apply classify_ok in C. rewrite (text_lines_joined _ _ J) in C. inversion C as [|? x ? r Hx _]; subst. rewrite (blank_text cd l B) in Hx.
  injection Hx as <-. unfold parse_lines. destruct (body_loop fuel initial (LText [] :: r)) as [[[st rest]| |]|] eqn:E; try discriminate.
  cbn [then_ fst]. intros X. unfold done in X. injection X as <-. destruct fuel as [|f]; [discriminate E|]. cbn [body_loop initial bs_is_preamble] in E.
  apply preamble_grows in E; [|cbn [bs_preamble]; discriminate]. unfold body_of_state. change (un KLawBody (mkLawBody ?x)) with x. cbn [lb_preamble].
  destruct (bs_preamble st); [destruct E; reflexivity|]. eexists. reflexivity.
Qed.
