(** Every law body with the shape of ShapeSpec.v is the reading of some lines. *)
From Coq Require Import String List NArith Bool Arith Lia.
From Verif Require Import Base NumStr Ast Regex NumText TextParse TextSpec TextFacts BodyFacts ShapeSpec ShapeFacts KnotFacts.
Import ListNotations.
Open Scope list_scope.

Lemma take_texts_app : forall ts r, no_text r -> take_texts (map LText ts ++ r) = (ts, r).
Proof.
  induction ts as [|t ts IH]; intros r H; cbn [map app].
  - destruct r as [|[] r]; try reflexivity. destruct H.
  - cbn [take_texts]. rewrite (IH r H). reflexivity.
Qed.

Section Lines.
Context (ok : line -> Prop).

(** What can come after items [xs] with the pattern [up] around them. *)
Definition follows {k} (up : ItemPattern) (xs : list (Knot k)) (rest : list line) : Prop :=
  no_item rest \/ exists i t r, rest = LItem i t :: r /\ inum_pattern i = up /\ last_leaf xs.

Definition sub_back (l : lvl) : Prop := forall up p (xs : list (Knot (KItem l))), up <> p ->
  every (item_shape ok p (Some up)) xs -> chain (fun y _ => short y) xs ->
  exists ls, Forall ok ls /\ (xs = [] -> ls = []) /\ (xs <> [] -> exists i t r, ls = LItem i t :: r /\ inum_pattern i = p) /\
    forall rest fuel, follows up xs rest -> length ls < fuel -> subitems fuel l up p (ls ++ rest) = done (xs, rest).

Lemma item_form : forall l p up (x : Knot (KItem l)), item_shape ok p up x ->
  exists i t ts c, x = item_of l i t ts c /\ inum_pattern i = p /\ ok (LItem i t) /\ ok_texts ok ts /\
    (exists q, q <> p /\ up <> Some q /\ every (fun y => item_shape ok q (Some p) y) c) /\ chain (fun y _ => short y) c.
Proof.
  intros l p up x H. rewrite <- (mk_un (KItem l) x) in H |- *. destruct (un (KItem l) x) as [ti se ch st nu de hi].
  change (mk (KItem l) (mkItemF ti se ch st nu de hi)) with (@mkItem l (mkItemF ti se ch st nu de hi)) in H |- *.
  cbn [ShapeSpec.item_shape it_title it_struct_list it_hide it_num it_delete it_sentence it_children] in H.
  destruct H as ((i & t & ts & H1 & H2 & H3 & -> & -> & -> & -> & -> & ss & -> & Hs) & Hq & Hc).
  exists i, t, ts, ch. rewrite says_deleted_eq, (says_only_one _ _ _ Hs). split; [reflexivity|]. auto.
Qed.

(** One more level, from the level below it. *)
Definition nested (f : nat) (l : lvl) (now p : ItemPattern) (rest : list line) : Run (list (Knot (sub_item l)) * list line) :=
  match l return Run (list (Knot (sub_item l)) * list line) with
  | Item0 => subitems f Sub1 now p rest
  | Sub1 => subitems f Sub2 now p rest
  | Sub2 => subitems f Sub3 now p rest
  | Sub3 => subitems f Sub4 now p rest
  | Sub4 => subitems f Sub5 now p rest
  | Sub5 => subitems f Sub6 now p rest
  | Sub6 => subitems f Sub7 now p rest
  | Sub7 => subitems f Sub8 now p rest
  | Sub8 => subitems f Sub9 now p rest
  | Sub9 => subitems f Sub10 now p rest
  | Sub10 => done ([], rest)
  end.
(** The items below one item. *)
Definition nested_back (l : lvl) : Prop := forall up p (xs : list (Knot (sub_item l))), up <> p ->
  every (item_shape ok p (Some up)) xs -> chain (fun y _ => short y) xs ->
  exists ls, Forall ok ls /\ (xs = [] -> ls = []) /\ (xs <> [] -> exists i t r, ls = LItem i t :: r /\ inum_pattern i = p) /\
    forall rest fuel, follows up xs rest -> length ls < fuel -> xs <> [] -> nested fuel l up p (ls ++ rest) = done (xs, rest).

Lemma no_void : Knot KVoid -> False.
Proof. intros x. destruct (un KVoid x). Qed.

Lemma nested_of_sub : forall l, (forall l', sub_item l = KItem l' -> sub_back l') -> nested_back l.
Proof.
  intros l H up p xs N E S.
  assert (Z : forall l', sub_item l = KItem l' -> exists ls, Forall ok ls /\ (xs = [] -> ls = []) /\
    (xs <> [] -> exists i t r, ls = LItem i t :: r /\ inum_pattern i = p) /\
    forall rest fuel, follows up xs rest -> length ls < fuel -> xs <> [] -> nested fuel l up p (ls ++ rest) = done (xs, rest)).
  { intros l' Q. specialize (H l' Q). destruct l; try discriminate Q; injection Q as <-;
      (destruct (H up p xs N E S) as (ls & L1 & L2 & L3 & L4); exists ls; split; [exact L1|]; split; [exact L2|]; split; [exact L3|];
       intros rest fuel F G _; exact (L4 rest fuel F G)). }
  destruct l; try exact (Z _ eq_refl).
  exists []. split; [constructor|]. destruct xs as [|x xs]; [|destruct (no_void x)].
  split; [reflexivity|]. split; intros; contradiction.
Qed.

Lemma sub_of_nested : forall l, nested_back l -> sub_back l.
Proof.
  intros l HN up p xs N. induction xs as [|x xs IH]; intros E S.
  - exists []. split; [constructor|]. split; [reflexivity|]. split; [intros Q; contradiction|].
    intros rest [|fuel] F G; [cbn in G; lia|]. cbn [app subitems]. destruct F as [F|(i & t & r & -> & F & _)].
    + destruct rest as [|[] rest]; try reflexivity. destruct F.
    + rewrite F, pat_eqb_refl. reflexivity.
  - cbn [every] in E. destruct E as [Ex E]. cbn [chain] in S. destruct S as [Sx S].
    destruct (IH E S) as (ls & L1 & L2 & L3 & L4). clear IH.
    apply item_form in Ex as (i & t & ts & c & -> & X1 & X2 & X3 & (q & Q1 & Q2 & X4) & X5).
    destruct (HN p q c) as (cs & C1 & C2 & C3 & C4); [congruence|exact X4|exact X5|].
    exists (LItem i t :: map LText ts ++ cs ++ ls).
    split; [constructor; [exact X2|]; apply Forall_app; split; [apply texts_ok, X3|apply Forall_app; auto]|].
    split; [discriminate|]. split; [intros _; eauto|].
    intros rest [|fuel] F G; [cbn in G; lia|].
    cbn [length] in G. rewrite !app_length, map_length in G.
    assert (F' : follows up xs rest).
    { destruct F as [F|(i' & t' & r & -> & F1 & F2)]; [left; exact F|right]. exists i', t', r. split; [reflexivity|]. split; [exact F1|].
      intros u z Q. apply (F2 (item_of l i t ts c :: u) z). rewrite Q. reflexivity. }
    (* the lines after the items below [x] *)
    assert (A : no_text (ls ++ rest) /\ (xs = [] \/ first_pattern p (ls ++ rest) /\ at_item (ls ++ rest))).
    { destruct xs as [|y xs].
      - rewrite (L2 eq_refl). split; [|left; reflexivity]. destruct F as [F|(i' & t' & r & -> & _)]; [apply no_item_text, F|exact I].
      - destruct L3 as (j & tj & r & -> & Hj); [discriminate|]. split; [exact I|right]. split; [exact Hj|exact I]. }
    destruct A as [A1 A2].
    cbn [app subitems]. rewrite X1, pat_eqb_refl. destruct (pat_eqb p up) eqn:B; [apply pat_eqb_eq in B; congruence|].
    rewrite <- !app_assoc, take_texts_app.
    2:{ destruct c as [|c0 c]; [rewrite (C2 eq_refl); exact A1|]. destruct C3 as (j & tj & r & -> & _); [discriminate|exact I]. }
    match goal with |- then_ ?m _ = _ => assert (M : m = done (c, ls ++ rest)) end.
    { destruct c as [|c0 c].
      - rewrite (C2 eq_refl). cbn [app].
        assert (Y : first_pattern p (ls ++ rest) \/ first_pattern up (ls ++ rest)).
        { destruct A2 as [A2|[A2 _]]; [|left; exact A2]. subst xs. rewrite (L2 eq_refl). cbn [app].
          destruct F as [F|(i' & t' & r & -> & F1 & _)]; [left|right; exact F1]. destruct rest as [|[] rest]; try exact I. destruct F. }
        destruct (ls ++ rest) as [|[] w]; try reflexivity. cbn in Y. 
        destruct Y as [Y|Y]; rewrite Y, pat_eqb_refl; cbn [negb andb]; [reflexivity|]. rewrite andb_false_r. reflexivity.
      - destruct C3 as (j & tj & r & -> & Hj); [discriminate|].
        specialize (C4 (ls ++ rest) fuel). cbn [app] in C4 |- *. rewrite Hj.
        replace (pat_eqb q p) with false by (symmetry; apply pat_eqb_neq; congruence).
        replace (pat_eqb q up) with false by (symmetry; apply pat_eqb_neq; congruence). cbn [negb andb].
        apply C4; [|cbn [length] in G |- *; lia|discriminate].
        destruct xs as [|y xs].
        + rewrite (L2 eq_refl). cbn [app]. destruct F as [F|(i' & t' & r' & -> & _ & F2)]; [left; exact F|].
          specialize (F2 [] _ eq_refl). discriminate F2.
        + destruct L3 as (j' & tj' & r' & -> & Hj'); [discriminate|]. right. exists j', tj', (r' ++ rest).
          split; [reflexivity|]. split; [exact Hj'|]. exact Sx. }
    rewrite M. cbn [then_ done snd fst]. rewrite L4; [reflexivity|exact F'|lia].
Qed.

Lemma sub_all : forall n l, 10 <= n + lvl_nat l -> sub_back l.
Proof.
  induction n as [|n IH]; intros l H; apply sub_of_nested, nested_of_sub; intros l' Q.
  - destruct l; try discriminate Q; cbn in H; lia.
  - apply IH. destruct l; try discriminate Q; injection Q as <-; cbn in H |- *; lia.
Qed.
Lemma nested_all : forall l, nested_back l.
Proof. intros l. apply nested_of_sub. intros l' _. apply (sub_all 10). lia. Qed.

Lemma items_back : forall xs, items_shape ok xs -> exists ls, Forall ok ls /\ no_text ls /\ forall rest fuel, no_item rest -> length ls < fuel ->
  items fuel (ls ++ rest) = done (xs, rest).
Proof.
  intros xs [[p E] S].
  cut (exists ls, Forall ok ls /\ (xs = [] -> ls = []) /\ (xs <> [] -> exists i t r, ls = LItem i t :: r /\ inum_pattern i = p) /\
    forall rest fuel, no_item rest -> length ls < fuel -> items fuel (ls ++ rest) = done (xs, rest)).
  { intros (ls & L1 & L2 & L3 & L4). exists ls. split; [exact L1|]. split; [|exact L4].
    destruct xs as [|x xs]; [rewrite L2 by reflexivity; exact I|]. destruct L3 as (i & t & r & -> & _); [discriminate|exact I]. }
  induction xs as [|x xs IH].
  - exists []. split; [constructor|]. split; [reflexivity|]. split; [intros Q; contradiction|].
    intros rest [|fuel] F G; [cbn in G; lia|]. cbn [app items]. destruct rest as [|[] rest]; try reflexivity. destruct F.
  - cbn [every] in E. destruct E as [Ex E]. cbn [chain] in S. destruct S as [Sx S].
    destruct (IH E S) as (ls & L1 & L2 & L3 & L4). clear IH.
    apply item_form in Ex as (i & t & ts & c & -> & X1 & X2 & X3 & (q & Q1 & Q2 & X4) & X5).
    destruct (nested_all Item0 p q c) as (cs & C1 & C2 & C3 & C4); [congruence|exact X4|exact X5|].
    exists (LItem i t :: map LText ts ++ cs ++ ls).
    split; [constructor; [exact X2|]; apply Forall_app; split; [apply texts_ok, X3|apply Forall_app; auto]|].
    split; [discriminate|]. split; [intros _; eauto|].
    intros rest [|fuel] F G; [cbn in G; lia|].
    cbn [length] in G. rewrite !app_length, map_length in G.
    assert (A : no_text (ls ++ rest) /\ first_pattern p (ls ++ rest)).
    { destruct xs as [|y xs].
      - rewrite (L2 eq_refl). cbn [app]. split; [apply no_item_text, F|]. destruct rest as [|[] rest]; try exact I. destruct F.
      - destruct L3 as (j & tj & r & -> & Hj); [discriminate|]. split; [exact I|exact Hj]. }
    destruct A as [A1 A2].
    cbn [app items]. rewrite <- !app_assoc, take_texts_app.
    2:{ destruct c as [|c0 c]; [rewrite (C2 eq_refl); exact A1|]. destruct C3 as (j & tj & r & -> & _); [discriminate|exact I]. }
    match goal with |- then_ ?m _ = _ => assert (M : m = done (c, ls ++ rest)) end.
    { destruct c as [|c0 c].
      - rewrite (C2 eq_refl). cbn [app]. destruct (ls ++ rest) as [|[] w]; try reflexivity. cbn in A2. 
        rewrite A2, X1, pat_eqb_refl. reflexivity.
      - destruct C3 as (j & tj & r & -> & Hj); [discriminate|].
        specialize (C4 (ls ++ rest) fuel). cbn [app nested] in C4 |- *. rewrite Hj, X1.
        replace (pat_eqb q p) with false by (symmetry; apply pat_eqb_neq; congruence). cbn [negb].
        apply C4; [|cbn [length] in G |- *; lia|discriminate].
        destruct xs as [|y xs].
        + rewrite (L2 eq_refl). left. exact F.
        + destruct L3 as (j' & tj' & r' & -> & Hj'); [discriminate|]. right. exists j', tj', (r' ++ rest).
          split; [reflexivity|]. split; [exact Hj'|]. exact Sx. }
    rewrite M. cbn [then_ done snd fst]. rewrite L4; [reflexivity|exact F|lia].
Qed.

Lemma paragraph_back : forall n t p, paragraph_shape ok n t p -> exists ls, Forall ok ls /\
  forall rest fuel, no_item rest -> length ls < fuel -> parse_paragraph fuel n t (ls ++ rest) = done (p, rest).
Proof.
  intros n t p (ts & ss & c & -> & Ht & Hs & Hc). destruct (items_back c Hc) as (ls & L1 & L2 & L3).
  exists (map LText ts ++ ls). split; [apply Forall_app; split; [apply texts_ok, Ht|exact L1]|].
  intros rest fuel F G. rewrite app_length in G. unfold parse_paragraph. rewrite <- app_assoc, take_texts_app.
  - rewrite L3 by (auto; lia). cbn [then_ done fst snd]. rewrite (says_only_one _ _ _ Hs). reflexivity.
  - destruct ls as [|[] ls]; try exact I; [apply no_item_text, F|exact L2].
Qed.
Lemma paragraphs_back : forall ps, Forall (fun p => exists n t, ok (LParagraph n t) /\ paragraph_shape ok n t p) ps ->
  exists ls, Forall ok ls /\ no_item ls /\
  forall rest fuel, no_par rest -> length ls < fuel -> paragraphs fuel (ls ++ rest) = done (ps, rest).
Proof.
  intros ps H. induction H as [|p ps (n & t & Hl & Hp) H (ls & L1 & L2 & L3)].
  - exists []. split; [constructor|]. split; [exact I|]. intros rest [|fuel] F G; [cbn in G; lia|]. cbn [app paragraphs].
    destruct rest as [|[] rest]; try reflexivity. destruct F.
  - destruct (paragraph_back n t p Hp) as (qs & Q1 & Q2). exists (LParagraph n t :: qs ++ ls).
    split; [constructor; [exact Hl|apply Forall_app; auto]|]. split; [exact I|].
    intros rest [|fuel] F G; [cbn in G; lia|]. cbn [app paragraphs length] in G |- *. rewrite app_length in G.
    rewrite <- app_assoc, Q2; [|destruct ls as [|[] ls]; try exact I; try destruct L2; destruct rest as [|[] rest]; try exact I; destruct F|lia].
    cbn [then_ done snd fst]. rewrite L3; [reflexivity|exact F|lia].
Qed.
Lemma article_back : forall a, article_shape ok a -> exists pre n t ls, Forall ok (pre ++ LArticle n t :: ls) /\
  ((exists s, pre = [LCaption s] /\ forall rest fuel, no_par rest -> length ls < fuel ->
     parse_article fuel (Some s) n t (ls ++ rest) = done (a, rest)) \/
   (pre = [] /\ forall rest fuel, no_par rest -> length ls < fuel ->
     parse_article fuel None n t (ls ++ rest) = done (a, rest))).
Proof.
  intros a (cap & n & t & p & ps & -> & Hc & Hl & Hp & Hps). destruct (paragraph_back _ _ _ Hp) as (ls & L1 & L2).
  destruct (paragraphs_back ps Hps) as (qs & Q1 & Q2 & Q3).
  assert (G : forall rest fuel, no_par rest -> length (ls ++ qs) < fuel ->
    parse_article fuel cap n t ((ls ++ qs) ++ rest) = done (mkArticle
     (mkArticleF (option_map (fun s => mkCaption (as_text s) None) cap) (as_text []) (p :: ps) None n (says_deleted t) false), rest)).
  { intros rest fuel F G. rewrite app_length in G. unfold parse_article. rewrite <- app_assoc, L2; [|destruct qs as [|[] qs]; try exact I; try destruct Q2;
      destruct rest as [|[] rest]; try exact I; destruct F|lia].
    cbn [then_ done snd fst]. rewrite Q3; [|exact F|lia]. cbn [then_ done snd fst]. rewrite says_deleted_eq. reflexivity. }
  exists (match cap with Some s => [LCaption s] | None => [] end), n, t, (ls ++ qs). split.
  - destruct cap as [s|]; cbn [app]; [constructor; [apply Hc; reflexivity|]|]; (constructor; [exact Hl|apply Forall_app; auto]).
  - destruct cap as [s|]; [left; exists s|right]; (split; [reflexivity|exact G]).
Qed.

(** Headings by number. *)
Definition line_rank (l : line) : nat :=
  match l with LPart _ _ => 0 | LChapter _ _ => 1 | LSection _ _ => 2 | LSubsection _ _ => 3 | LDivision _ _ => 4 | _ => 5 end.
Definition stops (r : nat) (rest : list line) : Prop := match rest with [] => True | l :: _ => line_rank l <= r end.
(** The first line is a heading, caption or article. *)
Definition no_below (l : list line) : Prop :=
  match l with LText _ :: _ | LItem _ _ :: _ | LParagraph _ _ :: _ | LSuppl _ :: _ => False | _ => True end.
Lemma no_below_par : forall l, no_below l -> no_par l.
Proof. intros [|[] l]; cbn; tauto. Qed.
Lemma stops_below : forall r l, r < 5 -> stops r l -> no_below l.
Proof. intros r [|[] l]; cbn; lia. Qed.
Lemma stops_settled : forall r l, r < 5 -> stops r l -> settled l.
Proof. intros r [|[] l]; cbn; try tauto; lia. Qed.
Lemma stops_weak : forall r r' l, r <= r' -> stops r l -> stops r' l.
Proof. intros r r' [|x l]; cbn; lia. Qed.
Lemma no_below_app : forall a b, no_below a -> no_below b -> no_below (a ++ b).
Proof. intros [|[] a] b; cbn; tauto. Qed.

Section Head.
Context {C : Type} (article : Knot KArticle -> C) (sub : nat -> line -> list line -> option (Run (C * list line)))
  (P : C -> Prop) (r : nat).
Hypothesis r_small : r < 4.
Hypothesis P_back : forall c, P c -> exists l ls, Forall ok (l :: ls) /\ line_rank l = S r /\
  forall rest fuel, stops (S r) rest -> length ls < fuel -> sub fuel l (ls ++ rest) = Some (done (c, rest)).

Lemma subs_back : forall subs, Forall P subs -> exists ls, Forall ok ls /\ stops (S r) ls /\
  forall rest fuel, settled rest -> (forall f l w, rest = l :: w -> sub f l w = None) -> subs = [] \/ stops (S r) rest ->
    length ls < fuel -> head_loop article sub fuel None (ls ++ rest) = done (subs, rest).
Proof.
  intros subs H. induction H as [|c subs Hc H (ls & L1 & L2 & L3)].
  - exists []. split; [constructor|]. split; [exact I|]. intros rest [|fuel] Hs Hn _ G; [cbn in G; lia|]. cbn [app head_loop].
    destruct rest as [|l rest]; [reflexivity|]. rewrite (Hn fuel l rest eq_refl). destruct l; try reflexivity; destruct Hs.
  - destruct (P_back c Hc) as (l & qs & Q1 & Q2 & Q3). exists (l :: qs ++ ls). apply Forall_cons_iff in Q1 as [Ql Q1].
    split; [constructor; [exact Ql|apply Forall_app; auto]|]. split; [cbn; lia|].
    intros rest [|fuel] Hs Hn [E|Hr] G; try discriminate E; [cbn in G; lia|].
    cbn [app head_loop length] in G |- *. rewrite app_length in G.
    assert (X : match sub fuel l (qs ++ ls ++ rest) with
      | Some x => y <~ x; z <~ head_loop article sub fuel None (snd y); done (fst y :: fst z, snd z)
      | None => done ([], l :: (qs ++ ls ++ rest))
      end = done (c :: subs, rest)).
    { rewrite Q3; [|destruct ls as [|x ls]; [exact Hr|exact L2]|lia]. cbn [then_ done snd fst].
      rewrite L3; [reflexivity|exact Hs|exact Hn|right; exact Hr|lia]. }
    rewrite <- app_assoc. destruct l; try exact X; cbn in Q2; lia.
Qed.
Lemma head_loop_back : forall arts subs, Forall (article_shape ok) arts -> Forall P subs ->
  exists ls, Forall ok ls /\ no_below ls /\
  forall rest fuel, settled rest -> no_below rest -> (forall f l w, rest = l :: w -> sub f l w = None) -> subs = [] \/ stops (S r) rest ->
    length ls < fuel -> head_loop article sub fuel None (ls ++ rest) = done (map article arts ++ subs, rest).
Proof.
  intros arts subs H Hs. induction H as [|a arts Ha H (ls & L1 & L2 & L3)].
  - destruct (subs_back subs Hs) as (ls & L1 & L2 & L3). exists ls. split; [exact L1|].
    split; [apply (stops_below (S r)); [lia|exact L2]|]. intros rest fuel R1 R2 R3 R4 G. apply L3; auto.
  - destruct (article_back a Ha) as (pre & n & t & qs & Q1 & Q2). exists (pre ++ LArticle n t :: qs ++ ls).
    split; [rewrite app_comm_cons, app_assoc; apply Forall_app; auto|].
    split; [destruct Q2 as [(s & -> & _)|[-> _]]; exact I|].
    intros rest fuel R1 R2 R3 R4 G. rewrite <- app_assoc. cbn [app]. rewrite <- app_assoc.
    rewrite app_length in G. cbn [length] in G. rewrite app_length in G.
    assert (B : no_par (ls ++ rest)) by (apply no_below_par, no_below_app; assumption).
    destruct Q2 as [(s & -> & Q2)|[-> Q2]]; cbn [app length] in G |- *.
    + destruct fuel as [|[|fuel]]; [lia|lia|]. cbn [head_loop]. rewrite Q2 by (auto; lia). cbn [then_ done snd fst].
      rewrite L3 by (auto; lia). reflexivity.
    + destruct fuel as [|fuel]; [lia|]. cbn [head_loop]. rewrite Q2 by (auto; lia). cbn [then_ done snd fst].
      rewrite L3 by (auto; lia). reflexivity.
Qed.
End Head.

Lemma division_back : forall x, division_shape ok x -> exists n t ls, Forall ok (LDivision n t :: ls) /\
  forall rest fuel, stops 4 rest -> length ls < fuel -> parse_division fuel n t (ls ++ rest) = done (x, rest).
Proof.
  intros x (n & t & arts & subs & E & Hl & Ha & Hs).
  destruct (head_loop_back (fun a => a) (fun _ _ _ => None) (fun _ => False) 3) with (arts := arts) (subs := subs) as (ls & L1 & L2 & L3); auto; [intros c []|].
  exists n, t, ls. split; [constructor; assumption|]. intros rest fuel R G. unfold parse_division.
  rewrite L3; auto.
  - cbn [then_ done fst snd]. unfold head_of. rewrite <- says_deleted_eq. unfold text_of. fold (as_text t). rewrite <- E.
    rewrite <- (mk_un KDivision x) at 2. reflexivity.
  - apply (stops_settled 4); [lia|exact R].
  - apply (stops_below 4); [lia|exact R].
Qed.
Lemma subsection_back : forall x, subsection_shape ok x -> exists n t ls, Forall ok (LSubsection n t :: ls) /\
  forall rest fuel, stops 3 rest -> length ls < fuel -> parse_subsection fuel n t (ls ++ rest) = done (x, rest).
Proof.
  intros x (n & t & arts & subs & E & Hl & Ha & Hs).
  eapply (head_loop_back SuC_Article
    (fun f l rest => match l with
                     | LDivision n t => Some (x <~ parse_division f n t rest; done (SuC_Division (fst x), snd x))
                     | _ => None
                     end) _ 3) in Hs as (ls & L1 & L2 & L3); [|lia| |exact Ha].
  - exists n, t, ls. split; [constructor; assumption|]. intros rest fuel R G. unfold parse_subsection.
    rewrite L3; auto.
    + cbn [then_ done fst snd]. unfold head_of. rewrite <- says_deleted_eq. unfold text_of. fold (as_text t). rewrite <- E.
      rewrite <- (mk_un KSubsection x) at 2. reflexivity.
    + apply (stops_settled 3); [lia|exact R].
    + apply (stops_below 3); [lia|exact R].
    + intros f l w ->. destruct l; try reflexivity. cbn in R. lia.
    + right. apply (stops_weak 3); [lia|exact R].
  - intros c (y & -> & Hy). destruct (division_back y Hy) as (m & u & qs & Q1 & Q2). exists (LDivision m u), qs.
    split; [exact Q1|]. split; [reflexivity|]. intros rest fuel R G. rewrite Q2 by assumption. reflexivity.
Qed.
Lemma section_back : forall x, section_shape ok x -> exists n t ls, Forall ok (LSection n t :: ls) /\
  forall rest fuel, stops 2 rest -> length ls < fuel -> parse_section fuel n t (ls ++ rest) = done (x, rest).
Proof.
  intros x (n & t & arts & subs & E & Hl & Ha & Hs).
  eapply (head_loop_back SeC_Article
    (fun f l rest => match l with
                     | LSubsection n t => Some (x <~ parse_subsection f n t rest; done (SeC_Subsection (fst x), snd x))
                     | _ => None
                     end) _ 2) in Hs as (ls & L1 & L2 & L3); [|lia| |exact Ha].
  - exists n, t, ls. split; [constructor; assumption|]. intros rest fuel R G. unfold parse_section.
    rewrite L3; auto.
    + cbn [then_ done fst snd]. unfold head_of. rewrite <- says_deleted_eq. unfold text_of. fold (as_text t). rewrite <- E.
      rewrite <- (mk_un KSection x) at 2. reflexivity.
    + apply (stops_settled 2); [lia|exact R].
    + apply (stops_below 2); [lia|exact R].
    + intros f l w ->. destruct l; try reflexivity. cbn in R. lia.
    + right. apply (stops_weak 2); [lia|exact R].
  - intros c (y & -> & Hy). destruct (subsection_back y Hy) as (m & u & qs & Q1 & Q2). exists (LSubsection m u), qs.
    split; [exact Q1|]. split; [reflexivity|]. intros rest fuel R G. rewrite Q2 by assumption. reflexivity.
Qed.
Lemma chapter_back : forall x, chapter_shape ok x -> exists n t ls, Forall ok (LChapter n t :: ls) /\
  forall rest fuel, stops 1 rest -> length ls < fuel -> parse_chapter fuel n t (ls ++ rest) = done (x, rest).
Proof.
  intros x (n & t & arts & subs & E & Hl & Ha & Hs).
  eapply (head_loop_back ChC_Article
    (fun f l rest => match l with
                     | LSection n t => Some (x <~ parse_section f n t rest; done (ChC_Section (fst x), snd x))
                     | _ => None
                     end) _ 1) in Hs as (ls & L1 & L2 & L3); [|lia| |exact Ha].
  - exists n, t, ls. split; [constructor; assumption|]. intros rest fuel R G. unfold parse_chapter.
    rewrite L3; auto.
    + cbn [then_ done fst snd]. unfold head_of. rewrite <- says_deleted_eq. unfold text_of. fold (as_text t). rewrite <- E.
      rewrite <- (mk_un KChapter x) at 2. reflexivity.
    + apply (stops_settled 1); [lia|exact R].
    + apply (stops_below 1); [lia|exact R].
    + intros f l w ->. destruct l; try reflexivity. cbn in R. lia.
    + right. apply (stops_weak 1); [lia|exact R].
  - intros c (y & -> & Hy). destruct (section_back y Hy) as (m & u & qs & Q1 & Q2). exists (LSection m u), qs.
    split; [exact Q1|]. split; [reflexivity|]. intros rest fuel R G. rewrite Q2 by assumption. reflexivity.
Qed.
Lemma part_back : forall x, part_shape ok x -> exists n t ls, Forall ok (LPart n t :: ls) /\
  forall rest fuel, stops 0 rest \/ ((forall c, In (PC_Chapter c) (hd_children (un KPart x)) -> False) /\
      exists m u w, rest = LSection m u :: w) -> length ls < fuel -> parse_part fuel n t (ls ++ rest) = done (x, rest).
Proof.
  intros x (n & t & arts & subs & E & Hl & Ha & Hs). assert (Hs' := Hs).
  eapply (head_loop_back PC_Article
    (fun f l rest => match l with
                     | LChapter n t => Some (x <~ parse_chapter f n t rest; done (PC_Chapter (fst x), snd x))
                     | _ => None
                     end) _ 0) in Hs as (ls & L1 & L2 & L3); [|lia| |exact Ha].
  - exists n, t, ls. split; [constructor; assumption|]. intros rest fuel R G. unfold parse_part.
    rewrite L3; auto.
    + cbn [then_ done fst snd]. unfold head_of. rewrite <- says_deleted_eq. unfold text_of. fold (as_text t). rewrite <- E.
      rewrite <- (mk_un KPart x) at 2. reflexivity.
    + destruct R as [R|(_ & m & u & w & ->)]; [apply (stops_settled 0); [lia|exact R]|exact I].
    + destruct R as [R|(_ & m & u & w & ->)]; [apply (stops_below 0); [lia|exact R]|exact I].
    + intros f l w ->. destruct R as [R|(_ & m & u & w' & Q)]; [destruct l; try reflexivity; cbn in R; lia|injection Q as -> _; reflexivity].
    + destruct R as [R|(Hn & m & u & w & ->)]; [right; apply (stops_weak 0); [lia|exact R]|left].
      destruct subs as [|c subs]; [reflexivity|]. exfalso. apply Forall_cons_iff in Hs' as [(y & -> & _) _].
      apply (Hn y). rewrite E. cbn [hd_children]. apply in_or_app. right. left. reflexivity.
  - intros c (y & -> & Hy). destruct (chapter_back y Hy) as (m & u & qs & Q1 & Q2). exists (LChapter m u), qs.
    split; [exact Q1|]. split; [reflexivity|]. intros rest fuel R G. rewrite Q2 by assumption. reflexivity.
Qed.

(** The main provision. *)
Lemma main_back : forall ms, Forall (main_shape ok) ms -> chain beside ms -> exists ls, Forall ok ls /\
  (forall p m, ms = MC_Part p :: m -> exists n t w, ls = LPart n t :: w) /\
  (forall p m, ms = MC_Chapter p :: m -> exists n t w, ls = LChapter n t :: w) /\
  (forall p m, ms = MC_Section p :: m -> exists n t w, ls = LSection n t :: w) /\
  (ms = [] -> ls = []) /\ no_below ls /\
  forall fuel st, bs_suppl_num st = None -> bs_caption st = None -> length ls < fuel ->
    exists st', body_loop fuel st ls = done (st', []) /\ bs_main st' = bs_main st ++ ms /\ bs_preamble st' = bs_preamble st /\
      bs_suppl_num st' = None /\ bs_suppl st' = bs_suppl st.
Proof.
  induction ms as [|m ms IH]; intros H Hb.
  - exists []. split; [constructor|]. split; [discriminate|]. split; [discriminate|]. split; [discriminate|]. split; [reflexivity|]. split; [exact I|].
    intros [|fuel] st S1 S2 G; [cbn in G; lia|]. exists st. rewrite app_nil_r. auto.
  - apply Forall_cons_iff in H as [Hm H]. cbn [chain] in Hb. destruct Hb as [Hm2 Hb].
    destruct (IH H Hb) as (ls & L1 & L2 & L3 & L4 & L5 & L6 & L7). clear IH.
    assert (N : forall fuel st, bs_suppl_num st = None -> length ls < fuel -> exists st', body_loop fuel (add_main st m) ls = done (st', []) /\
      bs_main st' = bs_main st ++ m :: ms /\ bs_preamble st' = bs_preamble st /\ bs_suppl_num st' = None /\ bs_suppl st' = bs_suppl st).
    { intros fuel st S1 G. destruct (L7 fuel (add_main st m)) as (st' & Q1 & Q2 & Q3 & Q4 & Q5); auto.
      exists st'. split; [exact Q1|]. rewrite Q2. cbn [add_main bs_main]. rewrite <- app_assoc. auto. }
    destruct m as [x|x|x|x|x]; cbn [main_shape] in Hm.
    + destruct (part_back x Hm) as (n & t & qs & Q1 & Q2). apply Forall_cons_iff in Q1 as [Ql Q1]. exists (LPart n t :: qs ++ ls).
      split; [constructor; [exact Ql|apply Forall_app; auto]|]. split; [intros; eauto|].
      split; [intros ? ? E; discriminate E|]. split; [intros ? ? E; discriminate E|]. split; [discriminate|]. split; [exact I|].
      intros [|fuel] st S1 S2 G; [cbn in G; lia|]. cbn [length body_loop] in G |- *. rewrite app_length in G.
      rewrite Q2; [cbn [then_ done fst snd]; apply N; [exact S1|lia]| |lia].
      destruct ms as [|[y|y|y|y|y] ms]; cbn [beside] in Hm2.
      * left. rewrite L5 by reflexivity. exact I.
      * left. destruct (L2 y ms eq_refl) as (a & b & c & ->). apply le_n.
      * destruct Hm2.
      * right. split; [exact Hm2|]. destruct (L4 y ms eq_refl) as (a & b & c & ->). eauto.
      * destruct Hm2.
      * apply Forall_cons_iff in H as [[] _].
    + destruct (chapter_back x Hm) as (n & t & qs & Q1 & Q2). apply Forall_cons_iff in Q1 as [Ql Q1]. exists (LChapter n t :: qs ++ ls).
      split; [constructor; [exact Ql|apply Forall_app; auto]|]. split; [intros ? ? E; discriminate E|].
      split; [intros; eauto|]. split; [intros ? ? E; discriminate E|]. split; [discriminate|]. split; [exact I|].
      intros [|fuel] st S1 S2 G; [cbn in G; lia|]. cbn [length body_loop] in G |- *. rewrite app_length in G.
      rewrite Q2; [cbn [then_ done fst snd]; rewrite S1; apply N; [exact S1|lia]| |lia].
      destruct ms as [|[y|y|y|y|y] ms]; cbn [beside] in Hm2.
      * rewrite L5 by reflexivity. exact I.
      * destruct (L2 y ms eq_refl) as (a & b & c & ->). apply le_S, le_n.
      * destruct (L3 y ms eq_refl) as (a & b & c & ->). apply le_n.
      * destruct Hm2.
      * destruct Hm2.
      * apply Forall_cons_iff in H as [[] _].
    + destruct (section_back x Hm) as (n & t & qs & Q1 & Q2). apply Forall_cons_iff in Q1 as [Ql Q1]. exists (LSection n t :: qs ++ ls).
      split; [constructor; [exact Ql|apply Forall_app; auto]|]. split; [intros ? ? E; discriminate E|].
      split; [intros ? ? E; discriminate E|]. split; [intros; eauto|]. split; [discriminate|]. split; [exact I|].
      intros [|fuel] st S1 S2 G; [cbn in G; lia|]. cbn [length body_loop] in G |- *. rewrite app_length in G.
      rewrite Q2; [cbn [then_ done fst snd]; apply N; [exact S1|lia]| |lia].
      destruct ms as [|[y|y|y|y|y] ms]; cbn [beside] in Hm2.
      * rewrite L5 by reflexivity. exact I.
      * destruct (L2 y ms eq_refl) as (a & b & c & ->). cbn. lia.
      * destruct (L3 y ms eq_refl) as (a & b & c & ->). cbn. lia.
      * destruct (L4 y ms eq_refl) as (a & b & c & ->). cbn. lia.
      * destruct Hm2.
      * apply Forall_cons_iff in H as [[] _].
    + destruct (article_back x Hm) as (pre & n & t & qs & Q1 & Q2). exists (pre ++ LArticle n t :: qs ++ ls).
      split; [rewrite app_comm_cons, app_assoc; apply Forall_app; auto|]. split; [intros ? ? E; discriminate E|].
      split; [intros ? ? E; discriminate E|]. split; [intros ? ? E; discriminate E|]. split; [discriminate|].
      split; [destruct Q2 as [(s & -> & _)|[-> _]]; exact I|].
      intros fuel st S1 S2 G. rewrite app_length in G. cbn [length] in G. rewrite app_length in G.
      apply no_below_par in L6.
      destruct Q2 as [(s & -> & Q2)|[-> Q2]]; cbn [app length] in G |- *.
      * destruct fuel as [|[|fuel]]; [lia|lia|]. cbn [body_loop bs_caption bs_suppl_num]. rewrite Q2 by (auto; lia). cbn [then_ done snd fst].
        rewrite S1. destruct (N fuel (mkBS (bs_preamble st) false (bs_main st) (bs_suppl st) (bs_suppl_children st) None (Some s)) eq_refl)
          as (st' & R1 & R2 & R3 & R4 & R5); [lia|]. exists st'. split; [exact R1|]. auto.
      * destruct fuel as [|fuel]; [lia|]. cbn [body_loop]. rewrite S2, Q2 by (auto; lia). cbn [then_ done snd fst].
        rewrite S1. apply N; [exact S1|lia].
    + destruct Hm.
Qed.
Lemma preamble_back : forall ts st fuel ls, bs_is_preamble st = true -> length ts <= fuel ->
  body_loop fuel st (map LText ts ++ ls) = body_loop (fuel - length ts)
    (match ts with [] => st | _ => mkBS (bs_preamble st ++ ts) true (bs_main st) (bs_suppl st) (bs_suppl_children st) (bs_suppl_num st) (bs_caption st) end) ls.
Proof.
  induction ts as [|t ts IH]; intros st fuel ls P G; [rewrite Nat.sub_0_r; reflexivity|].
  destruct fuel as [|fuel]; [cbn in G; lia|]. cbn [length] in G. cbn [map app body_loop length Nat.sub]. rewrite P.
  rewrite IH by (auto; lia). destruct ts as [|x ts]; [reflexivity|]. cbn [bs_preamble bs_main bs_suppl bs_suppl_children bs_suppl_num bs_caption].
  rewrite <- app_assoc. reflexivity.
Qed.
Theorem body_has_lines : forall title b, body_shape ok title b -> exists lines, Forall ok lines /\
  forall fuel, length lines < fuel -> parse_lines fuel title lines = Some (Ok b).
Proof.
  intros title b (pre & main & -> & Hp & Hm & Hc). destruct (main_back main Hm Hc) as (ls & L1 & _ & _ & _ & _ & _ & L2).
  assert (T : exists ts, Forall (fun t => ok (LText t)) ts /\ preamble_of ts = pre).
  { destruct Hp as [->|(ts & ps & -> & Hn & Ht & Hp)]; [exists []; auto|]. exists ts. split; [exact Ht|].
    apply preface_only_one in Hp as ->. destruct ts; [destruct (Hn eq_refl)|reflexivity]. }
  destruct T as (ts & T1 & T2). exists (map LText ts ++ ls). split.
  - apply Forall_app. split; [|exact L1]. rewrite Forall_map. exact T1.
  - intros fuel G. rewrite app_length, map_length in G. unfold parse_lines. rewrite preamble_back by (try reflexivity; lia).
    match goal with |- context [body_loop _ ?s _] => destruct (L2 (fuel - length ts) s) as (st' & R1 & R2 & R3 & R4 & R5) end;
      [destruct ts; reflexivity|destruct ts; reflexivity|lia|].
    rewrite R1. cbn [then_ done fst]. unfold body_of_state, close_suppl. rewrite R2, R3, R4, R5. subst pre.
    destruct ts; reflexivity.
Qed.
End Lines.
