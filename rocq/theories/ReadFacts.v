(** Attributes and order of children as read. *)
From Coq Require Import String List Arith NArith Bool Lia.
From Verif Require Import Base NumStr NumStrSpec BaseFacts NumStrFacts Xml Ast XmlWrite XmlParse XmlSim
  KnotFacts GrammarSpec GrammarFacts ReadSpec.
Import ListNotations.
Open Scope string_scope.
Open Scope list_scope.

(** What the reader of a kind returned. *)
Lemma parse_inv : forall k e v, well_tagged k e -> parse k e = Ok v ->
  exists f, pstep parse k e = Ok f /\ v = mk k f.
Proof.
  intros k e v Hw H. rewrite parse_unfold in H by exact Hw. apply bind_ok in H as [f [Hf H]].
  exists f. split; [exact Hf|congruence].
Qed.

Lemma parse_err : forall k e x, well_tagged k e -> pstep parse k e = Err x -> parse k e = Err x.
Proof. intros k e x Hw H. rewrite parse_unfold by exact Hw. rewrite H. reflexivity. Qed.

(** ** Attributes *)
Definition is_err {A} (x : R A) : Prop := exists e, x = Err e.

Lemma err_bind : forall A B (x : R A) (f : A -> R B),
  is_err x \/ ((exists a, x = Ok a) /\ forall a, is_err (f a)) -> is_err (bind x f).
Proof. intros A B x f [[e ->]|[[a ->] H]]; cbn; [exists e; reflexivity|apply H]. Qed.
Lemma err_with_name : forall A e n x (k : R A), is_err k -> is_err (with_name e n x k).
Proof. intros. unfold with_name. destruct (String.eqb _ _); [assumption|eexists; reflexivity]. Qed.

Lemma attr_cases : forall e n, is_err (get_attribute e n) \/ exists a, get_attribute e n = Ok a.
Proof. intros. unfold get_attribute. destruct (get e n); [right|left]; eexists; reflexivity. Qed.
Lemma attr_parse_cases : forall T (f : string -> option T) e n,
  is_err (get_attribute_with_parse f e n) \/ exists a, get_attribute_with_parse f e n = Ok a.
Proof.
  intros. unfold get_attribute_with_parse. destruct (get e n) as [s|]; [destruct (f s)|];
    (left; eexists; reflexivity) || (right; eexists; reflexivity).
Qed.
Lemma attr_opt_cases : forall T (f : string -> option T) e n,
  is_err (get_attribute_opt_with_parse f e n) \/ exists a, get_attribute_opt_with_parse f e n = Ok a.
Proof.
  intros. unfold get_attribute_opt_with_parse. destruct (get e n) as [s|]; [destruct (f s)|];
    (left; eexists; reflexivity) || (right; eexists; reflexivity).
Qed.
Lemma flag_cases : forall e n, is_err (get_flag e n) \/ exists a, get_flag e n = Ok a.
Proof.
  intros. unfold get_flag. destruct (attr_opt_cases _ parse_bool e n) as [[x ->]|[a ->]]; cbn;
    [left|right]; eexists; reflexivity.
Qed.
Lemma num_cases : forall s, is_err (from_num_str s) \/ exists a, from_num_str s = Ok a.
Proof. intros s. destruct (from_num_str_total s) as [X|X]; [right|left]; exact X. Qed.
Lemma ok_num_cases : forall s, is_err (ok (from_num_str s)) \/ exists a, ok (from_num_str s) = Ok a.
Proof. intros s. right. destruct (num_cases s) as [[e ->]|[a ->]]; eexists; reflexivity. Qed.
Lemma enum_cases : forall T a (l : list (string * T)) x, is_err (enum_opt a l x) \/ exists v, enum_opt a l x = Ok v.
Proof.
  intros. destruct a as [s|]; cbn; [destruct (assoc s l)|];
    (left; eexists; reflexivity) || (right; eexists; reflexivity).
Qed.

(** Skip an attribute read that may fail but cannot panic. *)
Ltac skip_attr :=
  match goal with
  | |- is_err (bind ?x ?f) =>
      let C := fresh in
      assert (C : is_err x \/ exists a, x = Ok a)
        by (first [apply attr_cases|apply attr_parse_cases|apply attr_opt_cases|apply flag_cases
                  |apply num_cases|apply ok_num_cases|apply enum_cases]);
      destruct C as [C|C]; [apply err_bind; left; exact C|
        apply err_bind; right; split; [exact C|]; clear C; intros ?]
  end.

Lemma from_num_str_err : forall s, no_number s -> is_err (from_num_str s).
Proof.
  intros s H. destruct (num_cases s) as [X|[[b ed r] X]]; [exact X|].
  exfalso. apply (H b ed r). apply from_num_str_C03, X.
Qed.

Lemma num_missing : forall k t f e, numbered k = Some (t, f) -> name e = t -> get e "Num" = None ->
  parse k e = Err (MissingRequiredAttribute t "Num").
Proof.
  intros k t f e Hk Hn Hg.
  assert (Hw : well_tagged k e) by (destruct k; try discriminate; exact I).
  apply parse_err; [exact Hw|].
  destruct k; try discriminate; injection Hk as Ht _; rewrite <- Ht in *;
    cbn [pstep]; unfold parse_head, parse_article, parse_paragraph, parse_toc_head, parse_toc_article,
      with_name, get_attribute, get_attribute_with_parse; rewrite Hn, Hg; reflexivity.
Qed.

Lemma num_malformed : forall k t f e s, numbered k = Some (t, f) -> get e "Num" = Some s -> no_number s ->
  is_err (parse k e).
Proof.
  intros k t f e s Hk Hg Hs. destruct (from_num_str_err s Hs) as [x Hx].
  assert (Hw : well_tagged k e) by (destruct k; try discriminate; exact I).
  cut (is_err (pstep parse k e)). { intros [y Hy]. exists y. apply parse_err; assumption. }
  destruct k; try discriminate; cbn [pstep];
    unfold parse_head, parse_article, parse_paragraph, parse_toc_head, parse_toc_article,
      get_attribute, get_attribute_with_parse, parse_an; apply err_with_name;
    rewrite Hg; cbn [bind]; rewrite Hx; eexists; reflexivity.
Qed.

Lemma get_attribute_ok : forall e n s, get_attribute e n = Ok s -> get e n = Some s.
Proof. intros e n s. unfold get_attribute. destruct (get e n); congruence. Qed.
Lemma attr_parse_ok : forall T (f : string -> option T) e n v, get_attribute_with_parse f e n = Ok v ->
  exists s, get e n = Some s /\ f s = Some v.
Proof.
  intros T f e n v. unfold get_attribute_with_parse. destruct (get e n) as [s|]; [|discriminate].
  destruct (f s) eqn:E; [|discriminate]. intros H. injection H as <-. eauto.
Qed.
Lemma parse_an_ok : forall s a, parse_an s = Some a -> from_num_str s = Ok a.
Proof. intros s a. unfold parse_an. destruct (from_num_str s); congruence. Qed.

(** The successive results of a reader. *)
Ltac peel H :=
  repeat match type of H with
  | with_name _ _ _ _ = Ok _ => let Hn := fresh "Hn" in apply with_name_ok in H as [Hn H]
  | bind ?x _ = Ok _ => let a := fresh "a" in let Ha := fresh "Ha" in apply bind_ok in H as [a [Ha H]]
  end.

Lemma num_read : forall k t f e v, numbered k = Some (t, f) -> parse k e = Ok v ->
  exists s b ed r, get e "Num" = Some s /\ num_text s b ed r /\ f v = mkAN b ed r.
Proof.
  intros k t f e v Hk H.
  assert (Hw : well_tagged k e) by (destruct k; try discriminate; exact I).
  destruct (parse_inv k e v Hw H) as [g [Hg ->]].
  cut (exists s, get e "Num" = Some s /\ from_num_str s = Ok (f (mk k g))).
  { intros [s [Hs Hf]]. destruct (f (mk k g)) as [b ed r]. exists s, b, ed, r.
    split; [exact Hs|]. split; [apply from_num_str_C03, Hf|reflexivity]. }
  destruct k; try discriminate; injection Hk as _ <-; cbn [pstep] in Hg;
    unfold parse_head, parse_article, parse_paragraph, parse_toc_head, parse_toc_article in Hg; peel Hg.
  all: try (apply get_attribute_ok in Ha; exists a; split; [exact Ha|]; rewrite Ha0; f_equal).
  all: try (apply attr_parse_ok in Ha as [s [Hs Ha]]; apply parse_an_ok in Ha; exists s; split; [exact Hs|];
            rewrite Ha; f_equal).
  all: repeat match type of Hg with
       | match ?x with _ => _ end = Ok _ => destruct x; try discriminate
       end.
  all: peel Hg; repeat match type of Hg with
       | match ?x with _ => _ end = Ok _ => destruct x; try discriminate
       end; peel Hg; repeat match type of Hg with
       | match ?x with _ => _ end = Ok _ => destruct x; try discriminate
       end; injection Hg as <-; reflexivity.
Qed.

(** Items. *)
Lemma item_num_read : forall l e v, parse (KItem l) e = Ok v ->
  exists s, get e "Num" = Some s /\
    forall b ed r, it_num (un (KItem l) v) = Some (mkAN b ed r) <-> num_text s b ed r.
Proof.
  intros l e v H. destruct (parse_inv (KItem l) e v I H) as [g [Hg ->]].
  cbn [pstep] in Hg. unfold parse_item in Hg. peel Hg. apply get_attribute_ok in Ha.
  exists a. split; [exact Ha|]. destruct a3 as [title [[sen|] [structs [subs ?]]]]; [|discriminate].
  injection Hg as <-. change (un (KItem l) (mk (KItem l) ?x)) with x. cbn [un mk it_num].
  intros b ed r. rewrite <- from_num_str_C03.
  destruct (num_cases a) as [[x Hx]|[y Hy]].
  - rewrite Hx in *. injection Ha0 as <-. split; discriminate.
  - rewrite Hy in *. injection Ha0 as <-. split; congruence.
Qed.

Lemma item_num_missing : forall l e, name e = item_tag l -> get e "Num" = None ->
  parse (KItem l) e = Err (MissingRequiredAttribute (item_tag l) "Num").
Proof.
  intros l e Hn Hg. apply parse_err; [exact I|]. cbn [pstep].
  unfold parse_item, with_name, get_attribute. rewrite Hn, Hg, String.eqb_refl. reflexivity.
Qed.

(** ** Flags *)
Lemma flag_ok : forall e n b, get_flag e n = Ok b -> bool_attr (get e n) b.
Proof.
  intros e n b. unfold get_flag, get_attribute_opt_with_parse, bool_attr, parse_bool.
  destruct (get e n) as [s|]; cbn [bind].
  - destruct (String.eqb_spec s "true") as [->|N].
    + intros H. injection H as <-. split; [split; reflexivity|auto].
    + destruct (String.eqb_spec s "false") as [->|N']; cbn [bind]; [|discriminate].
      intros H. injection H as <-. split; [split; discriminate|auto].
  - intros H. injection H as <-. split; [split; discriminate|auto].
Qed.

Lemma flag_read : forall k n f e v, In (n, f) (flags k) -> parse k e = Ok v ->
  bool_attr (get e n) (f v).
Proof.
  intros k n f e v Hf H.
  assert (Hw : well_tagged k e) by (destruct k; try exact I; destruct Hf).
  destruct (parse_inv k e v Hw H) as [g [Hg ->]].
  apply flag_ok.
  destruct k; try (destruct Hf; fail); cbn [pstep] in Hg;
    unfold parse_head, parse_article, parse_paragraph, parse_toc_head, parse_toc_article, parse_item,
      parse_column in Hg; peel Hg.
  all: repeat match type of Hg with
       | match ?x with _ => _ end = Ok _ => destruct x; try discriminate
       end.
  all: peel Hg; repeat match type of Hg with
       | match ?x with _ => _ end = Ok _ => destruct x; try discriminate
       end; peel Hg; repeat match type of Hg with
       | match ?x with _ => _ end = Ok _ => destruct x; try discriminate
       end; injection Hg as <-;
       repeat (destruct Hf as [Hf|Hf]; [injection Hf as <- <-; assumption|]); destruct Hf.
Qed.

Lemma flag_err : forall e n s, get e n = Some s -> s <> "true" -> s <> "false" -> is_err (get_flag e n).
Proof.
  intros e n s Hg Ht Hf. unfold get_flag, get_attribute_opt_with_parse, parse_bool. rewrite Hg.
  destruct (String.eqb_spec s "true"); [contradiction|]. destruct (String.eqb_spec s "false"); [contradiction|].
  eexists. reflexivity.
Qed.

Lemma flag_malformed : forall k n f e s, In (n, f) (flags k) -> get e n = Some s ->
  s <> "true" -> s <> "false" -> is_err (parse k e).
Proof.
  intros k n f e s Hf Hg Ht Hs. pose proof (flag_err e n s Hg Ht Hs) as He.
  assert (Hw : well_tagged k e) by (destruct k; try exact I; destruct Hf).
  cut (is_err (pstep parse k e)). { intros [y Hy]. exists y. apply parse_err; assumption. }
  destruct k; try (destruct Hf; fail); cbn [pstep];
    unfold parse_head, parse_article, parse_paragraph, parse_toc_head, parse_toc_article, parse_item,
      parse_column; apply err_with_name.
  all: repeat (destruct Hf as [Hf|Hf];
    [injection Hf as <- _;
     repeat first [apply err_bind; left; exact He|skip_attr]|]); destruct Hf.
Qed.

Lemma opt_flag_read : forall k n f e v, In (n, f) (optional_flags k) -> parse k e = Ok v ->
  (f v = None /\ get e n = None) \/ exists b, f v = Some b /\ get e n = Some (if b then "true" else "false").
Proof.
  intros k n f e v Hf H.
  assert (Hw : well_tagged k e) by (destruct k; try exact I; destruct Hf).
  destruct (parse_inv k e v Hw H) as [g [Hg ->]].
  cut (get_attribute_opt_with_parse parse_bool e n = Ok (f (mk k g))).
  { unfold get_attribute_opt_with_parse, parse_bool. destruct (get e n) as [s|]; [|intros X; injection X as <-; auto].
    destruct (String.eqb_spec s "true") as [->|]; [|destruct (String.eqb_spec s "false") as [->|]];
      intros X; try discriminate; injection X as <-; right; [exists true|exists false]; auto. }
  destruct k; try (destruct Hf; fail); cbn [pstep] in Hg; unfold parse_main, parse_suppl in Hg; peel Hg.
  all: repeat match type of Hg with
       | match ?x with _ => _ end = Ok _ => destruct x; try discriminate
       end; injection Hg as <-; destruct Hf as [Hf|[]]; injection Hf as <- <-; assumption.
Qed.

Lemma opt_flag_malformed : forall k n f e s, In (n, f) (optional_flags k) -> get e n = Some s ->
  s <> "true" -> s <> "false" -> is_err (parse k e).
Proof.
  intros k n f e s Hf Hg Ht Hs.
  assert (He : is_err (get_attribute_opt_with_parse parse_bool e n)).
  { unfold get_attribute_opt_with_parse, parse_bool. rewrite Hg.
    destruct (String.eqb_spec s "true"); [contradiction|]. destruct (String.eqb_spec s "false"); [contradiction|].
    eexists. reflexivity. }
  assert (Hw : well_tagged k e) by (destruct k; try exact I; destruct Hf).
  cut (is_err (pstep parse k e)). { intros [y Hy]. exists y. apply parse_err; assumption. }
  destruct k; try (destruct Hf; fail); cbn [pstep]; unfold parse_main, parse_suppl; apply err_with_name;
    (destruct Hf as [Hf|[]]; injection Hf as <- _; repeat first [apply err_bind; left; exact He|skip_attr]).
Qed.

(** ** Order of children *)
Section Collect.
Context {S X : Type} (pi : S -> list X) (sel : Element -> bool) (Q : Element -> list X -> Prop).
Context (txt : string -> S -> S) (dflt : handler S) (tbl : list (string * handler S)).
Hypothesis Htxt : forall t s, pi (txt t s) = pi s.
Hypothesis Hrow : forall c u, lookup dflt tbl c = Ok u ->
  if sel c then exists xs, Q c xs /\ forall s, pi (u s) = pi s ++ xs else forall s, pi (u s) = pi s.

Lemma run_collect : forall l s s', run txt dflt tbl l s = Ok s' ->
  exists xss, pi s' = pi s ++ concat xss /\ Forall2 Q (filter sel (elements l)) xss.
Proof.
  induction l as [|[c|t|t] r IH]; intros s s' H; cbn in H; cbn [elements].
  - injection H as <-. exists []. cbn. rewrite app_nil_r. auto.
  - apply bind_ok in H as [u [Hu H]]. destruct (IH _ _ H) as [xss [E Fx]]. specialize (Hrow c u Hu).
    cbn [filter]. destruct (sel c).
    + destruct Hrow as [xs [Hq Hs]]. exists (xs :: xss). split; [|constructor; assumption].
      rewrite E, Hs. cbn. rewrite <- app_assoc. reflexivity.
    + exists xss. rewrite Hrow in E. auto.
  - destruct (IH _ _ H) as [xss [E Fx]]. rewrite Htxt in E. eauto.
  - eauto.
Qed.
End Collect.

Lemma collected : forall S X (pi : S -> list X) (sel : Element -> bool) (Q : Element -> X -> Prop)
    dflt tbl l s s',
  run no_text dflt tbl l s = Ok s' ->
  (forall c u, lookup dflt tbl c = Ok u ->
    if sel c then exists x, Q c x /\ forall s, pi (u s) = pi s ++ [x] else forall s, pi (u s) = pi s) ->
  pi s = [] -> Forall2 Q (filter sel (elements l)) (pi s').
Proof.
  intros S X pi sel Q dflt tbl l s s' H Hr H0.
  destruct (run_collect pi sel (fun c ys => exists y, ys = [y] /\ Q c y) no_text dflt tbl)
    with (l := l) (s := s) (s' := s') as [xss [E Fx]].
  - reflexivity.
  - intros c u Hu. specialize (Hr c u Hu). destruct (sel c); [|exact Hr].
    destruct Hr as [x [Hx Hs]]. exists [x]. eauto.
  - exact H.
  - rewrite H0 in E. cbn in E. rewrite E. clear - Fx.
    induction Fx as [|a xs l' xss [x [-> Hx]] _ IH]; cbn; constructor; assumption.
Qed.

Lemma forall2_concat : forall A B (Q : A -> B -> Prop) l xss,
  Forall2 (fun a xs => exists x, xs = [x] /\ Q a x) l xss -> Forall2 Q l (concat xss).
Proof.
  intros A B Q l xss H. induction H as [|a xs l xss [x [-> Hx]] _ IH]; cbn; constructor; assumption.
Qed.

Lemma forall2_flat : forall A B C (g : A -> list C) (Q : C -> B -> Prop) l xss,
  Forall2 (fun a xs => Forall2 Q (g a) xs) l xss -> Forall2 Q (flat_map g l) (concat xss).
Proof.
  intros A B C g Q l xss H. induction H as [|a xs l xss Hx _ IH]; cbn; [constructor|].
  apply Forall2_app; assumption.
Qed.

(** Loops whose state is the list of children. *)
Lemma run_whole : forall X (Q : Element -> X -> Prop) (tbl : list (string * handler (list X))) e l xs,
  (forall c u, assoc (name c) tbl = Some u -> forall g, u c = Ok g -> exists x, Q c x /\ forall s, g s = s ++ [x]) ->
  run no_text (reject e) tbl l [] = Ok xs -> Forall2 Q (elements l) xs.
Proof.
  intros X Q tbl e l xs Ht H.
  destruct (run_collect (fun s => s) (fun _ => true) (fun c ys => exists y, ys = [y] /\ Q c y)
              no_text (reject e) tbl) with (l := l) (s := @nil X) (s' := xs) as [xss [E Fx]].
  - reflexivity.
  - intros c u Hu. unfold lookup in Hu. destruct (assoc (name c) tbl) as [hd|] eqn:Ea; [|discriminate].
    destruct (Ht c hd Ea u Hu) as [x [Hx Hs]]. exists [x]. split; [eauto|exact Hs].
  - exact H.
  - cbn in E. subst xs. apply forall2_concat in Fx.
    replace (filter (fun _ : Element => true) (elements l)) with (elements l) in Fx; [exact Fx|].
    clear. induction (elements l); cbn; congruence.
Qed.

Lemma push_row : forall X Y (inj : X -> Y) f c g,
  h_push whole inj f c = Ok g -> exists v, f c = Ok v /\ forall s, g s = s ++ [inj v].
Proof. intros X Y inj f c g H. apply bind_ok in H as [v [Hv H]]. injection H as <-. exists v. split; [exact Hv|reflexivity]. Qed.

Ltac table_cases Hu Hg :=
  cbn [assoc] in Hu;
  repeat match type of Hu with
  | (if String.eqb ?n ?t then _ else _) = Some _ =>
      let E := fresh "E" in destruct (String.eqb_spec n t) as [E|_];
      [injection Hu as <-; apply push_row in Hg as [v [Hv Hs]]; eexists; split; [|exact Hs];
       cbn; split; [exact E|exact Hv]|]
  end; discriminate.

Lemma main_order : forall e v, parse KMain e = Ok v ->
  Forall2 main_reads (elements (children e)) (main_children (un KMain v)).
Proof.
  intros e v H. destruct (parse_inv KMain e v I H) as [g [Hg ->]]. cbn [pstep] in Hg.
  unfold parse_main in Hg. peel Hg. injection Hg as <-. cbn [un mk main_children].
  eapply run_whole; [|exact Ha0]. intros c u Hu f Hf. unfold main_table in Hu. table_cases Hu Hf.
Qed.

Lemma head_order : forall C (Q : Element -> C -> Prop) n tbl e v,
  (forall c u, assoc (name c) tbl = Some u -> forall g, u c = Ok g -> exists x, Q c x /\ forall s, g s = s ++ [x]) ->
  parse_head parse n tbl e = Ok v ->
  Forall2 Q (elements (tl (children e))) (hd_children v).
Proof.
  intros C Q n tbl e v Ht H. unfold parse_head in H. peel H.
  destruct (children e) as [|[t| |] rest]; try discriminate.
  destruct (String.eqb _ _) in H; [|discriminate]. peel H. injection H as <-. cbn [tl hd_children].
  eapply run_whole; [exact Ht|eassumption].
Qed.

Lemma part_order : forall e v, parse KPart e = Ok v ->
  Forall2 part_reads (elements (tl (children e))) (hd_children (un KPart v)).
Proof.
  intros e v H. destruct (parse_inv KPart e v I H) as [g [Hg ->]].
  apply (head_order _ part_reads _ _ _ _) with (2 := Hg). intros c u Hu f Hf. unfold part_table in Hu. table_cases Hu Hf.
Qed.
Lemma chapter_order : forall e v, parse KChapter e = Ok v ->
  Forall2 chapter_reads (elements (tl (children e))) (hd_children (un KChapter v)).
Proof.
  intros e v H. destruct (parse_inv KChapter e v I H) as [g [Hg ->]].
  apply (head_order _ chapter_reads _ _ _ _) with (2 := Hg). intros c u Hu f Hf. unfold chapter_table in Hu. table_cases Hu Hf.
Qed.
Lemma section_order : forall e v, parse KSection e = Ok v ->
  Forall2 section_reads (elements (tl (children e))) (hd_children (un KSection v)).
Proof.
  intros e v H. destruct (parse_inv KSection e v I H) as [g [Hg ->]].
  apply (head_order _ section_reads _ _ _ _) with (2 := Hg). intros c u Hu f Hf. unfold section_table in Hu. table_cases Hu Hf.
Qed.
Lemma subsection_order : forall e v, parse KSubsection e = Ok v ->
  Forall2 subsection_reads (elements (tl (children e))) (hd_children (un KSubsection v)).
Proof.
  intros e v H. destruct (parse_inv KSubsection e v I H) as [g [Hg ->]].
  apply (head_order _ subsection_reads _ _ _ _) with (2 := Hg). intros c u Hu f Hf. unfold subsection_table in Hu. table_cases Hu Hf.
Qed.
Lemma division_order : forall e v, parse KDivision e = Ok v ->
  Forall2 division_reads (elements (tl (children e))) (hd_children (un KDivision v)).
Proof.
  intros e v H. destruct (parse_inv KDivision e v I H) as [g [Hg ->]].
  apply (head_order _ division_reads _ _ _ _) with (2 := Hg). intros c u Hu f Hf. unfold division_table in Hu. table_cases Hu Hf.
Qed.

(** Loops with several fields. *)
Ltac row_cases Hu :=
  cbn [assoc app] in Hu;
  repeat match type of Hu with
  | context [String.eqb ?n ?t] =>
      let E := fresh "E" in destruct (String.eqb_spec n t) as [E|?]
  end.
Ltac other_row Hu := apply bind_ok in Hu as [? [_ Hu]]; injection Hu as <-; reflexivity.

Lemma suppl_order : forall e v, parse KSuppl e = Ok v ->
  Forall2 suppl_reads
    (filter (fun c => negb (String.eqb (name c) "SupplProvisionLabel")) (elements (children e)))
    (sp_children (un KSuppl v)).
Proof.
  intros e v H. destruct (parse_inv KSuppl e v I H) as [g [Hg ->]]. cbn [pstep] in Hg.
  unfold parse_suppl in Hg. peel Hg. destruct a1 as [label [cs ?]]. injection Hg as <-. cbn [un mk sp_children].
  apply (collected _ _ (fun s => fst (snd s)) _ suppl_reads _ _ _ _ _ Ha1); [|reflexivity].
  intros c f Hf. unfold lookup, suppl_table in Hf. row_cases Hf; try discriminate; cbn [negb].
  1: { intros s. other_row Hf. }
  all: apply bind_ok in Hf as [x [Hx Hf]]; injection Hf as <-; eexists; split; [|reflexivity];
      cbn; split; [exact E|exact Hx].
Qed.

Ltac this_row Hf := apply bind_ok in Hf as [?x [?Hx Hf]]; injection Hf as <-; eexists; split; [eassumption|reflexivity].

Lemma article_order : forall e v, parse KArticle e = Ok v ->
  Forall2 (reads KParagraph) (with_tag "Paragraph" (children e)) (art_paragraph (un KArticle v)).
Proof.
  intros e v H. destruct (parse_inv KArticle e v I H) as [g [Hg ->]]. cbn [pstep] in Hg.
  unfold parse_article in Hg. peel Hg. destruct a3 as [cap [title rest]]. peel Hg.
  destruct a3 as [ps [note ?]]. injection Hg as <-. cbn [un mk art_paragraph].
  assert (W : with_tag "Paragraph" (children e) = with_tag "Paragraph" rest).
  { clear Ha4. revert Ha3. generalize (@None (Caption Knot)), (@nil (TextElement Knot)).
    unfold with_tag. induction (children e) as [|[c|t|t] r IH]; intros ca ti Hh; cbn in Hh; cbn [elements filter].
    - discriminate.
    - destruct (String.eqb_spec (name c) "ArticleCaption") as [E|];
        [|destruct (String.eqb_spec (name c) "ArticleTitle") as [E|]].
      + apply bind_ok in Hh as [? [_ Hh]]. rewrite E. cbn. eauto.
      + apply bind_ok in Hh as [? [_ Hh]]. rewrite E. cbn. eauto.
      + injection Hh as _ _ <-. reflexivity.
    - eauto.
    - eauto. }
  rewrite W.
  apply (collected _ _ (fun s => fst s) _ (reads KParagraph) _ _ _ _ _ Ha4); [|reflexivity].
  intros c f Hf. unfold lookup in Hf. row_cases Hf; try discriminate.
  - this_row Hf.
  - intros s. other_row Hf.
Qed.

Lemma paragraph_items_order : forall e v, parse KParagraph e = Ok v ->
  Forall2 (reads (KItem Item0)) (with_tag "Item" (children e)) (par_children (un KParagraph v)).
Proof.
  intros e v H. destruct (parse_inv KParagraph e v I H) as [g [Hg ->]]. cbn [pstep] in Hg.
  unfold parse_paragraph in Hg. peel Hg. destruct a4 as [? [? [? [? [? [? [items ?]]]]]]].
  injection Hg as <-. cbn [un mk par_children].
  apply (collected _ _ (fun s => fst (snd (snd (snd (snd (snd (snd s))))))) _ (reads (KItem Item0)) _ _ _ _ _ Ha4);
    [|reflexivity].
  intros c f Hf. unfold lookup, paragraph_table, struct_rows in Hf. row_cases Hf; try discriminate;
    try (rewrite E; cbn [String.eqb Ascii.eqb Bool.eqb]); first [this_row Hf|intros ?; other_row Hf].
Qed.

Lemma item_order : forall l e v, l <> Sub10 -> parse (KItem l) e = Ok v ->
  Forall2 (reads (sub_item l)) (with_tag (item_child_tag l) (children e)) (it_children (un (KItem l) v)).
Proof.
  intros l e v Hl H. destruct (parse_inv (KItem l) e v I H) as [g [Hg ->]]. cbn [pstep] in Hg.
  unfold parse_item in Hg. peel Hg. destruct a3 as [? [[?|] [? [subs ?]]]]; [|discriminate].
  injection Hg as <-. change (un (KItem l) (mk (KItem l) ?x)) with x. cbn [un mk it_children].
  apply (collected _ _ (fun s => fst (snd (snd (snd s)))) _ (reads (sub_item l)) _ _ _ _ _ Ha3);
    [|reflexivity].
  intros c f Hf. unfold lookup, item_table, struct_rows in Hf.
  destruct l; try contradiction; cbn [sub_item sub_tag item_tag append item_child_tag] in *;
    row_cases Hf; try discriminate;
    try (rewrite E; cbn [String.eqb Ascii.eqb Bool.eqb]); first [this_row Hf|intros ?; other_row Hf].
Qed.

Lemma parse_all_order : forall X (f : Element -> R X) l xs, parse_all f l = Ok xs ->
  Forall2 (fun c x => f c = Ok x) (elements l) xs.
Proof.
  intros X f l. induction l as [|[c|t|t] r IH]; intros xs H; cbn in *.
  - injection H as <-. constructor.
  - apply bind_ok in H as [x [Hx H]]. apply bind_ok in H as [ys [Hy H]]. injection H as <-.
    constructor; [exact Hx|apply IH, Hy].
  - apply IH, H.
  - apply IH, H.
Qed.

Lemma paragraph_sentences_order : forall e v, parse KParagraph e = Ok v ->
  Forall2 (reads KSentence)
    (flat_map (fun c => elements (children c)) (with_tag "ParagraphSentence" (children e)))
    (par_sentence (un KParagraph v)).
Proof.
  intros e v H. destruct (parse_inv KParagraph e v I H) as [g [Hg ->]]. cbn [pstep] in Hg.
  unfold parse_paragraph in Hg. peel Hg. destruct a4 as [? [? [sen [? [? [? [items ?]]]]]]].
  injection Hg as <-. cbn [un mk par_sentence].
  destruct (run_collect (S := paragraph_state) (fun s => fst (snd (snd s)))
              (fun c => String.eqb (name c) "ParagraphSentence")
              (fun c ys => Forall2 (reads KSentence) (elements (children c)) ys) no_text (reject e)
              (paragraph_table parse)) with (3 := Ha4) as [xss [E Fx]].
  - reflexivity.
  - intros c f Hf. unfold lookup, paragraph_table, struct_rows in Hf. row_cases Hf; try discriminate;
      try (rewrite E; cbn [String.eqb Ascii.eqb Bool.eqb]); try (intros ?; other_row Hf).
    apply bind_ok in Hf as [xs [Hx Hf]]. injection Hf as <-. exists xs. split; [|reflexivity].
    apply parse_all_order, Hx.
  - cbn in E. rewrite E. apply forall2_flat, Fx.
Qed.

Lemma column_order : forall e v, parse KColumn e = Ok v ->
  Forall2 (reads KSentence) (elements (children e)) (col_sentence (un KColumn v)).
Proof.
  intros e v H. destruct (parse_inv KColumn e v I H) as [g [Hg ->]]. cbn [pstep] in Hg.
  unfold parse_column in Hg. peel Hg. injection Hg as <-. apply parse_all_order. assumption.
Qed.

Lemma sentence_order : forall e v, parse KSentence e = Ok v ->
  Forall2 sentence_reads (filter not_other (children e)) (sen_contents (un KSentence v)).
Proof.
  intros e v H. destruct (parse_inv KSentence e v I H) as [g [Hg ->]]. cbn [pstep] in Hg.
  unfold parse_sentence in Hg. peel Hg. injection Hg as <-. cbn [un mk sen_contents].
  cut (forall l s s', run (fun s l => app l [SE_String s]) (reject e) (sentence_table parse) l s = Ok s' ->
    exists xs, s' = s ++ xs /\ Forall2 sentence_reads (filter not_other l) xs).
  { intros X. destruct (X _ _ _ Ha2) as [xs [-> Fx]]. exact Fx. }
  clear. induction l as [|[c|t|t] r IH]; intros s s' H; cbn [run] in H; cbn [filter not_other].
  - injection H as <-. exists []. rewrite app_nil_r. auto.
  - apply bind_ok in H as [u [Hu H]].
    assert (X : exists x, sentence_reads (NElement c) x /\ forall s, u s = s ++ [x]).
    { unfold lookup, sentence_table in Hu. row_cases Hu; try discriminate;
        apply bind_ok in Hu as [x [Hx Hu]]; injection Hu as <-; eexists; (split; [|reflexivity]); cbn;
        try (split; [exact E|exact Hx]); try exact E.
      split; [exact E|]. unfold parse_arith in Hx. peel Hx. injection Hx as <-. assumption. }
    destruct X as [x [Hx Hs]]. destruct (IH _ _ H) as [xs [-> Fx]]. exists (x :: xs).
    rewrite Hs, <- app_assoc. split; [reflexivity|constructor; assumption].
  - destruct (IH _ _ H) as [xs [-> Fx]]. exists (SE_String t :: xs).
    rewrite <- app_assoc. split; [reflexivity|constructor; [reflexivity|assumption]].
  - exact (IH _ _ H).
Qed.

(** ** Articles in document order *)
Definition below_articles (l : list XMLNode) : list Element :=
  flat_map (fun x => match x with NElement c => articles_in c | _ => [] end) l.

Lemma articles_eq : forall e, existsb (String.eqb (name e))
    ["MainProvision"; "Part"; "Chapter"; "Section"; "Subsection"; "Division"] = true ->
  articles_in e = below_articles (children e).
Proof.
  intros [n a l] H. cbn [articles_in name children] in *. rewrite H.
  destruct (String.eqb_spec n "Article") as [->|]; [discriminate|reflexivity].
Qed.
Lemma articles_article : forall e, name e = "Article" -> articles_in e = [e].
Proof. intros [n a l] H. cbn in H. subst n. reflexivity. Qed.
Lemma articles_other : forall e, existsb (String.eqb (name e))
    ["Article"; "MainProvision"; "Part"; "Chapter"; "Section"; "Subsection"; "Division"] = false ->
  articles_in e = [].
Proof.
  intros [n a l] H. cbn [articles_in name] in *. cbn [existsb] in H. apply orb_false_iff in H as [H1 H2].
  rewrite H1. cbn [existsb]. rewrite H2. reflexivity.
Qed.
Lemma below_elements : forall l, below_articles l = flat_map articles_in (elements l).
Proof. induction l as [|[c|t|t] r IH]; cbn; [reflexivity|f_equal| |]; exact IH. Qed.

Lemma forall2_flat_map : forall A B C D (g : A -> list C) (h : B -> list D) (Q : C -> D -> Prop) (P : A -> B -> Prop) l m,
  (forall a b, P a b -> Forall2 Q (g a) (h b)) -> Forall2 P l m -> Forall2 Q (flat_map g l) (flat_map h m).
Proof. intros A B C D g h Q P l m H F. induction F; cbn; [constructor|]. apply Forall2_app; auto. Qed.

Lemma head_articles : forall C (Q : Element -> C -> Prop) (ar : C -> list (Knot KArticle)) e n l,
  name e = n -> existsb (String.eqb n) ["MainProvision"; "Part"; "Chapter"; "Section"; "Subsection"; "Division"] = true ->
  (exists t r, children e = NElement t :: r /\ name t = (n ++ "Title")%string) ->
  existsb (String.eqb (n ++ "Title")) ["Article"; "MainProvision"; "Part"; "Chapter"; "Section"; "Subsection"; "Division"] = false ->
  Forall2 Q (elements (tl (children e))) l ->
  (forall c x, Q c x -> Forall2 (reads KArticle) (articles_in c) (ar x)) ->
  Forall2 (reads KArticle) (articles_in e) (flat_map ar l).
Proof.
  intros C Q ar e n l Hn Hs [t [r [Hc Ht]]] Ho F HQ.
  rewrite articles_eq by (rewrite Hn; exact Hs). rewrite Hc in *. cbn [tl] in F.
  cbn [below_articles flat_map]. rewrite articles_other by (rewrite Ht; exact Ho). cbn [app].
  fold (below_articles r). rewrite below_elements. eapply forall2_flat_map; eassumption.
Qed.

Lemma head_starts : forall (C : Type) n tbl e v, parse_head (C := C) parse n tbl e = Ok v ->
  name e = n /\ exists t r, children e = NElement t :: r /\ name t = (n ++ "Title")%string.
Proof.
  intros C n tbl e v H. unfold parse_head in H. apply with_name_ok in H as [Hn H]. split; [exact Hn|].
  peel H. destruct (children e) as [|[t| |] r]; try discriminate.
  destruct (String.eqb_spec (name t) (n ++ "Title")); [|discriminate]. eauto.
Qed.

Lemma article_articles : forall c x, name c = "Article" /\ reads KArticle c x -> Forall2 (reads KArticle) (articles_in c) [x].
Proof. intros c x [Hn Hr]. rewrite articles_article by exact Hn. constructor; [exact Hr|constructor]. Qed.

Lemma division_art : forall e v, reads KDivision e v -> Forall2 (reads KArticle) (articles_in e) (division_articles v).
Proof.
  intros e v H. pose proof (division_order e v H) as O. destruct (parse_inv KDivision e v I H) as [g [Hg ->]].
  destruct (head_starts _ _ _ _ _ Hg) as [Hn Hs].
  replace (division_articles (mk KDivision g)) with (flat_map (fun a => [a]) (hd_children (un KDivision (mk KDivision g)))).
  - eapply (head_articles _ division_reads); [exact Hn|reflexivity|exact Hs|reflexivity|exact O|].
    intros c x Hx. apply article_articles, Hx.
  - unfold division_articles. clear. induction (hd_children (un KDivision (mk KDivision g))) as [|a l IH]; cbn; [reflexivity|].
    f_equal. exact IH.
Qed.
Lemma subsection_art : forall e v, reads KSubsection e v -> Forall2 (reads KArticle) (articles_in e) (subsection_articles v).
Proof.
  intros e v H. pose proof (subsection_order e v H) as O. destruct (parse_inv KSubsection e v I H) as [g [Hg ->]].
  destruct (head_starts _ _ _ _ _ Hg) as [Hn Hs].
  eapply (head_articles _ subsection_reads); [exact Hn|reflexivity|exact Hs|reflexivity|exact O|].
  intros c [x|x] Hx; [apply article_articles, Hx|apply division_art, Hx].
Qed.
Lemma section_art : forall e v, reads KSection e v -> Forall2 (reads KArticle) (articles_in e) (section_articles v).
Proof.
  intros e v H. pose proof (section_order e v H) as O. destruct (parse_inv KSection e v I H) as [g [Hg ->]].
  destruct (head_starts _ _ _ _ _ Hg) as [Hn Hs].
  eapply (head_articles _ section_reads); [exact Hn|reflexivity|exact Hs|reflexivity|exact O|].
  intros c [x|x|x] Hx; [apply article_articles, Hx|apply subsection_art, Hx|apply division_art, Hx].
Qed.
Lemma chapter_art : forall e v, reads KChapter e v -> Forall2 (reads KArticle) (articles_in e) (chapter_articles v).
Proof.
  intros e v H. pose proof (chapter_order e v H) as O. destruct (parse_inv KChapter e v I H) as [g [Hg ->]].
  destruct (head_starts _ _ _ _ _ Hg) as [Hn Hs].
  eapply (head_articles _ chapter_reads); [exact Hn|reflexivity|exact Hs|reflexivity|exact O|].
  intros c [x|x] Hx; [apply article_articles, Hx|apply section_art, Hx].
Qed.
Lemma part_art : forall e v, reads KPart e v -> Forall2 (reads KArticle) (articles_in e) (part_articles v).
Proof.
  intros e v H. pose proof (part_order e v H) as O. destruct (parse_inv KPart e v I H) as [g [Hg ->]].
  destruct (head_starts _ _ _ _ _ Hg) as [Hn Hs].
  eapply (head_articles _ part_reads); [exact Hn|reflexivity|exact Hs|reflexivity|exact O|].
  intros c [x|x] Hx; [apply article_articles, Hx|apply chapter_art, Hx].
Qed.
Lemma main_art : forall e v, parse KMain e = Ok v -> Forall2 (reads KArticle) (articles_in e) (main_articles v).
Proof.
  intros e v H. pose proof (main_order e v H) as O. destruct (parse_inv KMain e v I H) as [g [Hg ->]].
  cbn [pstep] in Hg. unfold parse_main in Hg. peel Hg.
  rewrite articles_eq by (rewrite Hn; reflexivity). rewrite below_elements.
  eapply forall2_flat_map; [|exact O].
  intros c [x|x|x|x|x] [Hc Hx].
  - apply part_art, Hx.
  - apply chapter_art, Hx.
  - apply section_art, Hx.
  - apply article_articles. split; assumption.
  - rewrite articles_other by (rewrite Hc; reflexivity). constructor.
Qed.
