(** Lemmas about child loops and attribute readers, for the exact rules of ReadingSpec. *)
From Coq Require Import String List Arith NArith Bool Lia.
From Verif Require Import Base NumStr NumStrSpec BaseFacts NumStrFacts Xml Ast XmlWrite XmlParse XmlSim
  KnotFacts GrammarSpec GrammarFacts ReadSpec ReadFacts ReadingSpec.
Import ListNotations.
Open Scope string_scope.
Open Scope list_scope.

(** The rules with the values of the children given by [parse]. *)
Notation inline_reads := (ReadingSpec.inline_reads reads).
Notation text_reads := (ReadingSpec.text_reads reads).
Notation text_of := (ReadingSpec.text_of reads).
Notation moded_text_of := (ReadingSpec.moded_text_of reads).
Notation caption_of := (ReadingSpec.caption_of reads).
Notation formula_reads := (ReadingSpec.formula_reads reads).
Notation line_node := (ReadingSpec.line_node reads).
Notation sentence_node := (ReadingSpec.sentence_node reads).
Notation contents_node := (ReadingSpec.contents_node reads).
Notation cell_node := (ReadingSpec.cell_node reads).
Notation struct_reads := (ReadingSpec.struct_reads reads).
Notation list_sentence_reads := (ReadingSpec.list_sentence_reads reads).
Notation remarks_reads := (ReadingSpec.remarks_reads reads).
Notation appdx_table_reads := (ReadingSpec.appdx_table_reads reads).
Notation appdx_note_reads := (ReadingSpec.appdx_note_reads reads).
Notation appdx_fig_reads := (ReadingSpec.appdx_fig_reads reads).
Notation toc_section_reads := (ReadingSpec.toc_section_reads reads).
Notation toc_suppl_reads := (ReadingSpec.toc_suppl_reads reads).
Notation toc_main_reads := (ReadingSpec.toc_main_reads reads).
Notation new_provision_reads := (ReadingSpec.new_provision_reads reads).
Notation part_reads := (ReadingSpec.part_reads reads).
Notation chapter_reads := (ReadingSpec.chapter_reads reads).
Notation section_reads := (ReadingSpec.section_reads reads).
Notation subsection_reads := (ReadingSpec.subsection_reads reads).
Notation division_reads := (ReadingSpec.division_reads reads).
Notation main_reads := (ReadingSpec.main_reads reads).
Notation suppl_reads := (ReadingSpec.suppl_reads reads).
Notation sct_reads := (ReadingSpec.sct_reads reads).
Notation header_row_reads := (ReadingSpec.header_row_reads reads).
Notation remarks_label_reads := (ReadingSpec.remarks_label_reads reads).
Notation readable := (ReadingSpec.readable reads).
Notation structure := (ReadingSpec.structure reads).
Notation amend_sentence_reads := (ReadingSpec.amend_sentence_reads reads).
Notation heading := (ReadingSpec.heading reads).
Notation toc_heading := (ReadingSpec.toc_heading reads).
Notation appended := (ReadingSpec.appended reads).
Notation suppl_appended := (ReadingSpec.suppl_appended reads).
Notation reading := (ReadingSpec.reading reads).


(** ** Sequencing *)
Lemma bind_iff : forall A B (x : R A) (f : A -> R B) b,
  bind x f = Ok b <-> exists a, x = Ok a /\ f a = Ok b.
Proof.
  intros A B x f b. split; [apply bind_ok|]. intros [a [-> H]]. exact H.
Qed.
Lemma with_name_iff : forall A e n m (k : R A) v,
  with_name e n m k = Ok v <-> name e = n /\ k = Ok v.
Proof.
  intros A e n m k v. unfold with_name. destruct (String.eqb_spec (name e) n) as [E|E].
  - split; [intros H; split; assumption|intros [_ H]; exact H].
  - split; [discriminate|intros [X _]; contradiction].
Qed.

(** ** Attributes *)
Lemma flag_iff : forall e n b, get_flag e n = Ok b <-> bool_attr (get e n) b.
Proof.
  intros e n b. unfold get_flag, get_attribute_opt_with_parse, bool_attr, parse_bool.
  destruct (get e n) as [s|]; cbn.
  - destruct (String.eqb_spec s "true") as [->|Ht]; [|destruct (String.eqb_spec s "false") as [->|Hf]]; cbn.
    + split; [intros X; injection X as <-; repeat split; auto|].
      intros [[_ H] _]. rewrite (H eq_refl). reflexivity.
    + split; [intros X; injection X as <-; repeat split; auto; discriminate|].
      intros [[H _] _]. destruct b; [discriminate (H eq_refl)|reflexivity].
    + split; [discriminate|]. intros [_ [H|[H|H]]]; try discriminate; congruence.
  - split; [intros X; injection X as <-; repeat split; auto; discriminate|].
    intros [[H _] _]. destruct b; [discriminate (H eq_refl)|reflexivity].
Qed.

Lemma flag_opt_iff : forall e n o,
  get_attribute_opt_with_parse parse_bool e n = Ok o <-> flag_opt (get e n) o.
Proof.
  intros e n o. unfold get_attribute_opt_with_parse, flag_opt, parse_bool.
  destruct (get e n) as [s|]; cbn.
  - destruct (String.eqb_spec s "true") as [->|Ht]; [|destruct (String.eqb_spec s "false") as [->|Hf]].
    + destruct o as [[|]|]; split; intros H; congruence.
    + destruct o as [[|]|]; split; intros H; congruence.
    + destruct o as [[|]|]; split; intros H; congruence.
  - destruct o as [[|]|]; split; intros H; congruence.
Qed.

Lemma integer_iff : forall e n o,
  get_attribute_opt_with_parse parse_usize e n = Ok o <-> integer_opt (get e n) o.
Proof.
  intros e n o. unfold get_attribute_opt_with_parse, integer_opt.
  destruct (get e n) as [s|].
  - destruct o as [x|]; [rewrite <- parse_usize_spec|]; destruct (parse_usize s); split; intros H; try congruence;
      contradiction.
  - destruct o; split; intros H; try congruence; try contradiction; reflexivity || exact I.
Qed.

Lemma required_integer_iff : forall e n x,
  get_attribute_with_parse parse_usize e n = Ok x <-> exists s, get e n = Some s /\ usize_text s x.
Proof.
  intros e n x. unfold get_attribute_with_parse. destruct (get e n) as [s|].
  - split.
    + intros H. exists s. split; [reflexivity|]. apply parse_usize_spec. destruct (parse_usize s); congruence.
    + intros [t [Ht H]]. injection Ht as ->. apply parse_usize_spec in H. rewrite H. reflexivity.
  - split; [discriminate|intros [s [H _]]; discriminate].
Qed.

Lemma string_iff : forall e n o, get_string_opt e n = Ok o <-> get e n = o.
Proof.
  intros e n o. unfold get_string_opt, get_attribute_opt_with_parse. destruct (get e n); split; congruence.
Qed.
Lemma attribute_iff : forall e n s, get_attribute e n = Ok s <-> get e n = Some s.
Proof. intros e n s. unfold get_attribute. destruct (get e n); split; congruence. Qed.

Lemma from_num_iff : forall s n,
  from_num_str s = Ok n <-> num_text s (base_number n) (eda_numbers n) (range_end_numbers n).
Proof. intros s [b ed r]. apply from_num_str_C03. Qed.

Lemma number_iff : forall e n,
  (s <- get_attribute e "Num"; from_num_str s) = Ok n <-> number (get e "Num") n.
Proof.
  intros e n. rewrite bind_iff. unfold number. split; intros [s [H1 H2]]; exists s.
  - split; [apply attribute_iff, H1|apply from_num_iff, H2].
  - split; [apply attribute_iff, H1|apply from_num_iff, H2].
Qed.
Lemma number_steps : forall e n, number (get e "Num") n <->
  exists s, get_attribute e "Num" = Ok s /\ from_num_str s = Ok n.
Proof. intros e n. rewrite <- number_iff, bind_iff. reflexivity. Qed.

Lemma toc_number_iff : forall e n,
  get_attribute_with_parse parse_an e "Num" = Ok n <-> number (get e "Num") n.
Proof.
  intros e n. unfold get_attribute_with_parse, number, parse_an. destruct (get e "Num") as [s|].
  - split.
    + intros H. exists s. split; [reflexivity|]. apply from_num_iff. destruct (from_num_str s); congruence.
    + intros [t [Ht H]]. injection Ht as ->. apply from_num_iff in H. rewrite H. reflexivity.
  - split; [discriminate|intros [s [H _]]; discriminate].
Qed.

Lemma item_number_steps : forall e o, item_number (get e "Num") o <->
  exists s, get_attribute e "Num" = Ok s /\ ok (from_num_str s) = Ok o.
Proof.
  intros e o. unfold item_number. split.
  - intros [s [Hs H]]. exists s. split; [apply attribute_iff, Hs|]. destruct o as [n|].
    + apply from_num_iff in H. rewrite H. reflexivity.
    + destruct (from_num_str_err s H) as [x Hx]. rewrite Hx. reflexivity.
  - intros [s [Hs H]]. exists s. split; [apply attribute_iff, Hs|]. destruct (from_num_str s) as [n|x|] eqn:E; cbn in H.
    + injection H as <-. apply from_num_iff, E.
    + injection H as <-. intros b ed r X. apply from_num_str_C03 in X. congruence.
    + discriminate.
Qed.

Lemma mode_iff : forall a m, mode_of a = m <-> mode a m.
Proof.
  intros a m. unfold mode, mode_of. destruct a as [s|].
  - destruct (String.eqb_spec s "horizontal") as [->|H].
    + split; [intros <-; split; reflexivity|]. intros [_ H]. symmetry. apply H. reflexivity.
    + split; [intros <-; split; [discriminate|intros X; injection X as ->; contradiction]|].
      intros [X _]. destruct m; [reflexivity|]. specialize (X eq_refl). injection X as ->. contradiction.
  - split; [intros <-; split; discriminate|]. intros [X _]. destruct m; [reflexivity|discriminate (X eq_refl)].
Qed.

(** Enumerations. *)
Lemma assoc_in : forall X (l : list (string * X)) s x, assoc s l = Some x -> In (s, x) l.
Proof.
  induction l as [|[t y] r IH]; intros s x H; cbn in H; [discriminate|].
  destruct (String.eqb_spec s t) as [->|]; [injection H as ->; left; reflexivity|right; apply IH, H].
Qed.
Lemma assoc_iff : forall X (l : list (string * X)) s x, NoDup (map fst l) ->
  assoc s l = Some x <-> In (s, x) l.
Proof.
  intros X l s x Hn. split; [apply assoc_in|]. induction l as [|[t y] r IH]; intros H; [destruct H|].
  inversion_clear Hn as [|? ? Ht Hr]. cbn. destruct H as [H|H].
  - injection H as -> ->. rewrite String.eqb_refl. reflexivity.
  - destruct (String.eqb_spec s t) as [->|]; [|exact (IH Hr H)].
    exfalso. apply Ht. change t with (fst (t, x)). apply in_map, H.
Qed.
Ltac nodup := cbn; repeat constructor; cbn; intros HND;
  repeat (destruct HND as [HND|HND]; [discriminate|]); exact HND.

Section Enum.
Context {X : Type} (l : list (string * X)).
Hypothesis Hl : NoDup (map fst l).
Definition found (a : option string) : option X := match a with Some s => assoc s l | None => None end.
Lemma one_of_found : forall a x, found a = Some x <-> one_of l a x.
Proof.
  intros a x. unfold found, one_of. destruct a as [s|].
  - rewrite assoc_iff by exact Hl. split; [intros H; exists s; auto|intros [t [Ht H]]; congruence].
  - split; [discriminate|intros [t [Ht _]]; discriminate].
Qed.
Lemma one_of_any_found : forall a o, found a = o <-> one_of_any l a o.
Proof.
  intros a [x|]; unfold one_of_any; [apply one_of_found|]. split.
  - intros H x Hx. apply one_of_found in Hx. congruence.
  - intros H. destruct (found a) as [x|] eqn:E; [|reflexivity]. apply one_of_found in E. destruct (H x E).
Qed.
Lemma enum_opt_iff : forall a err o, enum_opt a l err = Ok o <-> one_of_opt l a o.
Proof.
  intros a err o. unfold enum_opt, one_of_opt, one_of. destruct a as [s|].
  - split.
    + destruct (assoc s l) as [x|] eqn:E; [|discriminate]. intros H. injection H as <-.
      exists s. split; [reflexivity|apply assoc_in, E].
    + destruct o as [x|]; [|discriminate]. intros [t [Ht H]]. injection Ht as <-. apply assoc_iff in H; [|exact Hl].
      rewrite H. reflexivity.
  - destruct o; split; try congruence. intros [t [Ht _]]. discriminate.
Qed.
Lemma enum_req_iff : forall a err x, enum_req a l err = Ok x <-> one_of l a x.
Proof.
  intros a err x. rewrite <- one_of_found. unfold enum_req, found. destruct a as [s|]; [|split; discriminate].
  destruct (assoc s l); split; congruence.
Qed.
End Enum.

(** ** Loops *)
Lemma in_elements : forall c l, In c (elements l) <-> In (NElement c) l.
Proof.
  intros c l. induction l as [|[d|t|t] r IH]; cbn; rewrite ?IH; [tauto| | |].
  - split; intros [H|H]; auto; [left; congruence|left; congruence].
  - split; [auto|intros [H|H]; [discriminate|exact H]].
  - split; [auto|intros [H|H]; [discriminate|exact H]].
Qed.

Lemma run_accept : forall S txt (dflt : handler S) tbl l s,
  (forall c, In (NElement c) l -> exists u, lookup dflt tbl c = Ok u) ->
  exists s', run txt dflt tbl l s = Ok s'.
Proof.
  intros S txt dflt tbl l. induction l as [|[c|t|t] r IH]; intros s H; cbn.
  - eauto.
  - destruct (H c) as [u ->]; [left; reflexivity|]. cbn. apply IH. intros d Hd. apply H. right. exact Hd.
  - apply IH. intros d Hd. apply H. right. exact Hd.
  - apply IH. intros d Hd. apply H. right. exact Hd.
Qed.

Lemma run_all : forall S txt (dflt : handler S) tbl l s s', run txt dflt tbl l s = Ok s' ->
  forall c, In (NElement c) l -> exists u, lookup dflt tbl c = Ok u.
Proof.
  intros S txt dflt tbl l. induction l as [|[d|t|t] r IH]; intros s s' H c Hc; cbn in H.
  - destruct Hc.
  - apply bind_ok in H as [u [Hu H]]. destruct Hc as [Hc|Hc]; [injection Hc as <-; eauto|eauto].
  - destruct Hc as [Hc|Hc]; [discriminate|eauto].
  - destruct Hc as [Hc|Hc]; [discriminate|eauto].
Qed.

Lemma assoc_tags : forall A n (tbl : list (string * A)) h, assoc n tbl = Some h -> In n (map fst tbl).
Proof.
  intros A n tbl h H. apply assoc_in in H. change n with (fst (n, h)). apply in_map, H.
Qed.
Lemma run_known : forall S txt e tbl tags l (s s' : S), run txt (reject e) tbl l s = Ok s' ->
  incl (map fst tbl) tags -> known tags l.
Proof.
  intros S txt e tbl tags l s s' H Hi c Hc. destruct (run_all _ _ _ _ _ _ _ H c Hc) as [u Hu].
  unfold lookup in Hu. destruct (assoc (name c) tbl) eqn:E; [|discriminate]. eapply Hi, assoc_tags, E.
Qed.

Lemma run_known_gen : forall S txt dflt tbl tags l (s s' : S), run txt dflt tbl l s = Ok s' ->
  (forall c u, dflt c <> Ok u) -> incl (map fst tbl) tags -> known tags l.
Proof.
  intros S txt dflt tbl tags l s s' H Hd Hi c Hc. destruct (run_all _ _ _ _ _ _ _ H c Hc) as [u Hu].
  unfold lookup in Hu. destruct (assoc (name c) tbl) eqn:E; [eapply Hi, assoc_tags, E|]. destruct (Hd _ _ Hu).
Qed.

(** Loops that look at one tag only. *)
Lemma skip_run_iff : forall (X : Type) t (f : Element -> R X) (P : Element -> X -> Prop),
  (forall c x, f c = Ok x <-> P c x) ->
  forall l acc ys, run no_text skip [(t, h_push whole (fun v => v) f)] l acc = Ok ys <->
    exists xs, ys = acc ++ xs /\ each P t l xs.
Proof.
  intros X t f P HP. unfold each, with_tag.
  induction l as [|[c|s|s] r IH]; intros acc ys; cbn [run elements filter]; [|rewrite bind_iff; cbn [filter]| |].
  - split; [intros H; injection H as <-; exists []; rewrite app_nil_r; auto|].
    intros (xs & -> & F). inversion F. rewrite app_nil_r. reflexivity.
  - unfold lookup. cbn [assoc]. destruct (String.eqb (name c) t); cbn [filter].
    + split.
      * intros (u & Hu & H). apply bind_iff in Hu as (x & Hx & Hu). injection Hu as <-. apply HP in Hx.
        apply IH in H as (xs & -> & F). exists (x :: xs). unfold whole. rewrite <- app_assoc. auto.
      * intros (xs & -> & F). inversion_clear F as [|? x ? zs Hx Fz]. apply HP in Hx. eexists. split.
        -- unfold h_push. rewrite Hx. reflexivity.
        -- apply IH. exists zs. unfold whole. rewrite <- app_assoc. auto.
    + split.
      * intros (u & Hu & H). injection Hu as <-. apply IH in H. exact H.
      * intros H. exists (fun s => s). split; [reflexivity|]. apply IH, H.
  - apply IH.
  - apply IH.
Qed.
Lemma skip_run0_iff : forall (X : Type) t (f : Element -> R X) (P : Element -> X -> Prop),
  (forall c x, f c = Ok x <-> P c x) ->
  forall l xs, run no_text skip [(t, h_push whole (fun v => v) f)] l [] = Ok xs <-> each P t l xs.
Proof.
  intros X t f P HP l xs. rewrite (skip_run_iff X t f P HP). split; [intros (ys & -> & F); exact F|intros F; exists xs; auto].
Qed.

(** A field that keeps the last value. *)
Section Last.
Context {S X : Type} (pi : S -> X) (sel : Element -> bool) (Q : Element -> X -> Prop).
Context (dflt : handler S) (tbl : list (string * handler S)).
Hypothesis Hrow : forall c u, lookup dflt tbl c = Ok u ->
  if sel c then exists x, Q c x /\ forall s, pi (u s) = x else forall s, pi (u s) = pi s.
Lemma run_last : forall l s s', run no_text dflt tbl l s = Ok s' ->
  exists xs, Forall2 Q (filter sel (elements l)) xs /\ pi s' = last xs (pi s).
Proof.
  induction l as [|[c|t|t] r IH]; intros s s' H; cbn in H; cbn [elements].
  - injection H as <-. exists []. split; [constructor|reflexivity].
  - apply bind_ok in H as [u [Hu H]]. destruct (IH _ _ H) as [xs [Fx E]]. specialize (Hrow c u Hu).
    cbn [filter]. destruct (sel c).
    + destruct Hrow as [x [Hq Hs]]. exists (x :: xs). split; [constructor; assumption|].
      rewrite E, Hs. destruct xs as [|y ys]; [reflexivity|].
      change (last (x :: y :: ys) (pi s)) with (last (y :: ys) (pi s)).
      clear. revert y. induction ys as [|z zs IH]; intros y; cbn; [reflexivity|]. apply IH.
    + exists xs. rewrite Hrow in E. auto.
  - exact (IH _ _ H).
  - exact (IH _ _ H).
Qed.
End Last.

Lemma last_some : forall (X : Type) (xs : list X), last (map Some xs) None = hd_error (rev xs).
Proof.
  intros X xs. induction xs as [|x xs IH] using rev_ind; [reflexivity|].
  rewrite map_app, rev_app_distr. cbn [map rev app hd_error].
  apply (@last_last (option X)).
Qed.

(** The three forms of field: pushed, optional, replaced. *)
Section Fields.
Context {S : Type} (dflt : handler S) (tbl : list (string * handler S)) (l : list XMLNode) (s s' : S).
Hypothesis Hrun : run no_text dflt tbl l s = Ok s'.

Lemma pushed : forall (X : Type) (pi : S -> list X) (sel : Element -> bool) (Q : Element -> X -> Prop),
  pi s = [] ->
  (forall c u, lookup dflt tbl c = Ok u ->
    if sel c then exists x, Q c x /\ forall s, pi (u s) = pi s ++ [x] else forall s, pi (u s) = pi s) ->
  Forall2 Q (filter sel (elements l)) (pi s').
Proof. intros X pi sel Q H0 Hr. eapply collected; [exact Hrun|exact Hr|exact H0]. Qed.

Lemma replaced : forall (X : Type) (pi : S -> X) t (Q : Element -> X -> Prop) d,
  pi s = d ->
  (forall c u, lookup dflt tbl c = Ok u ->
    if String.eqb (name c) t then exists x, Q c x /\ forall s, pi (u s) = x else forall s, pi (u s) = pi s) ->
  latest_or d Q t l (pi s').
Proof.
  intros X pi t Q d H0 Hr. destruct (run_last pi _ Q dflt tbl Hr _ _ _ Hrun) as [xs [Fx E]].
  exists xs. rewrite H0 in E. split; [exact Fx|exact E].
Qed.

Lemma optional : forall (X : Type) (pi : S -> option X) t (Q : Element -> X -> Prop),
  pi s = None ->
  (forall c u, lookup dflt tbl c = Ok u ->
    if String.eqb (name c) t then exists x, Q c x /\ forall s, pi (u s) = Some x else forall s, pi (u s) = pi s) ->
  latest Q t l (pi s').
Proof.
  intros X pi t Q H0 Hr.
  destruct (run_last pi (fun c => String.eqb (name c) t) (fun c o => exists x, o = Some x /\ Q c x) dflt tbl)
    with (l := l) (s := s) (s' := s') as [os [Fx E]].
  - intros c u Hu. specialize (Hr c u Hu). destruct (String.eqb (name c) t); [|exact Hr].
    destruct Hr as [x [Hx Hs]]. exists (Some x). eauto.
  - exact Hrun.
  - rewrite H0 in E.
    assert (X1 : exists xs, os = map Some xs /\ Forall2 Q (with_tag t l) xs).
    { clear - Fx. unfold with_tag. induction Fx as [|c o l' os [x [-> Hx]] _ IH]; [exists []; auto|].
      destruct IH as [xs [-> Fx]]. exists (x :: xs). auto. }
    destruct X1 as [xs [-> Fq]]. exists xs. split; [exact Fq|]. rewrite E. apply last_some.
Qed.
End Fields.

(** A value found among the children. *)
Lemma forall2_left : forall A B (P : A -> B -> Prop) l m a, Forall2 P l m -> In a l -> exists b, P a b.
Proof.
  intros A B P l m a F. induction F as [|x y l m Hxy _ IH]; intros H; [destruct H|].
  destruct H as [<-|H]; [eauto|auto].
Qed.
Lemma in_with_tag : forall c t l, In c (with_tag t l) <-> In (NElement c) l /\ name c = t.
Proof.
  intros c t l. unfold with_tag. rewrite filter_In, in_elements, String.eqb_eq. reflexivity.
Qed.
Lemma each_in : forall X (P : Element -> X -> Prop) t l xs c, each P t l xs ->
  In (NElement c) l -> name c = t -> exists x, P c x.
Proof. intros X P t l xs c F Hc Hn. eapply forall2_left; [exact F|]. apply in_with_tag. auto. Qed.
Lemma latest_in : forall X (P : Element -> X -> Prop) t l o c, latest P t l o ->
  In (NElement c) l -> name c = t -> exists x, P c x.
Proof. intros X P t l o c [xs [F _]]. eapply each_in, F. Qed.
Lemma latest_or_in : forall X d (P : Element -> X -> Prop) t l o c, latest_or d P t l o ->
  In (NElement c) l -> name c = t -> exists x, P c x.
Proof. intros X d P t l o c [xs [F _]]. eapply each_in, F. Qed.
Lemma tags_in : forall X (P : Element -> X -> Prop) ts l xs c, Forall2 P (with_tags ts l) xs ->
  In (NElement c) l -> existsb (String.eqb (name c)) ts = true -> exists x, P c x.
Proof.
  intros X P ts l xs c F Hc Hn. eapply forall2_left; [exact F|].
  unfold with_tags. rewrite filter_In, in_elements. auto.
Qed.
Lemma forall2_part : forall A B C (g : A -> list B) (P : B -> C -> Prop) l xs a,
  Forall2 P (flat_map g l) xs -> In a l -> exists ys, Forall2 P (g a) ys.
Proof.
  intros A B C g P l. induction l as [|b l IH]; intros xs a F H; [destruct H|]. cbn in F.
  apply Forall2_app_inv_l in F as (ys & zs & F1 & F2 & ->). destruct H as [<-|H]; eauto.
Qed.

(** Uniqueness. *)
Definition functional {A B} (P : A -> B -> Prop) : Prop := forall a b b', P a b -> P a b' -> b = b'.
Lemma forall2_fun : forall A B (P : A -> B -> Prop), functional P -> functional (Forall2 P).
Proof.
  intros A B P Hf l m m' H. revert m'. induction H as [|a b l m Hab _ IH]; intros m' H'; inversion_clear H'.
  - reflexivity.
  - f_equal; [eapply Hf; eassumption|auto].
Qed.
Lemma each_fun : forall X (P : Element -> X -> Prop) t, functional P -> functional (each P t).
Proof. intros X P t H l. apply forall2_fun, H. Qed.
Lemma latest_fun : forall X (P : Element -> X -> Prop) t, functional P -> functional (latest P t).
Proof.
  intros X P t H l o o' [xs [F ->]] [ys [G ->]]. rewrite (each_fun _ _ _ H _ _ _ F G). reflexivity.
Qed.
Lemma latest_or_fun : forall X d (P : Element -> X -> Prop) t, functional P -> functional (latest_or d P t).
Proof.
  intros X d P t H l o o' [xs [F ->]] [ys [G ->]]. rewrite (each_fun _ _ _ H _ _ _ F G). reflexivity.
Qed.
Lemma gives_fun : forall A B (f : A -> R B), functional (fun a b => f a = Ok b).
Proof. intros A B f a b b' H H'. congruence. Qed.
Lemma reads_fun : forall k, functional (reads k).
Proof. intros k. apply gives_fun. Qed.

(** Loops that read every child element. *)
Lemma parse_all_iff : forall X (f : Element -> R X) l xs,
  parse_all f l = Ok xs <-> Forall2 (fun c x => f c = Ok x) (elements l) xs.
Proof.
  intros X f l xs. split; [apply parse_all_order|]. revert xs.
  induction l as [|[c|t|t] r IH]; intros xs H; cbn in *.
  - inversion H. reflexivity.
  - inversion_clear H as [|? x ? ys Hx Hy]. rewrite Hx. cbn. rewrite (IH _ Hy). reflexivity.
  - apply IH, H.
  - apply IH, H.
Qed.

(** Loops whose state is the list of children, with text. *)
Section Whole.
Context {X : Type} (txt : string -> list X -> list X) (e : Element) (tbl : list (string * handler (list X))).
Context (P : XMLNode -> X -> Prop) (keep : XMLNode -> bool).
Hypothesis Hother : forall s, keep (NOther s) = false.
Hypothesis Helem : forall c, keep (NElement c) = true.
Hypothesis Htext : forall t, if keep (NText t) then exists x, (forall s, txt t s = s ++ [x]) /\
                               forall y, P (NText t) y <-> y = x
                             else forall s, txt t s = s.
Hypothesis Hrow : forall c u, lookup (reject e) tbl c = Ok u -> exists x, P (NElement c) x /\ forall s, u s = s ++ [x].
Hypothesis Hacc : forall c x, P (NElement c) x -> exists u, lookup (reject e) tbl c = Ok u /\ u [] = [x].

Lemma run_whole_iff : forall l s s', run txt (reject e) tbl l s = Ok s' <->
  exists xs, s' = s ++ xs /\ Forall2 P (filter keep l) xs.
Proof.
  induction l as [|[c|t|t] r IH]; intros s s'; cbn [run filter].
  - split; [intros H; injection H as <-; exists []; rewrite app_nil_r; auto|].
    intros (xs & -> & H). inversion H. rewrite app_nil_r. reflexivity.
  - rewrite Helem, bind_iff. split.
    + intros [u [Hu H]]. apply IH in H as (xs & -> & F). destruct (Hrow _ _ Hu) as [x [Hx Hs]].
      exists (x :: xs). rewrite Hs, <- app_assoc. auto.
    + intros (xs & -> & F). inversion_clear F as [|? x ? ys Hx Fy]. destruct (Hacc _ _ Hx) as [u [Hu E]].
      exists u. split; [exact Hu|]. apply IH. exists ys. destruct (Hrow _ _ Hu) as [y [Hy Hs]].
      rewrite Hs in E. injection E as ->. rewrite Hs, <- app_assoc. auto.
  - specialize (Htext t). destruct (keep (NText t)).
    + destruct Htext as [x [Hs Hx]]. rewrite IH. split.
      * intros (xs & -> & F). exists (x :: xs). rewrite Hs, <- app_assoc. split; [reflexivity|].
        constructor; [apply Hx; reflexivity|exact F].
      * intros (xs & -> & F). inversion_clear F as [|? y ? ys Hy Fy]. apply Hx in Hy as ->. exists ys.
        rewrite Hs, <- app_assoc. auto.
    + rewrite IH, Htext. reflexivity.
  - rewrite Hother. apply IH.
Qed.
End Whole.

Lemma elements_filter : forall X (P : Element -> X -> Prop) (P' : XMLNode -> X -> Prop) l xs,
  (forall c x, P' (NElement c) x <-> P c x) ->
  Forall2 P' (filter (fun n => match n with NElement _ => true | _ => false end) l) xs <->
  Forall2 P (elements l) xs.
Proof.
  intros X P P' l xs H. revert xs. induction l as [|[c|t|t] r IH]; intros xs; cbn; try apply IH.
  - split; intros F; inversion F; constructor.
  - split; intros F; inversion_clear F; constructor; try (apply H; assumption); apply IH; assumption.
Qed.

(** Loops whose state is the list of child elements. *)
Lemma run_elements_iff : forall (X : Type) (e : Element) (tbl : list (string * handler (list X)))
    (P : Element -> X -> Prop),
  (forall c u, lookup (reject e) tbl c = Ok u -> exists x, P c x /\ forall s, u s = s ++ [x]) ->
  (forall c x, P c x -> exists u, lookup (reject e) tbl c = Ok u /\ u [] = [x]) ->
  forall l xs, run no_text (reject e) tbl l [] = Ok xs <-> Forall2 P (elements l) xs.
Proof.
  intros X e tbl P Hrow Hacc l xs.
  rewrite (run_whole_iff no_text e tbl (fun n x => match n with NElement c => P c x | _ => False end)
             (fun n => match n with NElement _ => true | _ => false end)); try reflexivity; try assumption.
  rewrite <- (elements_filter X P (fun n x => match n with NElement c => P c x | _ => False end))
    by (intros; reflexivity).
  split; [intros (ys & -> & F); exact F|intros F; exists xs; auto].
Qed.

(** The same with text. *)
Lemma run_mixed_iff : forall (X : Type) (inj : string -> X) (e : Element) (tbl : list (string * handler (list X)))
    (P : XMLNode -> X -> Prop),
  (forall t y, P (NText t) y <-> y = inj t) ->
  (forall c u, lookup (reject e) tbl c = Ok u -> exists x, P (NElement c) x /\ forall s, u s = s ++ [x]) ->
  (forall c x, P (NElement c) x -> exists u, lookup (reject e) tbl c = Ok u /\ u [] = [x]) ->
  forall l xs, run (fun s l => l ++ [inj s]) (reject e) tbl l [] = Ok xs <-> mixed P l xs.
Proof.
  intros X inj e tbl P Ht Hrow Hacc l xs.
  rewrite (run_whole_iff _ e tbl P not_other); try reflexivity; try assumption.
  - split; [intros (ys & -> & F); exact F|intros F; exists xs; auto].
  - intros t. cbn. exists (inj t). split; [reflexivity|apply Ht].
Qed.

(** A field to which lists are appended. *)
Lemma flattened : forall (S : Type) (dflt : handler S) tbl l s s', run no_text dflt tbl l s = Ok s' ->
  forall (X Y : Type) (pi : S -> list X) t (g : Element -> list Y) (Q : Y -> X -> Prop), pi s = [] ->
  (forall c u, lookup dflt tbl c = Ok u ->
    if String.eqb (name c) t then exists xs, Forall2 Q (g c) xs /\ forall s, pi (u s) = pi s ++ xs
    else forall s, pi (u s) = pi s) ->
  Forall2 Q (flat_map g (with_tag t l)) (pi s').
Proof.
  intros S dflt tbl l s s' Hrun X Y pi t g Q H0 Hrow.
  assert (G : exists xs, pi s' = pi s ++ xs /\ Forall2 Q (flat_map g (with_tag t l)) xs).
  { clear H0. revert s Hrun. unfold with_tag. induction l as [|[c|x|x] r IH]; intros s H; cbn in H; cbn [elements filter].
    - injection H as <-. exists []. rewrite app_nil_r. split; [reflexivity|constructor].
    - apply bind_ok in H as [u [Hu H]]. destruct (IH _ H) as [xs [E F]]. specialize (Hrow c u Hu).
      cbn [filter]. destruct (String.eqb (name c) t).
      + destruct Hrow as [ys [Fy Ey]]. exists (ys ++ xs). rewrite E, Ey, <- app_assoc. split; [reflexivity|].
        cbn. apply Forall2_app; assumption.
      + exists xs. rewrite E, Hrow. auto.
    - exact (IH _ H).
    - exact (IH _ H). }
  destruct G as [xs [E F]]. rewrite E, H0. exact F.
Qed.
Lemma accepted_fun : forall (X : Type) dflt (tbl : list (string * handler (list X))) (P : Element -> X -> Prop),
  (forall c x, P c x -> exists u, lookup dflt tbl c = Ok u /\ u [] = [x]) -> functional P.
Proof.
  intros X dflt tbl P H c x y Hx Hy. apply H in Hx as (u & Hu & Ex). apply H in Hy as (v & Hv & Ey). congruence.
Qed.
