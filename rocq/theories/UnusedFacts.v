(** The readers and writers that are never called. *)
From Coq Require Import String List Bool.
From Verif Require Import Base NumStr NumStrSpec BaseFacts NumStrFacts Xml Ast XmlWrite XmlParse XmlSim
  KnotFacts GrammarSpec GrammarFacts ReadSpec ReadFacts PartsFacts ReadingSpec ReadingLib ReadingFacts ReadingRules5 ReadingRules7
  ReadingExact RoundTripSpec RoundTripFacts LossFacts TextBuildFacts Unused UnusedSpec DocTextFacts.
Import ListNotations.
Open Scope string_scope.
Open Scope list_scope.

Lemma map_ok_iff : forall A B (f : A -> B) r y, map_ok f r = Ok y <-> exists x, r = Ok x /\ y = f x.
Proof.
  intros A B f r y. unfold map_ok. rewrite bind_iff. split; intros (x & H & E); exists x; split; try exact H; congruence.
Qed.

Theorem struct_exact : forall e s, struct_parser e = Ok s <-> struct_reads e s.
Proof.
  intros e s. unfold struct_parser, ReadingSpec.struct_reads.
  repeat match goal with |- context [String.eqb (name e) ?n] => destruct (String.eqb_spec (name e) n) as [?E|?E] end.
  1-4: rewrite map_ok_iff; split; [intros (x & H & ->); split; assumption|
         destruct s; intros [H1 H2]; try congruence; eexists; split; [exact H2|reflexivity]].
  split; [discriminate|]. destruct s; intros [H _]; congruence.
Qed.
Theorem struct_other : forall e, ~ In (name e) struct_tags -> struct_parser e = Err (MissingRequiredTag "Struct").
Proof.
  intros e H. unfold struct_parser.
  destruct (String.eqb_spec (name e) "TableStruct") as [E|_]; [exfalso; apply H; rewrite E; cbn; auto|].
  destruct (String.eqb_spec (name e) "FigStruct") as [E|_]; [exfalso; apply H; rewrite E; cbn; auto|].
  destruct (String.eqb_spec (name e) "StyleStruct") as [E|_]; [exfalso; apply H; rewrite E; cbn; auto|].
  destruct (String.eqb_spec (name e) "List") as [E|_]; [exfalso; apply H; rewrite E; cbn; auto 6|].
  reflexivity.
Qed.

Theorem struct_back : forall s, struct_parser (write_struct_any write s) = Ok s <-> struct_survives s.
Proof.
  intros s. rewrite struct_exact. destruct s as [v|v|v|v]; cbn [ReadingSpec.struct_reads write_struct_any struct_survives];
    rewrite write_name; (split; [intros [_ H]; apply read_write_iff, H|intros H; split; [reflexivity|apply read_write_iff, H]]).
Qed.

Lemma forall2_imp : forall (A B : Type) (P Q : A -> B -> Prop) l m, (forall x y, P x y -> Q x y) -> Forall2 P l m -> Forall2 Q l m.
Proof. intros A B P Q l m H F. induction F; constructor; auto. Qed.
Theorem item_structs : forall l e v, parse (KItem l) e = Ok v ->
  Forall2 (fun c s => struct_parser c = Ok s) (with_tags struct_tags (children e)) (it_struct_list (un (KItem l) v)).
Proof.
  intros l e v H. apply read_rule in H as (_ & _ & _ & _ & _ & _ & _ & F & _); [|exact I].
  eapply forall2_imp; [|exact F]. intros c s. apply struct_exact.
Qed.
Theorem paragraph_structs : forall e v, parse KParagraph e = Ok v ->
  Forall2 (fun c s => struct_parser c = Ok s) (with_tags struct_tags (children e)) (par_struct_list (un KParagraph v)).
Proof.
  intros e v H. apply read_rule in H; [|exact I]. cbn [ReadingSpec.reading] in H.
  repeat match type of H with _ /\ _ => let A := fresh in destruct H as [A H] end.
  match goal with F : Forall2 struct_reads _ _ |- _ => eapply forall2_imp; [|exact F] end. intros c s. apply struct_exact.
Qed.

(** ** The label of remarks *)
Lemma label_reads : forall r, remarks_label_reads (write_remarks_label r) r <-> text_survives (rl_text r).
Proof.
  intros [t b]. unfold ReadingSpec.remarks_label_reads, write_remarks_label. cbn [name attrs children rl_text rl_line_break].
  rewrite <- text_of_iff. unfold p_text. cbn [children]. rewrite tree_back. split; [intros (_ & _ & H); exact H|].
  intros H. split; [reflexivity|]. split; [|exact H]. destruct b; (split; [split; (reflexivity || discriminate)|cbn; auto]).
Qed.
Theorem label_back : forall r, parse_remarks_label parse (write_remarks_label r) = Ok r <-> text_survives (rl_text r).
Proof. intros r. rewrite label_iff. apply label_reads. Qed.

Lemma remark_names : forall c, In (name (write_remarks_node write c)) ["Item"; "Sentence"].
Proof. intros [v|v]; cbn [write_remarks_node]; rewrite write_name; cbn; auto. Qed.
Lemma remark_reads : forall c, remarks_reads (write_remarks_node write c) c <-> remark_survives c.
Proof.
  intros [v|v]; cbn [ReadingSpec.remarks_reads write_remarks_node remark_survives]; rewrite write_name;
    (split; [intros [_ H]; apply read_write_iff, H|intros H; split; [reflexivity|apply read_write_iff, H]]).
Qed.
Theorem labelled_back : forall r, parse KRemarks (labelled r) = Ok r <->
  text_survives (rl_text (rem_label (un KRemarks r))) /\ Forall remark_survives (rem_children (un KRemarks r)).
Proof.
  intros r. rewrite parse_exact by exact I. destruct (un KRemarks r) as [lb cs] eqn:Er. cbn [ReadingSpec.reading].
  assert (E : labelled r = mkElement "Remarks" [] (NElement (write_remarks_label lb) :: els (write_remarks_node write) cs)).
  { unfold labelled. rewrite <- (mk_un KRemarks r), Er. reflexivity. }
  rewrite E. cbn [name children rem_label rem_children]. clear E Er.
  assert (T : forall ds, with_tags ["Item"; "Sentence"] (els (write_remarks_node write) ds) = map (write_remarks_node write) ds).
  { unfold with_tags. induction ds as [|d ds IH]; [reflexivity|]. cbn [els map elements filter] in *. unfold els in IH. rewrite IH.
    pose proof (remark_names d) as N. replace (existsb _ _) with true; [reflexivity|]. symmetry. apply existsb_exists.
    exists (name (write_remarks_node write d)). split; [exact N|apply String.eqb_refl]. }
  assert (U : forall ds, with_tag "RemarksLabel" (els (write_remarks_node write) ds) = []).
  { unfold with_tag. induction ds as [|d ds IH]; [reflexivity|]. cbn [els map elements filter] in *. unfold els in IH. rewrite IH.
    destruct (String.eqb_spec (name (write_remarks_node write d)) "RemarksLabel") as [E|_]; [|reflexivity].
    pose proof (remark_names d) as N. rewrite E in N. cbn in N. destruct N as [N|[N|[]]]; discriminate N. }
  assert (V : forall ds, Forall2 remarks_reads (map (write_remarks_node write) ds) ds <-> Forall remark_survives ds).
  { induction ds as [|d ds IH]; [split; constructor|]. cbn [map]. split; intros H; inversion H; subst; constructor;
      try (apply remark_reads; assumption); apply IH; assumption. }
  split.
  - intros (_ & _ & (xs & Hx & Ex) & F). unfold each, with_tag in Hx. cbn [elements filter name write_remarks_label] in Hx.
    change (filter _ (elements (els (write_remarks_node write) cs))) with (with_tag "RemarksLabel" (els (write_remarks_node write) cs)) in Hx.
    rewrite U in Hx. cbn in Hx. inversion Hx as [|? x ? ? H1 H2]; subst. inversion H2; subst. cbn in Ex. injection Ex as ->.
    split; [apply label_reads, H1|]. apply V. unfold with_tags in F, T. cbn [elements filter name write_remarks_label existsb] in F.
    rewrite <- T. exact F.
  - intros [H1 H2]. split; [reflexivity|]. split; [|split].
    + intros c [Hc|Hc]; [injection Hc as <-; cbn; auto|]. unfold els in Hc. apply in_map_iff in Hc as (d & Hd & _). injection Hd as <-.
      pose proof (remark_names d) as [N|[N|[]]]; rewrite <- N; cbn; auto.
    + exists [lb]. split; [|reflexivity]. unfold each, with_tag. cbn [elements filter name write_remarks_label].
      change (filter _ (elements (els (write_remarks_node write) cs))) with (with_tag "RemarksLabel" (els (write_remarks_node write) cs)).
      rewrite U. constructor; [apply label_reads, H1|constructor].
    + apply V in H2. unfold with_tags in T |- *. cbn [elements filter name write_remarks_label existsb]. rewrite <- T in H2. exact H2.
Qed.
