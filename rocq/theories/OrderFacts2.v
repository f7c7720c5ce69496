(** Repeated child elements: the last one counts, for every type that has one of them only. *)
From Coq Require Import String List Bool.
From Verif Require Import Base NumStr Xml Ast XmlParse KnotFacts GrammarSpec ReadSpec ReadingSpec ReadingRules7 OrderSpec OrderFacts.
Import ListNotations.
Open Scope string_scope.
Open Scope list_scope.

(** [l] is [l1] with a further element of tag [t] before the last one, and [l2] is without the last one. *)
Inductive twice (t : string) : list XMLNode -> list XMLNode -> list XMLNode -> Prop :=
| twice_intro pre mid post c c' : name c = t -> name c' = t ->
    twice t (pre ++ NElement c :: mid ++ NElement c' :: post) (pre ++ mid ++ NElement c' :: post) (pre ++ NElement c :: mid ++ post).

Section Twice.
Variables (t : string) (l l1 l2 : list XMLNode).
Hypothesis H : twice t l l1 l2.
Ltac use L := destruct H; eapply L; eassumption.

Lemma known_1 : forall ts, known ts l -> known ts l1.
Proof. intros ts K. destruct H. apply known_twice in K. apply K. Qed.
Lemma known_2 : forall ts, known ts l -> known ts l2.
Proof. intros ts K. destruct H. apply known_twice in K. apply K. Qed.
Lemma known_b : forall ts, known ts l1 -> known ts l2 -> known ts l.
Proof. intros ts K K'. destruct H. apply known_twice. split; assumption. Qed.
Lemma latest_1 : forall X (P : Element -> X -> Prop) o, latest P t l o -> latest P t l1 o.
Proof. intros X P o K. destruct H as [pre mid post c c' Hc Hc']. eapply (latest_fwd t) in K; [apply K|assumption..]. Qed.
Lemma latest_2 : forall X (P : Element -> X -> Prop) o, latest P t l o -> exists y, latest P t l2 (Some y).
Proof. intros X P o K. destruct H as [pre mid post c c' Hc Hc']. eapply (latest_fwd t) in K; [apply K|assumption..]. Qed.
Lemma latest_b : forall X (P : Element -> X -> Prop) o o', latest P t l1 o -> latest P t l2 o' -> latest P t l o.
Proof. intros X P o o' K K'. destruct H as [pre mid post c c' Hc Hc']. eapply (latest_bwd t); eassumption. Qed.
Lemma latest_or_1 : forall X z (P : Element -> X -> Prop) o, latest_or z P t l o -> latest_or z P t l1 o.
Proof. intros X z P o K. destruct H as [pre mid post c c' Hc Hc']. eapply (latest_or_fwd t) in K; [apply K|assumption..]. Qed.
Lemma latest_or_2 : forall X z (P : Element -> X -> Prop) o, latest_or z P t l o -> exists y, latest_or z P t l2 y.
Proof. intros X z P o K. destruct H as [pre mid post c c' Hc Hc']. eapply (latest_or_fwd t) in K; [apply K|assumption..]. Qed.
Lemma latest_or_b : forall X z (P : Element -> X -> Prop) o o', latest_or z P t l1 o -> latest_or z P t l2 o' -> latest_or z P t l o.
Proof. intros X z P o o' K K'. destruct H as [pre mid post c c' Hc Hc']. eapply (latest_or_bwd t); eassumption. Qed.

Lemma tag_eqs : forall u, u <> t -> with_tag u l1 = with_tag u l /\ with_tag u l2 = with_tag u l.
Proof. intros u Hu. destruct H as [pre mid post c c' Hc Hc']. apply (tag_other t); assumption. Qed.
Lemma tags_eqs : forall us, ~ In t us -> with_tags us l1 = with_tags us l /\ with_tags us l2 = with_tags us l.
Proof. intros us Hu. destruct H as [pre mid post c c' Hc Hc']. apply (tags_other t); assumption. Qed.
Lemma each_e1 : forall X (P : Element -> X -> Prop) u o, u <> t -> each P u l o -> each P u l1 o.
Proof. intros X P u o Hu. unfold each. destruct (tag_eqs u Hu) as [-> _]. auto. Qed.
Lemma each_e2 : forall X (P : Element -> X -> Prop) u o, u <> t -> each P u l o -> each P u l2 o.
Proof. intros X P u o Hu. unfold each. destruct (tag_eqs u Hu) as [_ ->]. auto. Qed.
Lemma each_eb : forall X (P : Element -> X -> Prop) u o, u <> t -> each P u l1 o -> each P u l o.
Proof. intros X P u o Hu. unfold each. destruct (tag_eqs u Hu) as [-> _]. auto. Qed.
Lemma latest_e1 : forall X (P : Element -> X -> Prop) u o, u <> t -> latest P u l o -> latest P u l1 o.
Proof. intros X P u o Hu (xs & E & F). exists xs. split; [apply each_e1; assumption|exact F]. Qed.
Lemma latest_e2 : forall X (P : Element -> X -> Prop) u o, u <> t -> latest P u l o -> latest P u l2 o.
Proof. intros X P u o Hu (xs & E & F). exists xs. split; [apply each_e2; assumption|exact F]. Qed.
Lemma latest_eb : forall X (P : Element -> X -> Prop) u o, u <> t -> latest P u l1 o -> latest P u l o.
Proof. intros X P u o Hu (xs & E & F). exists xs. split; [apply each_eb; assumption|exact F]. Qed.
Lemma latest_or_e1 : forall X z (P : Element -> X -> Prop) u o, u <> t -> latest_or z P u l o -> latest_or z P u l1 o.
Proof. intros X z P u o Hu (xs & E & F). exists xs. split; [apply each_e1; assumption|exact F]. Qed.
Lemma latest_or_e2 : forall X z (P : Element -> X -> Prop) u o, u <> t -> latest_or z P u l o -> latest_or z P u l2 o.
Proof. intros X z P u o Hu (xs & E & F). exists xs. split; [apply each_e2; assumption|exact F]. Qed.
Lemma latest_or_eb : forall X z (P : Element -> X -> Prop) u o, u <> t -> latest_or z P u l1 o -> latest_or z P u l o.
Proof. intros X z P u o Hu (xs & E & F). exists xs. split; [apply each_eb; assumption|exact F]. Qed.
Lemma group_e1 : forall X (P : Element -> X -> Prop) us o, ~ In t us -> Forall2 P (with_tags us l) o -> Forall2 P (with_tags us l1) o.
Proof. intros X P us o Hu. destruct (tags_eqs us Hu) as [-> _]. auto. Qed.
Lemma group_e2 : forall X (P : Element -> X -> Prop) us o, ~ In t us -> Forall2 P (with_tags us l) o -> Forall2 P (with_tags us l2) o.
Proof. intros X P us o Hu. destruct (tags_eqs us Hu) as [_ ->]. auto. Qed.
Lemma group_eb : forall X (P : Element -> X -> Prop) us o, ~ In t us -> Forall2 P (with_tags us l1) o -> Forall2 P (with_tags us l) o.
Proof. intros X P us o Hu. destruct (tags_eqs us Hu) as [-> _]. auto. Qed.
Lemma inner_e1 : forall X (P : Element -> X -> Prop) f u o, u <> t -> Forall2 P (flat_map f (with_tag u l)) o -> Forall2 P (flat_map f (with_tag u l1)) o.
Proof. intros X P f u o Hu. destruct (tag_eqs u Hu) as [-> _]. auto. Qed.
Lemma inner_e2 : forall X (P : Element -> X -> Prop) f u o, u <> t -> Forall2 P (flat_map f (with_tag u l)) o -> Forall2 P (flat_map f (with_tag u l2)) o.
Proof. intros X P f u o Hu. destruct (tag_eqs u Hu) as [_ ->]. auto. Qed.
Lemma inner_eb : forall X (P : Element -> X -> Prop) f u o, u <> t -> Forall2 P (flat_map f (with_tag u l1)) o -> Forall2 P (flat_map f (with_tag u l)) o.
Proof. intros X P f u o Hu. destruct (tag_eqs u Hu) as [-> _]. auto. Qed.
Lemma texts_eqs : text_nodes l1 = text_nodes l /\ text_nodes l2 = text_nodes l.
Proof. destruct H as [pre mid post c c' Hc Hc']. apply texts_else. Qed.
Lemma texts_e1 : forall x, x = map (fun s => @TE_Text Knot s) (text_nodes l) -> x = map (fun s => @TE_Text Knot s) (text_nodes l1).
Proof. destruct texts_eqs as [-> _]. auto. Qed.
Lemma texts_e2 : forall x, x = map (fun s => @TE_Text Knot s) (text_nodes l) -> x = map (fun s => @TE_Text Knot s) (text_nodes l2).
Proof. destruct texts_eqs as [_ ->]. auto. Qed.
Lemma texts_eb : forall x, x = map (fun s => @TE_Text Knot s) (text_nodes l1) -> x = map (fun s => @TE_Text Knot s) (text_nodes l).
Proof. destruct texts_eqs as [-> _]. auto. Qed.
Lemma around_e : forall bn P Q, bn <> t -> "Remarks" <> t -> (around bn P Q l <-> around bn P Q l1) /\ (around bn P Q l <-> around bn P Q l2).
Proof.
  intros bn P Q N1 N2. rewrite !around_tags.
  destruct (tags_eqs ["Remarks"; bn]) as [E1 E2]; [intros [X|[X|[]]]; congruence|]. rewrite E1, E2. tauto.
Qed.
Lemma around_e1 : forall bn P Q, bn <> t -> "Remarks" <> t -> around bn P Q l -> around bn P Q l1.
Proof. intros bn P Q N1 N2. apply around_e; assumption. Qed.
Lemma around_e2 : forall bn P Q, bn <> t -> "Remarks" <> t -> around bn P Q l -> around bn P Q l2.
Proof. intros bn P Q N1 N2. apply around_e; assumption. Qed.
Lemma around_eb : forall bn P Q, bn <> t -> "Remarks" <> t -> around bn P Q l1 -> around bn P Q l.
Proof. intros bn P Q N1 N2. apply around_e; assumption. Qed.
Lemma head_e : In t ["ArticleCaption"; "ArticleTitle"; "SupplNote"] -> head_first l <-> head_first l1 /\ head_first l2.
Proof. intros Ht. destruct H as [pre mid post c c' Hc Hc']. apply (head_twice t); assumption. Qed.
Lemma head_e1 : In t ["ArticleCaption"; "ArticleTitle"; "SupplNote"] -> head_first l -> head_first l1.
Proof. intros Ht K. apply (head_e Ht) in K. apply K. Qed.
Lemma head_e2 : In t ["ArticleCaption"; "ArticleTitle"; "SupplNote"] -> head_first l -> head_first l2.
Proof. intros Ht K. apply (head_e Ht) in K. apply K. Qed.
Lemma head_eb : In t ["ArticleCaption"; "ArticleTitle"; "SupplNote"] -> head_first l1 -> head_first l2 -> head_first l.
Proof. intros Ht K K'. apply (head_e Ht). split; assumption. Qed.
End Twice.

(** The rule of structures with [around]. *)
Lemma structure_around : forall T B n tn bn (pt : Element -> T -> Prop) (pb : Element -> B -> Prop) e f,
  structure reads n tn bn pt pb e f <->
  name e = n /\ known [tn; "Remarks"; bn] (children e) /\ latest pt tn (children e) (st_title f) /\
  latest pb bn (children e) (Some (st_body f)) /\
  around bn (fun x => readable reads x (st_title_remarks f)) (fun x => readable reads x (st_remarks f)) (children e).
Proof. intros. unfold structure, around. tauto. Qed.

Ltac ne := first [discriminate | let X := fresh in intros X; cbn in X; repeat (destruct X as [X|X]; [discriminate X|]); exact X].
Ltac part1 H :=
  first [ eassumption
        | eapply (known_1 _ _ _ _ H); eassumption
        | eapply (latest_1 _ _ _ _ H); eassumption
        | eapply (latest_e1 _ _ _ _ H); [ne|eassumption]
        | eapply (latest_or_1 _ _ _ _ H); eassumption
        | eapply (latest_or_e1 _ _ _ _ H); [ne|eassumption]
        | eapply (each_e1 _ _ _ _ H); [ne|eassumption]
        | eapply (group_e1 _ _ _ _ H); [ne|eassumption]
        | eapply (inner_e1 _ _ _ _ H); [ne|eassumption]
        | eapply (texts_e1 _ _ _ _ H); eassumption
        | eapply (around_e1 _ _ _ _ H); [ne|ne|eassumption]
        | eapply (head_e1 _ _ _ _ H); [in_list|eassumption] ].
Ltac part2 H :=
  first [ eassumption
        | eapply (known_2 _ _ _ _ H); eassumption
        | eapply (latest_e2 _ _ _ _ H); [ne|eassumption]
        | eapply (latest_or_e2 _ _ _ _ H); [ne|eassumption]
        | eapply (each_e2 _ _ _ _ H); [ne|eassumption]
        | eapply (group_e2 _ _ _ _ H); [ne|eassumption]
        | eapply (inner_e2 _ _ _ _ H); [ne|eassumption]
        | eapply (texts_e2 _ _ _ _ H); eassumption
        | eapply (around_e2 _ _ _ _ H); [ne|ne|eassumption]
        | eapply (head_e2 _ _ _ _ H); [in_list|eassumption] ].
Ltac partb H :=
  first [ eassumption
        | eapply (known_b _ _ _ _ H); eassumption
        | eapply (latest_b _ _ _ _ H); eassumption
        | eapply (latest_eb _ _ _ _ H); [ne|eassumption]
        | eapply (latest_or_b _ _ _ _ H); eassumption
        | eapply (latest_or_eb _ _ _ _ H); [ne|eassumption]
        | eapply (each_eb _ _ _ _ H); [ne|eassumption]
        | eapply (group_eb _ _ _ _ H); [ne|eassumption]
        | eapply (inner_eb _ _ _ _ H); [ne|eassumption]
        | eapply (texts_eb _ _ _ _ H); eassumption
        | eapply (around_eb _ _ _ _ H); [ne|ne|eassumption]
        | eapply (head_eb _ _ _ _ H); [in_list|eassumption|eassumption] ].
(** The value of the element that remains when the last one is left out. *)
Ltac former H := match goal with
  | X : latest _ _ _ _ |- _ => apply (latest_2 _ _ _ _ H) in X as (? & ?)
  | X : latest_or _ _ _ _ _ |- _ => apply (latest_or_2 _ _ _ _ H) in X as (? & ?)
  end.

Local Arguments with_tags : simpl never.
Local Arguments with_tag : simpl never.
Definition reading := ReadingSpec.reading reads.
Ltac show := unfold reading in *; rewrite ?article_rule in *; cbn [ReadingSpec.reading] in *; rewrite ?structure_around in *;
  unfold suppl_appended, appended, toc_heading in *; cbn [name attrs children] in *; unfold get in *; cbn [attrs] in *.
Definition some_reading (k : kind) (e : Element) : Prop := exists f, reading k e f.
Ltac built := unfold some_reading; unshelve eexists; [cbn [F]; econstructor|..]; cycle -1; unfold reading; rewrite ?article_rule; cbn; rewrite ?structure_around; cbn.
Ltac if_prop tac := lazymatch goal with |- ?g => let T := type of g in lazymatch T with Prop => tac | _ => idtac end end.

Lemma twice_fwd : forall k t, In t (singles k) -> forall l l1 l2, twice t l l1 l2 -> forall n a f,
  reading k (mkElement n a l) f -> reading k (mkElement n a l1) f.
Proof.
  intros k t Ht l l1 l2 H n a f R.
  destruct k; try (match goal with s : sname |- _ => destruct s | j : lvl |- _ => destruct j end); cbn [singles] in Ht.
  all: try contradiction.
  all: unfold toc_singles, appended_singles in Ht; cbn in Ht; repeat destruct Ht as [Ht|Ht]; try contradiction; subst t.
  all: show; conjs; parts; part1 H.
Qed.

Lemma twice_some : forall k t, In t (singles k) -> forall l l1 l2, twice t l l1 l2 -> forall n a f,
  reading k (mkElement n a l) f -> some_reading k (mkElement n a l2).
Proof.
  intros k t Ht l l1 l2 H n a f R.
  destruct k; try (match goal with s : sname |- _ => destruct s | j : lvl |- _ => destruct j end); cbn [singles] in Ht.
  all: try contradiction.
  all: unfold toc_singles, appended_singles in Ht; cbn in Ht; repeat destruct Ht as [Ht|Ht]; try contradiction; subst t.
  all: show; conjs; former H; built; if_prop ltac:(show; parts; part2 H).
Qed.

Lemma twice_bwd : forall k t, In t (singles k) -> forall l l1 l2, twice t l l1 l2 -> forall n a f g,
  reading k (mkElement n a l1) f -> reading k (mkElement n a l2) g -> reading k (mkElement n a l) f.
Proof.
  intros k t Ht l l1 l2 H n a f g R1 R2.
  destruct k; try (match goal with s : sname |- _ => destruct s | j : lvl |- _ => destruct j end); cbn [singles] in Ht.
  all: try contradiction.
  all: unfold toc_singles, appended_singles in Ht; cbn in Ht; repeat destruct Ht as [Ht|Ht]; try contradiction; subst t.
  all: show; conjs; parts; partb H.
Qed.

Theorem last_counts : forall k t, In t (singles k) -> forall n a pre c mid c' post, name c = t -> name c' = t ->
  forall v, parse k (mkElement n a (pre ++ NElement c :: mid ++ NElement c' :: post)) = Ok v <->
    parse k (mkElement n a (pre ++ mid ++ NElement c' :: post)) = Ok v /\
    exists w, parse k (mkElement n a (pre ++ NElement c :: mid ++ post)) = Ok w.
Proof.
  intros k t Ht n a pre c mid c' post Hc Hc' v.
  assert (T : forall e, tagged k e) by (intros e; destruct k; try exact I; contradiction).
  pose proof (twice_intro t pre mid post c c' Hc Hc') as H.
  setoid_rewrite parse_exact; [|apply T..]. split.
  - intros R. split; [exact (twice_fwd k t Ht _ _ _ H n a _ R)|].
    destruct (twice_some k t Ht _ _ _ H n a _ R) as (g & G). exists (mk k g). rewrite un_mk. exact G.
  - intros [R1 (w & R2)]. exact (twice_bwd k t Ht _ _ _ H n a _ _ R1 R2).
Qed.
