(** Order and repetition of child elements. *)
From Coq Require Import String List Bool.
From Verif Require Import Base NumStr Xml Ast XmlParse GrammarSpec ReadSpec ReadingSpec ReadingRules7 OrderSpec.
Import ListNotations.
Open Scope string_scope.
Open Scope list_scope.

Lemma elements_app : forall a b, elements (a ++ b) = elements a ++ elements b.
Proof. induction a as [|[c|s|s] a IH]; intros b; cbn; rewrite ?IH; reflexivity. Qed.
Lemma elements_in : forall c l, In c (elements l) <-> In (NElement c) l.
Proof.
  intros c l. induction l as [|[d|s|s] l IH]; cbn; [tauto|..]; rewrite IH.
  - split; intros [H|H]; auto; left; congruence.
  - split; [auto|]. intros [H|H]; [discriminate|exact H].
  - split; [auto|]. intros [H|H]; [discriminate|exact H].
Qed.
Lemma tags_one : forall t l, with_tags [t] l = with_tag t l.
Proof.
  intros t l. unfold with_tags, with_tag. apply filter_ext. intros c. cbn. apply orb_false_r.
Qed.
Lemma known_in : forall ts l, known ts l <-> forall c, In c (elements l) -> In (name c) ts.
Proof. intros ts l. unfold known. split; intros H c Hc; apply H, elements_in, Hc. Qed.

(** ** Order *)
Lemma regrouped_sym : forall g l l', regrouped g l l' -> regrouped g l' l.
Proof. intros g l l' [A B]. split; [intros c; symmetry; apply A|]. intros ts H. symmetry. apply B, H. Qed.
Section Order.
Variables (g : list (list string)) (l l' : list XMLNode).
Hypothesis H : regrouped g l l'.
Lemma known_re : forall ts, known ts l -> known ts l'.
Proof. intros ts K c Hc. apply K, H, Hc. Qed.
Lemma tags_re : forall ts, In ts g -> with_tags ts l = with_tags ts l'.
Proof. apply H. Qed.
Lemma tag_re : forall t, In [t] g -> with_tag t l = with_tag t l'.
Proof. intros t Ht. rewrite <- !tags_one. apply tags_re, Ht. Qed.
Lemma each_re : forall X (P : Element -> X -> Prop) t xs, In [t] g -> each P t l xs -> each P t l' xs.
Proof. intros X P t xs Ht. unfold each. rewrite (tag_re t Ht). auto. Qed.
Lemma latest_re : forall X (P : Element -> X -> Prop) t o, In [t] g -> latest P t l o -> latest P t l' o.
Proof. intros X P t o Ht (xs & E & F). exists xs. split; [apply each_re; assumption|exact F]. Qed.
Lemma latest_or_re : forall X d (P : Element -> X -> Prop) t x, In [t] g -> latest_or d P t l x -> latest_or d P t l' x.
Proof. intros X d P t x Ht (xs & E & F). exists xs. split; [apply each_re; assumption|exact F]. Qed.
Lemma group_re : forall X (P : Element -> X -> Prop) ts xs, In ts g -> Forall2 P (with_tags ts l) xs -> Forall2 P (with_tags ts l') xs.
Proof. intros X P ts xs Ht. rewrite (tags_re ts Ht). auto. Qed.
Lemma inner_re : forall X (P : Element -> X -> Prop) (f : Element -> list Element) t xs, In [t] g ->
  Forall2 P (flat_map f (with_tag t l)) xs -> Forall2 P (flat_map f (with_tag t l')) xs.
Proof. intros X P f t xs Ht. rewrite (tag_re t Ht). auto. Qed.
End Order.

Ltac in_list := cbn; repeat (first [left; reflexivity | right]).
Ltac re_one H :=
  first [ eapply (known_re _ _ _ H); eassumption
        | eapply (latest_re _ _ _ H); [in_list|eassumption]
        | eapply (latest_or_re _ _ _ H); [in_list|eassumption]
        | eapply (each_re _ _ _ H); [in_list|eassumption]
        | eapply (group_re _ _ _ H); [in_list|eassumption]
        | eapply (inner_re _ _ _ H); [in_list|eassumption]
        | assumption ].
Ltac parts := repeat match goal with |- _ /\ _ => split end.
Ltac conjs := repeat match goal with X : _ /\ _ |- _ => destruct X end.

Lemma order_one : forall k g, sorts k = Some g -> forall n a l l', regrouped g l l' ->
  forall f, ReadingSpec.reading reads k (mkElement n a l) f -> ReadingSpec.reading reads k (mkElement n a l') f.
Proof.
  intros k g Hk n a l l' H f R.
  destruct k; try discriminate Hk; cbn [sorts] in Hk; injection Hk as <-; cbn [ReadingSpec.reading] in R |- *;
    unfold suppl_appended, appended, toc_heading in R |- *; cbn [name attrs children get] in R |- *;
    unfold get in R |- *; cbn [attrs] in R |- *; conjs; parts; re_one H.
Qed.

Theorem order_free : forall k g, sorts k = Some g -> forall n a l l', regrouped g l l' ->
  forall v, parse k (mkElement n a l) = Ok v <-> parse k (mkElement n a l') = Ok v.
Proof.
  intros k g Hk n a l l' H v.
  assert (T : forall e, tagged k e) by (intros e; destruct k; try exact I; discriminate Hk).
  rewrite !parse_exact by apply T. split; apply (order_one k g Hk); [exact H|apply regrouped_sym, H].
Qed.

(** ** Articles *)
Lemma elements_split : forall h b l, elements l = h ++ b -> exists l1 l2, l = l1 ++ l2 /\ elements l1 = h /\ elements l2 = b.
Proof.
  intros h b l. revert h. induction l as [|[c|s|s] l IH]; intros h E; cbn in E.
  - symmetry in E. apply app_eq_nil in E as [-> ->]. exists [], []. repeat split.
  - destruct h as [|d h].
    + exists [], (NElement c :: l). repeat split. exact E.
    + injection E as <- E. destruct (IH h E) as (l1 & l2 & -> & A & B). exists (NElement c :: l1), l2. cbn. rewrite A. repeat split. exact B.
  - destruct (IH h E) as (l1 & l2 & -> & A & B). exists (NText s :: l1), l2. repeat split; assumption.
  - destruct (IH h E) as (l1 & l2 & -> & A & B). exists (NOther s :: l1), l2. repeat split; assumption.
Qed.
Lemma first_element : forall l, elements l <> [] -> exists u c r, l = u ++ NElement c :: r /\ elements u = [].
Proof.
  induction l as [|[c|s|s] l IH]; cbn; intros H; [congruence|..].
  - exists [], c, l. split; reflexivity.
  - destruct (IH H) as (u & c & r & -> & E). exists (NText s :: u), c, r. split; [reflexivity|exact E].
  - destruct (IH H) as (u & c & r & -> & E). exists (NOther s :: u), c, r. split; [reflexivity|exact E].
Qed.
Lemma tag_none : forall t l ts, known ts l -> ~ In t ts -> with_tag t l = [].
Proof.
  intros t l ts K N. rewrite known_in in K. unfold with_tag. induction (elements l) as [|c m IH]; [reflexivity|]. cbn.
  destruct (String.eqb_spec (name c) t) as [<-|_].
  - destruct N. apply K. left. reflexivity.
  - apply IH. intros d Hd. apply K. right. exact Hd.
Qed.
Lemma tag_app : forall t a b, with_tag t (a ++ b) = with_tag t a ++ with_tag t b.
Proof. intros t a b. unfold with_tag. rewrite elements_app. apply filter_app. Qed.

(** The rule of articles in terms of all children. *)
Lemma article_rule : forall e f, ReadingSpec.reading reads KArticle e f <->
  name e = "Article" /\ number (get e "Num") (art_num f) /\
  bool_attr (get e "Delete") (art_delete f) /\ bool_attr (get e "Hide") (art_hide f) /\
  head_first (children e) /\
  latest (caption_of reads) "ArticleCaption" (children e) (art_caption f) /\
  latest_or [] (text_of reads) "ArticleTitle" (children e) (art_title f) /\
  each (reads KParagraph) "Paragraph" (children e) (art_paragraph f) /\
  latest (text_of reads) "SupplNote" (children e) (art_suppl_note f).
Proof.
  intros e f. cbn [ReadingSpec.reading].
  assert (N : forall t (u v : string), t <> u -> t <> v -> ~ In t [u; v]) by (intros t u v A B [X|[X|[]]]; congruence).
  split.
  - intros (A & B & C & D & head & body & c & rest & E & Eb & Kh & Kb & F1 & F2 & F3 & F4).
    assert (W1 : forall t, t <> "Paragraph" -> t <> "SupplNote" -> with_tag t (children e) = with_tag t head).
    { intros t X Y. rewrite E, tag_app, (tag_none t body _ Kb (N _ _ _ X Y)), app_nil_r. reflexivity. }
    assert (W2 : forall t, t <> "ArticleCaption" -> t <> "ArticleTitle" -> with_tag t (children e) = with_tag t body).
    { intros t X Y. rewrite E, tag_app, (tag_none t head _ Kh (N _ _ _ X Y)). reflexivity. }
    parts; try assumption.
    + exists (elements head), (elements body). rewrite E, elements_app. split; [reflexivity|]. split; [rewrite Eb; discriminate|].
      split; apply known_in; assumption.
    + unfold latest, each in *. rewrite W1 by discriminate. exact F1.
    + unfold latest_or, each in *. rewrite W1 by discriminate. exact F2.
    + unfold each in *. rewrite W2 by discriminate. exact F3.
    + unfold latest, each in *. rewrite W2 by discriminate. exact F4.
  - intros (A & B & C & D & (h & b & E & Nb & Kh & Kb) & F1 & F2 & F3 & F4).
    destruct (elements_split h b _ E) as (l1 & l2 & El & E1 & E2).
    destruct (first_element l2 ltac:(rewrite E2; exact Nb)) as (u & c & r & -> & Eu).
    assert (K1 : known ["ArticleCaption"; "ArticleTitle"] (l1 ++ u)).
    { apply known_in. rewrite elements_app, Eu, app_nil_r, E1. exact Kh. }
    assert (K2 : known ["Paragraph"; "SupplNote"] (NElement c :: r)).
    { apply known_in. rewrite elements_app, Eu in E2. cbn [app] in E2. rewrite E2. exact Kb. }
    rewrite app_assoc in El.
    assert (W1 : forall t, t <> "Paragraph" -> t <> "SupplNote" -> with_tag t (children e) = with_tag t (l1 ++ u)).
    { intros t X Y. rewrite El, tag_app, (tag_none t _ _ K2 (N _ _ _ X Y)), app_nil_r. reflexivity. }
    assert (W2 : forall t, t <> "ArticleCaption" -> t <> "ArticleTitle" -> with_tag t (children e) = with_tag t (NElement c :: r)).
    { intros t X Y. rewrite El, tag_app, (tag_none t _ _ K1 (N _ _ _ X Y)). reflexivity. }
    repeat (apply conj; [assumption|]). exists (l1 ++ u), (NElement c :: r), c, r.
    parts; try assumption; try reflexivity.
    + unfold latest, each in *. rewrite <- W1 by discriminate. exact F1.
    + unfold latest_or, each in *. rewrite <- W1 by discriminate. exact F2.
    + unfold each in *. rewrite <- W2 by discriminate. exact F3.
    + unfold latest, each in *. rewrite <- W2 by discriminate. exact F4.
Qed.

Theorem article_order : forall n a l l', head_first l -> head_first l' -> regrouped article_sorts l l' ->
  forall v, parse KArticle (mkElement n a l) = Ok v <-> parse KArticle (mkElement n a l') = Ok v.
Proof.
  assert (G : forall n a l l', head_first l' -> regrouped article_sorts l l' -> forall f,
    ReadingSpec.reading reads KArticle (mkElement n a l) f -> ReadingSpec.reading reads KArticle (mkElement n a l') f).
  { intros n a l l' F' H f R. unfold article_sorts in H. apply article_rule in R. apply article_rule. cbn [name attrs children] in *. unfold get in *. cbn [attrs] in *.
    conjs. parts; re_one H. }
  intros n a l l' F F' H v. rewrite !parse_exact by exact I. split; apply G; auto using regrouped_sym.
Qed.

(** ** Repetition *)
Section Twice.
Variables (t : string) (pre mid post : list XMLNode) (c c' : Element).
Hypotheses (Hc : name c = t) (Hc' : name c' = t).
Let l := pre ++ NElement c :: mid ++ NElement c' :: post.
Let l1 := pre ++ mid ++ NElement c' :: post.
Let l2 := pre ++ NElement c :: mid ++ post.

Lemma in_all : forall d, In d (elements l) <-> In d (elements l1) \/ In d (elements l2).
Proof.
  intros d. unfold l, l1, l2. rewrite !elements_app. cbn [elements]. rewrite !elements_app. cbn [elements].
  repeat (rewrite in_app_iff; cbn [In]). tauto.
Qed.
Lemma known_twice : forall ts, known ts l <-> known ts l1 /\ known ts l2.
Proof.
  intros ts. rewrite !known_in. setoid_rewrite in_all. split; [intros H; split; auto|]. intros [A B] d [H|H]; auto.
Qed.
Lemma tag_cons : forall u d m, with_tag u (NElement d :: m) = if String.eqb (name d) u then d :: with_tag u m else with_tag u m.
Proof. reflexivity. Qed.
Lemma tag_other : forall u, u <> t -> with_tag u l1 = with_tag u l /\ with_tag u l2 = with_tag u l.
Proof.
  intros u Hu. unfold l, l1, l2. rewrite !tag_app, !tag_cons, !tag_app, !tag_cons, Hc, Hc'.
  destruct (String.eqb_spec t u); [congruence|]. split; reflexivity.
Qed.
Lemma tags_other : forall us, ~ In t us -> with_tags us l1 = with_tags us l /\ with_tags us l2 = with_tags us l.
Proof.
  intros us Hu. assert (E : existsb (String.eqb t) us = false).
  { destruct (existsb _ us) eqn:E; [|reflexivity]. apply existsb_exists in E as (x & Hx & E). apply String.eqb_eq in E. congruence. }
  unfold l, l1, l2, with_tags. rewrite !elements_app. cbn [elements]. rewrite !elements_app. cbn [elements].
  repeat (rewrite filter_app; cbn [filter]). rewrite Hc, Hc', E. split; reflexivity.
Qed.
Lemma tag_same : with_tag t l = with_tag t pre ++ c :: with_tag t mid ++ c' :: with_tag t post /\
  with_tag t l1 = with_tag t pre ++ with_tag t mid ++ c' :: with_tag t post /\
  with_tag t l2 = with_tag t pre ++ c :: with_tag t mid ++ with_tag t post.
Proof.
  unfold l, l1, l2. rewrite !tag_app, !tag_cons, !tag_app, !tag_cons, Hc, Hc', String.eqb_refl. repeat split.
Qed.
Lemma each_split : forall X (P : Element -> X -> Prop) xs, each P t l xs ->
  exists a x b y d, xs = a ++ x :: b ++ y :: d /\ each P t l1 (a ++ b ++ y :: d) /\ each P t l2 (a ++ x :: b ++ d).
Proof.
  intros X P xs E. destruct tag_same as (T & T1 & T2). unfold each in *. rewrite T in E. rewrite T1, T2.
  apply Forall2_app_inv_l in E as (a & r & A & E & ->). inversion E as [|? x ? r2 Hx E2]; subst.
  apply Forall2_app_inv_l in E2 as (b & r3 & B & E3 & ->). inversion E3 as [|? y ? d Hy D]; subst.
  exists a, x, b, y, d. split; [reflexivity|]. split; repeat (apply Forall2_app || apply Forall2_cons); assumption.
Qed.
Lemma each_join : forall X (P : Element -> X -> Prop) xs zs, each P t l1 xs -> each P t l2 zs ->
  exists a x b y d, xs = a ++ b ++ y :: d /\ each P t l (a ++ x :: b ++ y :: d).
Proof.
  intros X P xs zs E1 E2. destruct tag_same as (T & T1 & T2). unfold each in *. rewrite T1 in E1. rewrite T2 in E2. rewrite T.
  apply Forall2_app_inv_l in E1 as (a & r & A & E1 & ->). apply Forall2_app_inv_l in E1 as (b & r' & B & E1 & ->).
  inversion E1 as [|? y ? d Hy D]; subst.
  apply Forall2_app_inv_l in E2 as (a2 & r & A2 & E2 & ->). inversion E2 as [|? x ? r2 Hx E3]; subst.
  exists a, x, b, y, d. split; [reflexivity|]. repeat (apply Forall2_app || apply Forall2_cons); assumption.
Qed.
Lemma last_skip : forall X (a b : list X) x y d z, last (a ++ x :: b ++ y :: d) z = last (a ++ b ++ y :: d) z.
Proof.
  intros X a b x y d z. assert (G : forall p, last (p ++ y :: d) z = last (y :: d) z).
  { induction p as [|q p IH]; [reflexivity|]. cbn [app]. rewrite <- IH. destruct (p ++ y :: d) eqn:E; [|reflexivity].
    apply app_eq_nil in E as [_ E]. discriminate. }
  rewrite !app_assoc, !G. change (a ++ x :: b ++ y :: d) with (a ++ (x :: b) ++ y :: d). rewrite app_assoc, G. reflexivity.
Qed.
Lemma hd_skip : forall X (a b : list X) x y d, hd_error (rev (a ++ x :: b ++ y :: d)) = hd_error (rev (a ++ b ++ y :: d)).
Proof.
  intros X a b x y d. change (a ++ x :: b ++ y :: d) with (a ++ (x :: b) ++ y :: d). rewrite !app_assoc, !rev_app_distr.
  cbn [rev]. rewrite <- !app_assoc. destruct (rev d); reflexivity.
Qed.
Lemma hd_some : forall X (a : list X) x r, exists y, hd_error (rev (a ++ x :: r)) = Some y.
Proof.
  intros X a x r. rewrite rev_app_distr. cbn [rev]. rewrite <- app_assoc. destruct (rev r); cbn; eexists; reflexivity.
Qed.
Lemma latest_fwd : forall X (P : Element -> X -> Prop) o, latest P t l o -> latest P t l1 o /\ exists y, latest P t l2 (Some y).
Proof.
  intros X P o (xs & E & ->). apply each_split in E as (a & x & b & y & d & -> & E1 & E2). split.
  - exists (a ++ b ++ y :: d). split; [exact E1|apply hd_skip].
  - destruct (hd_some X a x (b ++ d)) as (z & Hz). exists z, (a ++ x :: b ++ d). auto.
Qed.
Lemma latest_bwd : forall X (P : Element -> X -> Prop) o o', latest P t l1 o -> latest P t l2 o' -> latest P t l o.
Proof.
  intros X P o o' (xs & E1 & ->) (zs & E2 & _). destruct (each_join X P xs zs E1 E2) as (a & x & b & y & d & -> & E).
  eexists. split; [exact E|]. symmetry. apply hd_skip.
Qed.
Lemma latest_or_fwd : forall X z (P : Element -> X -> Prop) v, latest_or z P t l v -> latest_or z P t l1 v /\ exists y, latest_or z P t l2 y.
Proof.
  intros X z P v (xs & E & ->). apply each_split in E as (a & x & b & y & d & -> & E1 & E2). split.
  - exists (a ++ b ++ y :: d). split; [exact E1|apply last_skip].
  - eexists. eexists. split; [exact E2|reflexivity].
Qed.
Lemma latest_or_bwd : forall X z (P : Element -> X -> Prop) v v', latest_or z P t l1 v -> latest_or z P t l2 v' -> latest_or z P t l v.
Proof.
  intros X z P v v' (xs & E1 & ->) (zs & E2 & _). destruct (each_join X P xs zs E1 E2) as (a & x & b & y & d & -> & E).
  eexists. split; [exact E|]. symmetry. apply last_skip.
Qed.
Lemma latest_else : forall X (P : Element -> X -> Prop) u o, u <> t ->
  (latest P u l o <-> latest P u l1 o) /\ (latest P u l o <-> latest P u l2 o).
Proof. intros X P u o Hu. unfold latest, each. destruct (tag_other u Hu) as [-> ->]. tauto. Qed.
Lemma latest_or_else : forall X z (P : Element -> X -> Prop) u o, u <> t ->
  (latest_or z P u l o <-> latest_or z P u l1 o) /\ (latest_or z P u l o <-> latest_or z P u l2 o).
Proof. intros X z P u o Hu. unfold latest_or, each. destruct (tag_other u Hu) as [-> ->]. tauto. Qed.
Lemma each_else : forall X (P : Element -> X -> Prop) u o, u <> t -> (each P u l o <-> each P u l1 o) /\ (each P u l o <-> each P u l2 o).
Proof. intros X P u o Hu. unfold each. destruct (tag_other u Hu) as [-> ->]. tauto. Qed.
Lemma group_else : forall X (P : Element -> X -> Prop) us o, ~ In t us ->
  (Forall2 P (with_tags us l) o <-> Forall2 P (with_tags us l1) o) /\ (Forall2 P (with_tags us l) o <-> Forall2 P (with_tags us l2) o).
Proof. intros X P us o Hu. destruct (tags_other us Hu) as [-> ->]. tauto. Qed.
Lemma inner_else : forall X (P : Element -> X -> Prop) f u o, u <> t ->
  (Forall2 P (flat_map f (with_tag u l)) o <-> Forall2 P (flat_map f (with_tag u l1)) o) /\
  (Forall2 P (flat_map f (with_tag u l)) o <-> Forall2 P (flat_map f (with_tag u l2)) o).
Proof. intros X P f u o Hu. destruct (tag_other u Hu) as [-> ->]. tauto. Qed.
Lemma texts_else : text_nodes l1 = text_nodes l /\ text_nodes l2 = text_nodes l.
Proof.
  assert (G : forall p q, text_nodes (p ++ q) = text_nodes p ++ text_nodes q).
  { induction p as [|[d|s|s] p IH]; intros q; cbn; rewrite ?IH; reflexivity. }
  unfold l, l1, l2. rewrite !G. cbn [text_nodes]. rewrite !G. cbn [text_nodes]. split; reflexivity.
Qed.
End Twice.

(** The remarks of a structure, in terms of its remarks and bodies alone. *)
Lemma filter_split : forall (f : Element -> bool) m x b y, filter f m = x ++ b :: y ->
  exists m1 m2, m = m1 ++ b :: m2 /\ filter f m1 = x /\ filter f m2 = y.
Proof.
  intros f m. induction m as [|d m IH]; intros x b y E; cbn in E; [destruct x; discriminate|].
  destruct (f d) eqn:Fd.
  - destruct x as [|e x]; injection E as <- E.
    + exists [], m. repeat split. exact E.
    + destruct (IH x b y E) as (m1 & m2 & -> & A & B). exists (d :: m1), m2. cbn. rewrite Fd, A. repeat split. exact B.
  - destruct (IH x b y E) as (m1 & m2 & -> & A & B). exists (d :: m1), m2. cbn. rewrite Fd, A. repeat split. exact B.
Qed.
Lemma filter_twice : forall (f g : Element -> bool) m, (forall d, f d = true -> g d = true) -> filter f (filter g m) = filter f m.
Proof.
  intros f g m H. induction m as [|d m IH]; [reflexivity|]. cbn. destruct (g d) eqn:G; cbn; rewrite IH; [reflexivity|].
  destruct (f d) eqn:E; [|reflexivity]. apply H in E. congruence.
Qed.
Definition around (bn : string) (P Q : list Element -> Prop) (l : list XMLNode) : Prop :=
  exists before b after, l = before ++ NElement b :: after /\ name b = bn /\ with_tag bn before = [] /\
    P (with_tag "Remarks" before) /\ Q (with_tag "Remarks" after).
Lemma around_tags : forall bn P Q l, around bn P Q l <->
  exists x b y, with_tags ["Remarks"; bn] l = x ++ b :: y /\ name b = bn /\ filter (fun c => String.eqb (name c) bn) x = [] /\
    P (filter (fun c => String.eqb (name c) "Remarks") x) /\ Q (filter (fun c => String.eqb (name c) "Remarks") y).
Proof.
  intros bn P Q l. set (g := fun c => existsb (String.eqb (name c)) ["Remarks"; bn]).
  assert (G1 : forall d, String.eqb (name d) bn = true -> g d = true).
  { intros d E. unfold g. cbn. rewrite E. rewrite orb_true_r. reflexivity. }
  assert (G2 : forall d, String.eqb (name d) "Remarks" = true -> g d = true).
  { intros d E. unfold g. cbn [existsb]. rewrite E. reflexivity. }
  unfold with_tags. fold g. split.
  - intros (before & b & after & -> & Hb & E & HP & HQ). exists (filter g (elements before)), b, (filter g (elements after)).
    rewrite elements_app. cbn [elements]. rewrite filter_app. cbn [filter].
    rewrite (G1 b) by (apply String.eqb_eq; exact Hb). rewrite !filter_twice by assumption. repeat split; assumption.
  - intros (x & b & y & E & Hb & Ex & HP & HQ). apply filter_split in E as (m1 & m2 & E & <- & <-).
    apply elements_split in E as (l1 & l2 & -> & <- & E2).
    destruct (first_element l2) as (u & d & r & -> & En); [rewrite E2; discriminate|].
    rewrite elements_app, En in E2. cbn in E2. injection E2 as -> E2.
    exists (l1 ++ u), b, r. rewrite !filter_twice in * by assumption. rewrite <- app_assoc. unfold with_tag.
    rewrite !elements_app, En, app_nil_r, E2. repeat split; assumption.
Qed.

(** The two parts of an article. *)
Lemma cut_left : forall (h b u : list Element) d r, h ++ b = u ++ d :: r -> ~ In d b -> exists r1, h = u ++ d :: r1 /\ r = r1 ++ b.
Proof.
  intros h. induction h as [|x h IH]; intros b u d r E N.
  - cbn in E. subst. destruct N. apply in_or_app. right. left. reflexivity.
  - destruct u as [|y u]; injection E as <- E.
    + exists h. split; [reflexivity|symmetry; exact E].
    + destruct (IH b u d r E N) as (r1 & -> & ->). exists r1. split; reflexivity.
Qed.
Lemma cut_right : forall (h b u : list Element) d r, h ++ b = u ++ d :: r -> ~ In d h -> exists q, u = h ++ q /\ b = q ++ d :: r.
Proof.
  intros h. induction h as [|x h IH]; intros b u d r E N.
  - exists u. split; [reflexivity|exact E].
  - destruct u as [|y u]; injection E as <- E.
    + destruct N. left. reflexivity.
    + destruct (IH b u d r E) as (q & -> & ->); [intros X; apply N; right; exact X|]. exists q. split; reflexivity.
Qed.
Lemma head_twice : forall t pre mid post c c', name c = t -> name c' = t -> In t ["ArticleCaption"; "ArticleTitle"; "SupplNote"] ->
  head_first (pre ++ NElement c :: mid ++ NElement c' :: post) <->
  head_first (pre ++ mid ++ NElement c' :: post) /\ head_first (pre ++ NElement c :: mid ++ post).
Proof.
  intros t pre mid post c c' Hc Hc' Ht. unfold head_first.
  replace (elements (pre ++ NElement c :: mid ++ NElement c' :: post)) with (elements pre ++ c :: elements mid ++ c' :: elements post)
    by (rewrite elements_app; cbn [elements]; rewrite elements_app; reflexivity).
  replace (elements (pre ++ mid ++ NElement c' :: post)) with (elements pre ++ elements mid ++ c' :: elements post)
    by (rewrite !elements_app; reflexivity).
  replace (elements (pre ++ NElement c :: mid ++ post)) with (elements pre ++ c :: elements mid ++ elements post)
    by (rewrite elements_app; cbn [elements]; rewrite elements_app; reflexivity).
  generalize (elements pre) (elements mid) (elements post). clear pre mid post. intros p m q.
  assert (T : In t ["ArticleCaption"; "ArticleTitle"] \/ t = "SupplNote").
  { cbn in Ht |- *. intuition congruence. }
  destruct T as [T|T].
  - assert (N : forall d b, name d = t -> (forall x, In x b -> In (name x) ["Paragraph"; "SupplNote"]) -> ~ In d b).
    { intros d b Hd Kb Hin. specialize (Kb d Hin). rewrite Hd in Kb. destruct T as [<-|[<-|[]]]; destruct Kb as [X|[X|[]]]; discriminate X. }
    split.
    + intros (h & b & E & Nb & Kh & Kb). change (p ++ c :: m ++ c' :: q) with (p ++ (c :: m) ++ c' :: q) in E. rewrite app_assoc in E.
      symmetry in E. destruct (cut_left h b _ _ _ E (N c' b Hc' Kb)) as (r1 & -> & ->). split.
      * exists (p ++ m ++ c' :: r1), b. split; [rewrite <- !app_assoc; reflexivity|]. split; [exact Nb|]. split; [|exact Kb].
        intros x Hx. apply Kh. rewrite !in_app_iff in *. cbn in *. tauto.
      * exists (p ++ c :: m ++ r1), b. split; [rewrite <- !app_assoc; cbn; rewrite <- !app_assoc; reflexivity|]. split; [exact Nb|]. split; [|exact Kb].
        intros x Hx. apply Kh. rewrite !in_app_iff in *. cbn in *. rewrite in_app_iff in Hx. tauto.
    + intros [(h & b & E & Nb & Kh & Kb) _]. rewrite app_assoc in E. symmetry in E.
      destruct (cut_left h b _ _ _ E (N c' b Hc' Kb)) as (r1 & -> & ->).
      exists (p ++ c :: m ++ c' :: r1), b. split; [rewrite <- !app_assoc; cbn; rewrite <- !app_assoc; reflexivity|]. split; [exact Nb|]. split; [|exact Kb].
      intros x Hx. rewrite in_app_iff in Hx. cbn in Hx. rewrite in_app_iff in Hx. cbn in Hx.
      assert (X : c = x \/ In x ((p ++ m) ++ c' :: r1)) by (rewrite !in_app_iff; cbn; tauto). destruct X as [<-|X]; [|apply Kh, X].
      rewrite Hc. exact T.
  - assert (N : forall d b, name d = t -> (forall x, In x b -> In (name x) ["ArticleCaption"; "ArticleTitle"]) -> ~ In d b).
    { intros d b Hd Kb Hin. specialize (Kb d Hin). rewrite Hd, T in Kb. destruct Kb as [X|[X|[]]]; discriminate X. }
    split.
    + intros (h & b & E & Nb & Kh & Kb). symmetry in E. destruct (cut_right h b _ _ _ E (N c h Hc Kh)) as (r & -> & ->). split.
      * exists h, (r ++ m ++ c' :: q). split; [rewrite <- !app_assoc; reflexivity|]. split; [destruct r, m; discriminate|]. split; [exact Kh|].
        intros x Hx. apply Kb. rewrite in_app_iff in *. cbn. rewrite in_app_iff in *. tauto.
      * exists h, (r ++ c :: m ++ q). split; [rewrite <- !app_assoc; reflexivity|]. split; [destruct r; discriminate|]. split; [exact Kh|].
        intros x Hx. apply Kb. rewrite in_app_iff in *. cbn in *. rewrite in_app_iff in *. cbn. tauto.
    + intros [_ (h & b & E & Nb & Kh & Kb)]. symmetry in E. destruct (cut_right h b _ _ _ E (N c h Hc Kh)) as (r & -> & ->).
      exists h, (r ++ c :: m ++ c' :: q). split; [rewrite <- !app_assoc; reflexivity|]. split; [destruct r; discriminate|]. split; [exact Kh|].
      intros x Hx. rewrite in_app_iff in Hx. cbn in Hx. rewrite in_app_iff in Hx. cbn in Hx.
      assert (X : c' = x \/ In x (r ++ c :: m ++ q)) by (rewrite in_app_iff; cbn; rewrite in_app_iff; tauto). destruct X as [<-|X]; [|apply Kb, X].
      rewrite Hc', T. right. left. reflexivity.
Qed.
