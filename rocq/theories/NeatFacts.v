(** What is read of a neat document is tidy. *)
From Coq Require Import String Ascii List Arith NArith Bool Lia.
From Verif Require Import Base NumStr NumStrSpec BaseFacts Xml Ast XmlWrite XmlParse XmlSpec XmlSim KnotFacts GrammarSpec ReadSpec
  RoundTripSpec PlainSpec ReadingSpec ReadingExact KeptFacts TidySpec TidyFacts NeatSpec Api ApiSpec ApiFacts RoundTripFacts.
Import ListNotations.
Open Scope string_scope.
Open Scope list_scope.

Import ReadingSpec.

(** ** Joining what is apart *)
Section Join.
Context {X : Type} (ti : X -> option string) (ap : string -> X).
Fixpoint apart_x (l : list X) : bool :=
  match l with
  | [] => true
  | x :: r =>
      match ti x, r with
      | Some s, y :: _ => match ti y with Some _ => false | None => negb (blank s) && apart_x r end
      | Some s, [] => negb (blank s)
      | None, _ => apart_x r
      end
  end.
Hypothesis Hap : forall x s, ti x = Some s -> x = ap s.
Lemma join_apart : forall l, apart_x l = true -> join ti ap l = l.
Proof.
  unfold join. intros l. 
  assert (F : forall s, blank s = false -> flush ap s = [ap s]) by (intros s E; unfold flush; rewrite E; reflexivity).
  induction l as [|x l IH]; intros H; [reflexivity|]. cbn [join_from]. destruct (ti x) as [s|] eqn:Ex.
  - cbn [append]. rewrite (Hap x s Ex). cbn [apart_x] in H. rewrite Ex in H. destruct l as [|y l].
    + apply negb_true_iff in H. cbn [join_from]. apply F, H.
    + destruct (ti y) as [u|] eqn:Ey; [discriminate|]. apply andb_true_iff in H as [Hs H]. apply negb_true_iff in Hs.
      specialize (IH H). cbn [join_from] in IH |- *. rewrite Ey in IH |- *. rewrite F by exact Hs. cbn [app]. f_equal. exact IH.
  - cbn [apart_x] in H. rewrite Ex in H. rewrite IH by exact H. reflexivity.
Qed.

(** A list read node by node. *)
Definition heads_text (l : list XMLNode) : bool := match l with NText _ :: _ => true | _ => false end.
Lemma apart_cons : forall s l, apart (NText s :: l) = negb (heads_text l) && apart l.
Proof. intros s [|[] l]; reflexivity. Qed.
Lemma apart_nodes : forall P l (xs : list X), Forall2 P l xs ->
  (forall n x, In n l -> P n x -> match n with NText s => ti x = Some s | _ => ti x = None end) ->
  (forall s, In (NText s) l -> blank s = false) -> apart l = true -> apart_x xs = true.
Proof.
  intros P l xs F Ht Hb. induction F as [|n x l xs Hn F IH]; intros Ha; [reflexivity|].
  assert (Ha' : apart l = true) by (destruct n as [d|s|s]; [exact Ha| |exact Ha]; rewrite apart_cons in Ha; apply andb_true_iff in Ha as [_ Ha]; exact Ha).
  specialize (IH (fun n x Hi => Ht n x (or_intror Hi)) (fun s Hi => Hb s (or_intror Hi)) Ha').
  pose proof (Ht n x (or_introl eq_refl) Hn) as Tx. cbn [apart_x]. destruct n as [d|s|s]; rewrite Tx; [exact IH| |exact IH].
  assert (Bs : blank s = false) by (apply Hb; left; reflexivity). rewrite Bs. destruct F as [|m y l xs Hm F]; [reflexivity|].
  pose proof (Ht m y (or_intror (or_introl eq_refl)) Hm) as Ty. destruct m; rewrite Ty; [exact IH|discriminate Ha|exact IH].
Qed.
End Join.

(** ** Neat documents *)
Notation nd := neat_document.
Definition ndl (l : list XMLNode) : Prop := forall c, In (NElement c) l -> nd c.
Lemma nd_child : forall e, nd e -> ndl (children e).
Proof. intros e H c Hc d Hd. apply H. eapply inside_below; eassumption. Qed.
Lemma nd_here : forall e, nd e -> neat_element e.
Proof. intros e H. apply (H e (inside_here e)). Qed.
Lemma ndl_app : forall a b, ndl (a ++ b) -> ndl a /\ ndl b.
Proof. intros a b H. split; intros c Hc; apply H, in_app_iff; auto. Qed.
Lemma ndl_cons : forall x l, ndl (x :: l) -> ndl l.
Proof. intros x l H c Hc. apply H. right. exact Hc. Qed.

Lemma strip_text : forall s, blank s = false -> strip s = s.
Proof. intros s H. unfold strip. rewrite H. reflexivity. Qed.
Lemma leading_fix : forall c s, nd c -> structural (name c) = false -> leading_text c s -> strip s = s.
Proof.
  intros c s H Hs [(r & E)|[-> _]]; [|reflexivity]. apply nd_here in H. destruct (H Hs) as [Hb _]. apply strip_text, Hb. rewrite E. left. reflexivity.
Qed.
Lemma blank_app : forall a b, blank (a ++ b) = blank a && blank b.
Proof. induction a as [|c a IH]; intros b; cbn [append blank]; [reflexivity|]. rewrite IH, andb_assoc. reflexivity. Qed.
Lemma own_fix : forall c, nd c -> structural (name c) = false -> strip (own_text c) = own_text c.
Proof.
  intros c H Hs. apply nd_here in H. destruct (H Hs) as [Hb _]. unfold own_text.
  assert (B : forall s, In s (text_nodes (children c)) -> blank s = false).
  { intros s Hi. apply Hb. revert Hi. generalize (children c). induction l as [|[d|u|u] l IH]; cbn; auto. intros [-> | Hi]; auto. }
  destruct (text_nodes (children c)) as [|s l] eqn:E; [reflexivity|]. apply strip_text.
  assert (Bs : blank s = false) by (apply B; left; reflexivity). destruct l as [|u l]; [exact Bs|].
  change (String.concat "" (s :: u :: l)) with (s ++ "" ++ String.concat "" (u :: l))%string. rewrite blank_app, Bs. reflexivity.
Qed.

Section Fix.
Context (G : forall k : kind, Element -> Knot k -> Prop) (t : forall k, Knot k -> Knot k).
Hypothesis HG : forall k c v, nd c -> tagged k c -> G k c v -> t k v = v.

Lemma all_fix : forall X (P : Element -> X -> Prop) (g : X -> X) l xs,
  (forall c x, In c l -> P c x -> g x = x) -> Forall2 P l xs -> map g xs = xs.
Proof.
  intros X P g l xs H F. induction F as [|c x l xs Hc F IH]; [reflexivity|]. cbn. f_equal; [eapply H; [left; reflexivity|exact Hc]|].
  apply IH. intros d y Hd. apply H. right. exact Hd.
Qed.
Lemma each_fix : forall X (P : Element -> X -> Prop) (g : X -> X) tag l xs, ndl l ->
  (forall c x, nd c -> name c = tag -> P c x -> g x = x) -> each P tag l xs -> map g xs = xs.
Proof.
  intros X P g tag l xs Hl H. apply all_fix. intros c x Hc. apply filter_In in Hc as [Hc E].
  apply elements_in in Hc. apply String.eqb_eq in E. apply (H c x); [apply Hl, Hc|exact E].
Qed.
Lemma latest_fix : forall X (P : Element -> X -> Prop) (g : X -> X) tag l o, ndl l ->
  (forall c x, nd c -> name c = tag -> P c x -> g x = x) -> latest P tag l o -> option_map g o = o.
Proof.
  intros X P g tag l o Hl H (xs & F & ->). pose proof (each_fix _ P g tag l xs Hl H F) as E. rewrite <- E at 2. rewrite <- map_rev.
  destruct (rev xs); reflexivity.
Qed.
Lemma latest_some : forall X (P : Element -> X -> Prop) (g : X -> X) tag l x, ndl l ->
  (forall c x, nd c -> name c = tag -> P c x -> g x = x) -> latest P tag l (Some x) -> g x = x.
Proof. intros X P g tag l x Hl H L. pose proof (latest_fix _ P g tag l _ Hl H L) as E. injection E as E. exact E. Qed.
Lemma latest_or_fix : forall X d (P : Element -> X -> Prop) (g : X -> X) tag l x, ndl l -> g d = d ->
  (forall c x, nd c -> name c = tag -> P c x -> g x = x) -> latest_or d P tag l x -> g x = x.
Proof.
  intros X d P g tag l x Hl Hd H (xs & F & ->). pose proof (each_fix _ P g tag l xs Hl H F) as E. clear F.
  induction xs as [|y xs IH]; [exact Hd|]. cbn [map] in E. injection E as E1 E2. destruct xs; [exact E1|exact (IH E2)].
Qed.
Lemma tags_fix : forall X (P : Element -> X -> Prop) (g : X -> X) ts l xs, ndl l ->
  (forall c x, nd c -> P c x -> g x = x) -> Forall2 P (with_tags ts l) xs -> map g xs = xs.
Proof.
  intros X P g ts l xs Hl H. apply all_fix. intros c x Hc. apply filter_In in Hc as [Hc _]. apply elements_in in Hc. apply (H c x), Hl, Hc.
Qed.
Lemma elements_fix : forall X (P : Element -> X -> Prop) (g : X -> X) l xs, ndl l ->
  (forall c x, nd c -> P c x -> g x = x) -> Forall2 P (elements l) xs -> map g xs = xs.
Proof. intros X P g l xs Hl H. apply all_fix. intros c x Hc. apply elements_in in Hc. apply (H c x), Hl, Hc. Qed.
Lemma inner_fix : forall X (P : Element -> X -> Prop) (g : X -> X) tag l xs, ndl l ->
  (forall c x, nd c -> P c x -> g x = x) ->
  Forall2 P (flat_map (fun c => elements (children c)) (with_tag tag l)) xs -> map g xs = xs.
Proof.
  intros X P g tag l xs Hl H. apply all_fix. intros c x Hc. apply in_flat_map in Hc as (d & Hd & Hc).
  apply filter_In in Hd as [Hd _]. apply elements_in in Hd. apply elements_in in Hc.
  apply H. exact (nd_child d (Hl d Hd) c Hc).
Qed.

(** ** Text *)
Definition texty (n : string) : bool := negb (structural n) && negb (String.eqb n "Ruby") && negb (existsb (String.eqb n) mixed_tags).
Lemma ruby_not_refused : forall c, name c = "Ruby" -> ~ refused KRuby c.
Proof.
  intros c E (er & H). rewrite parse_unfold in H. cbn [pstep] in H. unfold parse_ruby, with_name in H. rewrite E in H. rewrite String.eqb_refl in H.
  assert (Q : forall l st, exists st', run (fun s => at0 (fun t => app t [@TE_Text Knot s])) skip [("Rt", h_put at1 (fun c => Ok (nodes_text (children c))))] l st = @Ok (Text Knot * (string * unit)) st').
  { induction l as [|[d|s|s] l IH]; intros [a [b u]].
    - eexists. reflexivity.
    - cbn. unfold lookup. cbn. destruct (String.eqb (name d) "Rt"); cbn; apply IH.
    - cbn. apply IH.
    - cbn. apply IH. }
  destruct (Q (children c) ([], ("", tt))) as ((a & b & u) & Es). rewrite Es in H. discriminate. exact I.
Qed.

Lemma inline_fix : forall c x, nd c -> inline_reads G c x -> t_te t x = x /\ te_in x = None.
Proof.
  intros c x Hc H. destruct x; cbn in H |- *; [| | | |contradiction]; destruct H as [E H]; (split; [f_equal|reflexivity]).
  - apply (HG KRuby c); [exact Hc|exact I|exact H].
  - apply (HG KLine c); [exact Hc|exact I|exact H].
  - apply (leading_fix c); [exact Hc|rewrite E; reflexivity|exact H].
  - apply (leading_fix c); [exact Hc|rewrite E; reflexivity|exact H].
Qed.
Lemma te_ap : forall x s, te_in x = Some s -> x = @TE_Text Knot s.
Proof. intros x s E. destruct x; try discriminate. injection E as ->. reflexivity. Qed.

Lemma text_reads_fix : forall n l x, texty n = true -> ndl l -> (forall c, In (NElement c) l -> name c = "Line" -> ~ refused KLine c) ->
  (forall s, In (NText s) l -> blank s = false) -> apart (filter (counts n) l) = true ->
  text_reads G l x -> map (t_te t) x = x /\ apart_x te_in x = true.
Proof.
  intros n l x Hn Hl Hr Hb Ha H.
  assert (HH : (forall y r, x = y :: r -> te_in y <> None -> heads_text (filter (counts n) l) = true) /\ map (t_te t) x = x /\ apart_x te_in x = true); [|tauto].
  unfold texty in Hn. rewrite !andb_true_iff, !negb_true_iff in Hn. destruct Hn as [[Hs Hn] Hm].
  induction H as [|s l x H IH|s l x H IH|c y l x Hi H IH|c l x Hf H IH|c l x E Hc H IH|c l x E Hc H IH].
  - repeat split. intros; discriminate.
  - cbn [filter counts] in *. rewrite apart_cons in Ha. apply andb_true_iff in Ha as [Ha1 Ha2]. apply negb_true_iff in Ha1.
    destruct IH as (I1 & I2 & I3); [eapply ndl_cons, Hl|intros; apply Hr; [right|]; assumption|intros; apply Hb; right; assumption|exact Ha2|].
    split; [|split].
    + reflexivity.
    + cbn [map t_te]. f_equal. exact I2.
    + cbn [apart_x te_in]. assert (Bs : blank s = false) by (apply Hb; left; reflexivity). rewrite Bs. destruct x as [|y x]; [reflexivity|].
      destruct (te_in y) eqn:Ey; [|exact I3]. rewrite (I1 y x eq_refl) in Ha1; [discriminate|congruence].
  - cbn [filter counts] in *. apply IH; [eapply ndl_cons, Hl|intros; apply Hr; [right|]; assumption|intros; apply Hb; right; assumption|exact Ha].
  - assert (Hd : counts n (NElement c) = true).
    { cbn [counts]. rewrite Hn, Hm. cbn [negb andb orb]. destruct y; cbn in Hi; try contradiction; destruct Hi as [E _]; rewrite E; reflexivity. }
    cbn [filter] in *. rewrite Hd in *. destruct IH as (I1 & I2 & I3); [eapply ndl_cons, Hl|intros; apply Hr; [right|]; assumption|intros; apply Hb; right; assumption|exact Ha|].
    destruct (inline_fix c y) as [F1 F2]; [apply Hl; left; reflexivity|exact Hi|]. split; [|split].
    + intros y' r E. injection E as <- <-. congruence.
    + cbn [map]. rewrite F1, I2. reflexivity.
    + cbn [apart_x]. rewrite F2. exact I3.
  - assert (Hd : counts n (NElement c) = false).
    { cbn [counts]. rewrite Hn, Hm. cbn [negb andb orb]. destruct (existsb (String.eqb (name c)) inline_tags) eqn:E; [|reflexivity].
      apply existsb_exists in E as (u & Hu & E). apply String.eqb_eq in E. destruct Hf. rewrite E. exact Hu. }
    cbn [filter] in *. rewrite Hd in *.
    apply IH; [eapply ndl_cons, Hl|intros; apply Hr; [right|]; assumption|intros; apply Hb; right; assumption|exact Ha].
  - destruct (ruby_not_refused c E Hc).
  - destruct (Hr c (or_introl eq_refl) E Hc).
Qed.

Lemma nd_lines : forall e, nd e -> forall c, In (NElement c) (children e) -> name c = "Line" -> ~ refused KLine c.
Proof. intros e H c Hc. apply (H c). eapply inside_below; [exact Hc|apply inside_here]. Qed.
Lemma texts_fix : forall c x, nd c -> texty (name c) = true -> text_reads G (children c) x -> t_text t x = x.
Proof.
  intros c x Hc Hn H. assert (Hs : structural (name c) = false) by (unfold texty in Hn; rewrite !andb_true_iff, !negb_true_iff in Hn; tauto).
  destruct (nd_here c Hc Hs) as [Hb Ha]. destruct (text_reads_fix (name c) (children c) x Hn (nd_child c Hc) (nd_lines c Hc) Hb Ha H) as [E1 E2].
  unfold t_text. rewrite E1. apply join_apart; [exact te_ap|exact E2].
Qed.
Lemma text_of_fix : forall c x, nd c -> texty (name c) = true -> text_of G c x -> t_text t x = x.
Proof. exact texts_fix. Qed.
Lemma moded_fix : forall c x, nd c -> texty (name c) = true -> moded_text_of G c x -> t_twm t x = x.
Proof. intros c [x m] Hc Hn [H _]. unfold t_twm. cbn in H |- *. f_equal. apply (texts_fix c); assumption. Qed.
Lemma caption_fix : forall c x, nd c -> texty (name c) = true -> caption_of G c x -> t_caption t x = x.
Proof. intros c [x m] Hc Hn [H _]. unfold t_caption. cbn in H |- *. f_equal. apply (texts_fix c); assumption. Qed.

(** ** Mixed content *)
Lemma filter_counts : forall n l, existsb (String.eqb n) mixed_tags = true -> String.eqb n "Ruby" = false -> filter (counts n) l = filter not_other l.
Proof.
  intros n l H1 H2. apply filter_ext. intros [d|s|s]; cbn [counts not_other]; [|reflexivity|reflexivity]. rewrite H1, H2. reflexivity.
Qed.
Lemma mixed_fix : forall X (P : XMLNode -> X -> Prop) ti ap tx e xs, nd e -> existsb (String.eqb (name e)) mixed_tags = true ->
  (forall x s, ti x = Some s -> x = ap s) ->
  (forall s x, P (NText s) x -> ti x = Some s /\ tx x = x) ->
  (forall c x, nd c -> P (NElement c) x -> ti x = None /\ tx x = x) ->
  mixed P (children e) xs -> join ti ap (map tx xs) = xs.
Proof.
  intros X P ti ap tx e xs He Hm Hap H1 H2 H.
  assert (Hs : structural (name e) = false /\ String.eqb (name e) "Ruby" = false).
  { apply existsb_exists in Hm as (u & Hu & E). apply String.eqb_eq in E. rewrite E. repeat (destruct Hu as [<- | Hu]; [split; reflexivity|]). destruct Hu. }
  destruct Hs as [Hs Hr]. destruct (nd_here e He Hs) as [Hb Ha]. rewrite (filter_counts _ _ Hm Hr) in Ha. unfold mixed in H.
  assert (Nd : forall n x, In n (filter not_other (children e)) -> P n x -> match n with NText s => ti x = Some s | _ => ti x = None end /\ tx x = x).
  { intros n x Hn Hp. apply filter_In in Hn as [Hn Ho]. destruct n as [c|s|s]; [|apply H1, Hp|discriminate]. apply (H2 c); [apply (nd_child e He), Hn|exact Hp]. }
  assert (E : map tx xs = xs).
  { revert Nd. clear -H. induction H as [|n x l xs Hn F IH]; intros Nd; [reflexivity|]. cbn. f_equal; [apply (Nd n x (or_introl eq_refl) Hn)|].
    apply IH. intros m y Hm. apply Nd. right. exact Hm. }
  rewrite E. apply join_apart; [exact Hap|]. eapply apart_nodes; [exact H| | |exact Ha].
  - intros n x Hn Hp. apply (Nd n x Hn Hp).
  - intros s Hi. apply filter_In in Hi as [Hi _]. apply Hb, Hi.
Qed.
Lemma formula_fix : forall c x, nd c -> name c = "ArithFormula" -> formula_reads G c x -> t_arith t x = x.
Proof. intros c [n v] Hc E [_ H]. unfold t_arith. cbn in *. f_equal. apply (HG (KCont CArith) c); [exact Hc|exact E|exact H]. Qed.

Ltac given := match goal with H : G ?k ?c ?v |- t ?k ?v = ?v => apply (HG k c v); [assumption|first [exact I|assumption]|exact H] end.
Ltac node := let x := fresh "x" in let H := fresh "H" in
  match goal with |- forall s x, _ -> _ => intros s x H | |- _ => idtac end;
  destruct x; cbn in H |- *; try contradiction; try (subst; split; reflexivity).
Lemma line_fix : forall e xs, nd e -> name e = "Line" -> mixed (line_node G) (children e) xs -> join lc_in (@LC_String Knot) (map (t_lc t) xs) = xs.
Proof.
  intros e xs He E H. eapply mixed_fix; [exact He|rewrite E; reflexivity| | | |exact H].
  - intros x u Es. destruct x; try discriminate. injection Es as ->. reflexivity.
  - intros u x Hp. destruct x; cbn in Hp |- *; try contradiction. subst. split; reflexivity.
  - intros c x Hc Hp. destruct x; cbn in Hp |- *; try contradiction; destruct Hp as [En Hp]; (split; [reflexivity|]); f_equal;
      first [given | apply (formula_fix c); assumption | apply (leading_fix c); [assumption|rewrite En; reflexivity|exact Hp]].
Qed.
Lemma sentence_fix : forall e xs, nd e -> name e = "Sentence" -> mixed (sentence_node G) (children e) xs -> join se_in (@SE_String Knot) (map (t_se t) xs) = xs.
Proof.
  intros e xs He E H. eapply mixed_fix; [exact He|rewrite E; reflexivity| | | |exact H].
  - intros x u Es. destruct x; try discriminate. injection Es as ->. reflexivity.
  - intros u x Hp. destruct x; cbn in Hp |- *; try contradiction. subst. split; reflexivity.
  - intros c x Hc Hp. destruct x; cbn in Hp |- *; try contradiction; destruct Hp as [En Hp]; (split; [reflexivity|]); f_equal;
      first [given | apply (formula_fix c); assumption | apply (leading_fix c); [assumption|rewrite En; reflexivity|exact Hp]].
Qed.
Lemma cell_fix : forall e xs, nd e -> name e = "TableColumn" -> mixed (cell_node G) (children e) xs -> join tc_in (@TC_String Knot) (map (t_tc t) xs) = xs.
Proof.
  intros e xs He E H. eapply mixed_fix; [exact He|rewrite E; reflexivity| | | |exact H].
  - intros x u Es. destruct x; try discriminate. injection Es as ->. reflexivity.
  - intros u x Hp. destruct x; cbn in Hp |- *; try contradiction. subst. split; reflexivity.
  - intros c x Hc Hp. destruct x; cbn in Hp |- *; try contradiction; destruct Hp as [En Hp]; (split; [reflexivity|]); f_equal; given.
Qed.
Lemma contents_fix : forall c e xs, nd e -> tagged (KCont c) e -> mixed (contents_node G) (children e) xs -> join ce_in (@CE_String Knot) (map (t_ce t) xs) = xs.
Proof.
  intros cn e xs He E H. eapply mixed_fix; [exact He|destruct cn; cbn in E; rewrite E; reflexivity| | | |exact H].
  - intros x u Es. destruct x; try discriminate. injection Es as ->. reflexivity.
  - intros u x Hp. destruct x; cbn in Hp |- *; try contradiction. subst. split; reflexivity.
  - intros c x Hc Hp. destruct x; cbn in Hp |- *; try contradiction; destruct Hp as [En Hp]; (split; [reflexivity|]); f_equal;
      first [given | apply (formula_fix c); assumption | apply (leading_fix c); [assumption|rewrite En; reflexivity|exact Hp]].
Qed.

Local Arguments t_text : simpl never.
(** ** Choices *)
Lemma item_texty : forall l, texty (level_tag l ++ "Title") = true.
Proof. intros []; reflexivity. Qed.
Lemma sub_item_tagged : forall l c, tagged (sub_item l) c.
Proof. intros []; exact (fun _ => I). Qed.
Lemma sub_list_tagged : forall l c, tagged (sub_list l) c.
Proof. intros []; exact (fun _ => I). Qed.

Ltac choice := let c := fresh "c" in let x := fresh "x" in let Hc := fresh "Hc" in let H := fresh "H" in let E := fresh "E" in
  intros c x Hc H; destruct x; try (match goal with k : sname |- _ => destruct k end); cbn in H |- *; destruct H as [E H]; f_equal;
  first [given | apply (texts_fix c); [exact Hc|rewrite E; reflexivity|exact H]].
Lemma struct_fix : forall c x, nd c -> struct_reads G c x -> t_any_struct t x = x. Proof. choice. Qed.
Lemma list_sentence_fix : forall c x, nd c -> list_sentence_reads G c x -> t_ls t x = x. Proof. choice. Qed.
Lemma remarks_fix : forall c x, nd c -> remarks_reads G c x -> t_rc t x = x. Proof. choice. Qed.
Lemma appdx_table_fix : forall c x, nd c -> appdx_table_reads G c x -> t_at t x = x. Proof. choice. Qed.
Lemma appdx_note_fix : forall c x, nd c -> appdx_note_reads G c x -> t_an t x = x. Proof. choice. Qed.
Lemma appdx_fig_fix : forall c x, nd c -> appdx_fig_reads G c x -> t_af t x = x. Proof. choice. Qed.
Lemma toc_section_fix : forall c x, nd c -> toc_section_reads G c x -> t_tsc t x = x. Proof. choice. Qed.
Lemma toc_suppl_fix : forall c x, nd c -> toc_suppl_reads G c x -> t_tsp t x = x. Proof. choice. Qed.
Lemma toc_main_fix : forall c x, nd c -> toc_main_reads G c x -> t_tm t x = x. Proof. choice. Qed.
Lemma new_provision_fix : forall c x, nd c -> new_provision_reads G c x -> t_np t x = x. Proof. choice. Qed.
Lemma part_fix : forall c x, nd c -> part_reads G c x -> t_pc t x = x. Proof. choice. Qed.
Lemma chapter_fix : forall c x, nd c -> chapter_reads G c x -> t_chc t x = x. Proof. choice. Qed.
Lemma section_fix : forall c x, nd c -> section_reads G c x -> t_sec t x = x. Proof. choice. Qed.
Lemma subsection_fix : forall c x, nd c -> subsection_reads G c x -> t_suc t x = x. Proof. choice. Qed.
Lemma division_fix : forall c x, nd c -> division_reads G c x -> t KArticle x = x. Proof. intros c x Hc [E H]. given. Qed.
Lemma main_fix : forall c x, nd c -> main_reads G c x -> t_mc t x = x. Proof. choice. Qed.
Lemma suppl_fix : forall c x, nd c -> suppl_reads G c x -> t_sp t x = x. Proof. choice. Qed.

(** ** Parts *)
Ltac givens := let c := fresh "c" in let x := fresh "x" in let Hc := fresh "Hc" in let E := fresh "E" in let Hx := fresh "Hx" in
  first [intros c x Hc E Hx; given | intros c x Hc Hx; given].
Lemma sct_fix : forall c x, nd c -> sct_reads G c x -> t_sct t x = x.
Proof.
  intros c x Hc (_ & ss & cs & b & H1 & H2 & H3 & H). pose proof (nd_child c Hc) as Hl.
  destruct x as [l|l|v]; cbn; f_equal.
  - destruct H as (_ & -> & _). eapply each_fix; [exact Hl| |exact H1]. givens.
  - destruct H as (-> & _). eapply each_fix; [exact Hl| |exact H2]. givens.
  - destruct H as (_ & _ & ->). eapply latest_some; [exact Hl| |exact H3]. givens.
Qed.
Lemma header_row_fix : forall c x, nd c -> header_row_reads G c x -> map (t_text t) x = x.
Proof.
  intros c x Hc (_ & H). eapply each_fix; [exact (nd_child c Hc)| |exact H].
  intros d y Hd E. apply texts_fix; [exact Hd|rewrite E; reflexivity].
Qed.
Lemma label_fix : forall c x, nd c -> remarks_label_reads G c x -> mkRemarksLabel (t_text t (rl_text x)) (rl_line_break x) = x.
Proof.
  intros c [x b] Hc (E & _ & H). cbn in *. f_equal. apply (texts_fix c); [exact Hc|rewrite E; reflexivity|exact H].
Qed.
Lemma readable_fix : forall l rs, (forall c, In c l -> nd c) -> readable G l rs -> map (t KRemarks) rs = rs.
Proof.
  intros l rs Hl H. induction H as [|c r l rs Hr H IH|c l rs Hr H IH]; [reflexivity| |].
  - cbn. rewrite IH by (intros d Hd; apply Hl; right; exact Hd). f_equal. apply (HG KRemarks c); [apply Hl; left; reflexivity|exact I|exact Hr].
  - apply IH. intros d Hd. apply Hl. right. exact Hd.
Qed.
Lemma amend_sentence_fix : forall c x, nd c -> amend_sentence_reads G c x -> t KSentence x = x.
Proof.
  intros c x Hc (s & r & E & H). apply (HG KSentence s); [|exact I|exact H]. apply (nd_child c Hc). rewrite E. left. reflexivity.
Qed.
Lemma structure_fix : forall T B n tn bn (pt : Element -> T -> Prop) (pb : Element -> B -> Prop) tt tb e f, nd e ->
  (forall c x, nd c -> name c = tn -> pt c x -> tt x = x) -> (forall c x, nd c -> name c = bn -> pb c x -> tb x = x) ->
  structure G n tn bn pt pb e f -> t_struct t tt tb f = f.
Proof.
  intros T B n tn bn pt pb tt tb e [x1 x2 x3 x4] He Ht Hb (E & HK & H1 & H2 & before & b & after & Ec & Eb & Hn & F1 & F2).
  pose proof (nd_child e He) as Hl. cbn in *. unfold t_struct. cbn. f_equal.
  - eapply latest_fix; [exact Hl|exact Ht|exact H1].
  - eapply readable_fix; [|exact F1]. intros c Hc. apply filter_In in Hc as [Hc _]. apply elements_in in Hc. apply Hl. rewrite Ec, in_app_iff. auto.
  - eapply latest_some; [exact Hl|exact Hb|exact H2].
  - eapply readable_fix; [|exact F2]. intros c Hc. apply filter_In in Hc as [Hc _]. apply elements_in in Hc. apply Hl. rewrite Ec, in_app_iff. right. right. exact Hc.
Qed.
Lemma heading_fix : forall C n (P : Element -> C -> Prop) tc e f, nd e -> texty (n ++ "Title") = true ->
  (forall c x, nd c -> P c x -> tc x = x) -> heading G n P e f -> t_head t tc f = f.
Proof.
  intros C n P tc e [x1 x2 x3 x4 x5] He Hn H (E & H1 & H2 & H3 & a & rest & Ec & Et & Ht & F). pose proof (nd_child e He) as Hl. rewrite Ec in Hl.
  cbn in *. unfold t_head. cbn. f_equal.
  - apply (texts_fix a); [apply Hl; left; reflexivity|rewrite Et; exact Hn|exact Ht].
  - eapply elements_fix; [exact (ndl_cons _ _ Hl)|exact H|exact F].
Qed.

Lemma ruby_text_fix : forall e, nd e -> name e = "Ruby" -> t_text t (map (fun s => TE_Text s) (text_nodes (children e))) = map (fun s => TE_Text s) (text_nodes (children e)).
Proof.
  intros e He E. assert (Hs : structural (name e) = false) by (rewrite E; reflexivity). destruct (nd_here e He Hs) as [Hb Ha]. rewrite E in Ha.
  assert (Q : filter (counts "Ruby") (children e) = map NText (text_nodes (children e))).
  { clear. induction (children e) as [|[d|s|s] l IH]; [reflexivity|exact IH|cbn; f_equal; exact IH|exact IH]. }
  rewrite Q in Ha. unfold t_text. rewrite map_map. cbn [t_te]. apply join_apart; [exact te_ap|].
  assert (B : forall s, In s (text_nodes (children e)) -> blank s = false).
  { intros s Hi. apply Hb. revert Hi. generalize (children e). induction l as [|[d|u|u] l IH]; cbn; auto. intros [-> | Hi]; auto. }
  destruct (text_nodes (children e)) as [|s [|u l]]; [reflexivity| |discriminate]. cbn. rewrite B by (left; reflexivity). reflexivity.
Qed.

Ltac rel := let c := fresh "c" in let x := fresh "x" in let Hc := fresh "Hc" in let E := fresh "E" in let Hx := fresh "Hx" in
  first
  [ intros c x Hc E Hx; first
      [ given | apply (texts_fix c); [exact Hc|rewrite E; first [reflexivity|apply item_texty]|exact Hx]
      | apply (moded_fix c); [exact Hc|rewrite E; reflexivity|exact Hx]
      | apply (caption_fix c); [exact Hc|rewrite E; reflexivity|exact Hx]
      | apply (formula_fix c); assumption | apply (sct_fix c); assumption | apply (header_row_fix c); assumption
      | apply (label_fix c); assumption | apply (amend_sentence_fix c); assumption ]
  | intros c x Hc Hx; first
      [ given | apply (struct_fix c); assumption | apply (list_sentence_fix c); assumption
      | apply (remarks_fix c); assumption | apply (appdx_table_fix c); assumption | apply (appdx_note_fix c); assumption
      | apply (appdx_fig_fix c); assumption | apply (toc_section_fix c); assumption | apply (toc_suppl_fix c); assumption
      | apply (toc_main_fix c); assumption | apply (new_provision_fix c); assumption | apply (main_fix c); assumption
      | apply (suppl_fix c); assumption | reflexivity ] ].
Ltac part Hl := first
  [ reflexivity
  | eapply each_fix; [exact Hl| |eassumption]; solve [rel]
  | eapply latest_fix; [exact Hl| |eassumption]; solve [rel]
  | eapply latest_or_fix; [exact Hl| | |eassumption]; [reflexivity|solve [rel]]
  | eapply latest_some; [exact Hl| |eassumption]; solve [rel]
  | eapply tags_fix; [exact Hl| |eassumption]; solve [rel]
  | eapply elements_fix; [exact Hl| |eassumption]; solve [rel]
  | eapply inner_fix; [exact Hl| |eassumption]; solve [rel] ].
Ltac whole f Hl H := destruct f; cbn in H |- *;
  repeat match type of H with _ /\ _ => let H1 := fresh "H" in destruct H as [H1 H] end; f_equal; part Hl.

Lemma reading_fix : forall k e f, nd e -> tagged k e -> reading G k e f -> tstep t k f = f.
Proof.
  intros k e f He Ht H. pose proof (nd_child e He) as Hl.
  destruct k; cbn [reading] in H; cbn [tstep F] in f |- *;
    try (unfold toc_heading, appended, suppl_appended in H; unfold t_toc_head, t_appdx_t, t_sts; solve [whole f Hl H]).
  - destruct f as [x r]. cbn in H |- *. destruct H as (E & -> & H). f_equal; [apply ruby_text_fix; assumption|].
    eapply latest_or_fix; [exact Hl| | |exact H]; [reflexivity|]. intros c s Hc Ec ->. apply own_fix; [exact Hc|rewrite Ec; reflexivity].
  - destruct f as [x y]. cbn in H |- *. destruct H as (E & _ & H). f_equal. apply (line_fix e); assumption.
  - apply (contents_fix c e); assumption.
  - destruct f. cbn in H |- *. destruct H as (E & _ & _ & _ & _ & H). f_equal. apply (sentence_fix e); assumption.
  - destruct H as [_ H]. part Hl.
  - destruct f. cbn in H |- *. destruct H as (E & _ & _ & _ & _ & _ & _ & _ & _ & H). f_equal. apply (cell_fix e); assumption.
  - destruct f as [x y]. cbn in H |- *. destruct H as (_ & _ & H1 & H2). f_equal; [|part Hl].
    eapply (latest_some _ _ (fun x => mkRemarksLabel (t_text t (rl_text x)) (rl_line_break x))); [exact Hl| |exact H1]. rel.
  - destruct s; (eapply structure_fix; [exact He| | |exact H]; rel).
  - eapply structure_fix; [exact He| | |exact H]; [rel|reflexivity].
  - eapply structure_fix; [exact He| | |exact H]; rel.
  - destruct H as (E & s & rest & Ec & Es & F1 & F2). rewrite Ec in Hl. destruct f as [x y]. cbn in F1, F2 |- *. f_equal.
    + eapply elements_fix; [|apply list_sentence_fix|exact F1]. apply nd_child, Hl. left. reflexivity.
    + assert (Q : l = Sublist3 \/ l <> Sublist3) by (destruct l; (left; reflexivity) || (right; discriminate)).
      destruct Q as [-> | Q]; [destruct y as [|v y]; [reflexivity|inversion v]|].
      eapply elements_fix; [exact (ndl_cons _ _ Hl)| |exact (F2 Q)]. intros c v Hc Hv. apply (HG _ c); [exact Hc|apply sub_list_tagged|exact Hv].
  - destruct f. cbn in H |- *. destruct H as (E & _ & _ & _ & _ & F1 & F2 & F3 & F4). f_equal; try part Hl.
    eapply tags_fix; [exact Hl| |exact F4]. intros c x Hc Hx. apply (HG _ c); [exact Hc|apply sub_item_tagged|exact Hx].
  - destruct f. cbn in H |- *. destruct H as (E & _ & _ & _ & head & body & c & rest & Ec & Eb & _ & _ & F1 & F2 & F3 & F4).
    rewrite Ec in Hl. apply ndl_app in Hl as [L1 L2]. f_equal; first [part L1|part L2].
  - eapply heading_fix; [exact He| |exact part_fix|exact H]; reflexivity.
  - eapply heading_fix; [exact He| |exact chapter_fix|exact H]; reflexivity.
  - eapply heading_fix; [exact He| |exact section_fix|exact H]; reflexivity.
  - eapply heading_fix; [exact He| |exact subsection_fix|exact H]; reflexivity.
  - eapply heading_fix; [exact He| |exact division_fix|exact H]; reflexivity.
  - destruct f. cbn in H |- *. destruct H as (E & _ & _ & _ & H). f_equal. apply (texts_fix e); [exact He|rewrite E; reflexivity|exact H].
  - destruct H as [_ H]. part Hl.
Qed.
End Fix.

(** ** Whole documents *)
Lemma reads_tidy : forall n k e v, nd e -> tagged k e -> reads_in n k e v -> tidy k v = v.
Proof.
  induction n as [|n IH]; intros k e v He Ht H; [destruct H|]. cbn [reads_in] in H.
  rewrite <- (mk_un k v). rewrite tidy_unfold. f_equal. apply (reading_fix (reads_in n) tidy) with (e := e); [|exact He|exact Ht|exact H].
  intros j c x Hc Hj Hx. apply (IH j c x Hc Hj Hx).
Qed.
Theorem neat_tidy : forall e k v, nd e -> tagged k e -> parse k e = Ok v -> tidy k v = v.
Proof. intros e k v He Ht H. apply read_exact in H; [|exact Ht]. destruct H as [n H]. exact (reads_tidy n k e v He Ht H). Qed.

Theorem neat_law_tidy : forall e l, nd e -> parse_law e = Ok l -> tidy_law l = l.
Proof.
  intros e l He H. apply law_exact in H. destruct l. unfold law_reading in H. cbn in H.
  destruct H as (_ & _ & _ & _ & _ & _ & _ & _ & n & b & rest & Ec & En & -> & m & Hb). unfold tidy_law. cbn.
  pose proof (nd_child e He) as Hl. rewrite Ec in Hl. f_equal.
  - apply own_fix; [apply Hl; left; reflexivity|rewrite En; reflexivity].
  - apply (reads_tidy m KLawBody b); [apply Hl; right; left; reflexivity|exact I|exact Hb].
Qed.

(** ** Texts *)
Theorem plain_tidy_text : forall x s e l, xml_read x s = Some e -> parse_xml x s = Ok l ->
  plain_document e -> plain_law_num e -> keeps x (write_law l) ->
  exists s', to_xml x l = Ok s' /\ parse_xml x s' = Ok (tidy_law l).
Proof.
  intros x s e l Hx Hp H1 H2 Hk. unfold parse_xml in Hp. rewrite Hx in Hp. apply xml_round_trip; [exact Hk|].
  apply law_read_write_iff. exact (plain_law_roundtrip e l H1 H2 Hp).
Qed.
Theorem neat_text : forall x s e l, xml_read x s = Some e -> parse_xml x s = Ok l ->
  plain_document e -> plain_law_num e -> neat_document e -> keeps x (write_law l) ->
  exists s', to_xml x l = Ok s' /\ parse_xml x s' = Ok l.
Proof.
  intros x s e l Hx Hp H1 H2 H3 Hk. destruct (plain_tidy_text x s e l Hx Hp H1 H2 Hk) as (s' & E & P). exists s'. split; [exact E|].
  unfold parse_xml in Hp. rewrite Hx in Hp. rewrite (neat_law_tidy e l H3 Hp) in P. exact P.
Qed.

(** ** A check *)
Definition neat_here (e : Element) : bool :=
  (structural (name e)
   || (forallb (fun x => match x with NText s => negb (blank s) | _ => true end) (children e)
       && apart (filter (counts (name e)) (children e))))
  && (negb (String.eqb (name e) "Line") || match parse KLine e with Err _ => false | _ => true end).
Fixpoint neat_b (e : Element) : bool :=
  let 'mkElement n a c := e in
  neat_here e && forallb (fun x => match x with NElement d => neat_b d | _ => true end) c.
Lemma neat_b_ok : forall e, neat_b e = true -> neat_document e.
Proof.
  intros e H c Hc. revert H. induction Hc as [e|c d e Hd Hc IH]; intros H.
  - assert (H0 : neat_here e = true) by (destruct e; apply andb_true_iff in H; apply H). clear H. unfold neat_here in H0.
    apply andb_true_iff in H0 as [H1 H2]. split.
    + intros Hs. rewrite Hs in H1. apply andb_true_iff in H1 as [H1 H3]. split; [|exact H3]. intros s Hi. rewrite forallb_forall in H1.
      apply H1 in Hi. apply negb_true_iff in Hi. exact Hi.
    + intros E (er & Hr). rewrite E, Hr in H2. discriminate.
  - apply IH. destruct e as [n a l]. apply andb_true_iff in H as [_ H]. rewrite forallb_forall in H. apply (H (NElement d)), Hd.
Qed.
