(** Every error of the readers is the fault of an element of the document. *)
From Coq Require Import String Ascii List Arith NArith Bool Lia.
From Verif Require Import Base NumStr NumStrSpec BaseFacts NumStrFacts Xml Ast XmlWrite XmlParse XmlSpec XmlSim
  GrammarSpec GrammarFacts ErrorSpec.
Import ListNotations.
Open Scope string_scope.
Open Scope list_scope.

(** ** Where the errors of a step come from *)
Definition eb {A} (x : R A) (P : Error -> Prop) : Prop := forall er, x = Err er -> P er.

Lemma eb_ok : forall A (a : A) P, eb (Ok a) P. Proof. discriminate. Qed.
Lemma eb_panic : forall A P, eb (@Panic A) P. Proof. discriminate. Qed.
Lemma eb_err : forall A er (P : Error -> Prop), P er -> eb (@Err A er) P.
Proof. intros A er P H x E. injection E as <-. exact H. Qed.
Lemma eb_bind : forall A B (x : R A) (f : A -> R B) P,
  eb x P -> (forall a, x = Ok a -> eb (f a) P) -> eb (bind x f) P.
Proof.
  intros A B [a|er|] f P H K; cbn; [apply K; reflexivity| |discriminate].
  intros z E. injection E as <-. apply H. reflexivity.
Qed.
Lemma eb_ok_ : forall A (x : R A) P, eb (ok x) P.
Proof. intros A [a|er|] P z; discriminate. Qed.
Lemma eb_weaken : forall A (x : R A) (P Q : Error -> Prop), (forall er, P er -> Q er) -> eb x P -> eb x Q.
Proof. intros A x P Q H Hx er E. apply H, Hx, E. Qed.

Lemma eb_run : forall S (txt : string -> S -> S) dflt tbl l s P,
  (forall c, In (NElement c) l -> eb (lookup dflt tbl c) P) -> eb (run txt dflt tbl l s) P.
Proof.
  intros S txt dflt tbl l. induction l as [|[c|t|t] r IH]; intros s P H; cbn; try apply eb_ok.
  - apply eb_bind; [apply H; left; reflexivity|]. intros u _. apply IH. intros d Hd. apply H. right. exact Hd.
  - apply IH. intros d Hd. apply H. right. exact Hd.
  - apply IH. intros d Hd. apply H. right. exact Hd.
Qed.

Lemma eb_lookup : forall S (dflt : handler S) tbl c P,
  (~ In (name c) (map fst tbl) -> eb (dflt c) P) ->
  Forall (fun th => name c = fst th -> eb (snd th c) P) tbl -> eb (lookup dflt tbl c) P.
Proof.
  intros S dflt tbl c P Hd H. unfold lookup. revert Hd.
  induction H as [|[t h] r Hh Hr IH]; intros Hd; cbn; [apply Hd; intros []|].
  destruct (String.eqb_spec (name c) t) as [E|N]; [apply Hh, E|]. apply IH. intros X. apply Hd.
  cbn. intros [Y|Y]; [congruence|contradiction].
Qed.

Lemma eb_parse_all : forall X (f : Element -> R X) l P,
  (forall c, In (NElement c) l -> eb (f c) P) -> eb (parse_all f l) P.
Proof.
  intros X f l P. induction l as [|[c|t|t] r IH]; intros H; cbn; try apply eb_ok.
  - apply eb_bind; [apply H; left; reflexivity|]. intros u _. apply eb_bind; [|intros; apply eb_ok].
    apply IH. intros d Hd. apply H. right. exact Hd.
  - apply IH. intros d Hd. apply H. right. exact Hd.
  - apply IH. intros d Hd. apply H. right. exact Hd.
Qed.

Lemma eb_push : forall S X Y ix inj (f : Element -> R X) c P, eb (f c) P -> eb (@h_push S X Y ix inj f c) P.
Proof. intros. apply eb_bind; [assumption|intros; apply eb_ok]. Qed.
Lemma eb_some : forall S X ix (f : Element -> R X) c P, eb (f c) P -> eb (@h_some S X ix f c) P.
Proof. intros. apply eb_bind; [assumption|intros; apply eb_ok]. Qed.
Lemma eb_put : forall S X ix (f : Element -> R X) c P, eb (f c) P -> eb (@h_put S X ix f c) P.
Proof. intros. apply eb_bind; [assumption|intros; apply eb_ok]. Qed.
Lemma eb_push_ok : forall S X Y ix inj (f : Element -> R X) c P, eb (@h_push_ok S X Y ix inj f c) P.
Proof. intros. apply eb_bind; [apply eb_ok_|intros; apply eb_ok]. Qed.

(** A field that is set by the children with some tags and never unset. *)
Lemma run_found : forall S (txt : string -> S -> S) dflt tbl ts (found : S -> Prop) l s s',
  run txt dflt tbl l s = Ok s' ->
  (forall t x, found x -> found (txt t x)) ->
  (forall c u x, lookup dflt tbl c = Ok u -> found x -> found (u x)) ->
  (forall c u x, In (name c) ts -> lookup dflt tbl c = Ok u -> found (u x)) ->
  ~ found s' -> forall c, In (NElement c) l -> ~ In (name c) ts.
Proof.
  intros S txt dflt tbl ts found l s s' H Ht Hk Hf Hn c Hc Hi. apply Hn. clear Hn.
  assert (G : forall m x y, run txt dflt tbl m x = Ok y -> found x -> found y).
  { induction m as [|[d|t|t] r IH]; intros x y Hr Hx; cbn in Hr.
    - injection Hr as <-. exact Hx.
    - apply bind_ok in Hr as [u [Hu Hr]]. eapply IH; [exact Hr|]. eapply Hk; eassumption.
    - eapply IH; [exact Hr|]. apply Ht, Hx.
    - eapply IH; eassumption. }
  revert s H. induction l as [|[d|t|t] r IH]; intros s H; cbn in H.
  - destruct Hc.
  - apply bind_ok in H as [u [Hu H]]. destruct Hc as [E|Hc]; [|eapply IH; eassumption].
    injection E as <-. eapply G; [exact H|]. eapply Hf; eassumption.
  - destruct Hc as [E|Hc]; [discriminate|]. eapply IH; eassumption.
  - destruct Hc as [E|Hc]; [discriminate|]. eapply IH; eassumption.
Qed.

(** ** Explanations *)
Lemma here : forall e er, blamed e er -> explained e er.
Proof. intros e er H. exists e. split; [constructor|exact H]. Qed.
Lemma explained_child : forall e c er, In (NElement c) (children e) -> explained c er -> explained e er.
Proof. intros e c er Hc [d [Hi Hb]]. exists d. split; [econstructor; eassumption|exact Hb]. Qed.

(** Membership in a table indexed by tags. *)
Definition key2 {X} (eqx : X -> X -> bool) (y : string * X) (x : string * X) : bool :=
  String.eqb (fst y) (fst x) && eqx (snd y) (snd x).

Lemma eb_attribute : forall e a, In (name e, a) required -> eb (get_attribute e a) (explained e).
Proof.
  intros e a H er E. unfold get_attribute in E. destruct (get e a) eqn:G; [discriminate|].
  injection E as <-. apply here, absent_attribute; assumption.
Qed.

Lemma eb_parse_opt : forall T (f : string -> option T) e a v,
  In (name e, (a, v)) checked -> (forall s, f s = None -> ~ legal v s) ->
  eb (get_attribute_opt_with_parse f e a) (explained e).
Proof.
  intros T f e a v H Hv er E. unfold get_attribute_opt_with_parse in E.
  destruct (get e a) as [s|] eqn:G; [|discriminate]. destruct (f s) eqn:Fs; [discriminate|].
  injection E as <-. apply here. eapply illegal_attribute; [exact H|exact G|apply Hv, Fs].
Qed.
Lemma eb_parse_req : forall T (f : string -> option T) e a v,
  In (name e, a) required -> In (name e, (a, v)) checked -> (forall s, f s = None -> ~ legal v s) ->
  eb (get_attribute_with_parse f e a) (explained e).
Proof.
  intros T f e a v Hr H Hv er E. unfold get_attribute_with_parse in E.
  destruct (get e a) as [s|] eqn:G.
  - destruct (f s) eqn:Fs; [discriminate|].
    injection E as <-. apply here. eapply illegal_attribute; [exact H|exact G|apply Hv, Fs].
  - injection E as <-. apply here, absent_attribute; assumption.
Qed.

Lemma bool_illegal : forall s, parse_bool s = None -> ~ legal VBool s.
Proof.
  intros s H [-> | ->]; unfold parse_bool in H; discriminate H.
Qed.
Lemma integer_illegal : forall s, parse_usize s = None -> ~ legal VInteger s.
Proof. intros s H [n Hn]. apply parse_usize_spec in Hn. congruence. Qed.
Lemma number_illegal : forall s, parse_an s = None -> ~ legal VNumber s.
Proof.
  intros s H [b [ed [r Hn]]]. apply (from_num_str_spec s (mkAN b ed r)) in Hn. unfold parse_an in H. rewrite Hn in H. discriminate.
Qed.

Lemma eb_flag : forall e a, In (name e, (a, VBool)) checked -> eb (get_flag e a) (explained e).
Proof.
  intros e a H. apply eb_bind; [|intros; apply eb_ok]. apply (eb_parse_opt _ _ _ _ VBool); [exact H|exact bool_illegal].
Qed.
Lemma eb_flag_opt : forall e a, In (name e, (a, VBool)) checked ->
  eb (get_attribute_opt_with_parse parse_bool e a) (explained e).
Proof. intros e a H. apply (eb_parse_opt _ _ _ _ VBool); [exact H|exact bool_illegal]. Qed.
Lemma eb_integer_opt : forall e a, In (name e, (a, VInteger)) checked ->
  eb (get_attribute_opt_with_parse parse_usize e a) (explained e).
Proof. intros e a H. apply (eb_parse_opt _ _ _ _ VInteger); [exact H|exact integer_illegal]. Qed.
Lemma eb_integer : forall e a, In (name e, a) required -> In (name e, (a, VInteger)) checked ->
  eb (get_attribute_with_parse parse_usize e a) (explained e).
Proof. intros e a Hr H. apply (eb_parse_req _ _ _ _ VInteger); [exact Hr|exact H|exact integer_illegal]. Qed.
Lemma eb_number_attr : forall e a, In (name e, a) required -> In (name e, (a, VNumber)) checked ->
  eb (get_attribute_with_parse parse_an e a) (explained e).
Proof. intros e a Hr H. apply (eb_parse_req _ _ _ _ VNumber); [exact Hr|exact H|exact number_illegal]. Qed.
Lemma eb_string_opt : forall e a P, eb (get_string_opt e a) P.
Proof.
  intros e a P er E. unfold get_string_opt, get_attribute_opt_with_parse in E. destruct (get e a); discriminate.
Qed.

Lemma assoc_none : forall X s (l : list (string * X)), assoc s l = None -> ~ In s (map fst l).
Proof.
  intros X s l. induction l as [|[t x] r IH]; cbn; [intros _ []|].
  destruct (String.eqb_spec s t) as [E|N]; [discriminate|]. intros H [Y|Y]; [congruence|exact (IH H Y)].
Qed.
Lemma eb_enum_opt : forall T e a (l : list (string * T)),
  In (name e, (a, VOneOf (map fst l))) checked ->
  eb (enum_opt (get e a) l (AttributeParseError (name e) a)) (explained e).
Proof.
  intros T e a l H er E. destruct (get e a) as [s|] eqn:G; cbn in E; [|discriminate].
  destruct (assoc s l) eqn:A; [discriminate|]. injection E as <-. apply here.
  eapply illegal_attribute; [exact H|exact G|]. exact (assoc_none _ _ _ A).
Qed.
Lemma eb_enum_req : forall T e a (l : list (string * T)),
  In (name e, (a, map fst l)) selected ->
  eb (enum_req (get e a) l (AttributeParseError (name e) a)) (explained e).
Proof.
  intros T e a l H er E. assert (X : er = AttributeParseError (name e) a /\ forall s, get e a = Some s -> ~ In s (map fst l)).
  { destruct (get e a) as [s|] eqn:G; cbn in E.
    - destruct (assoc s l) eqn:A; [discriminate|]. injection E as <-. split; [reflexivity|].
      intros t Ht. injection Ht as <-. exact (assoc_none _ _ _ A).
    - injection E as <-. split; [reflexivity|discriminate]. }
  destruct X as [-> X]. apply here. eapply unselected_attribute; eassumption.
Qed.

(** ** Numbers *)
Lemma in_chars_app : forall c a b, In c (list_ascii_of_string (a ++ b)) <->
  In c (list_ascii_of_string a) \/ In c (list_ascii_of_string b).
Proof.
  intros c a b. induction a as [|x a IH]; cbn; [tauto|]. rewrite IH. tauto.
Qed.
Lemma split_pieces : forall c s y l, split c s = y :: l ->
  (exists after, s = (y ++ after)%string /\ (after = "" \/ exists a, after = String c a) /\
     ~ In c (list_ascii_of_string y)) /\
  (forall w, In w l -> exists b after, s = ((b ++ String c "") ++ w ++ after)%string /\
     (after = "" \/ exists a, after = String c a) /\ ~ In c (list_ascii_of_string w)).
Proof.
  intros c s. induction s as [|x s IH]; intros y l H; cbn in H.
  - injection H as <- <-. split; [exists ""; cbn; auto|intros w []].
  - destruct (split c s) as [|y' l'] eqn:E; [exfalso; exact (split_nonempty c s E)|].
    destruct (IH _ _ eq_refl) as [[a [Es [Ha Hy]]] Hl].
    destruct (Ascii.eqb_spec x c) as [->|N].
    + injection H as <- <-. split.
      * exists (String c s). cbn. split; [reflexivity|]. split; [right; eauto|auto].
      * intros w [<-|Hw].
        -- exists "", a. cbn. rewrite Es. auto.
        -- destruct (Hl w Hw) as [b [a' [-> X]]]. exists (String c b), a'. split; [reflexivity|exact X].
    + injection H as <- <-. split.
      * exists a. rewrite Es. cbn. split; [reflexivity|]. split; [exact Ha|]. intros [X|X]; [congruence|contradiction].
      * intros w Hw. destruct (Hl w Hw) as [b [a' [-> X]]]. exists (String x b), a'. split; [reflexivity|exact X].
Qed.
Lemma split_piece : forall c s w, In w (split c s) -> exists before after,
  s = (before ++ w ++ after)%string /\
  (before = "" \/ exists b, before = (b ++ String c "")%string) /\
  (after = "" \/ exists a, after = String c a) /\ ~ In c (list_ascii_of_string w).
Proof.
  intros c s w H. destruct (split c s) as [|y l] eqn:E; [destruct H|].
  destruct (split_pieces _ _ _ _ E) as [[a [Es [Ha Hy]]] Hl]. destruct H as [<-|H].
  - exists "", a. auto.
  - destruct (Hl w H) as [b [a' [-> [X Y]]]]. exists (b ++ String c "")%string, a'.
    split; [reflexivity|]. split; [right; eauto|auto].
Qed.

Lemma pieces_err : forall l er, parse_pieces l = Err er ->
  exists w, In w l /\ (forall n, ~ usize_text w n) /\ er = ParsingError "usize" w.
Proof.
  induction l as [|s r IH]; intros er H; cbn in H; [discriminate|].
  unfold parse_piece in H. destruct (parse_usize s) as [n|] eqn:P; cbn in H.
  - destruct (parse_pieces r) as [ns|x|]; cbn in H; try discriminate. injection H as <-.
    destruct (IH _ eq_refl) as [w [Hw X]]. exists w. split; [right; exact Hw|exact X].
  - injection H as <-. exists s. split; [left; reflexivity|]. split; [|reflexivity].
    intros n Hn. apply parse_usize_spec in Hn. congruence.
Qed.
Lemma pieces_nonempty : forall l, l <> [] -> parse_pieces l <> Ok [].
Proof.
  intros [|s r] H; [contradiction|]. cbn. destruct (parse_piece s); cbn; try discriminate.
  destruct (parse_pieces r); discriminate.
Qed.

Lemma two_pieces : forall x w s, In x (split ":" s) -> In w (split "_" x) -> piece w s.
Proof.
  intros x w s Hx Hw. destruct (split_piece _ _ _ Hx) as [B [A [-> [HB [HA Hc]]]]].
  destruct (split_piece _ _ _ Hw) as [b [a [-> [Hb [Ha Hu]]]]].
  exists (B ++ b)%string, (a ++ A)%string. split; [rewrite !append_assoc_s; reflexivity|]. split; [|split].
  - destruct Hb as [->|[b' ->]].
    + rewrite append_nil_r_s. destruct HB as [->|[B' ->]]; [left; reflexivity|]. right. exists B', ":"%char. split; [right; reflexivity|reflexivity].
    + right. exists (B ++ b')%string, "_"%char. split; [left; reflexivity|]. rewrite append_assoc_s. reflexivity.
  - destruct Ha as [->|[a' ->]].
    + cbn. destruct HA as [->|[A' ->]]; [left; reflexivity|]. right. exists ":"%char, A'. split; [right; reflexivity|reflexivity].
    + right. exists "_"%char, (a' ++ A)%string. split; [left; reflexivity|reflexivity].
  - intros c [-> | ->]; [exact Hu|]. intros X. apply Hc. apply in_chars_app. right. apply in_chars_app. left. exact X.
Qed.

Lemma from_num_err : forall s er, from_num_str s = Err er ->
  exists w, piece w s /\ (forall n, ~ usize_text w n) /\ er = ParsingError "usize" w.
Proof.
  intros s er H. unfold from_num_str in H.
  destruct (split ":" s) as [|x l] eqn:E; [discriminate|].
  destruct (parse_pieces (split "_" x)) as [ns|y|] eqn:P; cbn [bind] in H; try discriminate.
  - destruct ns as [|b ed]; [exfalso; exact (pieces_nonempty _ (split_nonempty _ _) P)|].
    destruct l as [|y l]; [discriminate|].
    destruct (parse_pieces (split "_" y)) as [ns|z|] eqn:P2; cbn [bind] in H; try discriminate.
    injection H as <-. destruct (pieces_err _ _ P2) as [w [Hw [X ->]]]. exists w. split; [|auto].
    eapply two_pieces; [|exact Hw]. rewrite E. right. left. reflexivity.
  - injection H as <-. destruct (pieces_err _ _ P) as [w [Hw [X ->]]]. exists w. split; [|auto].
    eapply two_pieces; [|exact Hw]. rewrite E. left. reflexivity.
Qed.

Lemma eb_from_num : forall e s, In (name e) (["Paragraph"; "Article"; "Law"] ++ heading_tags) ->
  get e "Num" = Some s -> (name e = "Law" -> s <> "") -> eb (from_num_str s) (explained e).
Proof.
  intros e s Hn Hg Hl er H. destruct (from_num_err _ _ H) as [w [Hp [Hw ->]]].
  apply here. eapply illegal_number; eassumption.
Qed.
Lemma eb_num : forall e n, In (name e) (["Paragraph"; "Article"] ++ heading_tags) ->
  get_attribute e "Num" = Ok n -> eb (from_num_str n) (explained e).
Proof.
  intros e n Hn H. unfold get_attribute in H. destruct (get e "Num") as [s|] eqn:G; [|discriminate].
  injection H as <-. apply eb_from_num; [|exact G|].
  - cbn in Hn |- *. tauto.
  - intros X. rewrite X in Hn. cbn in Hn. repeat destruct Hn as [Hn|Hn]; try discriminate Hn; contradiction.
Qed.
