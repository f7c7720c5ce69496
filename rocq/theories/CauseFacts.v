(** Causes of the results of the public functions on XML text. *)
From Coq Require Import String List Arith Bool Lia.
From Verif Require Import Base BaseFacts Xml Ast XmlWrite XmlParse Api ApiSpec ApiFacts ErrorSpec ErrorFacts2 CauseSpec.
Import ListNotations.
Open Scope string_scope.
Open Scope list_scope.

(** ** Reading *)
Lemma law_error_kind : forall e er, parse_law e = Err er -> er <> Io /\ er <> XMLParsing.
Proof.
  intros e er H. destruct (law_error_explained e er H) as [[_ ->]|(c & _ & B)]; [split; discriminate|].
  destruct B; split; discriminate.
Qed.
Theorem bytes_causes : forall x b,
  parse_xml x b <> Err Io /\ (parse_xml x b = Err XMLParsing <-> xml_read x b = None) /\
  forall r, r <> Err XMLParsing -> parse_xml x b = r <-> exists e, xml_read x b = Some e /\ parse_law e = r.
Proof.
  intros x b. unfold parse_xml. destruct (xml_read x b) as [e|].
  - split; [intros H; apply law_error_kind in H; destruct H; congruence|]. split.
    + split; [|discriminate]. intros H. apply law_error_kind in H. destruct H; congruence.
    + intros r _. split; [intros H; exists e; auto|]. intros (e' & E & H). congruence.
  - split; [discriminate|]. split; [split; reflexivity|]. intros r Hr. split; [congruence|]. intros (e & E & _). discriminate.
Qed.
Theorem file_causes : forall x files path,
  (parse_xml_file x files path = Err Io <-> files path = None) /\
  (parse_xml_file x files path = Err XMLParsing <-> exists b, files path = Some b /\ xml_read x b = None) /\
  forall r, r <> Err Io -> r <> Err XMLParsing -> parse_xml_file x files path = r <->
    exists b e, files path = Some b /\ xml_read x b = Some e /\ parse_law e = r.
Proof.
  intros x files path. unfold parse_xml_file. destruct (files path) as [b|].
  - destruct (bytes_causes x b) as (A & B & C). split; [split; [intros H; contradiction|discriminate]|]. split.
    + rewrite B. split; [intros H; exists b; auto|]. intros (b' & E & H). injection E as <-. exact H.
    + intros r H1 H2. rewrite (C r H2). split; [intros (e & H); exists b, e; tauto|]. intros (b' & e & E & H). injection E as <-. exists e. exact H.
  - split; [split; reflexivity|]. split; [split; [discriminate|]; intros (b & E & _); discriminate|].
    intros r H1 H2. split; [congruence|]. intros (b & e & E & _). discriminate.
Qed.

(** ** Writing *)
Section Any.
Context {S : Type} (w : writer S).

Lemma all_mono : forall f g s b r, f <= g -> write_all w f s b = Some r -> write_all w g s b = Some r.
Proof.
  induction f as [|f IH]; intros g s b r L H.
  - destruct b; [|discriminate]. destruct g; exact H.
  - destruct b as [|c b]; [destruct g; exact H|]. destruct g as [|g]; [lia|]. cbn [write_all] in *.
    destruct (w s (String c b)) as [[[|n]| |] s1]; try exact H.
    + destruct (Nat.leb (Datatypes.S n) (String.length (String c b))); [|exact H]. apply IH; [lia|exact H].
    + apply IH; [lia|exact H].
Qed.
Lemma app_length_s : forall p q, String.length (p ++ q)%string = String.length p + String.length q.
Proof. induction p as [|c p IH]; intros q; cbn; [reflexivity|]. rewrite IH. reflexivity. Qed.
Lemma drop_app : forall p q, drop_bytes (String.length p) (p ++ q)%string = q.
Proof. induction p as [|c p IH]; intros q; [destruct q; reflexivity|]. cbn. apply IH. Qed.
Lemma all_taken_sound : forall f s b r s', write_all w f s b = Some (r, s') -> taken w s b r s'.
Proof.
  induction f as [|f IH]; intros s b r s' H.
  - destruct b; [|discriminate]. injection H as <- <-. constructor.
  - destruct b as [|c b]; [injection H as <- <-; constructor|]. cbn [write_all] in H.
    destruct (w s (String c b)) as [[[|n]| |] s1] eqn:E.
    + injection H as <- <-. apply none_taken; [discriminate|exact E].
    + destruct (Nat.leb_spec (Datatypes.S n) (String.length (String c b))) as [L|L].
      * apply IH in H. pose proof (split_bytes (Datatypes.S n) (String c b)) as P.
        assert (Lp : String.length (first_bytes (Datatypes.S n) (String c b)) = Datatypes.S n).
        { clear -L. assert (G : forall m t, m <= String.length t -> String.length (first_bytes m t) = m).
          { induction m as [|m IH]; intros [|d t] Hm; cbn in *; try lia. rewrite IH; lia. } apply G, L. }
        rewrite <- P. apply some_taken with (s1 := s1); [intros Z; rewrite Z in Lp; discriminate| |exact H].
        rewrite P, Lp. exact E.
      * injection H as <- <-. apply too_much with (n := Datatypes.S n); [discriminate|exact E|exact L].
    + apply again with (s1 := s1); [discriminate|exact E|]. apply IH, H.
    + injection H as <- <-. apply failed; [discriminate|exact E].
Qed.
Lemma taken_run : forall s b r s', taken w s b r s' -> exists f, write_all w f s b = Some (r, s').
Proof.
  intros s b r s' H. induction H as [s|s p q s1 r s2 Hp E H (f & IH)|s b s1 Hb E|s b n s1 Hb E L|s b s1 r s2 Hb E H (f & IH)|s b s1 Hb E].
  - exists 0. reflexivity.
  - exists (Datatypes.S f). destruct p as [|c p]; [congruence|]. cbn [write_all append] in *. rewrite E.
    cbn [String.length]. rewrite app_length_s.
    destruct (Nat.leb_spec (Datatypes.S (String.length p)) (Datatypes.S (String.length p + String.length q))); [|lia].
    cbn [drop_bytes]. rewrite drop_app. exact IH.
  - exists 1. destruct b as [|c b]; [congruence|]. cbn [write_all]. rewrite E. reflexivity.
  - exists 1. destruct b as [|c b]; [congruence|]. cbn [write_all]. rewrite E. destruct n as [|n]; [lia|].
    destruct (Nat.leb_spec (Datatypes.S n) (String.length (String c b))); [lia|reflexivity].
  - exists (Datatypes.S f). destruct b as [|c b]; [congruence|]. cbn [write_all]. rewrite E. exact IH.
  - exists 1. destruct b as [|c b]; [congruence|]. cbn [write_all]. rewrite E. reflexivity.
Qed.

Lemma strings_mono : forall f g l s r, f <= g -> write_strings w f s l = Some r -> write_strings w g s l = Some r.
Proof.
  intros f g l. induction l as [|b l IH]; intros s r L H; [exact H|]. cbn [write_strings] in *.
  destruct (write_all w f s b) as [[e s1]|] eqn:E; [|discriminate]. rewrite (all_mono f g _ _ _ L E).
  destruct e; [apply IH; assumption|exact H|exact H].
Qed.
Lemma strings_iff : forall l s r s', (exists f, write_strings w f s l = Some (r, s')) <-> all_taken w s l r s'.
Proof.
  intros l s r s'. split.
  - intros (f & H). revert s H. induction l as [|b l IH]; intros s H; cbn [write_strings] in H; [injection H as <- <-; constructor|].
    destruct (write_all w f s b) as [[e s1]|] eqn:E; [|discriminate]. apply all_taken_sound in E.
    destruct e; [apply next with (s1 := s1); [exact E|apply IH, H]|..]; injection H as <- <-; (apply stop; [exact E|discriminate]).
  - intros H. induction H as [s|s b s1 l r s2 A H (f & IH)|s b r s1 l A N].
    + exists 0. reflexivity.
    + apply taken_run in A as (g & A). exists (f + g). cbn [write_strings]. rewrite (all_mono g (f + g) _ _ _ ltac:(lia) A).
      apply (strings_mono f (f + g)); [lia|exact IH].
    + apply taken_run in A as (g & A). exists g. cbn [write_strings]. rewrite A. destruct r; [congruence|reflexivity|reflexivity].
Qed.

Theorem any_writer : forall x l s r s', (exists fuel, write_file x w fuel s l = Some (r, s')) <->
  exists bs ok e, xml_emit x (write_law l) = (bs, ok) /\ all_taken w s bs e s' /\ r = outcome e ok.
Proof.
  intros x l s r s'. unfold write_file. destruct (xml_emit x (write_law l)) as [bs ok]. split.
  - intros (f & H). destruct (write_strings w f s bs) as [[e s1]|] eqn:E; [|discriminate].
    exists bs, ok, e. assert (s1 = s') as -> by (destruct e; congruence).
    split; [reflexivity|]. split; [apply strings_iff; exists f; exact E|]. destruct e, ok; cbn; congruence.
  - intros (bs' & ok' & e & Eb & A & ->). injection Eb as <- <-. apply strings_iff in A as (f & A). exists f. rewrite A.
    destruct e, ok; reflexivity.
Qed.

(** The fuel does not matter. *)
Theorem one_result : forall x l s f g r r', write_file x w f s l = Some r -> write_file x w g s l = Some r' -> r = r'.
Proof.
  intros x l s f g r r'. unfold write_file. destruct (xml_emit x (write_law l)) as [bs ok].
  destruct (write_strings w f s bs) as [[e s1]|] eqn:E; [|discriminate].
  destruct (write_strings w g s bs) as [[e' s1']|] eqn:E'; [|discriminate].
  apply (strings_mono f (f + g)) in E; [|lia]. apply (strings_mono g (f + g)) in E'; [|lia].
  rewrite E in E'. injection E' as <- <-. congruence.
Qed.

Lemma taken_modest : modest w -> forall s b r s', taken w s b r s' -> r <> Io_panic.
Proof.
  intros M s b r s' H. induction H; try discriminate; try assumption. apply M in H0; [lia|assumption].
Qed.
Theorem panic_cause : modest w -> forall x l fuel s s', write_file x w fuel s l <> Some (Panic, s').
Proof.
  intros M x l fuel s s' H. assert (E : exists f, write_file x w f s l = Some (Panic, s')) by (exists fuel; exact H).
  apply any_writer in E as (bs & ok & e & _ & A & E). assert (e = Io_panic) as -> by (destruct e, ok; cbn in E; congruence).
  remember Io_panic as r eqn:Er. clear -A Er M. induction A; [discriminate|apply IHA, Er|]. exact (taken_modest M _ _ _ _ H Er).
Qed.
End Any.
