(** The public functions on XML text. *)
From Coq Require Import String Ascii List Arith NArith Bool Lia.
From Verif Require Import Base BaseFacts NumStr Xml Ast XmlWrite XmlParse Regex RoundTripSpec
  Api TidySpec TidyFacts ApiSpec Utf8Facts.
Import ListNotations.
Open Scope string_scope.
Open Scope list_scope.

(** ** Byte strings *)
Lemma app_assoc_s : forall a b c : string, ((a ++ b) ++ c = a ++ b ++ c)%string.
Proof. induction a; intros; cbn; [reflexivity|]. rewrite IHa. reflexivity. Qed.
Lemma app_nil_s : forall a : string, (a ++ "" = a)%string.
Proof. induction a; cbn; [reflexivity|]. rewrite IHa. reflexivity. Qed.
Lemma split_bytes : forall n s, (first_bytes n s ++ drop_bytes n s)%string = s.
Proof. induction n as [|n IH]; intros [|c s]; cbn; try reflexivity. rewrite IH. reflexivity. Qed.
Lemma drop_all : forall s, drop_bytes (String.length s) s = "".
Proof. induction s; [reflexivity|exact IHs]. Qed.
Lemma drop_length : forall n s, n <= String.length s -> String.length (drop_bytes n s) = String.length s - n.
Proof. induction n as [|n IH]; intros [|c s] H; cbn in *; try lia. apply IH. lia. Qed.

(** ** [WritableString] *)
Lemma string_all : forall s b, write_all writable_string 1 s b = Some (if utf8 b then (Done, (s ++ b)%string) else (Io_error, s)).
Proof.
  intros s b. destruct b as [|c b]; [cbn; rewrite app_nil_s; reflexivity|].
  cbn [write_all]. unfold writable_string. destruct (utf8 (String c b)) eqn:E; [|reflexivity].
  change (String.length (String c b)) with (S (String.length b)). cbv iota. rewrite Nat.leb_refl.
  cbn [drop_bytes]. rewrite drop_all. reflexivity.
Qed.
Lemma string_all_strings : forall l s, exists t, write_strings writable_string 1 s l =
  Some (if forallb utf8 l then Done else Io_error, t) /\ (forallb utf8 l = true -> t = (s ++ concat_strings l)%string).
Proof.
  induction l as [|b l IH]; intros s; cbn [write_strings forallb].
  - exists s. split; [reflexivity|]. intros _. symmetry. apply app_nil_s.
  - rewrite string_all. destruct (utf8 b); cbn [andb].
    + destruct (IH (s ++ b)%string) as (t & -> & Ht). exists t. split; [reflexivity|]. intros H. rewrite (Ht H). apply app_assoc_s.
    + exists s. split; [reflexivity|discriminate].
Qed.

Lemma all_encoded : forall l, forallb utf8 l = true <-> Forall encoded l.
Proof.
  induction l as [|b l IH]; cbn; [split; constructor|]. rewrite andb_true_iff, IH, utf8_iff. split.
  - intros []. constructor; assumption.
  - intros H. inversion H. split; assumption.
Qed.

Lemma to_xml_cases : forall x l, to_xml x l =
  (let '(bs, ok) := xml_emit x (write_law l) in if forallb utf8 bs && ok then Ok (concat_strings bs) else Err Io).
Proof.
  intros x l. unfold to_xml, write_file. destruct (xml_emit x (write_law l)) as [bs ok].
  destruct (string_all_strings bs "") as (t & -> & Ht). destruct (forallb utf8 bs) eqn:E; [|reflexivity].
  rewrite (Ht eq_refl). destruct ok; reflexivity.
Qed.

Theorem to_xml_iff : forall x l s, to_xml x l = Ok s <->
  exists bs, xml_emit x (write_law l) = (bs, true) /\ Forall encoded bs /\ s = concat_strings bs.
Proof.
  intros x l s. rewrite to_xml_cases. destruct (xml_emit x (write_law l)) as [bs ok]. split.
  - destruct (forallb utf8 bs) eqn:E; [|discriminate]. destruct ok; [|discriminate]. intros H. injection H as <-.
    exists bs. repeat split. apply all_encoded, E.
  - intros (bs' & E & He & ->). injection E as -> ->. apply all_encoded in He. rewrite He. reflexivity.
Qed.

Theorem to_xml_ends : forall x l, (exists s, to_xml x l = Ok s) \/ to_xml x l = Err Io.
Proof. intros x l. rewrite to_xml_cases. destruct (xml_emit x (write_law l)) as [bs ok]. destruct (forallb utf8 bs && ok); eauto. Qed.

Lemma encoded_app : forall a b, encoded a -> encoded b -> encoded (a ++ b)%string.
Proof.
  intros a b (t & Ht & ->) (v & Hv & ->). exists (t ++ v)%list. split; [apply Forall_app; auto|]. symmetry. apply enc_app.
Qed.
Lemma encoded_concat : forall l, Forall encoded l -> encoded (concat_strings l).
Proof. intros l H. induction H as [|b l Hb H IH]; [exists []; split; [constructor|reflexivity]|]. apply encoded_app; assumption. Qed.
Theorem to_xml_text : forall x l s, to_xml x l = Ok s -> encoded s.
Proof. intros x l s H. apply to_xml_iff in H as (bs & _ & H & ->). apply encoded_concat, H. Qed.

(** ** Honest writers *)
Section Honest.
Context {S : Type} (w : writer S) (content : S -> string).
Hypothesis Hw : honest w content.

Lemma honest_all : forall fuel s b r s', write_all w fuel s b = Some (r, s') ->
  (r = Done /\ content s' = (content s ++ b)%string) \/
  (r = Io_error /\ exists p q, b = (p ++ q)%string /\ content s' = (content s ++ p)%string).
Proof.
  induction fuel as [|fuel IH]; intros s b r s' H.
  - destruct b; [|discriminate]. injection H as <- <-. left. rewrite app_nil_s. auto.
  - destruct b as [|c b]; [injection H as <- <-; left; rewrite app_nil_s; auto|].
    cbn [write_all] in H. pose proof (Hw s (String c b) ltac:(discriminate)) as A.
    destruct (w s (String c b)) as [[n| |] s1].
    + destruct A as [A2 A3]. destruct n as [|n].
      { injection H as <- <-. right. split; [reflexivity|]. exists "", (String c b). split; [reflexivity|exact A3]. }
      apply Nat.leb_le in A2. rewrite A2 in H. apply IH in H.
      pose proof (split_bytes (Datatypes.S n) (String c b)) as E.
      destruct H as [[-> H] | (-> & p & q & Hp & H)].
      * left. split; [reflexivity|]. rewrite H, A3, app_assoc_s, E. reflexivity.
      * right. split; [reflexivity|]. exists (first_bytes (Datatypes.S n) (String c b) ++ p)%string, q. split.
        -- rewrite app_assoc_s, <- Hp, E. reflexivity.
        -- rewrite H, A3, app_assoc_s. reflexivity.
    + apply IH in H. rewrite A in H. exact H.
    + injection H as <- <-. right. split; [reflexivity|]. exists "", (String c b). rewrite A, app_nil_s. auto.
Qed.
Lemma honest_strings : forall fuel l s r s', write_strings w fuel s l = Some (r, s') ->
  (r = Done /\ content s' = (content s ++ concat_strings l)%string) \/
  (r = Io_error /\ exists p q, concat_strings l = (p ++ q)%string /\ content s' = (content s ++ p)%string).
Proof.
  induction l as [|b l IH]; intros s r s' H; cbn [write_strings] in H.
  - injection H as <- <-. left. cbn. rewrite app_nil_s. auto.
  - destruct (write_all w fuel s b) as [[r1 s1]|] eqn:E; [|discriminate]. apply honest_all in E.
    destruct E as [[-> E] | (-> & p & q & Hp & E)].
    + apply IH in H. rewrite E in H. destruct H as [[-> H] | (-> & p & q & Hp & H)].
      * left. split; [reflexivity|]. rewrite H, app_assoc_s. reflexivity.
      * right. split; [reflexivity|]. exists (b ++ p)%string, q. split; [|rewrite H, app_assoc_s; reflexivity].
        change (concat_strings (b :: l)) with (b ++ concat_strings l)%string. rewrite Hp, app_assoc_s. reflexivity.
    + injection H as <- <-. right. split; [reflexivity|]. exists p, (q ++ concat_strings l)%string. split; [|exact E].
      change (concat_strings (b :: l)) with (b ++ concat_strings l)%string. rewrite Hp, app_assoc_s. reflexivity.
Qed.

Theorem write_file_honest : forall x l fuel s bs ok r s', xml_emit x (write_law l) = (bs, ok) ->
  write_file x w fuel s l = Some (r, s') ->
  (r = Ok tt /\ ok = true /\ content s' = (content s ++ concat_strings bs)%string) \/
  (r = Err Io /\ exists p q, concat_strings bs = (p ++ q)%string /\ content s' = (content s ++ p)%string).
Proof.
  intros x l fuel s bs ok r s' E H. unfold write_file in H. rewrite E in H.
  destruct (write_strings w fuel s bs) as [[e s1]|] eqn:Es; [|discriminate]. apply honest_strings in Es.
  destruct Es as [[-> A] | (-> & A)].
  - destruct ok; injection H as <- <-.
    + left. auto.
    + right. split; [reflexivity|]. exists (concat_strings bs), "". rewrite app_nil_s. auto.
  - injection H as <- <-. right. auto.
Qed.

Hypothesis Hn : never_fails w.
Lemma sure_all : forall fuel b s, String.length b <= fuel -> exists s', write_all w fuel s b = Some (Done, s').
Proof.
  induction fuel as [|fuel IH]; intros [|c b] s H; [exists s; reflexivity|cbn in H; lia|exists s; reflexivity|].
  cbn [write_all]. pose proof (Hw s (String c b) ltac:(discriminate)) as A. destruct (Hn s (String c b) ltac:(discriminate)) as (n & s1 & A1 & E).
  rewrite E in A |- *. destruct A as [A2 _]. destruct n as [|n]; [lia|].
  pose proof A2 as A2'. apply Nat.leb_le in A2'. rewrite A2'. apply IH. rewrite drop_length by exact A2. lia.
Qed.
Lemma sure_strings : forall fuel l s, Forall (fun b => String.length b <= fuel) l -> exists s', write_strings w fuel s l = Some (Done, s').
Proof.
  intros fuel l s H. revert s. induction H as [|b l Hb H IH]; intros s; [exists s; reflexivity|].
  cbn [write_strings]. destruct (sure_all fuel b s Hb) as (s1 & ->). apply IH.
Qed.
Lemma bound_strings : forall l, exists n, Forall (fun b => String.length b <= n) l.
Proof.
  induction l as [|b l (n & IH)]; [exists 0; constructor|]. exists (String.length b + n). constructor; [lia|].
  eapply Forall_impl; [|exact IH]. cbn. intros; lia.
Qed.
Theorem write_file_same : forall x l t s, to_xml x l = Ok t ->
  exists fuel s', write_file x w fuel s l = Some (Ok tt, s') /\ content s' = (content s ++ t)%string.
Proof.
  intros x l t s H. apply to_xml_iff in H as (bs & E & _ & ->). destruct (bound_strings bs) as (n & Hb).
  destruct (sure_strings n bs s Hb) as (s' & Es). exists n, s'.
  assert (F : write_file x w n s l = Some (Ok tt, s')) by (unfold write_file; rewrite E, Es; reflexivity).
  split; [exact F|]. destruct (write_file_honest x l n s bs true (Ok tt) s' E F) as [(_ & _ & A)|(A & _)]; [exact A|discriminate].
Qed.
End Honest.

(** ** There and back *)
Theorem xml_tidy : forall x l, keeps x (write_law l) ->
  exists s, to_xml x l = Ok s /\ parse_xml x s = parse_law (write_law (tidy_law l)).
Proof.
  intros x l (bs & e & E & Hb & Hr & Hs). exists (concat_strings bs). split; [apply to_xml_iff; eauto|].
  unfold parse_xml. rewrite Hr. apply read_tidy, Hs.
Qed.
Theorem xml_round_trip : forall x l, keeps x (write_law l) -> law_survives l ->
  exists s, to_xml x l = Ok s /\ parse_xml x s = Ok (tidy_law l).
Proof.
  intros x l (bs & e & E & Hb & Hr & Hs) H. exists (concat_strings bs). split; [apply to_xml_iff; eauto|].
  unfold parse_xml. rewrite Hr. apply text_round_trip; assumption.
Qed.
Theorem xml_round_trip_iff : forall x l s, keeps x (write_law l) -> to_xml x l = Ok s ->
  (parse_xml x s = Ok l <-> law_survives l /\ tidy_law l = l).
Proof.
  intros x l s (bs & e & E & Hb & Hr & Hs) H. apply to_xml_iff in H as (bs' & E' & _ & ->).
  rewrite E in E'. injection E' as <-. unfold parse_xml. rewrite Hr. apply text_round_trip_iff, Hs.
Qed.
Theorem xml_twice : forall x l, keeps x (write_law (tidy_law l)) -> law_survives l ->
  exists s, to_xml x (tidy_law l) = Ok s /\ parse_xml x s = Ok (tidy_law l).
Proof.
  intros x l Hk H. apply tidy_law_survives in H. destruct (xml_round_trip x (tidy_law l) Hk H) as (s & E & P).
  exists s. rewrite tidy_law_idem in P. auto.
Qed.
Theorem xml_file : forall S (w : writer S) content x l s, honest w content -> never_fails w -> content s = "" ->
  keeps x (write_law l) -> law_survives l ->
  exists fuel s', write_file x w fuel s l = Some (Ok tt, s') /\
    forall files path, files path = Some (content s') -> parse_xml_file x files path = Ok (tidy_law l).
Proof.
  intros S w content x l s Hw Hn Hc Hk Hl. destruct (xml_round_trip x l Hk Hl) as (t & Et & Pt).
  destruct (write_file_same w content Hw Hn x l t s Et) as (fuel & s' & E & C). exists fuel, s'. split; [exact E|].
  intros files path Hf. unfold parse_xml_file. rewrite Hf, C, Hc. exact Pt.
Qed.
