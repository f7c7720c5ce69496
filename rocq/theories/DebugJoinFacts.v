(** The two outputs of [Debug] differ only in the layout. *)
From Coq Require Import String Ascii List NArith Bool Lia Arith.
From Verif Require Import Base BaseFacts NumStr Ast Regex ApiSpec Utils Serde SerdeSpec SerdeLib SerdeFacts SerdeFacts2 Debug DebugSpec
  DebugFacts DebugFacts2 PropDebug DebugJoinSpec.
Import ListNotations.
Open Scope string_scope.
Open Scope list_scope.

Definition entry_place (p : place) : bool := match p with Within | AfterCurly | AfterBracket | AfterComma => true | _ => false end.
Definition lead (p : place) : string := match p with AfterCurly => " " | AfterComma => ", " | _ => "" end.
Definition same (s s' : string) : Prop := forall p r, entry_place p = true ->
  joined p (s ++ r)%string = (lead p ++ s' ++ joined Within r)%string.

Lemma word_step : forall c p r, word c = true -> entry_place p = true -> joined p (String c r) = (lead p ++ String c (joined Within r))%string.
Proof.
  intros c p r H E. cbn [joined].
  assert (X : forall d, word d = false -> is c d = false) by (intros d Hd; unfold is; destruct (Ascii.eqb_spec c d); [subst; congruence|reflexivity]).
  unfold after, before. rewrite !X by reflexivity. destruct p; try discriminate E; reflexivity.
Qed.
Lemma joined_word : forall w r, wordb w = true -> joined Within (w ++ r)%string = (w ++ joined Within r)%string.
Proof.
  unfold wordb. induction w as [|c w IH]; intros r H; [reflexivity|]. cbn [list_ascii_of_string forallb] in H. apply andb_true_iff in H as [H1 H2].
  cbn [append]. rewrite word_step by (exact H1 || reflexivity). cbn [lead append]. rewrite IH by exact H2. reflexivity.
Qed.
Lemma same_word : forall w, wordb w = true -> w <> "" -> same w w.
Proof.
  intros [|c w] H N p r E; [congruence|]. unfold wordb in H. cbn [list_ascii_of_string forallb] in H. apply andb_true_iff in H as [H1 H2].
  cbn [append]. rewrite word_step by assumption. rewrite joined_word by exact H2. reflexivity.
Qed.
Lemma joined_text : forall s p r, bytes (fun b => 32 <= b)%N s -> line_start p = false ->
  joined p (s ++ String """" r)%string = (match p with Comma => "," | _ => "" end ++ s ++ String """" (joined Within r))%string.
Proof.
  induction s as [|c s IH]; intros p r B P.
  - cbn [append joined]. cbn [is]. destruct p; try discriminate P; reflexivity.
  - destruct B as [B1 B2]. cbn [append joined].
    assert (X : is c (ascii_of_N 10) = false) by (unfold is; destruct (Ascii.eqb_spec c (ascii_of_N 10)) as [->|]; [vm_compute in B1; congruence|reflexivity]).
    rewrite X, P, andb_false_r. destruct (is c ",") eqn:C.
    + unfold is in C. apply Ascii.eqb_eq in C. subst. rewrite IH by (exact B2 || reflexivity). destruct p; try discriminate P; reflexivity.
    + rewrite IH; [|exact B2|unfold after; destruct (is c "{"), (is c "("), (is c "["); reflexivity].
      unfold after. destruct p; try discriminate P; destruct (is c "{"), (is c "("), (is c "["); reflexivity.
Qed.
Lemma skip_indent : forall n p r, line_start p = true -> joined p (indent n ++ r)%string = joined p r.
Proof.
  induction n as [|n IH]; intros p r P; [reflexivity|]. cbn [indent append]. cbn [joined]. rewrite P. cbn. apply IH, P.
Qed.
Lemma joined_between : forall n r, joined Within (between (Pretty n) ++ r)%string = joined AfterComma r.
Proof. intros n r. unfold between, newline. rewrite !sapp. cbn [append]. cbn [joined]. cbn -[joined indent append]. apply (skip_indent (S n)). reflexivity. Qed.
Lemma joined_closing : forall n q r, joined Within (closing (Pretty n) q ++ r)%string = joined AfterComma r.
Proof. intros n q r. unfold closing, newline. rewrite !sapp. cbn [append]. cbn [joined]. cbn -[joined indent append]. apply skip_indent. reflexivity. Qed.
Lemma joined_curly : forall n q r, joined Curly (opening (Pretty n) q ++ r)%string = joined AfterCurly r.
Proof. intros n q r. unfold opening, newline. rewrite !sapp. cbn [append]. cbn [joined]. cbn -[joined indent append]. apply (skip_indent (S n)). reflexivity. Qed.
Lemma joined_bracket : forall n q r, joined Bracket (opening (Pretty n) q ++ r)%string = joined AfterBracket r.
Proof. intros n q r. unfold opening, newline. rewrite !sapp. cbn [append]. cbn [joined]. cbn -[joined indent append]. apply (skip_indent (S n)). reflexivity. Qed.
Lemma same_listed : forall n l l', Forall2 same l l' -> l <> [] -> same (listed (Pretty n) l) (listed Compact l').
Proof.
  intros n l l' F. induction F as [|x x' l l' H F IH]; [congruence|]. intros _ p r E. destruct F as [|y y' l l' H' F].
  - cbn [listed]. apply H, E.
  - rewrite !listed_cons, !sapp, H by exact E. rewrite joined_between, IH by (discriminate || reflexivity). reflexivity.
Qed.
Lemma same_tuple : forall n v s s', wordb v = true -> v <> "" -> same s s' -> same (debug_tuple (Pretty n) v s) (debug_tuple Compact v s').
Proof.
  intros n v s s' W N H p r E. unfold debug_tuple. rewrite !sapp, same_word by assumption. f_equal. f_equal.
  cbn [append]. change (joined Within (String "(" (opening (Pretty n) "" ++ s ++ closing (Pretty n) "" ++ String ")" r)))%string
    with (String "(" (joined Bracket (opening (Pretty n) "" ++ s ++ closing (Pretty n) "" ++ String ")" r)))%string.
  rewrite joined_bracket, H, joined_closing by reflexivity. reflexivity.
Qed.
Lemma same_list : forall n l l', Forall2 same l l' -> same (debug_list (Pretty n) l) (debug_list Compact l').
Proof.
  intros n l l' F p r E. destruct F as [|x x' l l' H F]; [destruct p; try discriminate E; reflexivity|]. unfold debug_list.
  assert (G : same (listed (Pretty n) (x :: l)) (listed Compact (x' :: l'))) by (apply same_listed; [constructor; assumption|discriminate]).
  set (a := listed (Pretty n) (x :: l)) in *. set (a' := listed Compact (x' :: l')) in *. rewrite !sapp. cbn [append].
  transitivity (lead p ++ String "[" (joined Bracket (opening (Pretty n) "" ++ a ++ closing (Pretty n) "" ++ String "]" r)))%string.
  { destruct p; try discriminate E; reflexivity. }
  rewrite joined_bracket, G, joined_closing by reflexivity. cbn [lead append opening closing]. reflexivity.
Qed.
Lemma same_struct : forall n v l l', wordb v = true -> v <> "" -> Forall2 same l l' -> same (debug_struct (Pretty n) v l) (debug_struct Compact v l').
Proof.
  intros n v l l' W N F p r E. destruct F as [|x x' l l' H F]; [apply same_word; assumption|]. unfold debug_struct.
  assert (G : same (listed (Pretty n) (x :: l)) (listed Compact (x' :: l'))) by (apply same_listed; [constructor; assumption|discriminate]).
  set (a := listed (Pretty n) (x :: l)) in *. set (a' := listed Compact (x' :: l')) in *. rewrite !sapp, same_word by assumption. f_equal. f_equal.
  cbn [append].
  transitivity (String " " (String "{" (joined Curly (opening (Pretty n) " " ++ a ++ closing (Pretty n) " " ++ String "}" r))))%string.
  { reflexivity. }
  rewrite joined_curly, G, joined_closing by reflexivity. cbn [lead append opening closing]. reflexivity.
Qed.
Lemma same_field : forall m s s', wordb m = true -> same s s' -> same (debug_field m s) (debug_field m s').
Proof.
  intros m s s' W H p r E. unfold debug_field. rewrite !sapp. destruct m as [|c m].
  - cbn [append]. transitivity (lead p ++ String ":" (String " " (joined Within (s ++ r))))%string; [destruct p; try discriminate E; reflexivity|].
    rewrite H by reflexivity. reflexivity.
  - rewrite same_word by (assumption || discriminate). f_equal. f_equal. cbn [append].
    transitivity (String ":" (String " " (joined Within (s ++ r))))%string; [reflexivity|]. rewrite H by reflexivity. reflexivity.
Qed.

Section Values.
Context (shown : N -> bool) (Hs : no_controls shown).
Lemma same_str : forall s, encoded s -> same (debug_str shown s) (debug_str shown s).
Proof.
  intros s T p r E. pose proof (bytes_str shown Hs (fun b => 32 <= b)%N (fun b Hb => Hb) s T) as B. unfold debug_str in *. rewrite !sapp.
  set (a := concat_strings _) in *. cbn [append] in *. destruct B as [_ B].
  assert (B' : bytes (fun b => 32 <= b)%N a).
  { clear - B. induction a as [|c a IH]; [exact I|]. destruct B as [B1 B2]. split; [exact B1|apply IH, B2]. }
  transitivity (lead p ++ String """" (joined Within (a ++ String """" r)))%string; [destruct p; try discriminate E; reflexivity|].
  rewrite joined_text by (exact B' || reflexivity). reflexivity.
Qed.
Lemma debug_same : forall n t j k, depth j <= n -> form t j = Some j -> texts j ->
  same (debug shown j t (Pretty k)) (debug shown j t Compact).
Proof.
  induction n as [|n IHn]; [intros t j k Hn; pose proof (depth_pos j); lia|].
  induction t as [| | |u IHu|u IHu|r]; intros j k Hn H T.
  - rewrite form_str in H. destruct j; try discriminate H. inversion T; subst. cbn [debug]. apply same_str. assumption.
  - rewrite form_bool in H. destruct j as [|b| | | | |]; try discriminate H. destruct b; apply same_word; (reflexivity || discriminate).
  - rewrite form_num in H. destruct j; try discriminate H. cbn [debug]. apply same_word; [apply number_word|apply number_some].
  - apply form_opt_own in H as [->|[N H]]; [apply same_word; (reflexivity || discriminate)|]. rewrite !debug_opt by exact N. cbn [deeper].
    apply same_tuple; [reflexivity|discriminate|]. apply IHu; assumption.
  - apply form_vec_own in H as (l & -> & H). cbn [debug deeper]. apply same_list.
    assert (I : forall x, In x l -> same (debug shown x u (Pretty (S k))) (debug shown x u Compact)).
    { intros x Hx. apply IHn; [apply depth_arr in Hx; lia|apply H; exact Hx|exact (texts_arr _ T x Hx)]. }
    clear - I. induction l as [|x l IH]; constructor; [apply I; left; reflexivity|apply IH; intros y Hy; apply I; right; exact Hy].
  - destruct (find_decl r declarations) as [[fs|vs]|] eqn:D.
    + destruct (form_struct r fs j D H) as (l & -> & F). rewrite !(debug_ref shown r fs l _ D).
      destruct (struct_word r fs D) as (W0 & N0 & _). apply same_struct; [exact W0|exact N0|].
      assert (I : forall e, In e l -> depth (snd e) <= n /\ texts (snd e)).
      { intros [m x] Hx. split; [apply depth_obj in Hx; cbn [snd]; lia|exact (texts_obj _ T m x Hx)]. }
      assert (W : forall f, In f fs -> wordb (fst f) = true) by (intros [m t] Hf; exact (field_word r fs m t D Hf)).
      clear - F I W IHn. induction F as [|[m t] [m' x] fs l [K Fx] F IH]; [constructor|]. cbn [zipped map fst snd deeper] in *.
      destruct (I (m', x) (or_introl eq_refl)) as [I1 I2]. constructor.
      * apply same_field; [exact (W (m, t) (or_introl eq_refl))|]. apply IHn; assumption.
      * apply IH; [intros e He; apply I; right; exact He|intros f Hf; apply W; right; exact Hf].
    + destruct (form_enum r vs j D H) as [(v & -> & F)|(v & t & x & -> & F & Fx)].
      * rewrite !(debug_unit shown r vs v _ D). destruct (variant_word r vs v _ D F). apply same_word; assumption.
      * rewrite !(debug_variant shown r vs v t x _ D F). cbn [deeper]. destruct (variant_word r vs v _ D F). apply same_tuple; [assumption..|].
        apply IHn; [|exact Fx|exact (texts_obj _ T v x (or_introl eq_refl))].
        assert (depth x < depth (JObj [(v, x)])) by (apply (depth_obj _ v x); left; reflexivity). lia.
    + rewrite form_unfold, D in H. discriminate.
Qed.
Lemma debug_one_line : forall t j k, form t j = Some j -> texts j -> one_line (debug shown j t (Pretty k)) = debug shown j t Compact.
Proof.
  intros t j k F T. unfold one_line. rewrite <- (sapp_nil (debug shown j t (Pretty k))).
  rewrite (debug_same (depth j) t j k (Nat.le_refl _) F T Within "" eq_refl). cbn [lead append joined]. apply sapp_nil.
Qed.
End Values.
