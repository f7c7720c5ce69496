(** The text of [Debug] determines the value: documents of any declared type. *)
From Coq Require Import String Ascii List NArith Bool Lia Arith.
From Verif Require Import Base BaseFacts NumStr Ast Regex ApiSpec Utils Serde SerdeSpec SerdeLib SerdeFacts SerdeFacts2 Debug DebugSpec DebugFacts.
Import ListNotations.
Open Scope string_scope.
Open Scope list_scope.

(** ** Recursion equations *)
Fixpoint zipped (shown : N -> bool) (st : style) (fs : list (string * sty)) (l : list (string * json)) : list string :=
  match fs, l with
  | (n, t) :: fs', (_, x) :: l' => debug_field n (debug shown x t (deeper st)) :: zipped shown st fs' l'
  | _, _ => []
  end.
Lemma debug_opt : forall shown j u st, j <> JNull ->
  debug shown j (TOpt u) st = debug_tuple st "Some" (debug shown j u (deeper st)).
Proof. intros shown [] u st H; try reflexivity. congruence. Qed.
Lemma debug_ref : forall shown r fs l st, find_decl r declarations = Some (DStruct fs) ->
  debug shown (JObj l) (TRef r) st = debug_struct st r (zipped shown st fs l).
Proof.
  intros shown r fs l st H. cbn [debug]. rewrite H. f_equal. clear H. revert fs.
  induction l as [|[m x] l IH]; intros [|[n t] fs]; cbn [zipped]; try reflexivity. f_equal. apply IH.
Qed.
Lemma debug_unit : forall shown r vs v st, find_decl r declarations = Some (DEnum vs) -> debug shown (JStr v) (TRef r) st = v.
Proof. intros shown r vs v st H. cbn [debug]. rewrite H. reflexivity. Qed.
Lemma debug_variant : forall shown r vs v t x st, find_decl r declarations = Some (DEnum vs) -> find_variant v vs = Some (Some t) ->
  debug shown (JObj [(v, x)]) (TRef r) st = debug_tuple st v (debug shown x t (deeper st)).
Proof. intros shown r vs v t x st H F. cbn [debug]. rewrite H, F. reflexivity. Qed.
Lemma listed_cons : forall st x y l, listed st (x :: y :: l) = (x ++ between st ++ listed st (y :: l))%string.
Proof. reflexivity. Qed.

(** ** Documents in normal form *)
Lemma each_own : forall g l, each g l = Some l -> forall x, In x l -> g x = Some x.
Proof.
  intros g. induction l as [|y l IH]; intros H x Hx; [destruct Hx|]. cbn [each] in H.
  destruct (g y) as [c|] eqn:E; [|discriminate]. destruct (each g l) as [cs|]; [|discriminate]. injection H as -> ->.
  destruct Hx as [<-|Hx]; [exact E|apply IH; [reflexivity|exact Hx]].
Qed.
Lemma fields_keys : forall g fs l l', fields_form g fs l = Some l' -> map fst l' = map fst fs.
Proof.
  intros g. induction fs as [|[n t] fs IH]; intros l l' H; cbn [fields_form] in H; [injection H as <-; reflexivity|].
  destruct (field_form g t (with_key n l)); [|discriminate]. destruct (fields_form g fs l) eqn:E; [|discriminate]. injection H as <-.
  cbn [map fst]. rewrite (IH _ _ E). reflexivity.
Qed.
Lemma fields_each : forall g fs l l', fields_form g fs l = Some l' ->
  Forall2 (fun f e => fst e = fst f /\ field_form g (snd f) (with_key (fst f) l) = Some (snd e)) fs l'.
Proof.
  intros g. induction fs as [|[n t] fs IH]; intros l l' H; cbn [fields_form] in H; [injection H as <-; constructor|].
  destruct (field_form g t (with_key n l)) eqn:F; [|discriminate]. destruct (fields_form g fs l) eqn:E; [|discriminate]. injection H as <-.
  constructor; [split; [reflexivity|exact F]|apply IH; exact E].
Qed.
Lemma fields_own : forall g fs l, NoDup (map fst fs) -> fields_form g fs l = Some l ->
  Forall2 (fun f e => fst e = fst f /\ g (snd f) (snd e) = Some (snd e)) fs l.
Proof.
  intros g fs l N H. pose proof (fields_keys _ _ _ _ H) as K. apply fields_each in H. rewrite <- K in N. clear K.
  assert (G : forall m, incl m l -> forall fs, Forall2 (fun f e => fst e = fst f /\ field_form g (snd f) (with_key (fst f) l) = Some (snd e)) fs m ->
    Forall2 (fun f e => fst e = fst f /\ g (snd f) (snd e) = Some (snd e)) fs m); [|apply G; [apply incl_refl|exact H]].
  clear fs H. intros m Hm fs H. induction H as [|[n t] [n' v] fs m [E F] _ IH]; constructor.
  - cbn [fst snd] in *. subst n'. split; [reflexivity|]. rewrite (with_key_nodup n v l N (Hm _ (or_introl eq_refl))) in F. exact F.
  - apply IH. intros x Hx. apply Hm. right. exact Hx.
Qed.

(** ** Names *)
Lemma variant_word : forall r vs v o, find_decl r declarations = Some (DEnum vs) -> find_variant v vs = Some o ->
  wordb v = true /\ v <> "".
Proof.
  assert (E : forallb (fun d => match snd d with DEnum vs => forallb (fun v => wordb (fst v) && negb (String.eqb (fst v) "")) vs
    | DStruct _ => true end) declarations = true) by (vm_compute; reflexivity).
  intros r vs v o D F. apply find_decl_in in D. apply find_variant_in in F. rewrite forallb_forall in E. specialize (E _ D). cbn [snd] in E.
  rewrite forallb_forall in E. specialize (E _ F). cbn [fst] in E. apply andb_true_iff in E as [E1 E2].
  split; [exact E1|]. apply negb_true_iff, String.eqb_neq in E2. exact E2.
Qed.
Lemma struct_word : forall r fs, find_decl r declarations = Some (DStruct fs) -> wordb r = true /\ r <> "" /\ fs <> [].
Proof.
  assert (E : forallb (fun d => match snd d with DStruct fs => wordb (fst d) && negb (String.eqb (fst d) "") && negb (Nat.eqb (length fs) 0)
    | DEnum _ => true end) declarations = true) by (vm_compute; reflexivity).
  intros r fs D. apply find_decl_in in D. rewrite forallb_forall in E. specialize (E _ D). cbn [snd fst] in E.
  rewrite !andb_true_iff, !negb_true_iff in E. destruct E as [[E1 E2] E3]. split; [exact E1|]. split; [apply String.eqb_neq; exact E2|].
  intros ->. discriminate.
Qed.

(** ** Layout *)
Lemma stop_between : forall st s, stop (between st ++ s).
Proof. intros [|n] s; reflexivity. Qed.
Lemma stop_close : forall st pad b s, pad = "" \/ pad = " " -> b = ")" \/ b = "]" \/ b = "}" -> stop (closing st pad ++ b ++ s).
Proof. intros [|n] pad b s [->| ->] [->|[->| ->]]; reflexivity. Qed.
Lemma indent_less : forall n y z, (indent (S n) ++ y <> indent n ++ "]" ++ z)%string.
Proof. induction n as [|n IH]; intros y z E; [discriminate E|]. cbn [indent] in E. rewrite !sapp in E. apply append_inj_l in E. apply (IH y z). cbn [indent]. rewrite !sapp. exact E. Qed.
Lemma between_close : forall st y z, (between st ++ y <> closing st "" ++ "]" ++ z)%string.
Proof.
  intros [|n] y z E; [discriminate E|]. cbn [between closing] in E. rewrite !sapp in E. do 2 apply append_inj_l in E. exact (indent_less n y z E).
Qed.

(** The text begins, and not with a closing bracket. *)
Definition begins (s : string) : Prop := match s with EmptyString => False | String c _ => c <> "]"%char end.
Lemma begins_word : forall s r, wordb s = true -> s <> "" -> begins (s ++ r).
Proof.
  intros [|c s] r H N; [congruence|]. cbn [append begins]. intros ->. discriminate H.
Qed.
Lemma number_word : forall n, wordb (usize_to_string n) = true.
Proof.
  intros n. pose proof (usize_to_string_chars n) as H. unfold wordb. induction (usize_to_string n) as [|c s IH]; [reflexivity|].
  cbn [list_ascii_of_string forallb all_chars] in *. destruct H as [Hc Hs]. rewrite (IH Hs), andb_true_r. unfold is_digit_char in Hc. unfold word.
  rewrite !orb_true_iff, !andb_true_iff, !N.leb_le. lia.
Qed.
Lemma number_some : forall n, usize_to_string n <> "".
Proof.
  intros n. unfold usize_to_string, string_of_digits, digits. cbn [digits_rev]. destruct (N.ltb n 10); [discriminate|].
  cbn [rev]. rewrite map_app. intros H. apply (f_equal list_ascii_of_string) in H. rewrite list_ascii_of_string_of_list_ascii in H.
  cbn in H. destruct (map ascii_of_digit (rev (digits_rev (N.size_nat n) (n / 10)))); discriminate H.
Qed.

(** The shape of a document in normal form. *)
Lemma form_struct : forall r fs j, find_decl r declarations = Some (DStruct fs) -> form (TRef r) j = Some j ->
  exists l, j = JObj l /\ Forall2 (fun f e => fst e = fst f /\ form (snd f) (snd e) = Some (snd e)) fs l.
Proof.
  intros r fs j D H. rewrite (form_ref r _ j D) in H. cbn [decl_form] in H. destruct j as [|b|n| |s|l|l]; try discriminate.
  - destruct (seq_form form fs l); discriminate.
  - exists l. split; [reflexivity|]. destruct (fields_form form fs l) as [l'|] eqn:E; [|discriminate]. cbn in H. injection H as ->.
    apply fields_own; [|exact E]. exact (names_distinct r _ D).
Qed.
Lemma form_enum : forall r vs j, find_decl r declarations = Some (DEnum vs) -> form (TRef r) j = Some j ->
  (exists v, j = JStr v /\ find_variant v vs = Some None) \/
  (exists v t x, j = JObj [(v, x)] /\ find_variant v vs = Some (Some t) /\ form t x = Some x).
Proof.
  intros r vs j D H. rewrite (form_ref r _ j D) in H. cbn [decl_form] in H. destruct j as [|b|n| |s|l|l]; try discriminate.
  - left. exists s. split; [reflexivity|]. destruct (find_variant s vs) as [[]|]; try discriminate. reflexivity.
  - right. destruct l as [|[v x] [|]]; try discriminate. exists v. destruct (find_variant v vs) as [[t|]|] eqn:F; try discriminate.
    + exists t, x. split; [reflexivity|]. split; [reflexivity|]. destruct (form t x) as [c|]; [|discriminate]. cbn in H. injection H as ->. reflexivity.
    + destruct x; discriminate.
Qed.
Lemma form_vec_own : forall u j, form (TVec u) j = Some j -> exists l, j = JArr l /\ forall x, In x l -> form u x = Some x.
Proof.
  intros u j H. rewrite form_vec in H. destruct j as [|b|n| |s|l|l]; try discriminate. exists l. split; [reflexivity|].
  destruct (each (form u) l) as [l'|] eqn:E; [|discriminate]. cbn in H. injection H as ->. exact (each_own _ _ E).
Qed.
Lemma form_opt_own : forall u j, form (TOpt u) j = Some j -> j = JNull \/ j <> JNull /\ form u j = Some j.
Proof. intros u j H. rewrite form_opt in H. destruct j; [left; reflexivity|right; split; [discriminate|exact H]..]. Qed.

Lemma debug_begins : forall shown t j st, form t j = Some j -> begins (debug shown j t st).
Proof.
  intros shown t j st H. destruct t as [| | |u|u|r].
  - rewrite form_str in H. destruct j; try discriminate H. cbn. discriminate.
  - rewrite form_bool in H. destruct j; try discriminate H. destruct b; cbn; discriminate.
  - rewrite form_num in H. destruct j; try discriminate H. cbn [debug]. rewrite <- (sapp_nil (usize_to_string n)). apply begins_word; [apply number_word|apply number_some].
  - apply form_opt_own in H as [->|[N _]]; [cbn; discriminate|]. rewrite debug_opt by exact N. cbn. discriminate.
  - apply form_vec_own in H as (l & -> & _). cbn [debug]. destruct l; cbn; discriminate.
  - destruct (find_decl r declarations) as [[fs|vs]|] eqn:D.
    + destruct (form_struct r fs j D H) as (l & -> & F). rewrite (debug_ref shown r fs l st D).
      destruct (struct_word r fs D) as (W & N & _). unfold debug_struct. destruct (zipped shown st fs l).
      * rewrite <- (sapp_nil r). apply begins_word; assumption.
      * apply begins_word; assumption.
    + destruct (form_enum r vs j D H) as [(v & -> & F)|(v & t & x & -> & F & _)].
      * rewrite (debug_unit shown r vs v st D). destruct (variant_word r vs v _ D F) as [W N]. rewrite <- (sapp_nil v). apply begins_word; assumption.
      * rewrite (debug_variant shown r vs v t x st D F). destruct (variant_word r vs v _ D F) as [W N]. apply begins_word; assumption.
    + rewrite form_unfold, D in H. discriminate.
Qed.

(** ** One after the other *)
Definition splits (f : json -> string) (P : json -> Prop) (j : json) : Prop :=
  forall j' s s', P j' -> stop s -> stop s' -> (f j ++ s = f j' ++ s')%string -> j = j' /\ s = s'.
Lemma list_split : forall st f (P : json -> Prop) l l' s s', (forall x, In x l -> splits f P x) -> (forall x, In x l' -> P x) ->
  l <> [] -> l' <> [] ->
  (listed st (map f l) ++ closing st "" ++ "]" ++ s = listed st (map f l') ++ closing st "" ++ "]" ++ s')%string -> l = l' /\ s = s'.
Proof.
  intros st f P. induction l as [|x l IH]; intros [|x' l'] s s' Hl Hl' N N' E; try congruence. clear N N'.
  assert (Sc : forall z, stop (closing st "" ++ "]" ++ z)) by (intros z; apply stop_close; auto).
  assert (Hx : splits f P x) by (apply Hl; left; reflexivity). assert (Px : P x') by (apply Hl'; left; reflexivity).
  destruct l as [|y l], l' as [|y' l']; cbn [map] in E; rewrite ?listed_cons, ?sapp in E.
  - cbn [listed] in E. apply Hx in E as [-> E]; [|exact Px|apply Sc|apply Sc]. apply append_inj_l in E. injection E as E. split; [reflexivity|exact E].
  - exfalso. cbn [listed] in E. apply Hx in E as [-> E]; [|exact Px|apply Sc|apply stop_between]. symmetry in E. exact (between_close _ _ _ E).
  - exfalso. change (listed st [f x']) with (f x') in E. apply Hx in E as [-> E]; [|exact Px|apply stop_between|apply Sc]. exact (between_close _ _ _ E).
  - apply Hx in E as [-> E]; [|exact Px|apply stop_between|apply stop_between]. apply append_inj_l in E.
    apply (IH (y' :: l')) in E; [|intros z Hz; apply Hl; right; exact Hz|intros z Hz; apply Hl'; right; exact Hz|discriminate|discriminate].
    destruct E as [-> ->]. split; reflexivity.
Qed.
Lemma fields_split : forall shown st fs l l' s s',
  Forall2 (fun f e => fst e = fst f /\ splits (fun j => debug shown j (snd f) (deeper st)) (fun j => form (snd f) j = Some j /\ texts j) (snd e)) fs l ->
  Forall2 (fun f e => fst e = fst f /\ form (snd f) (snd e) = Some (snd e) /\ texts (snd e)) fs l' ->
  (listed st (zipped shown st fs l) ++ closing st " " ++ "}" ++ s = listed st (zipped shown st fs l') ++ closing st " " ++ "}" ++ s')%string ->
  l = l' /\ s = s'.
Proof.
  intros shown st fs l l' s s' H. revert l'.
  assert (Sc : forall z, stop (closing st " " ++ "}" ++ z)) by (intros z; apply stop_close; auto).
  induction H as [|[n t] [m x] fs l [K Hx] H IH]; intros l' H' E.
  - inversion H'; subst. cbn [zipped listed] in E. apply (append_inj_l "") in E. apply (append_inj_l (closing st " ")) in E. injection E as E. split; [reflexivity|exact E].
  - inversion H' as [|? [m' x'] ? l2 [K' Hx'] H2]; subst. cbn [fst snd] in *. subst m m'. cbn [zipped] in E.
    destruct H as [|[n2 t2] [m2 x2] fs l [K2 Hx2] H].
    + inversion H2; subst. cbn [zipped listed] in E. unfold debug_field in E. rewrite !sapp in E. do 2 apply append_inj_l in E.
      apply Hx in E as [-> E]; [|exact Hx'|apply Sc|apply Sc]. apply append_inj_l in E. injection E as E. split; [reflexivity|exact E].
    + inversion H2 as [|? [m2' x2'] ? l3 [K2' Hx2'] H3]; subst. cbn [zipped] in E, IH. rewrite !listed_cons in E.
      unfold debug_field at 1 3 in E. rewrite !sapp in E. do 2 apply append_inj_l in E.
      apply Hx in E as [-> E]; [|exact Hx'|apply stop_between|apply stop_between]. apply append_inj_l in E.
      apply (IH ((m2', x2') :: l3)) in E; [|exact H2]. destruct E as [-> ->]. split; reflexivity.
Qed.

Lemma texts_arr : forall l, texts (JArr l) -> forall x, In x l -> texts x.
Proof. intros l H. inversion H; assumption. Qed.
Lemma texts_obj : forall l, texts (JObj l) -> forall n x, In (n, x) l -> texts x.
Proof. intros l H. inversion H; assumption. Qed.

Theorem debug_split : forall n shown t j st, depth j <= n -> form t j = Some j -> texts j ->
  splits (fun j => debug shown j t st) (fun j => form t j = Some j /\ texts j) j.
Proof.
  induction n as [|n IHn]; intros shown; [intros t j st Hn; pose proof (depth_pos j); lia|].
  induction t as [| | |u IHu|u IHu|r]; intros j st Hn H T j' s s' [H' T'] S S' E.
  - rewrite form_str in H, H'. destruct j; try discriminate. destruct j'; try discriminate. cbn [debug] in E.
    inversion T; subst. inversion T'; subst. apply str_split in E as [-> ->]; [|assumption|assumption]. split; reflexivity.
  - rewrite form_bool in H, H'. destruct j; try discriminate. destruct j'; try discriminate. cbn [debug] in E.
    destruct b, b0; cbn [append] in E; try discriminate E; apply (append_inj_l "") in E; cbn [append] in E; injection E as E; (split; [reflexivity|exact E]).
  - rewrite form_num in H, H'. destruct j; try discriminate. destruct j'; try discriminate. cbn [debug] in E.
    apply word_split in E as [E ->]; [|apply number_word|apply number_word|exact S|exact S'].
    apply usize_to_string_inj in E. subst. split; reflexivity.
  - apply form_opt_own in H as [->|[N H]]; apply form_opt_own in H' as [->|[N' H']].
    + cbn [debug append] in E. injection E as E. split; [reflexivity|exact E].
    + rewrite (debug_opt shown j' u st N') in E. discriminate E.
    + rewrite (debug_opt shown j u st N) in E. discriminate E.
    + rewrite !debug_opt in E by assumption. unfold debug_tuple in E. rewrite !sapp in E. do 3 apply append_inj_l in E.
      apply (IHu j (deeper st) Hn H T) in E; [|split; assumption|apply stop_close; auto|apply stop_close; auto].
      destruct E as [-> E]. apply append_inj_l in E. injection E as E. split; [reflexivity|exact E].
  - apply form_vec_own in H as (l & -> & H). apply form_vec_own in H' as (l' & -> & H'). cbn [debug] in E.
    assert (Hb : forall l : list json, (forall x, In x l -> form u x = Some x) -> l <> [] -> forall z, begins (listed st (map (fun x => debug shown x u (deeper st)) l) ++ z)).
    { intros [|x m] Hm Nm z; [congruence|]. pose proof (debug_begins shown u x (deeper st) (Hm x (or_introl eq_refl))) as B. cbn [map].
      destruct m as [|y m]; [cbn [map listed]|cbn [map]; rewrite listed_cons, sapp]; destruct (debug shown x u (deeper st)); [destruct B|exact B|destruct B|exact B]. }
    assert (Ne : forall m z z', (forall x, In x m -> form u x = Some x) -> m <> [] ->
      (debug_list st (map (fun x => debug shown x u (deeper st)) m) ++ z = "[]" ++ z')%string -> False).
    { intros m z z' Hm Nm Em. unfold debug_list in Em. destruct (map _ m) eqn:M in Em; [destruct m; [congruence|discriminate]|]. rewrite <- M in Em.
      rewrite !sapp in Em. destruct st as [|k]; [|discriminate Em]. cbn [opening append] in Em. injection Em as Em.
      specialize (Hb m Hm Nm). cbn [deeper] in Hb. rewrite ?sapp in Em.
      match type of Em with (listed ?a ?b ++ ?c = _)%string => specialize (Hb c); rewrite Em in Hb end. apply Hb. reflexivity. }
    destruct l as [|x l].
    + destruct l' as [|x' l']; [cbn [map debug_list append] in E; injection E as E; split; [reflexivity|exact E]|].
      exfalso. symmetry in E. apply (Ne (x' :: l') s' s H'); [discriminate|exact E].
    + destruct l' as [|x' l']; [exfalso; apply (Ne (x :: l) s s' H); [discriminate|exact E]|].
      unfold debug_list in E. rewrite !map_cons in E. cbv iota in E. rewrite <- !(map_cons (fun x => debug shown x u (deeper st))) in E. rewrite !sapp in E. do 2 apply append_inj_l in E.
      apply (list_split st _ (fun j => form u j = Some j /\ texts j)) in E; [destruct E as [-> ->]; split; reflexivity| | |discriminate|discriminate].
      * intros y Hy. apply IHn; [apply depth_arr in Hy; lia|apply H; exact Hy|exact (texts_arr _ T y Hy)].
      * intros y Hy. split; [apply H'; exact Hy|exact (texts_arr _ T' y Hy)].
  - destruct (find_decl r declarations) as [[fs|vs]|] eqn:D.
    + destruct (form_struct r fs j D H) as (l & -> & F). destruct (form_struct r fs j' D H') as (l' & -> & F').
      rewrite !(debug_ref shown r fs _ st D) in E.
      destruct (struct_word r fs D) as (_ & _ & N).
      assert (Z : forall m, Forall2 (fun f e => fst e = fst f /\ form (snd f) (snd e) = Some (snd e)) fs m ->
        debug_struct st r (zipped shown st fs m) = (r ++ " {" ++ opening st " " ++ listed st (zipped shown st fs m) ++ closing st " " ++ "}")%string).
      { intros m Fm. destruct Fm as [|[] [] ? ? ? ?]; [congruence|]. reflexivity. }
      rewrite (Z l F), (Z l' F') in E. rewrite !sapp in E. do 3 apply append_inj_l in E.
      apply fields_split in E; [destruct E as [-> ->]; split; reflexivity| |].
      * assert (I : forall e, In e l -> depth (snd e) <= n /\ texts (snd e)).
        { intros [k x] Hx. split; [apply depth_obj in Hx; cbn [snd]; lia|exact (texts_obj _ T k x Hx)]. }
        clear - F I IHn. induction F as [|[k t] [k' x] fs l [K Fx] F IH]; constructor.
        -- cbn [fst snd] in *. split; [exact K|]. destruct (I (k', x) (or_introl eq_refl)) as [I1 I2]. apply IHn; assumption.
        -- apply IH. intros e He. apply I. right. exact He.
      * assert (I : forall e, In e l' -> texts (snd e)) by (intros [k x] Hx; exact (texts_obj _ T' k x Hx)).
        clear - F' I. induction F' as [|[k t] [k' x] fs l [K Fx] F IH]; constructor.
        -- cbn [fst snd] in *. split; [exact K|]. split; [exact Fx|apply (I (k', x) (or_introl eq_refl))].
        -- apply IH. intros e He. apply I. right. exact He.
    + destruct (form_enum r vs j D H) as [(v & -> & F)|(v & t & x & -> & F & Fx)]; destruct (form_enum r vs j' D H') as [(v' & -> & F')|(v' & t' & x' & -> & F' & Fx')];
        destruct (variant_word r vs v _ D F) as [W _]; destruct (variant_word r vs v' _ D F') as [W' _].
      * rewrite !(debug_unit shown r vs _ st D) in E. apply word_split in E as [-> ->]; [|assumption..]. split; reflexivity.
      * rewrite (debug_unit shown r vs _ st D), (debug_variant shown r vs v' t' x' st D F') in E. unfold debug_tuple in E. rewrite !sapp in E.
        apply word_split in E as [-> _]; [|assumption|assumption|assumption|reflexivity]. congruence.
      * rewrite (debug_unit shown r vs _ st D), (debug_variant shown r vs v t x st D F) in E. unfold debug_tuple in E. rewrite !sapp in E.
        apply word_split in E as [-> _]; [|assumption|assumption|reflexivity|assumption]. congruence.
      * rewrite (debug_variant shown r vs v t x st D F), (debug_variant shown r vs v' t' x' st D F') in E. unfold debug_tuple in E. rewrite !sapp in E.
        apply word_split in E as [-> E]; [|assumption|assumption|reflexivity|reflexivity].
        assert (t' = t) by congruence. subst t'. do 2 apply append_inj_l in E.
        apply (IHn shown t x (deeper st)) in E; [|assert (depth x < depth (JObj [(v', x)])) by (apply (depth_obj _ v' x); left; reflexivity); lia|exact Fx|exact (texts_obj _ T v' x (or_introl eq_refl))
          |split; [exact Fx'|exact (texts_obj _ T' v' x' (or_introl eq_refl))]|apply stop_close; auto|apply stop_close; auto].
        destruct E as [-> E]. apply append_inj_l in E. injection E as E. split; [reflexivity|exact E].
    + rewrite form_unfold, D in H. discriminate.
Qed.

(** ** Bytes *)
Lemma bytes_app : forall P a b, bytes P (a ++ b) <-> bytes P a /\ bytes P b.
Proof. intros P. induction a as [|c a IH]; intros b; cbn [append bytes]; [tauto|]. rewrite IH. tauto. Qed.
Lemma bytes_word : forall (P : N -> Prop) s, (forall n, (32 <= n)%N -> P n) -> wordb s = true -> bytes P s.
Proof.
  intros P s HP. unfold wordb. induction s as [|c s IH]; intros H; [exact I|]. cbn [list_ascii_of_string forallb] in H.
  apply andb_true_iff in H as [H1 H2]. split; [|apply IH; exact H2]. apply HP. unfold word in H1.
  rewrite !orb_true_iff, !andb_true_iff, !N.leb_le, N.eqb_eq in H1. lia.
Qed.
Lemma bytes_utf8 : forall c, scalar c -> (32 <= c)%N -> bytes (fun n => 32 <= n)%N (utf8_char c).
Proof.
  intros c Hc H. unfold scalar in Hc. unfold utf8_char.
  assert (B : forall d m, d <> 0%N -> (c < d * m)%N -> (c / d < m)%N) by (intros d m Hd Hx; apply N.div_lt_upper_bound; assumption).
  assert (M : forall q, (q mod 64 < 64)%N) by (intros q; apply N.mod_lt; discriminate).
  pose proof (M c) as M0. pose proof (M (c / 64)%N) as M1. pose proof (M (c / 4096)%N) as M2.
  destruct (N.ltb_spec c 128); [|destruct (N.ltb_spec c 2048); [|destruct (N.ltb_spec c 65536)]]; cbn [bytes].
  - rewrite N_ascii_embedding by lia. split; [exact H|exact I].
  - assert (Q : (c / 64 < 32)%N) by (apply B; [discriminate|lia]). clear B M.
    set (q := (c / 64)%N) in *. set (r := (c mod 64)%N) in *. clearbody q r. rewrite !N_ascii_embedding by lia. lia.
  - assert (Q : (c / 4096 < 16)%N) by (apply B; [discriminate|lia]). clear B M.
    set (q := (c / 4096)%N) in *. set (r := (c mod 64)%N) in *. set (r1 := (c / 64 mod 64)%N) in *. clearbody q r r1. rewrite !N_ascii_embedding by lia. lia.
  - assert (Q : (c / 262144 < 5)%N) by (apply B; [discriminate|lia]). clear B M.
    set (q := (c / 262144)%N) in *. set (r := (c mod 64)%N) in *. set (r1 := (c / 64 mod 64)%N) in *. set (r2 := (c / 4096 mod 64)%N) in *. clearbody q r r1 r2.
    rewrite !N_ascii_embedding by lia. lia.
Qed.
Section Printed.
Context (shown : N -> bool) (Hs : forall c, shown c = true -> (32 <= c)%N).
Context (P : N -> Prop) (HP : forall n, (32 <= n)%N -> P n).
Ltac lit := idtac; cbn [append bytes]; repeat split; apply HP; cbn; lia.
Lemma bytes_weaken : forall s, bytes (fun n => 32 <= n)%N s -> bytes P s.
Proof. induction s as [|c s IH]; [exact (fun _ => I)|]. intros [H1 H2]. split; [apply HP, H1|apply IH, H2]. Qed.
Lemma bytes_escape : forall c, scalar c -> bytes P (escape_debug shown c).
Proof.
  intros c Hc. destruct (own c) eqn:O.
  - apply own_cases in O. destruct O as [->|[->|[->|[->|[->| ->]]]]]; cbn [escape_debug]; lit.
  - rewrite escape_other by exact O. destruct (shown c) eqn:E.
    + apply bytes_weaken, bytes_utf8; [exact Hc|exact (Hs c E)].
    + rewrite !bytes_app. split; [lit|]. split; [|lit]. apply bytes_word; [exact HP|apply hex_word; exact Hc].
Qed.
Lemma bytes_str : forall s, encoded s -> bytes P (debug_str shown s).
Proof.
  intros s (t & Ht & ->). unfold debug_str. rewrite chars_enc by exact Ht. rewrite !bytes_app. split; [lit|]. split; [|lit].
  induction Ht as [|c t Hc _ IH]; [exact I|]. cbn [map]. rewrite concat_cons, bytes_app. split; [apply bytes_escape; exact Hc|exact IH].
Qed.
(** The layout, in a style for which it is made of such bytes. *)
Context (Q : style -> Prop) (HQ : forall st, Q st -> Q (deeper st) /\ bytes P (opening st "") /\ bytes P (opening st " ") /\
  bytes P (between st) /\ bytes P (closing st "") /\ bytes P (closing st " ")).
Lemma bytes_tuple : forall st n s, Q st -> wordb n = true -> bytes P s -> bytes P (debug_tuple st n s).
Proof.
  intros st n s H Hn Hd. destruct (HQ st H) as (_ & O & _ & _ & C & _). unfold debug_tuple. rewrite !bytes_app.
  split; [apply bytes_word; assumption|]. split; [lit|]. split; [exact O|]. split; [exact Hd|]. split; [exact C|lit].
Qed.
Lemma bytes_listed : forall st l, Q st -> (forall s, In s l -> bytes P s) -> bytes P (listed st l).
Proof.
  intros st l H Hl. induction l as [|x [|y l] IH]; [exact I|apply Hl; left; reflexivity|]. rewrite listed_cons, !bytes_app.
  split; [apply Hl; left; reflexivity|]. split; [apply (HQ st H)|]. apply IH. intros s Hx. apply Hl. right. exact Hx.
Qed.
Lemma bytes_list : forall st l, Q st -> (forall s, In s l -> bytes P s) -> bytes P (debug_list st l).
Proof.
  intros st [|x l] H Hl; unfold debug_list; [lit|]. destruct (HQ st H) as (_ & O & _ & _ & C & _). rewrite !bytes_app.
  split; [lit|]. split; [exact O|]. split; [apply bytes_listed; assumption|]. split; [exact C|lit].
Qed.
Lemma bytes_struct : forall st n l, Q st -> wordb n = true -> (forall s, In s l -> bytes P s) -> bytes P (debug_struct st n l).
Proof.
  intros st n [|x l] H Hn Hl; unfold debug_struct; [apply bytes_word; assumption|]. destruct (HQ st H) as (_ & _ & O & _ & _ & C). rewrite !bytes_app.
  split; [apply bytes_word; assumption|]. split; [lit|]. split; [exact O|]. split; [apply bytes_listed; assumption|]. split; [exact C|lit].
Qed.
Lemma field_word : forall r fs n t, find_decl r declarations = Some (DStruct fs) -> In (n, t) fs -> wordb n = true.
Proof.
  assert (E : forallb (fun d => match snd d with DStruct fs => forallb (fun f => wordb (fst f)) fs | DEnum _ => true end) declarations = true)
    by (vm_compute; reflexivity).
  intros r fs n t D F. apply find_decl_in in D. rewrite forallb_forall in E. specialize (E _ D). cbn [snd] in E.
  rewrite forallb_forall in E. exact (E _ F).
Qed.
Theorem debug_bytes : forall n t j st, depth j <= n -> form t j = Some j -> texts j -> Q st -> bytes P (debug shown j t st).
Proof.
  induction n as [|n IHn]; [intros t j st Hn; pose proof (depth_pos j); lia|].
  induction t as [| | |u IHu|u IHu|r]; intros j st Hn H T S.
  - rewrite form_str in H. destruct j; try discriminate H. inversion T; subst. apply bytes_str. assumption.
  - rewrite form_bool in H. destruct j as [|b| | | | |]; try discriminate H. destruct b; cbn [debug]; lit.
  - rewrite form_num in H. destruct j; try discriminate H. apply bytes_word; [exact HP|apply number_word].
  - apply form_opt_own in H as [->|[N H]]; [cbn [debug]; lit|]. rewrite debug_opt by exact N.
    apply bytes_tuple; [exact S|reflexivity|]. apply IHu; [assumption..|apply (HQ st S)].
  - apply form_vec_own in H as (l & -> & H). cbn [debug]. apply bytes_list; [exact S|]. intros s Hx. apply in_map_iff in Hx as (x & <- & Hx).
    apply IHn; [apply depth_arr in Hx; lia|apply H; exact Hx|exact (texts_arr _ T x Hx)|apply (HQ st S)].
  - destruct (find_decl r declarations) as [[fs|vs]|] eqn:D.
    + destruct (form_struct r fs j D H) as (l & -> & F). rewrite (debug_ref shown r fs l st D).
      apply bytes_struct; [exact S|apply (struct_word r fs D)|].
      assert (I : forall e, In e l -> depth (snd e) <= n /\ texts (snd e)).
      { intros [k x] Hx. split; [apply depth_obj in Hx; cbn [snd]; lia|exact (texts_obj _ T k x Hx)]. }
      assert (W : forall f, In f fs -> wordb (fst f) = true) by (intros [k t] Hf; exact (field_word r fs k t D Hf)).
      clear - F I W IHn HP HQ S. induction F as [|[k t] [k' x] fs l [K Fx] F IH]; intros s Hx; [destruct Hx|]. cbn [zipped In fst snd] in *. destruct Hx as [<-|Hx].
      * unfold debug_field. rewrite !bytes_app. split; [apply bytes_word; [exact HP|exact (W (k, t) (or_introl eq_refl))]|]. split; [lit|].
        destruct (I (k', x) (or_introl eq_refl)) as [I1 I2]. apply IHn; [exact I1|exact Fx|exact I2|apply (HQ st S)].
      * apply IH; [intros e He; apply I; right; exact He|intros f Hf; apply W; right; exact Hf|exact Hx].
    + destruct (form_enum r vs j D H) as [(v & -> & F)|(v & t & x & -> & F & Fx)].
      * rewrite (debug_unit shown r vs v st D). apply bytes_word; [exact HP|apply (variant_word r vs v _ D F)].
      * rewrite (debug_variant shown r vs v t x st D F). apply bytes_tuple; [exact S|apply (variant_word r vs v _ D F)|].
        apply IHn; [assert (depth x < depth (JObj [(v, x)])) by (apply (depth_obj _ v x); left; reflexivity); lia|exact Fx|exact (texts_obj _ T v x (or_introl eq_refl))|apply (HQ st S)].
    + rewrite form_unfold, D in H. discriminate.
Qed.
End Printed.

(** ** Errors *)
Lemma two_split : forall shown st name f g a b a' b' s s', encoded a -> encoded b -> encoded a' -> encoded b' ->
  (debug_struct st name [debug_field f (debug_str shown a); debug_field g (debug_str shown b)] ++ s =
   debug_struct st name [debug_field f (debug_str shown a'); debug_field g (debug_str shown b')] ++ s')%string -> a = a' /\ b = b' /\ s = s'.
Proof.
  intros shown st name f g a b a' b' s s' A B A' B' E. unfold debug_struct in E. rewrite !listed_cons in E. cbn [listed] in E. unfold debug_field in E.
  rewrite !sapp in E. do 5 apply append_inj_l in E. apply str_split in E as [-> E]; [|assumption..]. do 3 apply append_inj_l in E.
  apply str_split in E as [-> E]; [|assumption..]. apply append_inj_l in E. injection E as ->. repeat split; reflexivity.
Qed.
Lemma one_split : forall shown st name f a a' s s', encoded a -> encoded a' ->
  (debug_struct st name [debug_field f (debug_str shown a)] ++ s = debug_struct st name [debug_field f (debug_str shown a')] ++ s')%string -> a = a' /\ s = s'.
Proof.
  intros shown st name f a a' s s' A A' E. unfold debug_struct in E. cbn [listed] in E. unfold debug_field in E.
  rewrite !sapp in E. do 5 apply append_inj_l in E. apply str_split in E as [-> E]; [|assumption..]. apply append_inj_l in E. injection E as ->. split; reflexivity.
Qed.
Lemma pair_split : forall shown st name a b a' b' s s', encoded a -> encoded b -> encoded a' -> encoded b' ->
  ((name ++ opening st "" ++ listed st [debug_str shown a; debug_str shown b] ++ closing st "" ++ ")") ++ s =
   (name ++ opening st "" ++ listed st [debug_str shown a'; debug_str shown b'] ++ closing st "" ++ ")") ++ s')%string -> a = a' /\ b = b' /\ s = s'.
Proof.
  intros shown st name a b a' b' s s' A B A' B' E. rewrite !listed_cons in E. cbn [listed] in E.
  rewrite !sapp in E. do 2 apply append_inj_l in E. apply str_split in E as [-> E]; [|assumption..]. apply append_inj_l in E.
  apply str_split in E as [-> E]; [|assumption..]. apply append_inj_l in E. injection E as ->. repeat split; reflexivity.
Qed.
Theorem error_split : forall shown st a b s s', Forall encoded (error_texts a) -> Forall encoded (error_texts b) ->
  (debug_error shown st a ++ s = debug_error shown st b ++ s')%string -> a = b /\ s = s'.
Proof.
  intros shown st a b s s' A B E.
  assert (F2 : forall x y, Forall encoded [x; y] -> encoded x /\ encoded y) by (intros x y F; inversion F as [|? ? ? G]; inversion G; auto).
  assert (F1 : forall x, Forall encoded [x] -> encoded x) by (intros x F; inversion F; assumption).
  destruct a, b; cbn [error_texts] in A, B; try apply F2 in A as [A A']; try apply F2 in B as [B B']; try apply F1 in A; try apply F1 in B;
    try discriminate E; unfold debug_error in E; cbv zeta in E;
    first [apply two_split in E as (-> & -> & ->); [|assumption..] | apply one_split in E as (-> & ->); [|assumption..]
          | apply pair_split in E as (-> & -> & ->); [|assumption..] | injection E as ->]; split; reflexivity.
Qed.
