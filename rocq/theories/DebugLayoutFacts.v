(** The levels of [Debug.v] lay out values as the writer of [DebugLayoutSpec.v] does. *)
From Coq Require Import String Ascii List NArith Bool Lia Arith.
From Verif Require Import Base BaseFacts NumStr Ast Regex ApiSpec Utils Serde SerdeSpec SerdeLib SerdeFacts SerdeFacts2 Debug DebugSpec
  DebugFacts DebugFacts2 PropDebug DebugLayoutSpec.
Import ListNotations.
Open Scope string_scope.
Open Scope list_scope.

Lemma pad_app : forall a b, pad (a ++ b)%string = (pad a ++ pad b)%string.
Proof.
  induction a as [|c a IH]; intros b; [reflexivity|]. cbn [append pad]. rewrite IH. destruct (N.eqb _ _); [|reflexivity].
  cbn [append]. reflexivity.
Qed.
Lemma pad_clean : forall s, bytes (fun b => 32 <= b)%N s -> pad s = s.
Proof.
  induction s as [|c s IH]; [reflexivity|]. intros [H1 H2]. cbn [pad]. rewrite (IH H2).
  destruct (N.eqb_spec (N_of_ascii c) 10) as [E|_]; [rewrite E in H1; lia|reflexivity].
Qed.
Lemma pad_word : forall s, wordb s = true -> pad s = s.
Proof. intros s H. apply pad_clean. apply bytes_word; [intros n Hn; exact Hn|exact H]. Qed.
Lemma pad_indent : forall n, pad (indent n) = indent n.
Proof. induction n as [|n IH]; [reflexivity|]. cbn [indent append pad N_of_ascii]. cbn. rewrite IH. reflexivity. Qed.
Lemma pad_break : forall n, pad (newline ++ indent n)%string = (newline ++ indent (S n))%string.
Proof. intros n. unfold newline. cbn [append pad]. cbn. rewrite pad_indent. reflexivity. Qed.
Lemma pad_opening : forall n p, pad (opening (Pretty n) p) = opening (Pretty (S n)) p.
Proof. intros n p. unfold opening. apply pad_break. Qed.
Lemma pad_between : forall n, pad (between (Pretty n)) = between (Pretty (S n)).
Proof. intros n. unfold between. rewrite pad_app, pad_break. reflexivity. Qed.
Lemma pad_closing : forall n p, pad (closing (Pretty n) p) = closing (Pretty (S n)) p.
Proof. intros n p. unfold closing. rewrite pad_app, pad_break. reflexivity. Qed.
Lemma pad_listed : forall n l, pad (listed (Pretty n) l) = listed (Pretty (S n)) (map pad l).
Proof.
  intros n l. induction l as [|x [|y l] IH]; [reflexivity|reflexivity|]. cbn [map]. rewrite !listed_cons, !pad_app, IH, pad_between. reflexivity.
Qed.
Lemma pad_tuple : forall n v s, wordb v = true -> pad (debug_tuple (Pretty n) v s) = debug_tuple (Pretty (S n)) v (pad s).
Proof. intros n v s H. unfold debug_tuple. rewrite !pad_app, pad_opening, pad_closing, (pad_word v H). reflexivity. Qed.
Lemma pad_list : forall n l, pad (debug_list (Pretty n) l) = debug_list (Pretty (S n)) (map pad l).
Proof.
  intros n [|x l]; [reflexivity|]. unfold debug_list. rewrite !pad_app, pad_opening, pad_closing, pad_listed. reflexivity.
Qed.
Lemma pad_struct : forall n v l, wordb v = true -> pad (debug_struct (Pretty n) v l) = debug_struct (Pretty (S n)) v (map pad l).
Proof.
  intros n v [|x l] H; [apply pad_word, H|]. unfold debug_struct. rewrite !pad_app, pad_opening, pad_closing, pad_listed, (pad_word v H).
  reflexivity.
Qed.

Section Values.
Context (shown : N -> bool) (Hs : no_controls shown).
(** One level more is the same text, indented. *)
Lemma debug_pad : forall n t j k, depth j <= n -> form t j = Some j -> texts j ->
  pad (debug shown j t (Pretty k)) = debug shown j t (Pretty (S k)).
Proof.
  induction n as [|n IHn]; [intros t j k Hn; pose proof (depth_pos j); lia|].
  induction t as [| | |u IHu|u IHu|r]; intros j k Hn H T.
  - rewrite form_str in H. destruct j; try discriminate H. inversion T; subst. cbn [debug]. apply pad_clean.
    apply (bytes_str shown Hs (fun b => 32 <= b)%N (fun b Hb => Hb)). assumption.
  - rewrite form_bool in H. destruct j as [|b| | | | |]; try discriminate H. destruct b; reflexivity.
  - rewrite form_num in H. destruct j; try discriminate H. cbn [debug]. apply pad_word, number_word.
  - apply form_opt_own in H as [->|[N H]]; [reflexivity|]. rewrite !debug_opt by exact N. cbn [deeper].
    rewrite pad_tuple by reflexivity. rewrite IHu by assumption. reflexivity.
  - apply form_vec_own in H as (l & -> & H). cbn [debug deeper]. rewrite pad_list, map_map. f_equal. apply map_ext_in. intros x Hx.
    apply IHn; [apply depth_arr in Hx; lia|apply H; exact Hx|exact (texts_arr _ T x Hx)].
  - destruct (find_decl r declarations) as [[fs|vs]|] eqn:D.
    + destruct (form_struct r fs j D H) as (l & -> & F). rewrite !(debug_ref shown r fs l _ D).
      rewrite pad_struct by apply (struct_word r fs D). f_equal.
      assert (I : forall e, In e l -> depth (snd e) <= n /\ texts (snd e)).
      { intros [m x] Hx. split; [apply depth_obj in Hx; cbn [snd]; lia|exact (texts_obj _ T m x Hx)]. }
      assert (W : forall f, In f fs -> wordb (fst f) = true) by (intros [m t] Hf; exact (field_word r fs m t D Hf)).
      clear - F I W IHn. induction F as [|[m t] [m' x] fs l [K Fx] F IH]; [reflexivity|]. cbn [zipped map fst snd deeper] in *.
      destruct (I (m', x) (or_introl eq_refl)) as [I1 I2]. f_equal.
      * unfold debug_field. rewrite !pad_app, (pad_word m) by exact (W (m, t) (or_introl eq_refl)). rewrite IHn by assumption. reflexivity.
      * apply IH; [intros e He; apply I; right; exact He|intros f Hf; apply W; right; exact Hf].
    + destruct (form_enum r vs j D H) as [(v & -> & F)|(v & t & x & -> & F & Fx)].
      * rewrite !(debug_unit shown r vs v _ D). apply pad_word, (variant_word r vs v _ D F).
      * rewrite !(debug_variant shown r vs v t x _ D F). cbn [deeper]. rewrite pad_tuple by apply (variant_word r vs v _ D F).
        rewrite IHn; [reflexivity| |exact Fx|exact (texts_obj _ T v x (or_introl eq_refl))].
        assert (depth x < depth (JObj [(v, x)])) by (apply (depth_obj _ v x); left; reflexivity). lia.
    + rewrite form_unfold, D in H. discriminate.
Qed.

Lemma block_listed : forall l p q, l <> [] ->
  (opening (Pretty 0) p ++ listed (Pretty 0) (map pad l) ++ closing (Pretty 0) q)%string = block l.
Proof.
  intros l p q H. unfold block, opening. rewrite !sapp. f_equal.
  induction l as [|x [|y l] IH]; [congruence| |].
  - cbn [map listed]. rewrite concat_cons. unfold entry, closing. rewrite !sapp. reflexivity.
  - cbn [map] in *. rewrite listed_cons, concat_cons. unfold entry at 1. rewrite !sapp. rewrite <- IH by discriminate.
    unfold between. rewrite !sapp. reflexivity.
Qed.
Lemma debug_pretty : forall n t j, depth j <= n -> form t j = Some j -> texts j -> debug shown j t (Pretty 0) = pretty shown j t.
Proof.
  assert (P : forall t j, form t j = Some j -> texts j -> debug shown j t (Pretty 1) = pad (debug shown j t (Pretty 0))).
  { intros t j F T. symmetry. apply (debug_pad (depth j)); [apply Nat.le_refl|assumption..]. }
  assert (B : forall v x, debug_tuple (Pretty 0) v (pad x) = (v ++ "(" ++ block [x] ++ ")")%string).
  { intros v x. unfold debug_tuple. rewrite <- (block_listed [x] "" "") by discriminate. cbn [map listed]. rewrite !sapp. reflexivity. }
  induction n as [|n IHn]; [intros t j Hn; pose proof (depth_pos j); lia|].
  induction t as [| | |u IHu|u IHu|r]; intros j Hn H T.
  - rewrite form_str in H. destruct j; try discriminate H. reflexivity.
  - rewrite form_bool in H. destruct j; try discriminate H. reflexivity.
  - rewrite form_num in H. destruct j; try discriminate H. reflexivity.
  - apply form_opt_own in H as [->|[N H]]; [reflexivity|]. rewrite debug_opt by exact N. cbn [deeper]. rewrite P, B, IHu by assumption.
    destruct j; try congruence; reflexivity.
  - apply form_vec_own in H as (l & -> & H). cbn [debug deeper pretty]. destruct l as [|y l]; [reflexivity|].
    rewrite <- (block_listed (map (fun x => pretty shown x u) (y :: l)) "" "") by discriminate. unfold debug_list.
    cbn [map]. rewrite !sapp. rewrite map_map. f_equal. f_equal. f_equal.
    change (debug shown y u (Pretty 1) :: map (fun x => debug shown x u (Pretty 1)) l) with (map (fun x => debug shown x u (Pretty 1)) (y :: l)).
    change (pad (pretty shown y u) :: map (fun x => pad (pretty shown x u)) l) with (map (fun x => pad (pretty shown x u)) (y :: l)).
    f_equal. apply map_ext_in. intros x Hx. rewrite P, IHn; [reflexivity|apply depth_arr in Hx; lia|apply H; exact Hx|exact (texts_arr _ T x Hx)|apply H; exact Hx|exact (texts_arr _ T x Hx)].
  - destruct (find_decl r declarations) as [[fs|vs]|] eqn:D.
    + destruct (form_struct r fs j D H) as (l & -> & F). rewrite (debug_ref shown r fs l _ D). cbn [pretty]. rewrite D.
      assert (I : forall e, In e l -> depth (snd e) <= n /\ texts (snd e)).
      { intros [m x] Hx. split; [apply depth_obj in Hx; cbn [snd]; lia|exact (texts_obj _ T m x Hx)]. }
      assert (W : forall f, In f fs -> wordb (fst f) = true) by (intros [m t] Hf; exact (field_word r fs m t D Hf)).
      set (fields := fix fields (fs : list (string * sty)) (l : list (string * json)) {struct l} : list string :=
        match fs, l with
        | (n, t) :: fs', (_, x) :: l' => (n ++ ": " ++ pretty shown x t)%string :: fields fs' l'
        | _, _ => []
        end).
      assert (E : zipped shown (Pretty 0) fs l = map pad (fields fs l)).
      { clear - F I W IHn P. induction F as [|[m t] [m' x] fs l [K Fx] F IH]; [reflexivity|]. cbn [zipped map fst snd deeper fields] in *.
        destruct (I (m', x) (or_introl eq_refl)) as [I1 I2]. f_equal.
        - unfold debug_field. rewrite !pad_app, (pad_word m) by exact (W (m, t) (or_introl eq_refl)). rewrite P, IHn by assumption. reflexivity.
        - apply IH; [intros e He; apply I; right; exact He|intros f Hf; apply W; right; exact Hf]. }
      rewrite E. destruct fs as [|f fs]; [inversion F; subst; reflexivity|].
      assert (Z : fields (f :: fs) l <> []) by (inversion F; subst; destruct f, y; discriminate).
      rewrite <- (block_listed (fields (f :: fs) l) " " " ") by exact Z. unfold debug_struct.
      destruct (fields (f :: fs) l) as [|a b]; [congruence|]. cbn [map]. rewrite !sapp. reflexivity.
    + destruct (form_enum r vs j D H) as [(v & -> & F)|(v & t & x & -> & F & Fx)].
      * rewrite (debug_unit shown r vs v _ D). cbn [pretty]. rewrite D. reflexivity.
      * pose proof (texts_obj _ T v x (or_introl eq_refl)) as Tx.
        rewrite (debug_variant shown r vs v t x _ D F). cbn [deeper pretty]. rewrite D, F, P, B, IHn by
          (assumption || (assert (depth x < depth (JObj [(v, x)])) by (apply (depth_obj _ v x); left; reflexivity); lia)). reflexivity.
    + rewrite form_unfold, D in H. discriminate.
Qed.
End Values.
