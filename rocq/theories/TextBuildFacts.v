(** Proofs about the building of texts. *)
From Coq Require Import String Ascii List Bool.
From Verif Require Import Base BaseFacts Xml Ast XmlParse XmlWrite Utils UtilsSpec UtilsFacts KnotFacts RoundTripSpec RoundTripLib RoundTripFacts LossFacts XmlSim
  TextBuild TextBuildSpec.
Import ListNotations.
Open Scope string_scope.
Open Scope list_scope.

Lemma add_text_app : forall a t, add_text a t = t ++ a.
Proof.
  unfold add_text. induction a as [|e a IH]; intros t; cbn [fold_left]; [symmetry; apply app_nil_r|].
  rewrite IH, <- app_assoc. reflexivity.
Qed.

Lemma shows_str : forall t s, shows t s -> text_str t = s.
Proof.
  intros t s H. induction H; unfold text_str in *; cbn [map te_str fold_right concat_strings] in *; try (rewrite <- IHshows; reflexivity).
  - reflexivity.
  - rewrite <- IHshows1, <- IHshows2. reflexivity.
Qed.

Lemma shows_of : forall t, (forall r, In (TE_Ruby r) t -> shows (ruby_text (un KRuby r)) (ruby_str r)) -> shows t (text_str t).
Proof.
  induction t as [|e t IH]; intros H; [constructor|].
  assert (S : shows t (text_str t)) by (apply IH; intros r Hr; apply H; right; exact Hr).
  destruct e as [r|l|x|x|x]; try (constructor; exact S).
  specialize (H r (or_introl eq_refl)).
  assert (E : exists b n, r = mkRuby (mkRubyF b n)).
  { rewrite <- (mk_un KRuby r). destruct (un KRuby r) as [b n]. exists b, n. reflexivity. }
  destruct E as (b & n & ->). apply (shows_ruby b n (ruby_str _)); [exact H|exact S].
Qed.

Lemma ruby_shown : forall k (x : Knot k), match k return Knot k -> Prop with
  | KRuby => fun r => shows (ruby_text (un KRuby r)) (ruby_str r) | _ => fun _ => True end x.
Proof.
  apply knot_ind. intros k f IH. destruct k; try exact I. rewrite un_mk. apply (shows_of (ruby_text f)).
  intros r Hr. apply (IH KRuby r). cbn. apply in_flat_map. exists (TE_Ruby r). split; [exact Hr|left; reflexivity].
Qed.
Theorem shown : forall t s, text_str t = s <-> shows t s.
Proof.
  intros t s. split; [|apply shows_str]. intros <-. apply shows_of. intros r _. exact (ruby_shown KRuby r).
Qed.

Lemma str_app : forall a b, text_str (a ++ b) = (text_str a ++ text_str b)%string.
Proof.
  intros a b. unfold text_str. induction a as [|e a IH]; [reflexivity|]. cbn [app map concat_strings fold_right] in *.
  unfold concat_strings in IH. rewrite IH, append_assoc_s. reflexivity.
Qed.
Lemma one_te : forall e, text_str [e] = te_str ruby_str e.
Proof. intros e. unfold text_str. cbn [map concat_strings fold_right]. apply append_nil_r_s. Qed.

(** What one call adds. *)
Definition brings (c : call) : Text Knot :=
  match c with
  | AddText t => t | AddString s => [TE_Text s] | AddRuby r => [TE_Ruby r] | AddLine l => [TE_Line l]
  | AddSup s => [TE_Sup s] | AddSub s => [TE_Sub s]
  end.
Lemma call_brings : forall c t, run_call c t = t ++ brings c.
Proof. intros [x|x|x|x|x|x] t; try reflexivity. apply add_text_app. Qed.
Theorem calls_bring : forall l t, run_calls l t = t ++ flat_map brings l.
Proof.
  unfold run_calls. induction l as [|c l IH]; intros t; cbn [fold_left flat_map]; [symmetry; apply app_nil_r|].
  rewrite IH, call_brings, <- app_assoc. reflexivity.
Qed.

Lemma adds_str : forall l s, adds l s -> text_str (flat_map brings l) = s.
Proof.
  intros l s H. induction H; cbn [flat_map brings]; [reflexivity|..]; rewrite str_app, IHadds; rewrite ?one_te; try reflexivity.
  - apply shown in H. rewrite H. reflexivity.
  - cbn [te_str]. f_equal. apply shown in H. exact H.
Qed.
Lemma adds_exists : forall l, exists s, adds l s.
Proof.
  induction l as [|c l [s H]]; [eexists; constructor|]. destruct c as [x|x|x|x|x|x]; try (eexists; constructor; eassumption).
  - exists (text_str x ++ s)%string. constructor; [apply shown; reflexivity|exact H].
  - pose proof (ruby_shown KRuby x) as S. cbv beta iota in S. rewrite <- (mk_un KRuby x) in *. rewrite un_mk in S.
    destruct (un KRuby x) as [b n]. eexists. apply adds_ruby; [exact S|exact H].
Qed.
Theorem calls_str : forall l t s, adds l s <-> text_str (run_calls l t) = (text_str t ++ s)%string.
Proof.
  intros l t s. rewrite calls_bring, str_app. split.
  - intros H. rewrite (adds_str _ _ H). reflexivity.
  - intros H. destruct (adds_exists l) as [s' Hs]. pose proof (adds_str _ _ Hs) as E. rewrite E in H.
    assert (s' = s) as <-; [|exact Hs]. clear - H. revert H. induction (text_str t) as [|c u IH]; cbn; [auto|].
    intros H. injection H as H. apply IH, H.
Qed.

(** Texts from calls. *)
Definition call_of (e : TextElement Knot) : call :=
  match e with
  | TE_Ruby r => AddRuby r | TE_Line l => AddLine l | TE_Sup s => AddSup s | TE_Sub s => AddSub s | TE_Text s => AddString s
  end.
Theorem built : forall t, exists l, Forall single l /\ run_calls l text_new = t /\
  forall l', Forall single l' -> run_calls l' text_new = t -> l' = l.
Proof.
  intros t. exists (map call_of t). split; [|split].
  - apply Forall_map, Forall_forall. intros [x|x|x|x|x] _; exact I.
  - rewrite calls_bring. cbn [text_new app]. induction t as [|[x|x|x|x|x] t IH]; cbn [map flat_map call_of brings app]; f_equal; assumption.
  - intros l' H E. rewrite calls_bring in E. cbn [text_new app] in E. subst t.
    induction H as [|c l' Hc H IH]; [reflexivity|]. cbn [flat_map]. rewrite map_app, <- IH.
    destruct c; try destruct Hc; reflexivity.
Qed.

(** The reader. *)
Theorem parser_is : forall e, text_parser e = from_children parse [NElement e].
Proof.
  intros e. unfold text_parser, from_children, text_table. cbn [run]. unfold lookup. cbn [assoc].
  destruct (String.eqb (name e) "Ruby"); [|destruct (String.eqb (name e) "Line"); [|destruct (String.eqb (name e) "Sup"); [|destruct (String.eqb (name e) "Sub")]]];
    unfold h_push_ok, if_ok, ok; [destruct (parse KRuby e)|destruct (parse KLine e)|destruct (parse_sup e)|destruct (parse_sub e)|]; reflexivity.
Qed.
Lemma text_handlers : forall c u, lookup skip (text_table parse) c = Ok u -> forall a t, u (a ++ t) = a ++ u t.
Proof.
  intros c u. unfold lookup, text_table. cbn [assoc].
  assert (Z : forall X (inj : X -> TextElement Knot) (p : Element -> R X), h_push_ok whole inj p c = Ok u ->
    forall a t, u (a ++ t) = a ++ u t).
  { intros X inj p H a t. unfold h_push_ok in H. apply bind_ok in H as [[v|] [_ H]]; injection H as <-;
      [unfold whole; rewrite <- app_assoc|]; reflexivity. }
  destruct (String.eqb (name c) "Ruby"); [apply Z|]. destruct (String.eqb (name c) "Line"); [apply Z|].
  destruct (String.eqb (name c) "Sup"); [apply Z|]. destruct (String.eqb (name c) "Sub"); [apply Z|].
  intros H a t. injection H as <-. reflexivity.
Qed.
Lemma from_start : forall l (a t : Text Knot), run (S := Text Knot) (fun s t => app t [TE_Text s]) skip (text_table parse) l (a ++ t) =
  bind (run (S := Text Knot) (fun s t => app t [TE_Text s]) skip (text_table parse) l t) (fun u => Ok (a ++ u : Text Knot)).
Proof.
  induction l as [|[c|x|o] l IH]; intros a t; cbn [run bind]; [reflexivity| |rewrite <- app_assoc; apply IH|apply IH].
  destruct (lookup skip (text_table parse) c) as [u|e|] eqn:L; cbn [bind]; try reflexivity.
  refine (eq_trans (f_equal _ (text_handlers c u L a t)) _). apply IH.
Qed.
Theorem read_app : forall a b, from_children parse (a ++ b) =
  bind (from_children parse a) (fun t => bind (from_children parse b) (fun u => Ok (t ++ u))).
Proof.
  intros a b. unfold from_children. rewrite run_app. apply bind_ext; [reflexivity|]. intros t.
  rewrite <- (app_nil_r t) at 1. apply from_start.
Qed.
Theorem write_app : forall a b, write_text_nodes write (a ++ b) = write_text_nodes write a ++ write_text_nodes write b.
Proof. intros a b. apply map_app. Qed.

(** The writing mode. *)
Theorem mode_str : forall m t, twm_str (with_writing_mode m t) = text_str t.
Proof.
  intros m t. unfold twm_str, with_writing_mode. cbn [twm_contents].
  assert (G : forall s, fold_left (fun s v => match v with
    | TE_Sub x => s ++ x | TE_Sup x => s ++ x | TE_Ruby r => s ++ ruby_str r | TE_Line _ => s | TE_Text x => s ++ x
    end)%string t s = (s ++ text_str t)%string).
  { induction t as [|e t IH]; intros s; cbn [fold_left]; [symmetry; apply append_nil_r_s|]. rewrite IH.
    change (e :: t) with ([e] ++ t). rewrite str_app, one_te. destruct e; cbn [te_str]; rewrite ?append_assoc_s; reflexivity. }
  apply G.
Qed.

(** Through XML. *)
Theorem tree_back : forall t, from_children parse (write_text_nodes write t) = Ok t <-> text_survives t.
Proof. intros t. rewrite text_survives_good. apply (text_nodes write parse write_name). Qed.
Lemma flat_direct : forall b, (forall e : TextElement Knot, In e b -> exists s, e = TE_Text s) ->
  forall rt, direct_text (mkElement "Ruby" [] (write_text_nodes write b ++ [NElement rt])) = text_str b.
Proof.
  intros b H rt. unfold direct_text. cbn [children]. induction b as [|e b IH]; [reflexivity|].
  destruct (H e (or_introl eq_refl)) as [s ->]. cbn [write_text_nodes map write_text_node app].
  unfold text_str. cbn [map te_str concat_strings fold_right]. cbn. f_equal. apply IH. intros y Hy. apply H. right; exact Hy.
Qed.
Theorem string_back : forall t t', flat t -> from_children parse (write_text_nodes write t) = Ok t' -> text_str t' = text_str t.
Proof.
  intros t t' Hf H. apply text_read_str in H. rewrite H. clear t' H. unfold text_str. f_equal.
  unfold write_text_nodes. rewrite map_map. apply map_ext_in. intros [r|l|s|s|s] Hin; try reflexivity.
  - cbn [write_text_node te_str inline_text]. rewrite write_name. cbn [tag_of String.eqb Ascii.eqb Bool.eqb].
    rewrite <- (mk_un KRuby r) in Hin |- *. destruct (un KRuby r) as [b n].
    rewrite write_unfold. apply (flat_direct b). exact (Hf b n Hin).
  - cbn [write_text_node te_str inline_text]. rewrite write_name. reflexivity.
Qed.

(** Texts that were read are flat. *)
Lemma ruby_flat : forall c b n, parse KRuby c = Ok (mkRuby (mkRubyF b n)) -> forall e, In e b -> exists s, e = TE_Text s.
Proof.
  intros c b n H. rewrite parse_unfold in H by exact I. cbn [pstep] in H. apply bind_ok in H as [f [Hf H]].
  injection H as H. apply (f_equal ruby_text) in H. cbn [ruby_text] in H. subst b.
  unfold parse_ruby, with_name in Hf. destruct (String.eqb _ _); [|discriminate Hf].
  apply bind_ok in Hf as [[t [r q]] [Hr Hf]]. injection Hf as <-. cbn [ruby_text].
  refine (run_inv _ (fun s => forall e, In e (fst s) -> exists s, e = TE_Text s) _ _ _ _ _ _ _ _ _ Hr); [| |intros e []].
  - intros d u _ L x Hx. unfold lookup in L. cbn [assoc] in L. destruct (String.eqb _ _) in L; injection L as <-; destruct x as [x1 [x2 x3]]; exact Hx.
  - intros a _ [x1 [x2 x3]] Hx e He. cbn in He. apply in_app_iff in He as [He|[<-|[]]]; [exact (Hx e He)|eexists; reflexivity].
Qed.
Theorem read_flat : forall l t, from_children parse l = Ok t -> flat t.
Proof.
  intros l t H. unfold from_children in H.
  refine (run_inv _ flat _ _ _ _ _ _ _ _ _ H); [| |intros b n []].
  - intros c u _ L x Hx b n Hin. unfold lookup, text_table in L. cbn [assoc] in L.
    assert (Z : forall X (inj : X -> TextElement Knot) (p : Element -> R X), h_push_ok whole inj p c = Ok u ->
      In (TE_Ruby (mkRuby (mkRubyF b n))) x \/ exists v, p c = Ok v /\ inj v = TE_Ruby (mkRuby (mkRubyF b n))).
    { intros X inj p G. unfold h_push_ok, ok in G. destruct (p c) as [v| |]; cbn [bind] in G; try discriminate G;
        injection G as <-; [|left; exact Hin]. unfold whole in Hin. apply in_app_iff in Hin as [Hin|[Hin|[]]]; eauto. }
    destruct (String.eqb (name c) "Ruby"); [destruct (Z _ _ _ L) as [L1|(v & Hv & E)]; [exact (Hx b n L1)|injection E as ->; exact (ruby_flat c b n Hv)]|].
    destruct (String.eqb (name c) "Line"); [destruct (Z _ _ _ L) as [L1|(v & Hv & E)]; [exact (Hx b n L1)|discriminate E]|].
    destruct (String.eqb (name c) "Sup"); [destruct (Z _ _ _ L) as [L1|(v & Hv & E)]; [exact (Hx b n L1)|discriminate E]|].
    destruct (String.eqb (name c) "Sub"); [destruct (Z _ _ _ L) as [L1|(v & Hv & E)]; [exact (Hx b n L1)|discriminate E]|].
    injection L as <-. exact (Hx b n Hin).
  - intros a _ x Hx b n Hin. apply in_app_iff in Hin as [Hin|[Hin|[]]]; [exact (Hx b n Hin)|discriminate Hin].
Qed.
