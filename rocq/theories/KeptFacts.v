(** Documents whose readings survive: plain ones, and everything the writer writes. *)
From Coq Require Import String Ascii List Arith NArith Bool Lia.
From Verif Require Import Base NumStr NumStrSpec BaseFacts NumStrFacts Xml Ast XmlWrite XmlParse
  RoundTripSpec KnotFacts XmlSpec XmlSim RoundTripLib RoundTripFacts LossFacts GrammarSpec GrammarFacts ReadSpec ReadFacts PlainSpec StableFacts PartsFacts.
Import ListNotations.
Open Scope string_scope.
Open Scope list_scope.

(** ** One element *)
Definition kept_here (e : Element) : Prop :=
  (forall v, parse KRemarks e <> Ok v) /\ (forall v, parse KSupplTable e <> Ok v) /\ (forall v, parse KSupplAppdx e <> Ok v) /\
  (name e = "ArithFormula" -> get e "Num" = None) /\
  (name e = "AmendProvision" -> ~ has_child e "NewProvision") /\
  (name e = "Appdx" -> ~ has_child e "RelatedArticleNum") /\
  (name e = "TOC" -> ~ has_child e "TOCPreambleLabel") /\
  (name e = "TableColumn" -> get e "Align" = None /\ get e "Valign" = None) /\
  (In (name e) (provision_tags ++ item_tags) -> forall s n, get e "Num" = Some s -> from_num_str s = Ok n -> an_ok n = true) /\
  (In (name e) item_tags -> forall s, get e "Num" = Some s -> exists n, from_num_str s = Ok n).
Definition kept (e : Element) : Prop := forall c, inside c e -> kept_here c.

Lemma kept_child : forall e c, kept e -> In (NElement c) (children e) -> kept c.
Proof. intros e c H Hc d Hd. apply H. eapply inside_below; eassumption. Qed.

Lemma kept_intro : forall n a cs, kept_here (mkElement n a cs) -> (forall c, In (NElement c) cs -> kept c) -> kept (mkElement n a cs).
Proof. intros n a cs H1 H2 c Hc. inversion Hc; subst; [exact H1|]. eapply H2; eassumption. Qed.

Lemma not_ok_pstep : forall k e, (forall v, parse k e <> Ok v) -> well_tagged k e -> forall f, pstep parse k e <> Ok f.
Proof. intros k e H Hw f Hf. apply (H (mk k f)). rewrite parse_unfold by exact Hw. rewrite Hf. reflexivity. Qed.

Theorem kept_survives : forall e k v, kept e -> well_tagged k e -> parse k e = Ok v -> survives k v.
Proof.
  intros e. induction e as [e IH] using element_ind_height. intros k v Hk Hw H.
  destruct (parse_inv k e v Hw H) as (f & Hf & ->). apply survives_unfold.
  pose proof (Hk e (inside_here e)) as (R1 & R2 & R3 & L1 & L2 & L3 & L4 & L5 & L6 & L7).
  destruct (step_all parse (fun k x => survives k x) (fun c => kept c /\ height c < height e)) with (e := e) (k := k) (f := f) as [S1 S2];
    try assumption.
  - intros d c [H1 H2] Hc. split; [eapply kept_child; eassumption|]. apply height_child in Hc. lia.
  - intros j c w [H1 H2] Hj Hp. eapply IH; eassumption.
  - intros c [H1 _]. apply (H1 c (inside_here c)).
  - intros c w [H1 _]. apply (H1 c (inside_here c)).
  - intros c Hc. split; [eapply kept_child; eassumption|apply height_child, Hc].
  - apply not_ok_pstep; [exact R1|exact I].
  - apply not_ok_pstep; [exact R2|exact I].
  - apply not_ok_pstep; [exact R3|exact I].
  - split; [exact S1|]. intros j y Hy. rewrite (collect_kids _ (fun k x => survives k x)) in S2. apply (proj1 (allp_map _ _ _) S2 (node j y) Hy).
Qed.

(** ** Plain documents *)
Lemma an_ok_of : forall s n, from_num_str s = Ok n -> range_end_numbers n = [] \/ (exists m, eda_numbers n = [m]) -> an_ok n = true.
Proof.
  intros s n H D. apply from_num_str_usize in H as (H1 & H2 & H3). apply forallb_usizes in H2, H3.
  unfold an_ok. rewrite H1, H2, H3. cbn [andb]. destruct D as [->|(m & ->)]; [reflexivity|]. destruct (range_end_numbers n); reflexivity.
Qed.
Lemma wrong_name : forall k t e v, match k with KRemarks => t = "Remarks" | KSupplTable => t = "SupplProvisionAppdxTable"
    | KSupplAppdx => t = "SupplProvisionAppdx" | _ => False end -> parse k e = Ok v -> name e = t.
Proof.
  intros k t e v Hk H. assert (Hw : well_tagged k e) by (destruct k; exact I || contradiction).
  destruct (parse_inv k e v Hw H) as (f & Hf & _). destruct k; try contradiction; subst t; cbn [pstep] in Hf.
  - unfold parse_remarks in Hf. peel Hf. assumption.
  - unfold parse_suppl_table, parse_suppl_ts in Hf. peel Hf. assumption.
  - unfold parse_suppl_appdx in Hf. peel Hf. assumption.
Qed.

Lemma plain_kept : forall e, plain_document e -> kept e.
Proof.
  intros e H c Hc. pose proof (H c Hc) as (H1 & H2 & H3 & H4 & H5 & H6).
  assert (Hin : forall d, In (NElement d) (children c) -> inside d e).
  { clear -Hc. intros d Hd. induction Hc; [eapply inside_below; [exact Hd|constructor]|]. eapply inside_below; [exact H|]. auto. }
  repeat split.
  - intros v Hv. eapply wrong_name in Hv; [|reflexivity]. apply H1. rewrite Hv. cbn. tauto.
  - intros v Hv. eapply wrong_name in Hv; [|reflexivity]. apply H1. rewrite Hv. cbn. tauto.
  - intros v Hv. eapply wrong_name in Hv; [|reflexivity]. apply H1. rewrite Hv. cbn. tauto.
  - exact H3.
  - intros _ (d & Hd & Hn). destruct (H d (Hin d Hd)) as (D & _). apply D. rewrite Hn. cbn. tauto.
  - exact H2.
  - intros _ (d & Hd & Hn). destruct (H d (Hin d Hd)) as (D & _). apply D. rewrite Hn. cbn. tauto.
  - apply H4. assumption.
  - apply H4. assumption.
  - intros Ht s n Hs Hn. eapply an_ok_of; [exact Hn|]. apply (H5 Ht s Hs (base_number n)). apply from_num_str_spec, Hn.
  - intros Ht s Hs. destruct (H6 Ht s Hs) as (b & ed & r & Hr). exists (mkAN b ed r). apply from_num_str_C03, Hr.
Qed.

(** ** What the writer writes *)
Lemma num_str_kept : forall a n, from_num_str (num_str a) = Ok n -> an_ok n = true.
Proof.
  intros [b ed r] n H. eapply an_ok_of; [exact H|].
  destruct r as [|r1 r]; [|destruct ed as [|e1 es]].
  - left. rewrite num_str_norange in H. unfold from_num_str in H. rewrite split_none in H.
    + apply bind_ok in H as (ns & _ & H). destruct ns; [discriminate|]. injection H as <-. reflexivity.
    + clear. apply all_chars_app. split.
      * apply all_chars_impl with (2 := usize_to_string_chars b). intros c [H1 H2] ->. vm_compute in H2. congruence.
      * induction ed as [|x ed IH]; [exact I|]. unfold und in *. cbn [map concat_strings fold_right]. rewrite !all_chars_app.
        repeat split; [discriminate| |exact IH].
        apply all_chars_impl with (2 := usize_to_string_chars x). intros c [H1 H2] ->. vm_compute in H2. congruence.
  - left. rewrite num_str_noeda in H. unfold from_num_str in H. rewrite split_none in H.
    + apply bind_ok in H as (ns & _ & H). destruct ns; [discriminate|]. injection H as <-. reflexivity.
    + cbn. rewrite append_nil_r_s. apply all_chars_impl with (2 := usize_to_string_chars b). intros c [H1 H2] ->. vm_compute in H2. congruence.
  - right.
    assert (D : forall x, all_chars (fun c => c <> ":"%char) (usize_to_string x)).
    { intros x. apply all_chars_impl with (2 := usize_to_string_chars x). intros c [H1 H2] ->. vm_compute in H2. congruence. }
    assert (U : forall x, all_chars (fun c => c <> "_"%char) (usize_to_string x)).
    { intros x. apply all_chars_impl with (2 := usize_to_string_chars x). intros c [H1 H2] ->. vm_compute in H2. congruence. }
    assert (E : exists rest, num_str (mkAN b (e1 :: es) (r1 :: r)) = ((usize_to_string b ++ "_" ++ usize_to_string e1) ++ String ":" rest)%string).
    { eexists. unfold num_str. cbn [base_number eda_numbers range_end_numbers map concat_strings fold_right range_str].
      rewrite !append_assoc_s. cbn [append]. reflexivity. }
    destruct E as (rest & E). rewrite E in H. unfold from_num_str in H. rewrite split_app in H.
    + cbn [append] in H. rewrite split_app in H by apply U. rewrite split_none in H by apply U.
      cbn [parse_pieces] in H. unfold parse_piece in H.
      destruct (parse_usize (usize_to_string b)); [|discriminate]. cbn [bind] in H.
      destruct (parse_usize (usize_to_string e1)) as [m|]; [|discriminate]. cbn [bind] in H.
      destruct (split ":" rest) as [|s2 l2].
      * injection H as <-. cbn. eauto.
      * apply bind_ok in H as (rs & _ & H). injection H as <-. cbn. eauto.
    + rewrite !all_chars_app. repeat split; [apply D|discriminate|apply D].
Qed.

Definition harmless (n : string) : bool :=
  negb (existsb (String.eqb n) (["Remarks"; "SupplProvisionAppdxTable"; "SupplProvisionAppdx"; "ArithFormula"; "AmendProvision"; "Appdx"; "TOC";
    "TableColumn"] ++ provision_tags ++ item_tags)).
Lemma harmless_not : forall n l, harmless n = true ->
  (forall m, In m l -> In m (["Remarks"; "SupplProvisionAppdxTable"; "SupplProvisionAppdx"; "ArithFormula"; "AmendProvision"; "Appdx"; "TOC";
    "TableColumn"] ++ provision_tags ++ item_tags)) -> ~ In n l.
Proof.
  intros n l H Hl Hn. unfold harmless in H. apply negb_true_iff in H. apply not_true_iff_false in H. apply H.
  apply existsb_exists. exists n. split; [apply Hl, Hn|apply String.eqb_refl].
Qed.
Lemma harmless_kept : forall e, harmless (name e) = true -> kept_here e.
Proof.
  intros e H.
  assert (N : forall t, In t ["Remarks"; "SupplProvisionAppdxTable"; "SupplProvisionAppdx"; "ArithFormula"; "AmendProvision"; "Appdx"; "TOC";
    "TableColumn"] -> name e <> t).
  { intros t Ht E. apply (harmless_not (name e) [t] H); [|left; congruence]. intros m [<-|[]]. apply in_or_app. left. exact Ht. }
  repeat split.
  - intros v Hv. eapply wrong_name in Hv; [|reflexivity]. revert Hv. apply N. cbn. tauto.
  - intros v Hv. eapply wrong_name in Hv; [|reflexivity]. revert Hv. apply N. cbn. tauto.
  - intros v Hv. eapply wrong_name in Hv; [|reflexivity]. revert Hv. apply N. cbn. tauto.
  - intros E. exfalso. revert E. apply N. cbn. tauto.
  - intros E. exfalso. revert E. apply N. cbn. tauto.
  - intros E. exfalso. revert E. apply N. cbn. tauto.
  - intros E. exfalso. revert E. apply N. cbn. tauto.
  - exfalso. revert H0. apply N. cbn. tauto.
  - exfalso. revert H0. apply N. cbn. tauto.
  - intros E. exfalso. revert E. apply harmless_not; [exact H|]. intros m Hm. apply in_or_app. right. exact Hm.
  - intros E. exfalso. revert E. apply harmless_not; [exact H|]. intros m Hm. apply in_or_app. right. apply in_or_app. right. exact Hm.
Qed.
(** Elements read by none of the three kinds, and of one special tag. *)
Lemma not_unreadable : forall e, ~ In (name e) ["Remarks"; "SupplProvisionAppdxTable"; "SupplProvisionAppdx"] ->
  (forall v, parse KRemarks e <> Ok v) /\ (forall v, parse KSupplTable e <> Ok v) /\ (forall v, parse KSupplAppdx e <> Ok v).
Proof.
  intros e H. split; [|split]; intros v Hv; eapply wrong_name in Hv; try reflexivity; apply H; rewrite Hv; cbn; tauto.
Qed.

Section Nodes.
Context {K : kind -> Type} (w : forall k, K k -> Element).
Context (good : forall k, K k -> Prop).
Hypothesis Hgood : forall k x, good k x -> kept (w k x).
Definition all_kept (l : list XMLNode) : Prop := forall c, In (NElement c) l -> kept c.
Lemma ak_nil : all_kept [].
Proof. intros c []. Qed.
Lemma ak_el : forall c l, kept c -> all_kept l -> all_kept (NElement c :: l).
Proof. intros c l H1 H2 d [E|Hd]; [injection E as <-; exact H1|apply H2, Hd]. Qed.
Lemma ak_app : forall l m, all_kept l -> all_kept m -> all_kept (l ++ m).
Proof. intros l m H1 H2 c Hc. apply in_app_or in Hc as [Hc|Hc]; auto. Qed.
Lemma ak_els : forall X (f : X -> Element) l, (forall x, In x l -> kept (f x)) -> all_kept (els f l).
Proof. intros X f l H c Hc. apply in_els in Hc as (x & Hx & ->). apply H, Hx. Qed.
Lemma ak_els_map : forall k l, allp (map (good k) l) -> all_kept (els (w k) l).
Proof. intros k l H. apply ak_els. intros x Hx. apply Hgood. apply (proj1 (allp_map _ _ _) H x Hx). Qed.
Lemma allp_flat : forall X (cc : X -> list Prop) l, allp (flat_map cc l) -> forall x, In x l -> allp (cc x).
Proof.
  intros X cc l. induction l as [|y l IH]; intros H x Hx; [destruct Hx|]. cbn [flat_map] in H. apply allp_app in H as [H1 H2].
  destruct Hx as [<-|Hx]; [exact H1|apply IH; assumption].
Qed.
Lemma ak_els_flat : forall X (cc : X -> list Prop) (f : X -> Element) l, (forall x, allp (cc x) -> kept (f x)) ->
  allp (flat_map cc l) -> all_kept (els f l).
Proof. intros X cc f l Hf H. apply ak_els. intros x Hx. apply Hf. apply (allp_flat _ _ _ H x Hx). Qed.
Lemma ak_map_flat : forall X (cc : X -> list Prop) (f : X -> XMLNode) l, (forall x c, allp (cc x) -> f x = NElement c -> kept c) ->
  allp (flat_map cc l) -> all_kept (map f l).
Proof. intros X cc f l Hf H c Hc. apply in_map_iff in Hc as (x & E & Hx). eapply Hf; [|exact E]. apply (allp_flat _ _ _ H x Hx). Qed.
Lemma ak_opt : forall X (cc : X -> list Prop) (f : X -> Element) o, (forall x, allp (cc x) -> kept (f x)) ->
  allp (c_opt cc o) -> all_kept (el_opt f o).
Proof. intros X cc f [x|] Hf H; [apply ak_el; [apply Hf, H|apply ak_nil]|apply ak_nil]. Qed.

Lemma wrap : forall n a cs, harmless n = true -> all_kept cs -> kept (mkElement n a cs).
Proof. intros n a cs Hn H. apply kept_intro; [apply harmless_kept; exact Hn|exact H]. Qed.

Lemma text_nodes_kept : forall t, allp (c_text good t) -> all_kept (write_text_nodes w t).
Proof.
  intros t. apply ak_map_flat. intros [] c H E; cbn in E; try discriminate; injection E as <-; cbn in H; try apply Hgood, H;
    (apply wrap; [reflexivity|intros d [D|[]]; discriminate]).
Qed.
Lemma text_kept : forall n t, harmless n = true -> allp (c_text good t) -> kept (write_text w n t).
Proof. intros n t Hn H. apply wrap; [exact Hn|apply text_nodes_kept, H]. Qed.
Lemma twm_kept : forall n t, harmless n = true -> allp (c_twm good t) -> kept (write_twm w n t).
Proof. intros n t Hn H. apply wrap; [exact Hn|apply text_nodes_kept, H]. Qed.
Lemma caption_kept : forall n t, harmless n = true -> allp (c_caption good t) -> kept (write_caption w n t).
Proof. intros n t Hn H. apply wrap; [exact Hn|apply text_nodes_kept, H]. Qed.
Lemma sct_kept : forall n s, harmless n = true -> allp (c_sct good s) -> kept (write_sct w n s).
Proof.
  intros n s Hn H. apply wrap; [exact Hn|]. destruct s; cbn [c_sct] in H.
  - apply ak_els_map, H. - apply ak_els_map, H. - apply ak_el; [apply Hgood, H|apply ak_nil].
Qed.
Lemma sup_kept : forall s, kept (write_sup s).
Proof. intros s. apply wrap; [reflexivity|intros d [D|[]]; discriminate]. Qed.
Lemma sub_kept : forall s, kept (write_sub s).
Proof. intros s. apply wrap; [reflexivity|intros d [D|[]]; discriminate]. Qed.
Lemma fig_kept : forall s, kept (write_fig s).
Proof. intros s. apply wrap; [reflexivity|apply ak_nil]. Qed.
Lemma any_struct_kept : forall s, allp (c_any_struct good s) -> kept (write_struct_any w s).
Proof. intros [] H; apply Hgood, H. Qed.

Ltac nm := repeat match goal with l : lvl |- _ => destruct l | l : llvl |- _ => destruct l | s : sname |- _ => destruct s end; reflexivity.
Ltac leafk :=
  match goal with
  | |- all_kept (_ ++ _) => apply ak_app
  | |- all_kept (NElement _ :: _) => apply ak_el
  | |- all_kept [] => apply ak_nil
  | H : allp (map _ ?l) |- all_kept (els (w _) ?l) => apply ak_els_map, H
  | H : allp (c_opt _ ?o) |- all_kept (el_opt _ ?o) => refine (ak_opt _ _ _ _ _ H); intros ? ?
  | H : allp (flat_map _ ?l) |- all_kept (els _ ?l) => refine (ak_els_flat _ _ _ _ _ H); intros ? ?
  | H : allp (flat_map _ ?l) |- all_kept (map _ ?l) => refine (ak_map_flat _ _ _ _ _ H); intros ? ? ? ?
  | H : allp (c_text good ?t) |- kept (write_text w _ ?t) => apply text_kept; [nm|exact H]
  | H : allp (c_twm good ?t) |- kept (write_twm w _ ?t) => apply twm_kept; [nm|exact H]
  | H : allp (c_caption good ?t) |- kept (write_caption w _ ?t) => apply caption_kept; [nm|exact H]
  | H : allp (c_sct good ?t) |- kept (write_sct w _ ?t) => apply sct_kept; [nm|exact H]
  | H : allp (c_any_struct good ?s) |- kept (write_struct_any w ?s) => apply any_struct_kept, H
  | H : allp [good _ ?x] |- kept (w _ ?x) => exact (Hgood _ _ (proj1 H))
  | H : good _ ?x |- kept (w _ ?x) => exact (Hgood _ _ H)
  | |- kept (write_sup _) => apply sup_kept
  | |- kept (write_sub _) => apply sub_kept
  | |- kept (write_fig _) => apply fig_kept
  | H : good (KCont CArith) (af_contents ?a) |- kept (write_arith w ?a) => exact (Hgood _ _ H)
  | |- all_kept [NText _] => intros ? [D|[]]; discriminate
  | H : allp (c_text good ?t) |- all_kept (write_text_nodes w ?t) => apply text_nodes_kept, H
  | |- kept (write_header_row w _) => unfold write_header_row
  | |- kept (mkElement _ _ _) => apply wrap; [nm|]
  end.
Ltac splitk := repeat match goal with
  | H : allp (_ ++ _) |- _ => apply allp_app in H as [? ?]
  | H : allp (_ :: _) |- _ => destruct H
  | H : _ /\ _ |- _ => destruct H
  end.
Ltac goal_unfold := cbn [wstep]; unfold write_ruby, write_line, write_cont, write_sentence, write_column, write_table, write_table_row,
  write_table_column, write_remarks, write_cstruct, write_fig_struct, write_table_struct, write_struct, write_list, write_class, write_item,
  write_paragraph, write_article, write_head, write_amend, write_law_title, write_preamble, write_main, write_suppl, write_suppl_table,
  write_suppl_style, write_suppl_ts, write_suppl_appdx, write_appdx_t, write_appdx, write_appdx_fig, write_toc, write_toc_head,
  write_toc_article, write_toc_suppl, write_law_body; cbn [children].

Lemma nodes_kept : forall k f, allp (collect good k f) -> all_kept (children (wstep w k f)).
Proof.
  destruct k; intros f H; cbn [collect] in H;
    unfold c_struct, c_head, c_sts, c_appdx_t, c_toc_head in H; splitk; goal_unfold; repeat leafk.
  all: try match goal with
    | E : ?f ?x = NElement ?c, H : allp _ |- kept ?c => destruct x; cbn in E, H; try discriminate; injection E as <-
    | H : allp (_ ?x) |- kept (?f ?x) => destruct x; cbn in H; cbn [write_remarks_node write_list_sentence write_part_node write_chapter_node
        write_section_node write_subsection_node write_new_provision write_main_node write_suppl_node write_appdx_table_node
        write_appdx_note_node write_appdx_fig_node write_toc_section_node write_toc_suppl_node write_toc_main_node]
    end; splitk; repeat leafk.
  - destruct f.
  - destruct (sp_label f) eqn:El; repeat leafk.
  - cbn in *. apply Hgood. assumption.
  - cbn in *. apply Hgood. assumption.
  - destruct x.
Qed.
End Nodes.

(** The number of an item is a machine integer in every component. *)
Definition item_num_here (k : kind) : F Knot k -> Prop :=
  match k return F Knot k -> Prop with
  | KItem _ => fun f => forall a, it_num f = Some a -> an_usize a
  | _ => fun _ => True
  end.

Lemma num_str_readable : forall a, an_usize a -> exists n, from_num_str (num_str a) = Ok n.
Proof.
  intros [b ed r] H. destruct r as [|r1 r]; [exists (mkAN b ed []); apply num_str_roundtrip_norange; [exact H|reflexivity]|].
  destruct ed as [|e1 [|e2 es]].
  - exists (mkAN b [] []). rewrite num_str_noeda. change (usize_to_string b ++ und [])%string with (num_str (mkAN b [] [])).
    apply num_str_roundtrip_norange; [|reflexivity]. destruct H as (H1 & _ & _). repeat split; [exact H1|constructor|constructor].
  - eexists. apply num_str_roundtrip_one, H.
  - eexists. apply num_str_two, H.
Qed.

Lemma unread_here : forall k f,
  (forall v, parse KRemarks (wstep write k f) <> Ok v) /\ (forall v, parse KSupplTable (wstep write k f) <> Ok v) /\
  (forall v, parse KSupplAppdx (wstep write k f) <> Ok v).
Proof.
  intros k f. rewrite <- write_unfold.
  destruct k; try (apply not_unreadable; rewrite write_name; cbn; intuition discriminate);
    try (apply not_unreadable; rewrite write_name; match goal with x : _ |- context [tag_of (_ ?y)] => destruct y end; cbn; intuition discriminate).
  - split; [apply remarks_unreadable|]. split; intros v Hv; eapply wrong_name in Hv; try reflexivity; rewrite write_name in Hv; discriminate.
  - split; [intros v Hv; eapply wrong_name in Hv; try reflexivity; rewrite write_name in Hv; discriminate|].
    split; [intros v; rewrite suppl_table_unreadable; discriminate|].
    intros v Hv; eapply wrong_name in Hv; try reflexivity; rewrite write_name in Hv; discriminate.
Qed.


Ltac dk := match goal with x : cname |- _ => destruct x | x : sname |- _ => destruct x | x : llvl |- _ => destruct x | x : lvl |- _ => destruct x end.
Lemma in_opt : forall X (f : X -> Element) o c, In (NElement c) (el_opt f o) -> exists x, c = f x.
Proof. intros X f o c H. destruct o as [x|]; [destruct H as [E|[]]|destruct H]. injection E as <-. eauto. Qed.
Ltac no_child := let c := fresh "c" in let Hc := fresh "Hc" in let E := fresh "E" in
  intros (c & Hc & E); cbn [children] in Hc;
  repeat (apply in_app_or in Hc as [Hc|Hc]);
  first [apply in_opt in Hc as (? & ->)|apply in_els in Hc as (? & ? & ->)];
  try discriminate E; try (unfold write_arith in E; rewrite write_name in E; discriminate E);
  try (match type of E with name (_ ?x) = _ => destruct x end; cbn in E; rewrite write_name in E; discriminate E).

Lemma written_num : forall k f s n, In (tag_of k) (provision_tags ++ item_tags) -> get (wstep write k f) "Num" = Some s ->
  from_num_str s = Ok n -> an_ok n = true.
Proof.
  intros k f s n Hk Hs Hn.
  assert (E : exists a, s = num_str a).
  { destruct k; cbn in Hk; try (exfalso; intuition discriminate);
      try (exfalso; dk; cbn in Hk; intuition discriminate).
    all: clear Hk; cbn [wstep] in Hs; unfold write_item, write_paragraph, write_article, write_head, write_toc_head, write_toc_article in Hs.
    all: try (match type of Hs with get ?x "Num" = _ => assert (A : exists a, get x "Num" = Some (num_str a)) by (eexists; at_tac) end;
      destruct A as (a & A); rewrite A in Hs; injection Hs as <-; eauto).
    match type of Hs with get ?x _ = _ => assert (A : get x "Num" = option_map num_str (it_num f)) by at_tac end.
    rewrite A in Hs. destruct (it_num f) as [a|]; [|discriminate]. injection Hs as <-. eauto. }
  destruct E as (a & ->). eapply num_str_kept, Hn.
Qed.

Lemma write_kept_here : forall k f, item_num_here k f -> kept_here (wstep write k f).
Proof.
  intros k f Hi. pose proof (unread_here k f) as (R1 & R2 & R3).
  assert (Hn : name (wstep write k f) = tag_of k) by (rewrite <- write_unfold; apply write_name).
  unfold kept_here. split; [exact R1|]. split; [exact R2|]. split; [exact R3|]. clear R1 R2 R3. rewrite Hn.
  repeat split.
  - intros E. destruct k; try discriminate; try (dk; discriminate). destruct c; try discriminate. reflexivity.
  - intros E. destruct k; try discriminate; try (dk; discriminate). cbn [wstep]. unfold write_amend. no_child.
  - intros E. destruct k; try discriminate; try (dk; discriminate).
    + cbn [wstep]. unfold write_suppl_appdx. no_child.
    + cbn [wstep]. unfold write_appdx. no_child.
  - intros E. destruct k; try discriminate; try (dk; discriminate).
    cbn [wstep]. unfold write_toc. no_child.
  - destruct k; try discriminate; try (dk; discriminate). cbn [wstep]. unfold write_table_column. at_tac.
  - destruct k; try discriminate; try (dk; discriminate). cbn [wstep]. unfold write_table_column. at_tac.
  - intros E s n Hs Hf. eapply written_num; eassumption.
  - intros E s Hs. destruct k; cbn in E; try (exfalso; intuition discriminate);
      try (exfalso; dk; cbn in E; intuition discriminate).
    cbn [wstep] in Hs. assert (A : get (write_item write l f) "Num" = option_map num_str (it_num f)) by (unfold write_item; at_tac).
    rewrite A in Hs. destruct (it_num f) as [a|] eqn:Ea; [|discriminate]. injection Hs as <-. apply num_str_readable. apply (Hi a Ea).
Qed.

Lemma usize_an : forall a, Forall (fun n => n < 2 ^ 64)%N (base_number a :: eda_numbers a ++ range_end_numbers a) -> an_usize a.
Proof.
  intros a H. inversion H as [|? ? H1 H2]; subst. apply Forall_app in H2 as [H2 H3].
  split; [apply is_usize_spec, H1|]. split; apply usizes_lt; assumption.
Qed.

(** Every item number in a structure is made of machine integers, as [usize] guarantees. *)
Lemma write_kept : forall k x, item_nums k x -> kept (write k x).
Proof.
  intros k x. pattern k, x. revert k x. apply knot_ind. intros k f IH Hi. rewrite write_unfold.
  assert (Hf : item_num_here k f).
  { destruct k; try exact I. intros a Ha. apply usize_an. apply (Hi l (mk (KItem l) f) a); [constructor|]. rewrite un_mk. exact Ha. }
  assert (Hk : forall c, In (NElement c) (children (wstep write k f)) -> kept c).
  { apply (nodes_kept write (fun j y => kept (write j y))); [auto|].
    rewrite (collect_kids _ (fun j y => kept (write j y))). apply allp_map. intros [j y] Hy. cbn [projT1 projT2].
    apply IH; [exact Hy|]. intros l z a Hz Ha. apply (Hi l z a); [|exact Ha]. eapply part_kid; [|exact Hz]. rewrite un_mk. exact Hy. }
  pose proof (write_kept_here k f Hf) as Hh. destruct (wstep write k f) as [n a cs]. apply kept_intro; assumption.
Qed.

(** ** Laws *)
Lemma date_range : forall a o, parse_date_attr a = Ok o -> usize_opt o = true.
Proof.
  intros [s|] o H; [|injection H as <-; reflexivity]. cbn in H. destruct (String.eqb s ""); [injection H as <-; reflexivity|].
  destruct (parse_usize s) as [n|] eqn:E; [|discriminate]. injection H as <-. exact (usize_text_bound s n (proj1 (parse_usize_spec s n) E)).
Qed.
Lemma law_kept : forall e v, parse_law e = Ok v ->
  (forall s, get e "Num" = Some s -> s <> "" /\ forall n, from_num_str s = Ok n -> an_ok n = true) ->
  (forall c, In (NElement c) (children e) -> kept c) -> law_survives v.
Proof.
  intros e v H Hnum Hk. unfold parse_law in H. peel H.
  destruct (children e) as [|[ln| |] [|[b| |] rest]] eqn:Ec; try discriminate; destruct (String.eqb (name ln) "LawNum"); try discriminate.
  peel H. injection H as <-. unfold law_survives. cbn [law_year law_no law_promulgate_month law_promulgate_day law_body].
  split; [|split; [|split; [|split]]].
  - apply attr_parse_ok in Ha0 as (s & _ & Hs). exact (usize_text_bound s _ (proj1 (parse_usize_spec s _) Hs)).
  - destruct (get e "Num") as [s|]; [|discriminate]. cbn in Ha1. injection Ha1 as <-. destruct (Hnum s eq_refl) as [Hne Hok].
    destruct (String.eqb_spec s "") as [E|_]; [contradiction|]. apply bind_ok in Ha2 as (n & Hfn & Ha2). injection Ha2 as <-. exists n. auto.
  - eapply date_range; eassumption.
  - eapply date_range; eassumption.
  - eapply kept_survives; [|exact I|eassumption]. apply Hk. right. left. reflexivity.
Qed.

(** ** The statements of [PropStable.v] *)
Lemma plain_roundtrip : forall k e v, plain_document e -> tagged k e -> parse k e = Ok v -> parse k (write k v) = Ok v.
Proof. intros k e v Hp Ht H. apply read_write_iff. eapply kept_survives; [apply plain_kept, Hp|apply tagged_well, Ht|exact H]. Qed.

Lemma plain_law_roundtrip : forall e l, plain_document e -> plain_law_num e -> parse_law e = Ok l -> parse_law (write_law l) = Ok l.
Proof.
  intros e l Hp Hn H. apply law_read_write_iff. eapply law_kept; [exact H| |].
  - intros s Hs. destruct (Hn s Hs) as [H1 H2]. split; [exact H1|]. intros n Hn'. eapply an_ok_of; [exact Hn'|].
    apply (H2 (base_number n)). apply from_num_str_spec, Hn'.
  - intros c Hc. apply (kept_child e); [apply plain_kept, Hp|exact Hc].
Qed.

Lemma written_stable : forall k x v, item_nums k x -> parse k (write k x) = Ok v -> parse k (write k v) = Ok v.
Proof. intros k x v Hi H. apply read_write_iff. eapply kept_survives; [apply write_kept, Hi|apply write_well_tagged|exact H]. Qed.

Lemma written_law_stable : forall l v, item_nums KLawBody (law_body l) -> parse_law (write_law l) = Ok v -> parse_law (write_law v) = Ok v.
Proof.
  intros l v Hi H. apply law_read_write_iff. eapply law_kept; [exact H| |].
  - intros s Hs. assert (A : get (write_law l) "Num" = option_map num_str (law_no l)) by (unfold write_law; at_tac).
    rewrite A in Hs. destruct (law_no l) as [a|]; [|discriminate]. injection Hs as <-.
    split; [apply num_str_chars|]. intros n. apply num_str_kept.
  - intros c [E|[E|[]]]; injection E as <-.
    + apply wrap; [reflexivity|]. intros d [D|[]]. discriminate.
    + apply write_kept, Hi.
Qed.

(** What was read has item numbers made of machine integers. *)
Lemma num_text_usize : forall s b ed r, num_text s b ed r -> Forall (fun n => n < 2 ^ 64)%N (b :: ed ++ r).
Proof.
  intros s b ed r H. apply from_num_str_C03 in H. apply from_num_str_usize in H as (H1 & H2 & H3). cbn in H1, H2, H3.
  constructor; [apply is_usize_spec, H1|]. apply Forall_app. unfold usizes in *.
  split; (eapply Forall_impl; [|eassumption]); intros n Hn; apply is_usize_spec, Hn.
Qed.
Lemma read_item_nums : forall k e v, tagged k e -> parse k e = Ok v -> item_nums k v.
Proof.
  intros k e v Ht H l y a Hy Ha. destruct (parts_read e k v Ht H (KItem l) y Hy) as (c & _ & _ & Hc).
  destruct (item_num_read l c y Hc) as (s & _ & Hs). destruct a as [b ed r]. apply Hs in Ha. eapply num_text_usize, Ha.
Qed.

Lemma read_stable : forall k e v w, tagged k e -> parse k e = Ok v -> parse k (write k v) = Ok w -> parse k (write k w) = Ok w.
Proof. intros k e v w Ht H Hw. eapply written_stable; [eapply read_item_nums; eassumption|exact Hw]. Qed.

Lemma law_body_inside : forall e l, parse_law e = Ok l -> exists b, In (NElement b) (children e) /\ parse KLawBody b = Ok (law_body l).
Proof.
  intros e v H. unfold parse_law in H. peel H.
  destruct (children e) as [|[ln| |] [|[b| |] rest]] eqn:Ec; try discriminate; destruct (String.eqb (name ln) "LawNum"); try discriminate.
  peel H. injection H as <-. cbn [law_body]. exists b. split; [right; left; reflexivity|assumption].
Qed.
Lemma read_law_stable : forall e l m, parse_law e = Ok l -> parse_law (write_law l) = Ok m -> parse_law (write_law m) = Ok m.
Proof.
  intros e l m H Hm. destruct (law_body_inside e l H) as (b & _ & Hb). eapply written_law_stable; [|exact Hm].
  eapply read_item_nums; [|exact Hb]. exact I.
Qed.
Lemma law_parts_read : forall e l, parse_law e = Ok l -> forall j y, part_of (node j y) (node KLawBody (law_body l)) ->
  exists c, inside c e /\ tagged j c /\ parse j c = Ok y.
Proof.
  intros e l H j y Hy. destruct (law_body_inside e l H) as (b & Hin & Hb).
  destruct (parts_read b KLawBody (law_body l) I Hb j y Hy) as (c & Hc & T & P). exists c. split; [|auto].
  eapply inside_below; eassumption.
Qed.
