(** The calls made to the hasher are those that the declarations say. *)
From Coq Require Import String List NArith Bool Lia Arith.
From Verif Require Import Base NumStr Ast Utils RoundTripSpec RoundTripLib KnotFacts Serde SerdeSpec SerdeLib SerdeFacts2 Derived DerivedLib HashSpec.
Import ListNotations.
Open Scope string_scope.
Open Scope list_scope.

Create HintDb hd.

(** ** Parts of any type *)
Definition plain_type (t : sty) : Prop := match t with TOpt _ => False | _ => True end.
Lemma not_null : forall t j s, hashed t j s -> plain_type t -> j <> JNull.
Proof. intros t j s H Ht E. subst j. inversion H; subst; cbn in Ht; contradiction. Qed.
Section Over.
Context {A : Type} (t : sty) (s : A -> json) (h : A -> stream) (P : A -> Prop) (cc : A -> list Prop).
Lemma hs_opt : forall o, plain_type t -> (forall x, o = Some x -> hashed t (s x) (h x)) -> hashed (TOpt t) (ser_opt s o) (hash_opt h o).
Proof.
  intros [x|] Ht H; [|constructor]. cbn [ser_opt hash_opt hash_discriminant app].
  apply hd_some; [apply (not_null t _ (h x)); [|exact Ht]|]; apply H; reflexivity.
Qed.
Lemma hs_vec : forall l, t <> TNum -> (forall x, In x l -> hashed t (s x) (h x)) -> hashed (TVec t) (ser_vec s l) (hash_vec h l).
Proof.
  intros l Ht H. unfold ser_vec, hash_vec, hash_usize. cbn [app]. rewrite <- (map_length s l). apply hd_vec; [exact Ht|].
  induction l as [|x l IH]; [constructor|]. cbn [map flat_map]. constructor; [apply H; left; reflexivity|].
  apply IH. intros y Hy. apply H. right. exact Hy.
Qed.
Lemma hs_opt_c : forall o, plain_type t -> (forall x, allp (cc x) -> hashed t (s x) (h x)) -> allp (c_opt cc o) ->
  hashed (TOpt t) (ser_opt s o) (hash_opt h o).
Proof. intros o Ht He H. apply hs_opt; [exact Ht|]. intros x ->. apply He, H. Qed.
Lemma hs_flat : forall l, t <> TNum -> (forall x, allp (cc x) -> hashed t (s x) (h x)) -> allp (flat_map cc l) ->
  hashed (TVec t) (ser_vec s l) (hash_vec h l).
Proof. intros l Ht He H. apply hs_vec; [exact Ht|]. intros x Hx. apply He. exact (allp_flat _ _ _ H x Hx). Qed.
Lemma hs_map : forall l, t <> TNum -> (forall x, P x -> hashed t (s x) (h x)) -> allp (map P l) ->
  hashed (TVec t) (ser_vec s l) (hash_vec h l).
Proof. intros l Ht He H. apply hs_vec; [exact Ht|]. intros x Hx. apply He. exact (proj1 (allp_map _ _ _) H x Hx). Qed.
End Over.
Lemma hf_one : forall n t j s, hashed t j s -> hashed_fields [(n, t)] [(n, j)] s.
Proof. intros n t j s H. rewrite <- (app_nil_r s). constructor; [exact H|constructor]. Qed.
Lemma hs_bool : forall b, hashed TBool (JBool b) (hash_bool b).
Proof. intros []; constructor. Qed.

(** ** Structs and enums *)
(** The fields of a struct, one after the other; [tac] does one. *)
Ltac flds tac := first [apply hf_one; tac | apply hf_cons; [tac|flds tac] | apply hf_nil].
Ltac struct tac := eapply hd_struct; [reflexivity|flds tac].
Ltac position n := first [exact (eq_refl n) | reflexivity].
Ltac flat_hs := let x := fresh "x" in intros x; destruct x; (eapply hd_unit; [reflexivity|reflexivity]).
Lemma hs_mode : forall x, hashed (TRef "WritingMode") (ser_mode x) (hash_mode x). Proof. flat_hs. Qed.
Lemma hs_linestyle : forall x, hashed (TRef "LineStyle") (ser_linestyle x) (hash_linestyle x). Proof. flat_hs. Qed.
Lemma hs_align : forall x, hashed (TRef "Align") (ser_align x) (hash_align x). Proof. flat_hs. Qed.
Lemma hs_position : forall x, hashed (TRef "Position") (ser_position x) (hash_position x). Proof. flat_hs. Qed.
Lemma hs_function : forall x, hashed (TRef "SentenceFunction") (ser_function x) (hash_function x). Proof. flat_hs. Qed.
Lemma hs_suppl_type : forall x, hashed (TRef "SupplProvisionType") (ser_suppl_type x) (hash_suppl_type x). Proof. flat_hs. Qed.
Lemma hs_era : forall x, hashed (TRef "Era") (ser_era x) (hash_era x). Proof. flat_hs. Qed.
Lemma hs_law_type : forall x, hashed (TRef "LawType") (ser_law_type x) (hash_law_type x). Proof. flat_hs. Qed.
Lemma hs_lang : forall x, hashed (TRef "Lang") (ser_lang x) (hash_lang x). Proof. flat_hs. Qed.
Lemma hs_pattern : forall x, hashed (TRef "ItemPattern") (ser_pattern x) (hash_pattern x). Proof. flat_hs. Qed.
Lemma hs_indent : forall x, hashed (TRef "SentenceIndent") (ser_indent x) (hash_indent x).
Proof. intros [|[]]; (eapply hd_unit; [reflexivity|reflexivity]). Qed.
#[export] Hint Resolve hs_bool hs_mode hs_linestyle hs_align hs_position hs_function hs_suppl_type hs_era hs_law_type hs_lang hs_pattern hs_indent : hd.
Ltac leafh := idtac; lazymatch goal with
  | |- hashed (TOpt _) _ _ => apply hs_opt; [exact I|intros ? _; leafh]
  | |- hashed (TVec TNum) _ _ => apply hd_nums
  | |- hashed (TVec _) _ _ => apply hs_vec; [discriminate|intros ? _; leafh]
  | |- hashed TStr _ _ => apply hd_str
  | |- hashed TNum _ _ => apply hd_num
  | |- _ => solve [eauto 2 with hd]
  end.
Lemma hs_AN : forall x, hashed (TRef "ArticleNumber") (ser_AN x) (hash_AN x).
Proof. intros x. unfold ser_AN, hash_AN. struct leafh. Qed.
#[export] Hint Resolve hs_AN : hd.
Lemma hs_sup : forall x, hashed (TRef "Sup") (ser_sup x) (hash_sup x).
Proof. intros x. unfold ser_sup, hash_sup, hash_str. struct leafh. Qed.
Lemma hs_sub : forall x, hashed (TRef "Sub") (ser_sup x) (hash_sup x).
Proof. intros x. unfold ser_sup, hash_sup, hash_str. struct leafh. Qed.
Lemma hs_fig : forall x, hashed (TRef "Fig") (ser_fig x) (hash_fig x).
Proof. intros x. unfold ser_fig, hash_fig, hash_str. struct leafh. Qed.
#[export] Hint Resolve hs_sup hs_sub hs_fig : hd.
Theorem hs_index : forall x, hashed (TRef "TextIndex") (ser_index x) (hash_index x).
Proof. intros x. unfold ser_index, hash_index. struct ltac:(idtac; first [leafh
  | apply hs_vec; [discriminate|intros ? _; apply hs_opt; [exact I|intros ? _; leafh]]]). Qed.
Theorem hs_item_number : forall x, hashed (TRef "ItemNumber") (ser_item_number x) (hash_item_number x).
Proof. intros x. unfold ser_item_number, hash_item_number. struct leafh. Qed.

(** ** The knot *)
Section Level.
Variable good : forall k, Knot k -> Prop.
Hypothesis Hgood : forall k x, good k x -> hashed (TRef (type_name k)) (ser k x) (hash k x).

Ltac lookh := idtac; match goal with
  | G : good ?k ?x |- hashed _ (ser ?k ?x) _ => exact (Hgood k x G)
  | G : allp (map (good ?k) ?l) |- hashed _ (ser_vec (ser ?k) ?l) _ => refine (hs_map _ _ _ _ l _ (Hgood k) G); discriminate
  | G : allp (c_opt _ ?o) |- hashed (TOpt _) (ser_opt _ ?o) _ => refine (hs_opt_c _ _ _ _ o _ _ G); [exact I|intros ? ?; splitk; lookh]
  | G : allp (flat_map _ ?l) |- hashed (TVec _) (ser_vec _ ?l) _ => refine (hs_flat _ _ _ _ l _ _ G); [discriminate|intros ? ?; splitk; lookh]
  | _ => solve [leafh | eauto 2 with hd]
  end.
Ltac enum x H :=
  destruct x; repeat match goal with l : lvl |- _ => destruct l | s : sname |- _ => destruct s end;
  cbn [allp c_te c_line c_ce c_se c_sct c_tc c_rc c_any_struct c_ls c_pc c_chc c_sec c_suc c_np c_mc c_sp c_at c_an c_af c_tsc c_tsp c_tm c_arith] in H;
  splitk; (eapply hd_variant; [reflexivity|cbn; reflexivity|lookh]).
Lemma hs_te : forall x, allp (c_te good x) -> hashed (TRef "TextElement") (ser_te ser x) (hash_te hash x).
Proof. intros x H. enum x H. Qed.
#[local] Hint Resolve hs_te : hd.
Lemma hs_text : forall x, allp (c_text good x) -> hashed (TRef "Text") (ser_text ser x) (hash_text hash x).
Proof. intros x H. unfold ser_text, hash_text, c_text in *. struct lookh. Qed.
#[local] Hint Resolve hs_text : hd.
Lemma hs_twm : forall x, allp (c_twm good x) -> hashed (TRef "TextWithWritingMode") (ser_twm ser x) (hash_twm hash x).
Proof. intros x H. unfold ser_twm, hash_twm, c_twm in *. splitk. struct lookh. Qed.
#[local] Hint Resolve hs_twm : hd.
Lemma hs_caption : forall x, allp (c_caption good x) -> hashed (TRef "Caption") (ser_caption ser x) (hash_caption hash x).
Proof. intros x H. unfold ser_caption, hash_caption, c_caption in *. splitk. struct lookh. Qed.
#[local] Hint Resolve hs_caption : hd.
Lemma hs_arith : forall x, good (KCont CArith) (af_contents x) -> hashed (TRef "ArithFormula") (ser_arith ser x) (hash_arith hash x).
Proof. intros x H. unfold ser_arith, hash_arith. struct lookh. Qed.
#[local] Hint Resolve hs_arith : hd.
Lemma hs_arith_c : forall x, allp (c_arith good x) -> hashed (TRef "ArithFormula") (ser_arith ser x) (hash_arith hash x).
Proof. intros x H. apply hs_arith, H. Qed.
#[local] Hint Resolve hs_arith_c : hd.
Lemma hs_header : forall x, allp (flat_map (c_text good) x) -> hashed (TRef "TableHeaderRow") (ser_header ser x) (hash_header hash x).
Proof. intros x H. unfold ser_header, hash_header. struct lookh. Qed.
#[local] Hint Resolve hs_header : hd.
Lemma hs_rlabel : forall x, allp (c_text good (rl_text x)) -> hashed (TRef "RemarksLabel") (ser_rlabel ser x) (hash_rlabel hash x).
Proof. intros x H. unfold ser_rlabel, hash_rlabel. struct lookh. Qed.
#[local] Hint Resolve hs_rlabel : hd.
Lemma hs_sct : forall x, allp (c_sct good x) -> hashed (TRef "SentenceOrColumnOrTable") (ser_sct ser x) (hash_sct hash x).
Proof. intros x H. enum x H. Qed.
#[local] Hint Resolve hs_sct : hd.
Lemma hs_lc : forall x, allp (c_line good x) -> hashed (TRef "LineContents") (ser_lc ser x) (hash_lc hash x).
Proof. intros x H. enum x H. Qed.
#[local] Hint Resolve hs_lc : hd.
Lemma hs_ce : forall x, allp (c_ce good x) -> hashed (TRef "ContentsElement") (ser_ce ser x) (hash_ce hash x).
Proof. intros x H. enum x H. Qed.
#[local] Hint Resolve hs_ce : hd.
Lemma hs_se : forall x, allp (c_se good x) -> hashed (TRef "SentenceElement") (ser_se ser x) (hash_se hash x).
Proof. intros x H. enum x H. Qed.
#[local] Hint Resolve hs_se : hd.
Lemma hs_tc : forall x, allp (c_tc good x) -> hashed (TRef "TableColumnContents") (ser_tc ser x) (hash_tc hash x).
Proof. intros x H. enum x H. Qed.
#[local] Hint Resolve hs_tc : hd.
Lemma hs_rc : forall x, allp (c_rc good x) -> hashed (TRef "RemarksContents") (ser_rc ser x) (hash_rc hash x).
Proof. intros x H. enum x H. Qed.
#[local] Hint Resolve hs_rc : hd.
Lemma hs_struct : forall x, allp (c_any_struct good x) -> hashed (TRef "Struct") (ser_struct ser x) (hash_struct hash x).
Proof. intros x H. enum x H. Qed.
#[local] Hint Resolve hs_struct : hd.
Lemma hs_ls : forall x, allp (c_ls good x) -> hashed (TRef "ListSentence") (ser_ls ser x) (hash_ls hash x).
Proof. intros x H. enum x H. Qed.
#[local] Hint Resolve hs_ls : hd.
Lemma hs_pc : forall x, allp (c_pc good x) -> hashed (TRef "PartContents") (ser_pc ser x) (hash_pc hash x).
Proof. intros x H. enum x H. Qed.
#[local] Hint Resolve hs_pc : hd.
Lemma hs_chc : forall x, allp (c_chc good x) -> hashed (TRef "ChapterContents") (ser_chc ser x) (hash_chc hash x).
Proof. intros x H. enum x H. Qed.
#[local] Hint Resolve hs_chc : hd.
Lemma hs_sec : forall x, allp (c_sec good x) -> hashed (TRef "SectionContents") (ser_sec ser x) (hash_sec hash x).
Proof. intros x H. enum x H. Qed.
#[local] Hint Resolve hs_sec : hd.
Lemma hs_suc : forall x, allp (c_suc good x) -> hashed (TRef "SubsectionContents") (ser_suc ser x) (hash_suc hash x).
Proof. intros x H. enum x H. Qed.
#[local] Hint Resolve hs_suc : hd.
Lemma hs_np : forall x, allp (c_np good x) -> hashed (TRef "NewProvision") (ser_np ser x) (hash_np hash x).
Proof. intros x H. enum x H. Qed.
#[local] Hint Resolve hs_np : hd.
Lemma hs_mc : forall x, allp (c_mc good x) -> hashed (TRef "MainProvisionContents") (ser_mc ser x) (hash_mc hash x).
Proof. intros x H. enum x H. Qed.
#[local] Hint Resolve hs_mc : hd.
Lemma hs_sp : forall x, allp (c_sp good x) -> hashed (TRef "SupplProvisionChildrenElement") (ser_sp ser x) (hash_sp hash x).
Proof. intros x H. enum x H. Qed.
#[local] Hint Resolve hs_sp : hd.
Lemma hs_at : forall x, allp (c_at good x) -> hashed (TRef "AppdxTableContents") (ser_at ser x) (hash_at hash x).
Proof. intros x H. enum x H. Qed.
#[local] Hint Resolve hs_at : hd.
Lemma hs_an : forall x, allp (c_an good x) -> hashed (TRef "AppdxNoteContents") (ser_an ser x) (hash_an hash x).
Proof. intros x H. enum x H. Qed.
#[local] Hint Resolve hs_an : hd.
Lemma hs_af : forall x, allp (c_af good x) -> hashed (TRef "AppdxFigContents") (ser_af ser x) (hash_af hash x).
Proof. intros x H. enum x H. Qed.
#[local] Hint Resolve hs_af : hd.
Lemma hs_tsc : forall x, allp (c_tsc good x) -> hashed (TRef "TOCSectionContents") (ser_tsc ser x) (hash_tsc hash x).
Proof. intros x H. enum x H. Qed.
#[local] Hint Resolve hs_tsc : hd.
Lemma hs_tsp : forall x, allp (c_tsp good x) -> hashed (TRef "TOCSupplProvisionContents") (ser_tsp ser x) (hash_tsp hash x).
Proof. intros x H. enum x H. Qed.
#[local] Hint Resolve hs_tsp : hd.
Lemma hs_tm : forall x, allp (c_tm good x) -> hashed (TRef "TOCMainContents") (ser_tm ser x) (hash_tm hash x).
Proof. intros x H. enum x H. Qed.
#[local] Hint Resolve hs_tm : hd.
Lemma hs_contents : forall x, allp (flat_map (c_ce good) x) -> hashed (TRef "Contents") (ser_contents ser x) (hash_contents hash x).
Proof. intros x H. unfold ser_contents, hash_contents. struct lookh. Qed.
#[local] Hint Resolve hs_contents : hd.

Lemma hs_step : forall k f, allp (collect good k f) -> hashed (TRef (type_name k)) (ser k (mk k f)) (hash k (mk k f)).
Proof.
  destruct k; intros f H; [destruct f|..]; cbn [collect] in H;
    unfold c_struct, c_head, c_sts, c_appdx_t, c_toc_head in H; splitk; cbn [ser hash mk type_name].
  3: { (* KCont *) destruct c; unfold ser_cont, hash_cont; first [apply hs_contents; exact H|struct lookh]. }
  9: { (* KCStruct *) destruct s; unfold ser_cstruct, hash_cstruct; cbn [body_field body_remarks_field]; struct lookh. }
  11: { (* KList *) destruct l; unfold ser_list, hash_list; cbn [list_nests sub_list app] in *;
    rewrite ?app_nil_r; struct lookh. }
  12: { (* KItem *) destruct l; unfold ser_item, hash_item; cbn [item_nests sub_item app] in *; struct lookh. }
  all: unfold ser_ruby, hash_ruby, ser_line, hash_line, ser_cont, hash_cont, ser_contents, hash_contents, ser_sentence, hash_sentence, ser_column, hash_column, ser_table, hash_table, ser_table_row, hash_table_row, ser_table_column, hash_table_column, ser_remarks, hash_remarks, ser_cstruct, hash_cstruct, ser_fig_struct, hash_fig_struct, ser_table_struct, hash_table_struct, ser_list, hash_list, ser_class, hash_class, ser_item, hash_item, ser_paragraph, hash_paragraph, ser_article, hash_article, ser_head, hash_head, ser_amend, hash_amend, ser_law_title, hash_law_title, ser_preamble, hash_preamble, ser_main, hash_main, ser_suppl, hash_suppl, ser_suppl_ts, hash_suppl_ts, ser_suppl_appdx, hash_suppl_appdx, ser_appdx_t, hash_appdx_t, ser_appdx, hash_appdx, ser_appdx_fig, hash_appdx_fig, ser_toc, hash_toc, ser_toc_head, hash_toc_head, ser_toc_division, hash_toc_division, ser_toc_article, hash_toc_article, ser_toc_suppl, hash_toc_suppl, ser_law_body, hash_law_body; try solve [struct lookh].
  all: match goal with |- ?G => idtac G end.
Qed.
End Level.

Theorem hs_knot : forall k x, hashed (TRef (type_name k)) (ser k x) (hash k x).
Proof.
  intros k x. pattern k, x. revert k x. apply knot_ind. intros k f IH.
  apply (hs_step (fun j y => hashed (TRef (type_name j)) (ser j y) (hash j y))); [auto|].
  rewrite (collect_kids _ (fun j y => hashed (TRef (type_name j)) (ser j y) (hash j y))).
  apply allp_map. intros [j y] Hy. exact (IH j y Hy).
Qed.
Theorem hs_law : forall x, hashed (TRef "Law") (ser_law x) (hash_law x).
Proof.
  intros x. unfold ser_law, hash_law. struct ltac:(idtac; first [apply (hs_knot KLawBody)|leafh]).
Qed.

(** ** The declarations determine the calls *)
Scheme hashed_mind := Minimality for hashed Sort Prop
with hashed_all_mind := Minimality for hashed_all Sort Prop
with hashed_fields_mind := Minimality for hashed_fields Sort Prop.
Combined Scheme hashed_rec from hashed_mind, hashed_all_mind, hashed_fields_mind.

Lemma nums_inj : forall l m, map JNum l = map JNum m -> l = m.
Proof. induction l as [|x l IH]; intros [|y m] H; try discriminate; [reflexivity|]. injection H as -> H. f_equal. apply IH, H. Qed.
Lemma position_unique : forall r vs n n' (v : string) (o o' : option sty), find_decl r declarations = Some (DEnum vs) ->
  nth_error vs n = Some (v, o) -> nth_error vs n' = Some (v, o') -> n = n'.
Proof.
  intros r vs n n' v o o' D H H'. apply names_distinct in D. cbn [decl_names] in D.
  rewrite NoDup_nth_error in D. apply D; [apply nth_error_Some|]; rewrite ?nth_error_map, ?H, ?H'; [discriminate|reflexivity].
Qed.
Ltac same_decl := repeat match goal with
  | D : find_decl ?r _ = Some ?a, D' : find_decl ?r _ = Some ?b |- _ =>
      rewrite D in D'; first [discriminate D' | injection D' as D'; subst]
  end.
Theorem hashed_once : (forall t j s, hashed t j s -> forall s', hashed t j s' -> s = s') /\
  (forall t l s, hashed_all t l s -> forall s', hashed_all t l s' -> s = s') /\
  (forall fs l s, hashed_fields fs l s -> forall s', hashed_fields fs l s' -> s = s').
Proof.
  apply hashed_rec.
  - intros s s' H. inversion H; subst. reflexivity.
  - intros s' H. inversion H; subst. reflexivity.
  - intros s' H. inversion H; subst. reflexivity.
  - intros n s' H. inversion H; subst. reflexivity.
  - intros t s' H. inversion H; subst; [reflexivity|contradiction].
  - intros t j s Hj _ IH s' H. inversion H; subst; [contradiction|]. f_equal. apply IH. assumption.
  - intros l s' H. inversion H; subst; [|contradiction].
    match goal with E : map JNum _ = map JNum _ |- _ => apply nums_inj in E; subst end. reflexivity.
  - intros t l s Ht _ IH s' H. inversion H; subst; [contradiction|]. f_equal. apply IH. assumption.
  - intros r fs l s D _ IH s' H. inversion H; subst; same_decl. apply IH. assumption.
  - intros r vs n v D Hn s' H. inversion H; subst; same_decl. f_equal. f_equal.
    eapply position_unique; eassumption.
  - intros r vs n v t j s D Hn _ IH s' H. inversion H; subst; same_decl.
    match goal with Q : nth_error _ ?m = Some (v, Some ?u) |- HIsize _ :: _ = HIsize ?m :: _ =>
      assert (n = m) by (eapply position_unique; eassumption); subst m; rewrite Hn in Q; injection Q as <- end.
    f_equal. apply IH. assumption.
  - intros t s' H. inversion H; subst. reflexivity.
  - intros t j l s r _ IH1 _ IH2 s' H. inversion H; subst. f_equal; [apply IH1|apply IH2]; assumption.
  - intros s' H. inversion H; subst. reflexivity.
  - intros n t fs j l s r _ IH1 _ IH2 s' H. inversion H; subst. f_equal; [apply IH1|apply IH2]; assumption.
Qed.
