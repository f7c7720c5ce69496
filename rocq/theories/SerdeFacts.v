(** Every derived implementation agrees with the declaration of its type. *)
From Coq Require Import String List NArith Bool Lia Arith.
From Verif Require Import Base NumStr Ast Utils RoundTripSpec KnotFacts Serde SerdeSpec SerdeLib.
Import ListNotations.
Open Scope string_scope.
Open Scope list_scope.

Create HintDb serde.

(** The reader and writer of a part. *)
Ltac okd :=
  lazymatch goal with
  | |- ok _ de_str _ _ => apply ok_str
  | |- ok _ de_bool _ _ => apply ok_bool
  | |- ok _ de_num _ _ => apply ok_num
  | |- ok _ (de_vec (de_opt _)) _ _ => apply ok_vec_opt; okd
  | |- ok _ (de_vec _) _ _ => apply ok_vec; okd
  | IH : forall k, ok _ (?p k) (ser k) _ |- ok _ (?p ?k) _ _ => exact (IH k)
  | |- _ => solve [eauto with serde]
  end.

Ltac field_step Hl :=
  lazymatch goal with
  | |- option_map _ (obind (req ?d ?l ?n) _) = _ =>
      lazymatch goal with |- context [field_form form ?t (with_key n l)] =>
        let H := fresh in
        eassert (H : option_map _ (req d l n) = field_form form t (with_key n l))
          by (eapply req_form; [okd|reflexivity|exact Hl]);
        rewrite <- H; clear H; destruct (req d l n); cbn [option_map obind]; [|reflexivity] end
  | |- option_map _ (req ?d ?l ?n) = _ =>
      lazymatch goal with |- context [field_form form ?t (with_key n l)] =>
        let H := fresh in
        eassert (H : option_map _ (req d l n) = field_form form t (with_key n l))
          by (eapply req_form; [okd|reflexivity|exact Hl]);
        rewrite <- H; clear H; destruct (req d l n); cbn [option_map obind]; [|reflexivity] end
  | |- option_map _ (obind (opt ?d ?l ?n) _) = _ =>
      lazymatch goal with |- context [field_form form (TOpt ?t) (with_key n l)] =>
        let H := fresh in
        eassert (H : option_map _ (opt d l n) = field_form form (TOpt t) (with_key n l))
          by (eapply opt_form; [okd|exact Hl]);
        rewrite <- H; clear H; destruct (opt d l n); cbn [option_map obind]; [|reflexivity] end
  end.

Ltac back_step Hx :=
  lazymatch goal with
  | |- obind (req ?d ?l ?n) _ = _ =>
      let E := fresh in
      eassert (E : req d l n = Some _) by (eapply req_back; [okd|exact Hx|reflexivity]);
      rewrite E; clear E; cbn [obind]
  | |- req ?d ?l ?n = _ => eapply req_back; [okd|exact Hx|reflexivity]
  | |- obind (opt ?d ?l ?n) _ = _ =>
      let E := fresh in
      eassert (E : opt d l n = Some _) by (eapply opt_back; [okd|exact Hx|reflexivity]);
      rewrite E; clear E; cbn [obind]
  end.

(** A struct; [u] unfolds the reader. *)
Ltac struct_ok0 u d :=
  split; [|split];
  [ let j := fresh "j" in let Hj := fresh "Hj" in let E := fresh "E" in let Hl := fresh "Hl" in
    intros j Hj; erewrite form_ref by reflexivity; rewrite struct_form by reflexivity; u;
    cbn [map fst]; destruct (entries _ j) as [l|] eqn:E; cbn [obind option_map]; [|reflexivity];
    assert (Hl := entries_depth _ _ _ E);
    let Hl' := fresh "Hl'" in
    lazymatch type of Hj with _ <= S ?m =>
      assert (Hl' : forall k v, In (k, v) l -> depth v <= m)
        by (let k := fresh in let v := fresh in let I := fresh in
            intros k v I; specialize (Hl k v I); lia) end;
    cbn [fields_form]; repeat field_step Hl'; try reflexivity
  | let x := fresh "x" in let Hx := fresh "Hx" in
    intros x Hx; u; d x; cbn [entries obind]; repeat back_step Hx; try reflexivity
  | let x := fresh "x" in intros x; discriminate ].

Ltac rec_ok u := struct_ok0 u ltac:(fun x => destruct x).
Ltac one_ok u := struct_ok0 u ltac:(fun x => idtac).

Ltac units := eapply units_ok;
  [reflexivity|repeat (constructor; [split; [reflexivity|split; reflexivity]|]); constructor
  |let x := fresh in intros x; destruct x; reflexivity
  |let x := fresh in intros x; destruct x; discriminate].

(** ** Types without parts of the knot *)
Lemma ok_mode : forall m, ok m de_mode ser_mode (TRef "WritingMode"). Proof. intros. units. Qed.
Lemma ok_linestyle : forall m, ok m de_linestyle ser_linestyle (TRef "LineStyle"). Proof. intros. units. Qed.
Lemma ok_align : forall m, ok m de_align ser_align (TRef "Align"). Proof. intros. units. Qed.
Lemma ok_position : forall m, ok m de_position ser_position (TRef "Position"). Proof. intros. units. Qed.
Lemma ok_function : forall m, ok m de_function ser_function (TRef "SentenceFunction").
Proof. intros. units. Qed.
Lemma ok_indent : forall m, ok m de_indent ser_indent (TRef "SentenceIndent").
Proof.
  intros. eapply units_ok;
    [reflexivity|repeat (constructor; [split; [reflexivity|split; reflexivity]|]); constructor| |].
  - intros [|[]]; reflexivity.
  - intros [|[]]; discriminate.
Qed.
Lemma ok_suppl_type : forall m, ok m de_suppl_type ser_suppl_type (TRef "SupplProvisionType").
Proof. intros. units. Qed.
Lemma ok_era : forall m, ok m de_era ser_era (TRef "Era"). Proof. intros. units. Qed.
Lemma ok_law_type : forall m, ok m de_law_type ser_law_type (TRef "LawType"). Proof. intros. units. Qed.
Lemma ok_lang : forall m, ok m de_lang ser_lang (TRef "Lang"). Proof. intros. units. Qed.
#[export] Hint Resolve ok_mode ok_linestyle ok_align ok_position ok_function ok_indent ok_suppl_type ok_era
  ok_law_type ok_lang : serde.

Lemma ok_AN : forall m, ok m de_AN ser_AN (TRef "ArticleNumber").
Proof. intros. apply ok_pred. rec_ok ltac:(unfold de_AN, ser_AN). Qed.
#[export] Hint Resolve ok_AN : serde.
Lemma ok_sup : forall m, ok m de_sup ser_sup (TRef "Sup").
Proof. intros. apply ok_pred. one_ok ltac:(unfold de_sup, ser_sup). Qed.
Lemma ok_sub : forall m, ok m de_sup ser_sup (TRef "Sub").
Proof. intros. apply ok_pred. one_ok ltac:(unfold de_sup, ser_sup). Qed.
Lemma ok_fig : forall m, ok m de_fig ser_fig (TRef "Fig").
Proof. intros. apply ok_pred. one_ok ltac:(unfold de_fig, ser_fig). Qed.
#[export] Hint Resolve ok_sup ok_sub ok_fig : serde.
Lemma ok_index : forall m, ok m de_index ser_index (TRef "TextIndex").
Proof. intros. apply ok_pred. rec_ok ltac:(unfold de_index, ser_index). Qed.
Lemma ok_pattern : forall m, ok m de_pattern ser_pattern (TRef "ItemPattern").
Proof. intros. units. Qed.
#[export] Hint Resolve ok_pattern : serde.
Lemma ok_item_number : forall m, ok m de_item_number ser_item_number (TRef "ItemNumber").
Proof. intros. apply ok_pred. rec_ok ltac:(unfold de_item_number, ser_item_number). Qed.

(** An enum whose variants have one datum; [d] is the case distinction. *)
Ltac variants_ok u d :=
  apply ok_pred; split; [|split];
  [ u; eapply variants_agree; [reflexivity|];
    cbn [level_variants map levels app level_name];
    repeat (constructor; [eapply vari_same; [okd|intros; reflexivity]|]); constructor
  | let x := fresh "x" in let Hx := fresh "Hx" in
    intros x Hx; u; d x; (eapply variant_back; [|reflexivity|exact Hx]; okd)
  | let x := fresh "x" in intros x; d x; discriminate ].
Ltac vok u := variants_ok u ltac:(fun x => destruct x).
Ltac vokl u := variants_ok u ltac:(fun x => destruct x;
  repeat match goal with
         | l : lvl |- _ => destruct l
         | s : sname |- _ => destruct s
         end).

(** ** One level of the knot *)
Section Level.
Context (m : nat) (p : forall k, json -> option (Knot k)).
Context (IH : forall k, ok m (p k) (ser k) (TRef (type_name k))).

Lemma ok_te : ok m (de_te p) (ser_te ser) (TRef "TextElement").
Proof. vok ltac:(unfold de_te). Qed.
#[local] Hint Resolve ok_te : serde.
Lemma ok_text : ok m (de_text p) (ser_text ser) (TRef "Text").
Proof. apply ok_pred. one_ok ltac:(unfold de_text, ser_text). Qed.
#[local] Hint Resolve ok_text : serde.
Lemma ok_twm : ok m (de_twm p) (ser_twm ser) (TRef "TextWithWritingMode").
Proof. apply ok_pred. rec_ok ltac:(unfold de_twm, ser_twm). Qed.
Lemma ok_arith : ok m (de_arith p) (ser_arith ser) (TRef "ArithFormula").
Proof. apply ok_pred. rec_ok ltac:(unfold de_arith, ser_arith). Qed.
#[local] Hint Resolve ok_twm ok_arith : serde.
Lemma ok_lc : ok m (de_lc p) (ser_lc ser) (TRef "LineContents").
Proof. vok ltac:(unfold de_lc). Qed.
Lemma ok_ce : ok m (de_ce p) (ser_ce ser) (TRef "ContentsElement").
Proof. vokl ltac:(unfold de_ce). Qed.
Lemma ok_se : ok m (de_se p) (ser_se ser) (TRef "SentenceElement").
Proof. vok ltac:(unfold de_se). Qed.
Lemma ok_sct : ok m (de_sct p) (ser_sct ser) (TRef "SentenceOrColumnOrTable").
Proof. vok ltac:(unfold de_sct). Qed.
#[local] Hint Resolve ok_lc ok_ce ok_se ok_sct : serde.
Lemma ok_contents : ok (S m) (de_contents p) (ser_contents ser) (TRef "Contents").
Proof. one_ok ltac:(unfold de_contents, ser_contents). Qed.
Lemma ok_contents_m : ok m (de_contents p) (ser_contents ser) (TRef "Contents").
Proof. apply ok_pred, ok_contents. Qed.
#[local] Hint Resolve ok_contents_m : serde.
Lemma ok_caption : ok m (de_caption p) (ser_caption ser) (TRef "Caption").
Proof. apply ok_pred. rec_ok ltac:(unfold de_caption, ser_caption). Qed.
Lemma ok_header : ok m (de_header p) (ser_header ser) (TRef "TableHeaderRow").
Proof. apply ok_pred. one_ok ltac:(unfold de_header, ser_header). Qed.
Lemma ok_tc : ok m (de_tc p) (ser_tc ser) (TRef "TableColumnContents").
Proof. vokl ltac:(unfold de_tc). Qed.
Lemma ok_rlabel : ok m (de_rlabel p) (ser_rlabel ser) (TRef "RemarksLabel").
Proof. apply ok_pred. rec_ok ltac:(unfold de_rlabel, ser_rlabel). Qed.
Lemma ok_rc : ok m (de_rc p) (ser_rc ser) (TRef "RemarksContents").
Proof. vok ltac:(unfold de_rc). Qed.
Lemma ok_struct : ok m (de_struct p) (ser_struct ser) (TRef "Struct").
Proof. vok ltac:(unfold de_struct). Qed.
Lemma ok_ls : ok m (de_ls p) (ser_ls ser) (TRef "ListSentence").
Proof. vok ltac:(unfold de_ls). Qed.
Lemma ok_pc : ok m (de_pc p) (ser_pc ser) (TRef "PartContents").
Proof. vok ltac:(unfold de_pc). Qed.
Lemma ok_chc : ok m (de_chc p) (ser_chc ser) (TRef "ChapterContents").
Proof. vok ltac:(unfold de_chc). Qed.
Lemma ok_sec : ok m (de_sec p) (ser_sec ser) (TRef "SectionContents").
Proof. vok ltac:(unfold de_sec). Qed.
Lemma ok_suc : ok m (de_suc p) (ser_suc ser) (TRef "SubsectionContents").
Proof. vok ltac:(unfold de_suc). Qed.
Lemma ok_np : ok m (de_np p) (ser_np ser) (TRef "NewProvision").
Proof. vokl ltac:(unfold de_np). Qed.
Lemma ok_mc : ok m (de_mc p) (ser_mc ser) (TRef "MainProvisionContents").
Proof. vok ltac:(unfold de_mc). Qed.
Lemma ok_sp : ok m (de_sp p) (ser_sp ser) (TRef "SupplProvisionChildrenElement").
Proof. vok ltac:(unfold de_sp). Qed.
Lemma ok_at : ok m (de_at p) (ser_at ser) (TRef "AppdxTableContents").
Proof. vok ltac:(unfold de_at). Qed.
Lemma ok_an : ok m (de_an p) (ser_an ser) (TRef "AppdxNoteContents").
Proof. vok ltac:(unfold de_an). Qed.
Lemma ok_af : ok m (de_af p) (ser_af ser) (TRef "AppdxFigContents").
Proof. vok ltac:(unfold de_af). Qed.
Lemma ok_tsc : ok m (de_tsc p) (ser_tsc ser) (TRef "TOCSectionContents").
Proof. vok ltac:(unfold de_tsc). Qed.
Lemma ok_tsp : ok m (de_tsp p) (ser_tsp ser) (TRef "TOCSupplProvisionContents").
Proof. vok ltac:(unfold de_tsp). Qed.
Lemma ok_tm : ok m (de_tm p) (ser_tm ser) (TRef "TOCMainContents").
Proof. vok ltac:(unfold de_tm). Qed.
#[local] Hint Resolve ok_caption ok_header ok_tc ok_rlabel ok_rc ok_struct ok_ls ok_pc ok_chc ok_sec ok_suc ok_np
  ok_mc ok_sp ok_at ok_an ok_af ok_tsc ok_tsp ok_tm : serde.

Lemma ok_iso : forall A B (d : json -> option A) s (c : A -> B) (i : B -> A) s' t,
  ok (S m) d s t -> (forall a, s' (c a) = s a) -> (forall b, c (i b) = b) ->
  ok (S m) (fun j => option_map c (d j)) s' t.
Proof.
  intros A B d s c i s' t (Ha & Hb & Hn) Hs Hc. split; [|split].
  - intros j Hj. rewrite <- (Ha j Hj). destruct (d j); cbn [option_map]; [rewrite Hs|]; reflexivity.
  - intros b H. rewrite <- (Hc b) in H |- *. rewrite Hs in *. rewrite (Hb _ H). reflexivity.
  - intros b. rewrite <- (Hc b), Hs. apply Hn.
Qed.

Lemma no_void : forall l : list (Knot KVoid), l = [].
Proof. intros [|x l]; [reflexivity|]. inversion x. Qed.
Lemma no_empty : forall l : list Empty_set, l = [].
Proof. intros [|[] l]. reflexivity. Qed.

Ltac knot w :=
  lazymatch goal with |- ok _ (fun j => option_map (mk ?k) _) _ _ =>
    apply (ok_iso (F Knot k) (Knot k) (dstep p k) w (mk k) (un k) (ser k)) end;
  [cbn [dstep]|reflexivity|apply mk_un].

Lemma step_ok : forall k,
  ok (S m) (fun j => option_map (mk k) (dstep p k j)) (ser k) (TRef (type_name k)).
Proof.
  intros k. destruct k as [ | | | c | | | | | | | s | | | l | | l | | | | | | | | | | | | | | | | | | | | | | | | | | | | | | ].
  - split; [|split].
    + intros j _. cbn [dstep option_map]. rewrite form_unfold. reflexivity.
    + intros x. inversion x.
    + intros x. inversion x.
  - knot (ser_ruby ser). rec_ok ltac:(unfold de_ruby, ser_ruby).
  - knot (ser_line ser). rec_ok ltac:(unfold de_line, ser_line).
  - destruct c.
    + knot (ser_cont ser CQuote). one_ok ltac:(unfold de_cont, ser_cont).
    + knot (ser_cont ser CArith). exact ok_contents.
    + knot (ser_cont ser CNote). one_ok ltac:(unfold de_cont, ser_cont).
    + knot (ser_cont ser CStyle). one_ok ltac:(unfold de_cont, ser_cont).
    + knot (ser_cont ser CFormat). one_ok ltac:(unfold de_cont, ser_cont).
  - knot (ser_sentence ser). rec_ok ltac:(unfold de_sentence, ser_sentence).
  - knot (ser_column ser). rec_ok ltac:(unfold de_column, ser_column).
  - knot (ser_table ser). rec_ok ltac:(unfold de_table, ser_table).
  - knot (ser_table_row ser). one_ok ltac:(unfold de_table_row, ser_table_row).
  - knot (ser_table_column ser). rec_ok ltac:(unfold de_table_column, ser_table_column).
  - knot (ser_remarks ser). rec_ok ltac:(unfold de_remarks, ser_remarks).
  - destruct s.
    + knot (ser_cstruct ser SNote). rec_ok ltac:(unfold de_cstruct, ser_cstruct; cbn [body_field body_remarks_field body_of]).
    + knot (ser_cstruct ser SStyle). rec_ok ltac:(unfold de_cstruct, ser_cstruct; cbn [body_field body_remarks_field body_of]).
    + knot (ser_cstruct ser SFormat). rec_ok ltac:(unfold de_cstruct, ser_cstruct; cbn [body_field body_remarks_field body_of]).
  - knot (ser_fig_struct ser). rec_ok ltac:(unfold de_fig_struct, ser_fig_struct).
  - knot (ser_table_struct ser). rec_ok ltac:(unfold de_table_struct, ser_table_struct).
  - destruct l.
    all: lazymatch goal with |- ok _ (fun j => option_map (mk (KList ?l)) _) _ _ => knot (ser_list ser l) end.
    all: rec_ok ltac:(unfold de_list, ser_list; cbn [list_nests sub_list app obind]).
    rewrite (no_void list_children). reflexivity.
  - knot (ser_class ser). rec_ok ltac:(unfold de_class, ser_class).
  - destruct l.
    all: lazymatch goal with |- ok _ (fun j => option_map (mk (KItem ?l)) _) _ _ => knot (ser_item ser l) end.
    all: rec_ok ltac:(unfold de_item, ser_item; cbn [item_nests sub_item app obind]).
    rewrite (no_void it_children). reflexivity.
  - knot (ser_paragraph ser). rec_ok ltac:(unfold de_paragraph, ser_paragraph).
  - knot (ser_article ser). rec_ok ltac:(unfold de_article, ser_article).
  - knot (ser_head ser "part_title" (ser_pc ser)). rec_ok ltac:(unfold de_head, ser_head).
  - knot (ser_head ser "chapter_title" (ser_chc ser)). rec_ok ltac:(unfold de_head, ser_head).
  - knot (ser_head ser "section_title" (ser_sec ser)). rec_ok ltac:(unfold de_head, ser_head).
  - knot (ser_head ser "subsection_title" (ser_suc ser)). rec_ok ltac:(unfold de_head, ser_head).
  - knot (ser_head ser "division_title" (ser KArticle)). rec_ok ltac:(unfold de_head, ser_head).
  - knot (ser_amend ser). rec_ok ltac:(unfold de_amend, ser_amend).
  - knot (ser_law_title ser). rec_ok ltac:(unfold de_law_title, ser_law_title).
  - knot (ser_preamble ser). one_ok ltac:(unfold de_preamble, ser_preamble).
  - knot (ser_main ser). rec_ok ltac:(unfold de_main, ser_main).
  - knot (ser_suppl ser). rec_ok ltac:(unfold de_suppl, ser_suppl).
  - knot (ser_suppl_ts ser "table_struct" (ser KTableStruct)). rec_ok ltac:(unfold de_suppl_ts, ser_suppl_ts).
  - knot (ser_suppl_ts ser "style_struct" (ser (KCStruct SStyle))).
    rec_ok ltac:(unfold de_suppl_ts, ser_suppl_ts).
  - knot (ser_suppl_appdx ser). rec_ok ltac:(unfold de_suppl_appdx, ser_suppl_appdx).
  - knot (ser_appdx_t ser (ser_at ser)). rec_ok ltac:(unfold de_appdx_t, ser_appdx_t).
  - knot (ser_appdx_t ser (ser_an ser)). rec_ok ltac:(unfold de_appdx_t, ser_appdx_t).
  - knot (ser_appdx_t ser (ser (KCStruct SStyle))). rec_ok ltac:(unfold de_appdx_t, ser_appdx_t).
  - knot (ser_appdx_t ser (ser (KCStruct SFormat))). rec_ok ltac:(unfold de_appdx_t, ser_appdx_t).
  - knot (ser_appdx ser). rec_ok ltac:(unfold de_appdx, ser_appdx).
  - knot (ser_appdx_fig ser). rec_ok ltac:(unfold de_appdx_fig, ser_appdx_fig).
  - knot (ser_toc ser). rec_ok ltac:(unfold de_toc, ser_toc).
  - knot (ser_toc_head ser "part_title" (ser KTOCChapter)). rec_ok ltac:(unfold de_toc_head, ser_toc_head).
  - knot (ser_toc_head ser "chapter_title" (ser KTOCSection)). rec_ok ltac:(unfold de_toc_head, ser_toc_head).
  - knot (ser_toc_head ser "section_title" (ser_tsc ser)). rec_ok ltac:(unfold de_toc_head, ser_toc_head).
  - knot (ser_toc_head ser "subsection_title" (ser KTOCDivision)). rec_ok ltac:(unfold de_toc_head, ser_toc_head).
  - knot (ser_toc_division ser). rec_ok ltac:(unfold de_toc_division, ser_toc_division).
    rewrite (no_empty th_children). reflexivity.
  - knot (ser_toc_article ser). rec_ok ltac:(unfold de_toc_article, ser_toc_article).
  - knot (ser_toc_suppl ser). rec_ok ltac:(unfold de_toc_suppl, ser_toc_suppl).
  - knot (ser_law_body ser). rec_ok ltac:(unfold de_law_body, ser_law_body).
Qed.
End Level.

(** ** The knot *)
Lemma ok_n : forall m k, ok m (de_n m k) (ser k) (TRef (type_name k)).
Proof.
  induction m as [|m IH]; intros k.
  - destruct (step_ok 0 (fun _ _ => None)) with (k := k) as (_ & _ & Hn).
    { intros i. split; [|split].
      - intros j Hj. pose proof (depth_pos j). lia.
      - intros x Hx. pose proof (depth_pos (ser i x)). lia.
      - intros x. intros E.
        destruct x; cbn [ser] in E; try discriminate E; destruct c; discriminate E. }
    split; [|split]; [| |exact Hn].
    + intros j Hj. pose proof (depth_pos j). lia.
    + intros x Hx. pose proof (depth_pos (ser k x)). lia.
  - exact (step_ok m (de_n m) IH k).
Qed.

Theorem de_form : forall k j, option_map (ser k) (de k j) = form (TRef (type_name k)) j.
Proof. intros k j. destruct (ok_n (depth j) k) as (Ha & _). apply Ha. lia. Qed.
Theorem de_ser : forall k x, de k (ser k x) = Some x.
Proof. intros k x. destruct (ok_n (depth (ser k x)) k) as (_ & Hb & _). apply Hb. lia. Qed.
Theorem ok_de : forall m k, ok m (de k) (ser k) (TRef (type_name k)).
Proof.
  intros m k. split; [|split].
  - intros j _. apply de_form.
  - intros x _. apply de_ser.
  - destruct (ok_n m k) as (_ & _ & Hn). exact Hn.
Qed.

(** The bound of the reader is never reached. *)
Theorem de_unfold : forall k j, de k j = option_map (mk k) (dstep de k j).
Proof.
  intros k j.
  destruct (step_ok (depth j) de (fun i => ok_de (depth j) i) k) as (Ha & _).
  specialize (Ha j (Nat.le_succ_diag_r _)). rewrite <- de_form in Ha.
  assert (I : forall x y, ser k x = ser k y -> x = y).
  { intros x y E. assert (S := de_ser k x). rewrite E, de_ser in S. congruence. }
  destruct (de k j) as [x|], (option_map (mk k) (dstep de k j)) as [y|]; cbn in Ha; try discriminate; [|reflexivity].
  injection Ha as E. rewrite (I _ _ E). reflexivity.
Qed.

Lemma ok_law : forall m, ok m de_law ser_law (TRef "Law").
Proof. intros m. pose proof (ok_de m) as IH. apply ok_pred. rec_ok ltac:(unfold de_law, ser_law). Qed.

Theorem law_form : forall j, option_map ser_law (de_law j) = form (TRef "Law") j.
Proof. intros j. destruct (ok_law (depth j)) as (Ha & _). apply Ha. lia. Qed.
Theorem law_back : forall l, de_law (ser_law l) = Some l.
Proof. intros l. destruct (ok_law (depth (ser_law l))) as (_ & Hb & _). apply Hb. lia. Qed.
