(** Properties of the layout of [Debug]. *)
From Coq Require Import String Ascii List NArith Bool Lia Arith.
From Verif Require Import Base BaseFacts NumStr Ast Regex ApiSpec Utf8Facts Utils Serde SerdeSpec SerdeLib SerdeTable SerdeFacts PropSerde PropDerived Debug DebugSpec
  DebugFacts DebugFacts2 PropDebug DebugLayoutSpec DebugLayoutFacts DebugJoinSpec DebugJoinFacts.
Import ListNotations.
Open Scope string_scope.
Open Scope list_scope.

(** C103.  The layout of [{:#?}]: every value of every type is printed as the standard library's padding writer does it, entry by
    entry; so each line is indented by four spaces for each value around it. *)
Theorem C103_layout : forall n A (d : json -> option A) s, In (n, Impl d s) implementations ->
  forall shown x, no_controls shown -> texts (s x) -> debug shown (s x) (TRef n) (Pretty 0) = pretty shown (s x) (TRef n).
Proof.
  intros n A d s I shown x Hs T. apply (debug_pretty shown Hs (depth (s x))); [apply Nat.le_refl|exact (own_form n A d s x I)|exact T].
Qed.
Print Assumptions C103_layout.

(** At a deeper level it is the same text with four more spaces on every further line. *)
Theorem C103_deeper : forall n A (d : json -> option A) s, In (n, Impl d s) implementations ->
  forall shown x k, no_controls shown -> texts (s x) ->
  debug shown (s x) (TRef n) (Pretty (S k)) = pad (debug shown (s x) (TRef n) (Pretty k)).
Proof.
  intros n A d s I shown x k Hs T. symmetry.
  apply (debug_pad shown Hs (depth (s x))); [apply Nat.le_refl|exact (own_form n A d s x I)|exact T].
Qed.
Print Assumptions C103_deeper.

Theorem C103_law_layout : forall shown l, no_controls shown -> texts (ser_law l) ->
  debug_law shown (Pretty 0) l = pretty shown (ser_law l) (TRef "Law").
Proof. intros shown l. apply (C103_layout _ _ _ _ law_in). Qed.
Print Assumptions C103_law_layout.

(** The two outputs differ only in the layout: joining the lines of [{:#?}] gives [{:?}]. *)
Theorem C103_joined : forall n A (d : json -> option A) s, In (n, Impl d s) implementations ->
  forall shown x k, no_controls shown -> texts (s x) ->
  one_line (debug shown (s x) (TRef n) (Pretty k)) = debug shown (s x) (TRef n) Compact.
Proof. intros n A d s I shown x k Hs T. apply (debug_one_line shown Hs); [exact (own_form n A d s x I)|exact T]. Qed.
Print Assumptions C103_joined.

(** Rows of the table of contents, which are not serialised. *)
Theorem C103_row_layout : forall shown a, no_controls shown -> (forall s, toc_title a = Some s -> encoded s) ->
  let num o := pretty shown (ser_opt ser_AN o) (TOpt (TRef "ArticleNumber")) in
  debug_toc_row shown (Pretty 0) a =
    ("Toc {" ++ block [
       "part_number: " ++ num (toc_part a); "chapter_number: " ++ num (toc_chapter a); "section_number: " ++ num (toc_section a);
       "subsection_number: " ++ num (toc_subsection a); "division_number: " ++ num (toc_division a); "article_number: " ++ num (toc_article a);
       "title: " ++ match toc_title a with Some s => "Some(" ++ block [debug_str shown s] ++ ")" | None => "None" end] ++ "}")%string.
Proof.
  intros shown a Hs T num.
  assert (N : forall o, debug_opt_AN shown (Pretty 1) o = pad (num o)).
  { intros o. unfold num, debug_opt_AN.
    assert (F : form (TOpt (TRef "ArticleNumber")) (ser_opt ser_AN o) = Some (ser_opt ser_AN o)).
    { rewrite form_opt. destruct o as [n|]; [|reflexivity]. cbn [ser_opt]. pose proof (AN_form n) as E. destruct (ser_AN n); [reflexivity|exact E..]. }
    assert (X : texts (ser_opt ser_AN o)) by (destruct o; [apply texts_AN|constructor]).
    rewrite <- (debug_pretty shown Hs (depth (ser_opt ser_AN o))) by (assumption || apply Nat.le_refl).
    symmetry. apply (debug_pad shown Hs (depth (ser_opt ser_AN o))); [apply Nat.le_refl|assumption..]. }
  assert (L : debug shown (ser_opt JStr (toc_title a)) (TOpt TStr) (Pretty 1) =
    pad (match toc_title a with Some s => "Some(" ++ block [debug_str shown s] ++ ")" | None => "None" end)%string).
  { destruct (toc_title a) as [s|]; [|reflexivity]. specialize (T s eq_refl). cbn [ser_opt].
    rewrite <- (debug_pad shown Hs (depth (JStr s)) (TOpt TStr) (JStr s) 0); [|apply Nat.le_refl|reflexivity|constructor; exact T].
    f_equal. apply (debug_pretty shown Hs (depth (JStr s))); [apply Nat.le_refl|reflexivity|constructor; exact T]. }
  unfold debug_toc_row. cbv zeta. cbn [deeper]. rewrite !N, L. rewrite <- (block_listed _ " " " ") by discriminate.
  unfold debug_struct, debug_field. cbn [map]. rewrite !sapp. rewrite !pad_app. reflexivity.
Qed.
Print Assumptions C103_row_layout.

(** The articles that are listed with the numbers of the headings above them. *)
Theorem C103_article_layout : forall shown a, no_controls shown -> texts (ser KArticle (wn_article a)) ->
  let num o := pretty shown (ser_opt ser_AN o) (TOpt (TRef "ArticleNumber")) in
  debug_wna shown (Pretty 0) a =
    ("WithNumberArticle {" ++ block [
       "part: " ++ num (wn_part a); "chapter: " ++ num (wn_chapter a); "section: " ++ num (wn_section a);
       "subsection: " ++ num (wn_subsection a); "division: " ++ num (wn_division a);
       "article: " ++ pretty shown (ser KArticle (wn_article a)) (TRef "Article")] ++ "}")%string.
Proof.
  intros shown a Hs T num.
  assert (O : forall t j, form t j = Some j -> texts j -> debug shown j t (Pretty 1) = pad (pretty shown j t)).
  { intros t j F X. rewrite <- (debug_pretty shown Hs (depth j)) by (assumption || apply Nat.le_refl).
    symmetry. apply (debug_pad shown Hs (depth j)); [apply Nat.le_refl|assumption..]. }
  unfold debug_wna, debug_knot, debug_opt_AN. cbv zeta. cbn [deeper type_name]. rewrite !O by (apply AN_own || apply (knot_form KArticle) || exact T).
  rewrite <- (block_listed _ " " " ") by discriminate.
  unfold debug_struct, debug_field. cbn [map]. rewrite !sapp. rewrite !pad_app. reflexivity.
Qed.
Print Assumptions C103_article_layout.

(** The same for the types that are not serialised. *)
Lemma same_AN : forall shown k o, no_controls shown -> same (debug_opt_AN shown (Pretty k) o) (debug_opt_AN shown Compact o).
Proof. intros shown k o Hs. destruct (AN_own o) as [F T]. apply (debug_same shown Hs _ _ _ _ (Nat.le_refl _) F T). Qed.
Lemma same_end : forall s s', same s s' -> one_line s = s'.
Proof. intros s s' H. specialize (H Within "" eq_refl). rewrite !sapp_nil in H. exact H. Qed.
Theorem C103_article_joined : forall shown a k, no_controls shown -> texts (ser KArticle (wn_article a)) ->
  one_line (debug_wna shown (Pretty k) a) = debug_wna shown Compact a.
Proof.
  intros shown a k Hs T. apply same_end, same_struct; [reflexivity|discriminate|].
  repeat (constructor; [apply same_field; [reflexivity|]; try (apply same_AN, Hs)|]); [|constructor].
  apply (debug_same shown Hs _ _ _ _ (Nat.le_refl _) (knot_form KArticle (wn_article a)) T).
Qed.
Print Assumptions C103_article_joined.
Theorem C103_row_joined : forall shown a k, no_controls shown -> (forall s, toc_title a = Some s -> encoded s) ->
  one_line (debug_toc_row shown (Pretty k) a) = debug_toc_row shown Compact a.
Proof.
  intros shown a k Hs T. apply same_end, same_struct; [reflexivity|discriminate|].
  repeat (constructor; [apply same_field; [reflexivity|]; try (apply same_AN, Hs)|]); [|constructor].
  apply (debug_same shown Hs _ _ _ _ (Nat.le_refl _)); destruct (toc_title a) as [s|]; try reflexivity; constructor. apply T. reflexivity.
Qed.
Print Assumptions C103_row_joined.
Theorem C103_error_joined : forall shown e k, no_controls shown -> Forall encoded (error_texts e) ->
  one_line (debug_error shown (Pretty k) e) = debug_error shown Compact e.
Proof.
  intros shown e k Hs T. apply same_end.
  destruct e; cbn [error_texts] in T; repeat (apply Forall_cons_iff in T as [? T]); unfold debug_error; cbv zeta;
    try (apply same_word; [reflexivity|discriminate]);
    try (apply same_struct; [reflexivity|discriminate|]; repeat (constructor; [apply same_field; [reflexivity|apply same_str; assumption]|]); constructor).
  match goal with |- same (_ ++ _ ++ listed _ [debug_str _ ?a; debug_str _ ?b] ++ _)%string _ =>
    assert (G : same (listed (Pretty k) [debug_str shown a; debug_str shown b]) (listed Compact [debug_str shown a; debug_str shown b]))
      by (apply same_listed; [repeat (constructor; [apply same_str; assumption|]); constructor|discriminate]);
    set (l := listed (Pretty k) _) in *; set (l' := listed Compact _) in * end.
  intros p r E. rewrite !sapp.
  etransitivity; [exact (same_word "ParsingError" eq_refl ltac:(discriminate) p ("(" ++ opening (Pretty k) "" ++ l ++ closing (Pretty k) "" ++ ")" ++ r)%string E)|].
  f_equal. transitivity ("ParsingError" ++ "(" ++ opening Compact "" ++ l' ++ closing Compact "" ++ ")" ++ joined Within r)%string; [|reflexivity].
  f_equal. cbn [append].
  transitivity (String "(" (joined Bracket (opening (Pretty k) "" ++ l ++ closing (Pretty k) "" ++ String ")" r)))%string; [reflexivity|].
  rewrite joined_bracket, G, joined_closing by reflexivity. reflexivity.
Qed.
Print Assumptions C103_error_joined.

Example C103_layout_case : no_controls all_shown /\ texts (ser_AN (mkAN 3 [2%N] [])) /\
  debug_AN all_shown (Pretty 0) (mkAN 3 [2%N] []) =
    ("ArticleNumber {" ++ line_feed ++ "    base_number: 3," ++ line_feed ++ "    eda_numbers: [" ++ line_feed ++ "        2," ++ line_feed
     ++ "    ]," ++ line_feed ++ "    range_end_numbers: []," ++ line_feed ++ "}")%string /\
  texts (ser_law (deep_law "甲")) /\ debug_law all_shown (Pretty 0) (deep_law "甲") = pretty all_shown (ser_law (deep_law "甲")) (TRef "Law").
Proof.
  assert (N : no_controls all_shown) by (intros c H; apply N.leb_le, H).
  assert (T : texts (ser_law (deep_law "甲"))) by (apply texts_check; vm_compute; reflexivity).
  split; [exact N|]. split; [apply texts_AN|]. split; [vm_compute; reflexivity|]. split; [exact T|exact (C103_law_layout _ _ N T)].
Qed.
Example C103_joined_case : let n := mkAN 3 [2%N; 4%N] [] in
  one_line (debug_AN all_shown (Pretty 0) n) = "ArticleNumber { base_number: 3, eda_numbers: [2, 4], range_end_numbers: [] }" /\
  one_line (debug all_shown (JStr ", { x") (TOpt TStr) (Pretty 2)) = "Some("", { x"")".
Proof. split; vm_compute; reflexivity. Qed.
Example C103_others : Forall encoded (error_texts (ParsingError "usize" "甲")) /\
  one_line (debug_error all_shown (Pretty 0) (ParsingError "usize" "甲")) = "ParsingError(""usize"", ""甲"")" /\
  one_line (debug_toc_row all_shown (Pretty 0) (mkToc None None None None None (Some (mkAN 3 [] [])) (Some "甲"))) =
    "Toc { part_number: None, chapter_number: None, section_number: None, subsection_number: None, division_number: None, article_number: Some(ArticleNumber { base_number: 3, eda_numbers: [], range_end_numbers: [] }), title: Some(""甲"") }".
Proof. split; [repeat (constructor; [apply utf8_iff; reflexivity|]); constructor|]. split; vm_compute; reflexivity. Qed.
