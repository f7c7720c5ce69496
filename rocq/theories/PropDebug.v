(** Properties of the derived [Debug]. *)
From Coq Require Import String Ascii List NArith Bool Lia Arith.
From Verif Require Import Base NumStr Ast Regex ApiSpec Utf8Facts Utils Serde SerdeSpec SerdeLib SerdeTable SerdeFacts Derived DerivedEq ErrorText Samples
  PropSerde PropDerived Debug DebugSpec DebugFacts DebugFacts2.
Import ListNotations.
Open Scope string_scope.
Open Scope list_scope.

(** C97.  Whichever characters are written as themselves, and in both styles, the text of [Debug] determines the value, and
    where it ends if no letter, digit or underscore follows. *)
Lemma own_form : forall n A (d : json -> option A) s x, In (n, Impl d s) implementations -> form (TRef n) (s x) = Some (s x).
Proof. intros n A d s x I. apply (C85_written n A d s I). exists x. reflexivity. Qed.
Theorem C97_every_type : forall n A (d : json -> option A) s, In (n, Impl d s) implementations ->
  forall shown st x y r r', texts (s x) -> texts (s y) -> stop r -> stop r' ->
  (debug shown (s x) (TRef n) st ++ r = debug shown (s y) (TRef n) st ++ r')%string -> x = y /\ r = r'.
Proof.
  intros n A d s I shown st x y r r' Tx Ty R R' E.
  apply (debug_split (depth (s x)) shown (TRef n) (s x) st (Nat.le_refl _) (own_form n A d s x I) Tx) in E;
    [|split; [exact (own_form n A d s y I)|exact Ty]|exact R|exact R'].
  destruct E as [E ->]. split; [|reflexivity]. apply (f_equal d) in E. rewrite !(C84_every_type n A d s I) in E. congruence.
Qed.
Print Assumptions C97_every_type.
Lemma knot_form : forall k x, form (TRef (type_name k)) (ser k x) = Some (ser k x).
Proof. intros k x. rewrite <- de_form, de_ser. reflexivity. Qed.
Lemma ser_inj : forall k x y, ser k x = ser k y -> x = y.
Proof. intros k x y H. apply (f_equal (de k)) in H. rewrite !de_ser in H. congruence. Qed.
Theorem C97_all_kinds : forall shown st k x y, texts (ser k x) -> texts (ser k y) ->
  debug_knot shown st k x = debug_knot shown st k y <-> peq k x y = true.
Proof.
  intros shown st k x y Tx Ty. rewrite (C92_all_types k x y). split; [|intros ->; reflexivity]. intros E. apply ser_inj.
  apply (debug_split (depth (ser k x)) shown (TRef (type_name k)) (ser k x) st (Nat.le_refl _) (knot_form k x) Tx (ser k y) "" "");
    [split; [apply knot_form|exact Ty]|exact I|exact I|]. rewrite !sapp_nil. exact E.
Qed.
Print Assumptions C97_all_kinds.
Theorem C97_law : forall shown st a b, texts (ser_law a) -> texts (ser_law b) ->
  debug_law shown st a = debug_law shown st b <-> peq_law a b = true.
Proof.
  intros shown st a b Ta Tb. rewrite (C92_law a b). split; [|intros ->; reflexivity]. intros E.
  apply (C97_every_type _ _ _ _ law_in shown st a b "" "" Ta Tb I I). rewrite !sapp_nil. exact E.
Qed.
Print Assumptions C97_law.

(** Numbers have no texts. *)
Lemma texts_AN : forall n, texts (ser_AN n).
Proof.
  intros [b e r]. unfold ser_AN, ser_vec. constructor. intros m j [H|[H|[H|[]]]]; injection H as <- <-; constructor;
    intros j Hj; apply in_map_iff in Hj as (x & <- & _); constructor.
Qed.
Lemma AN_form : forall n, form (TRef "ArticleNumber") (ser_AN n) = Some (ser_AN n).
Proof.
  intros n. destruct (ok_AN (depth (ser_AN n))) as (A & B & _). rewrite <- (A (ser_AN n) (Nat.le_refl _)), (B n (Nat.le_refl _)). reflexivity.
Qed.
Lemma AN_inj : forall a b, ser_AN a = ser_AN b -> a = b.
Proof.
  intros a b E. destruct (ok_AN (depth (ser_AN a))) as (_ & B & _). pose proof (B a (Nat.le_refl _)) as Ba.
  rewrite E in Ba. rewrite (B b) in Ba by (rewrite E; apply Nat.le_refl). congruence.
Qed.
Theorem C97_number : forall shown st a b, debug_AN shown st a = debug_AN shown st b <-> a = b.
Proof.
  intros shown st a b. split; [|intros ->; reflexivity]. intros E. apply AN_inj.
  apply (debug_split (depth (ser_AN a)) shown (TRef "ArticleNumber") (ser_AN a) st (Nat.le_refl _) (AN_form a) (texts_AN a) (ser_AN b) "" "");
    [split; [apply AN_form|apply texts_AN]|exact I|exact I|]. rewrite !sapp_nil. exact E.
Qed.
Print Assumptions C97_number.

(** The rows of the two listings. *)
Lemma opt_own : forall A (s : A -> json) t o, (forall x, s x <> JNull) -> (forall x, o = Some x -> form t (s x) = Some (s x) /\ texts (s x)) ->
  form (TOpt t) (ser_opt s o) = Some (ser_opt s o) /\ texts (ser_opt s o).
Proof.
  intros A s t [x|] N H; cbn [ser_opt]; [|split; [reflexivity|constructor]]. destruct (H x eq_refl) as [F T].
  split; [|exact T]. rewrite form_opt. specialize (N x). destruct (s x); [congruence|exact F..].
Qed.
Lemma opt_inj : forall A (s : A -> json) o o', (forall x, s x <> JNull) -> (forall x y, s x = s y -> x = y) -> ser_opt s o = ser_opt s o' -> o = o'.
Proof.
  intros A s [x|] [y|] N J E; cbn [ser_opt] in E; try reflexivity; [f_equal; apply J, E|destruct (N x E)|symmetry in E; destruct (N y E)].
Qed.
Lemma AN_own : forall o, form (TOpt (TRef "ArticleNumber")) (ser_opt ser_AN o) = Some (ser_opt ser_AN o) /\ texts (ser_opt ser_AN o).
Proof. intros o. apply opt_own; [discriminate|]. intros x _. split; [apply AN_form|apply texts_AN]. Qed.
Lemma AN_opt_inj : forall o o', ser_opt ser_AN o = ser_opt ser_AN o' -> o = o'.
Proof. intros o o'. apply opt_inj; [discriminate|apply AN_inj]. Qed.
Definition nums := TOpt (TRef "ArticleNumber").
Definition wna_fields := [("part", nums); ("chapter", nums); ("section", nums); ("subsection", nums); ("division", nums); ("article", TRef "Article")].
Definition wna_parts (a : WithNumberArticle) : list (string * json) :=
  [("part", ser_opt ser_AN (wn_part a)); ("chapter", ser_opt ser_AN (wn_chapter a)); ("section", ser_opt ser_AN (wn_section a));
   ("subsection", ser_opt ser_AN (wn_subsection a)); ("division", ser_opt ser_AN (wn_division a)); ("article", ser KArticle (wn_article a))].
Definition row_fields := [("part_number", nums); ("chapter_number", nums); ("section_number", nums); ("subsection_number", nums);
  ("division_number", nums); ("article_number", nums); ("title", TOpt TStr)].
Definition row_parts (a : Toc) : list (string * json) :=
  [("part_number", ser_opt ser_AN (toc_part a)); ("chapter_number", ser_opt ser_AN (toc_chapter a)); ("section_number", ser_opt ser_AN (toc_section a));
   ("subsection_number", ser_opt ser_AN (toc_subsection a)); ("division_number", ser_opt ser_AN (toc_division a));
   ("article_number", ser_opt ser_AN (toc_article a)); ("title", ser_opt JStr (toc_title a))].
Definition all_own (fs : list (string * sty)) (l : list (string * json)) : Prop :=
  Forall2 (fun f e => fst e = fst f /\ form (snd f) (snd e) = Some (snd e) /\ texts (snd e)) fs l.
Lemma pair_cons : forall (n : string) (a b : json) l m, (n, a) :: l = (n, b) :: m -> a = b /\ l = m.
Proof. intros n a b l m E. injection E as -> ->. split; reflexivity. Qed.
Lemma wna_own : forall a, texts (ser KArticle (wn_article a)) -> all_own wna_fields (wna_parts a).
Proof. intros a T. repeat (constructor; [split; [reflexivity|]; first [apply AN_own|split; [apply (knot_form KArticle)|exact T]]|]). constructor. Qed.
Lemma row_own : forall a, (forall s, toc_title a = Some s -> encoded s) -> all_own row_fields (row_parts a).
Proof.
  intros a T. repeat (constructor; [split; [reflexivity|apply AN_own]|]). constructor; [|constructor]. split; [reflexivity|].
  apply opt_own; [discriminate|]. intros x E. split; [reflexivity|constructor; apply T, E].
Qed.
Lemma struct_split : forall shown st name fs l l', fs <> [] -> all_own fs l -> all_own fs l' ->
  debug_struct st name (zipped shown st fs l) = debug_struct st name (zipped shown st fs l') -> l = l'.
Proof.
  intros shown st name fs l l' N H H' E.
  assert (Z : forall m, all_own fs m -> debug_struct st name (zipped shown st fs m) = (name ++ " {" ++ opening st " " ++ listed st (zipped shown st fs m) ++ closing st " " ++ "}" ++ "")%string).
  { intros m Fm. destruct Fm as [|[] [] ? ? ? ?]; [congruence|]. reflexivity. }
  rewrite (Z l H), (Z l' H') in E. do 3 apply BaseFacts.append_inj_l in E.
  apply fields_split in E; [exact (proj1 E)| |exact H'].
  clear - H. induction H as [|f e fs l (K & F & T) _ IH]; constructor; [|exact IH]. split; [exact K|].
  apply (debug_split (depth (snd e))); [apply Nat.le_refl|exact F|exact T].
Qed.
Theorem C97_articles : forall shown st a b, texts (ser KArticle (wn_article a)) -> texts (ser KArticle (wn_article b)) ->
  debug_wna shown st a = debug_wna shown st b <-> peq_wna a b = true.
Proof.
  intros shown st a b Ta Tb. rewrite (proj1 C92_results a b). split; [|intros ->; reflexivity]. intros E.
  apply (struct_split shown st "WithNumberArticle" wna_fields (wna_parts a) (wna_parts b)) in E; [|discriminate|exact (wna_own a Ta)|exact (wna_own b Tb)].
  unfold wna_parts in E.
  apply pair_cons in E as [E1 E]. apply pair_cons in E as [E2 E]. apply pair_cons in E as [E3 E]. apply pair_cons in E as [E4 E].
  apply pair_cons in E as [E5 E]. apply pair_cons in E as [E6 _]. apply AN_opt_inj in E1, E2, E3, E4, E5. apply ser_inj in E6.
  destruct a as [a1 a2 a3 a4 a5 a6], b as [b1 b2 b3 b4 b5 b6]. cbn [wn_part wn_chapter wn_section wn_subsection wn_division wn_article] in *. subst. reflexivity.
Qed.
Print Assumptions C97_articles.
Theorem C97_rows : forall shown st a b, (forall s, toc_title a = Some s -> encoded s) -> (forall s, toc_title b = Some s -> encoded s) ->
  debug_toc_row shown st a = debug_toc_row shown st b <-> peq_toc_row a b = true.
Proof.
  intros shown st a b Ta Tb. rewrite (proj1 (proj2 C92_results) a b). split; [|intros ->; reflexivity]. intros E.
  apply (struct_split shown st "Toc" row_fields (row_parts a) (row_parts b)) in E; [|discriminate|exact (row_own a Ta)|exact (row_own b Tb)].
  unfold row_parts in E.
  apply pair_cons in E as [E1 E]. apply pair_cons in E as [E2 E]. apply pair_cons in E as [E3 E]. apply pair_cons in E as [E4 E].
  apply pair_cons in E as [E5 E]. apply pair_cons in E as [E6 E]. apply pair_cons in E as [E7 _]. apply AN_opt_inj in E1, E2, E3, E4, E5, E6.
  apply opt_inj in E7; [|discriminate|intros x y H; congruence]. destruct a, b. cbn in *. congruence.
Qed.
Print Assumptions C97_rows.
(** An error is determined by its [Debug], but not by its message (C75). *)
Theorem C97_errors : forall shown st a b, Forall encoded (error_texts a) -> Forall encoded (error_texts b) ->
  debug_error shown st a = debug_error shown st b <-> a = b.
Proof.
  intros shown st a b A B. split; [|intros ->; reflexivity]. intros E.
  apply (error_split shown st a b "" "" A B). rewrite !sapp_nil. exact E.
Qed.
Print Assumptions C97_errors.
Theorem C97_unlike_message : exists a b, message a = message b /\
  forall shown st, debug_error shown st a <> debug_error shown st b.
Proof.
  exists (UnexpectedTag "a tag at b" "c"), (UnexpectedTag "a" "b tag at c"). split; [reflexivity|]. intros shown st E.
  apply C97_errors in E; [discriminate E| |]; repeat constructor; apply utf8_iff; reflexivity.
Qed.
Print Assumptions C97_unlike_message.

Definition all_shown (c : N) : bool := N.leb 32 c.
Definition quote : string := String (ascii_of_N 34) "".
Example C97_case :
  debug_AN all_shown Compact (mkAN 3 [2%N; 10%N] []) = "ArticleNumber { base_number: 3, eda_numbers: [2, 10], range_end_numbers: [] }" /\
  debug_AN all_shown (Pretty 0) (mkAN 3 [2%N; 10%N] []) = "ArticleNumber {
    base_number: 3,
    eda_numbers: [
        2,
        10,
    ],
    range_end_numbers: [],
}" /\
  debug_str all_shown ("甲'" ++ quote ++ "\" ++ String (ascii_of_N 10) (String (ascii_of_N 27) "")) =
    (quote ++ "甲'\" ++ quote ++ "\\\n\u{1b}" ++ quote)%string /\
  debug_str (fun c => N.ltb c 128) "甲" = (quote ++ "\u{7532}" ++ quote)%string /\
  debug_str all_shown (enc [128512%N]) = (quote ++ enc [128512%N] ++ quote)%string /\
  debug_str (fun _ => false) (enc [233; 128512]%N) = (quote ++ "\u{e9}\u{1f600}" ++ quote)%string /\
  debug all_shown (ser_opt JStr (Some "x")) (TOpt TStr) (Pretty 1) = ("Some(
        " ++ quote ++ "x" ++ quote ++ ",
    )")%string /\
  debug_error all_shown Compact (ParsingError "usize" "x") = ("ParsingError(" ++ quote ++ "usize" ++ quote ++ ", " ++ quote ++ "x" ++ quote ++ ")")%string /\
  debug_error all_shown (Pretty 0) (MissingRequiredTag "Law") = ("MissingRequiredTag {
    tag_name: " ++ quote ++ "Law" ++ quote ++ ",
}")%string.
Proof. repeat split; vm_compute; reflexivity. Qed.
Definition texts_dec : forall j, bool := fix go j := match j with
  | JNull | JBool _ | JNum _ => true | JOther => false | JStr s => Api.utf8 s
  | JArr l => (fix all l := match l with [] => true | x :: r => go x && all r end) l
  | JObj l => (fix all l := match l with [] => true | (_, x) :: r => go x && all r end) l end.
Lemma texts_check : forall j, texts_dec j = true -> texts j.
Proof.
  fix IH 1. intros [|b|n| |s|l|l] H; try constructor; try discriminate H.
  - apply utf8_iff. exact H.
  - revert H. induction l as [|x l IHl]; intros H j Hj; [destruct Hj|]. apply andb_true_iff in H as [H1 H2].
    destruct Hj as [<-|Hj]; [apply IH; exact H1|apply IHl; assumption].
  - revert H. induction l as [|[m x] l IHl]; intros H n j Hj; [destruct Hj|]. apply andb_true_iff in H as [H1 H2].
    destruct Hj as [E|Hj]; [injection E as _ <-; apply IH; exact H1|apply (IHl H2 n j Hj)].
Qed.
Example C97_law_case : texts (ser_law s_law) /\ texts (ser_law (deep_law "甲")) /\ texts (ser_law (deep_law "乙")) /\
  debug_law all_shown Compact (deep_law "甲") <> debug_law all_shown Compact (deep_law "乙") /\
  Nat.leb 1000 (String.length (debug_law all_shown (Pretty 0) s_law)) = true.
Proof.
  assert (A : forall s, Api.utf8 s = true -> texts (ser_law (deep_law s))) by (intros s H; apply texts_check; cbn; rewrite H; reflexivity).
  split; [apply texts_check; vm_compute; reflexivity|]. split; [apply A; reflexivity|]. split; [apply A; reflexivity|].
  split; [|vm_compute; reflexivity]. intros H. apply C97_law in H; [vm_compute in H; discriminate H|apply A; reflexivity..].
Qed.
(** The condition on texts is that of Rust; byte sequences that are no texts would be confused. *)
Example C97_no_text : let s := String (ascii_of_N 192) (String (ascii_of_N 162) "") in
  Api.utf8 s = false /\ debug_str all_shown s = debug_str all_shown quote.
Proof. split; reflexivity. Qed.
(** Two variants of one enum. *)
Example C97_variants : debug all_shown (JArr [JObj [("Sup", JObj [("value", JStr "2")])]]) (TVec (TRef "TextElement")) Compact <>
  debug all_shown (JArr [JObj [("Sub", JObj [("value", JStr "2")])]]) (TVec (TRef "TextElement")) Compact.
Proof. vm_compute. discriminate. Qed.

(** C98.  [{:?}] of a value is one line without control characters, and [{:#?}] has no control characters but line breaks,
    if control characters are not written as themselves. *)
Definition no_controls (shown : N -> bool) : Prop := forall c, shown c = true -> (32 <= c)%N.
Theorem C98_one_line : forall n A (d : json -> option A) s, In (n, Impl d s) implementations ->
  forall shown x, no_controls shown -> texts (s x) -> bytes (fun b => 32 <= b)%N (debug shown (s x) (TRef n) Compact).
Proof.
  intros n A d s I shown x Hs T.
  apply (debug_bytes shown Hs (fun b => 32 <= b)%N (fun b H => H) (fun st => st = Compact)) with (n := depth (s x));
    [|apply Nat.le_refl|exact (own_form n A d s x I)|exact T|reflexivity].
  intros st ->. cbn. repeat split; lia.
Qed.
Print Assumptions C98_one_line.
Lemma indent_bytes : forall n, bytes (fun b => 32 <= b \/ b = 10)%N (indent n).
Proof. induction n as [|n IH]; [exact I|]. cbn [indent append bytes]. repeat split; [left; cbn; lia..|exact IH]. Qed.
Theorem C98_lines : forall n A (d : json -> option A) s, In (n, Impl d s) implementations ->
  forall shown st x, no_controls shown -> texts (s x) -> bytes (fun b => 32 <= b \/ b = 10)%N (debug shown (s x) (TRef n) st).
Proof.
  intros n A d s I shown st x Hs T.
  apply (debug_bytes shown Hs (fun b => 32 <= b \/ b = 10)%N (fun b H => or_introl H) (fun st => True)) with (n := depth (s x));
    [|apply Nat.le_refl|exact (own_form n A d s x I)|exact T|exact Logic.I].
  intros [|m] _; [cbn; repeat split; left; lia|]. pose proof (indent_bytes m) as B. pose proof (indent_bytes (S m)) as B'.
  unfold deeper, opening, between, closing, newline. rewrite !bytes_app. cbn [bytes] in *.
  repeat split; try exact B; try exact B'; cbn; lia.
Qed.
Print Assumptions C98_lines.
Theorem C98_law : forall shown l, no_controls shown -> texts (ser_law l) -> bytes (fun b => 32 <= b)%N (debug_law shown Compact l).
Proof. intros shown l. apply (C98_one_line _ _ _ _ law_in). Qed.
Print Assumptions C98_law.
Lemma bytes_checked : forall (P : N -> Prop) (f : N -> bool) s, (forall n, P n -> f n = true) -> bytes P s ->
  forallb (fun c => f (N_of_ascii c)) (list_ascii_of_string s) = true.
Proof. intros P f s H. induction s as [|c s IH]; [reflexivity|]. intros [H1 H2]. cbn [list_ascii_of_string forallb]. rewrite (H _ H1). exact (IH H2). Qed.
Example C98_case : no_controls all_shown /\ texts (ser_law (deep_law (String (ascii_of_N 10) ""))) /\
  bytes (fun b => 32 <= b)%N (debug_law all_shown Compact (deep_law (String (ascii_of_N 10) ""))) /\
  ~ bytes (fun b => 32 <= b)%N (debug_law all_shown (Pretty 0) (deep_law "甲")).
Proof.
  assert (N : no_controls all_shown) by (intros c H; apply N.leb_le, H).
  assert (T : texts (ser_law (deep_law (String (ascii_of_N 10) "")))) by (apply texts_check; vm_compute; reflexivity).
  split; [exact N|]. split; [exact T|]. split; [exact (C98_law _ _ N T)|]. intros H.
  apply (bytes_checked _ (N.leb 32)) in H; [|intros n Hn; apply N.leb_le, Hn]. vm_compute in H. discriminate H.
Qed.
