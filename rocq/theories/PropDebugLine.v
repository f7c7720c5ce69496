(** Properties of the [Debug] of lines. *)
From Coq Require Import String Ascii List NArith Bool Lia Arith.
From Verif Require Import Base BaseFacts NumStr Ast Regex NumText TextParse ApiSpec Utf8Facts Serde SerdeSpec SerdeLib SerdeTable SerdeFacts
  Derived PropSerde PropDerived Debug DebugSpec DebugFacts DebugFacts2 PropDebug DebugLine.
Import ListNotations.
Open Scope string_scope.
Open Scope list_scope.

(** The texts of a line. *)
Definition line_texts (l : line) : list ustr :=
  match l with
  | LCaption s | LText s | LSuppl (Some s) => [s]
  | LPart _ t | LChapter _ t | LSection _ t | LSubsection _ t | LDivision _ t | LArticle _ t | LParagraph _ t => [t]
  | LItem i t => [inum_str i; t]
  | LSuppl None => []
  end.

Lemma enc_texts : forall t, Forall scalar t -> encoded (enc t).
Proof. intros t H. exists t. auto. Qed.
Lemma enc_one : forall t t', Forall scalar t -> Forall scalar t' -> enc t = enc t' -> t = t'.
Proof. intros t t' H H' E. rewrite <- (chars_enc t H), <- (chars_enc t' H'), E. reflexivity. Qed.
Lemma text_split : forall shown t t' r r', Forall scalar t -> Forall scalar t' ->
  (debug_str shown (enc t) ++ r = debug_str shown (enc t') ++ r')%string -> t = t' /\ r = r'.
Proof.
  intros shown t t' r r' H H' E. apply str_split in E as [E ->]; [|apply enc_texts; assumption..]. split; [apply enc_one; assumption|reflexivity].
Qed.
Lemma number_split : forall shown st a b r r', stop r -> stop r' ->
  (debug_AN shown st a ++ r = debug_AN shown st b ++ r')%string -> a = b /\ r = r'.
Proof.
  intros shown st a b r r' R R' E.
  apply (debug_split (depth (ser_AN a)) shown (TRef "ArticleNumber") (ser_AN a) st (Nat.le_refl _) (AN_form a) (texts_AN a) (ser_AN b)) in E as [E ->];
    [|split; [apply AN_form|apply texts_AN]|exact R|exact R']. split; [apply AN_inj, E|reflexivity].
Qed.
Lemma texts_item : forall i, encoded (inb_str i) -> texts (ser_item_number i).
Proof.
  intros [s b e r p] H. unfold ser_item_number, ser_vec, ser_pattern. cbn [inb_str inb_base inb_eda inb_range inb_pattern] in *. constructor. intros m j Hj.
  cbn [In] in Hj. repeat (destruct Hj as [Hj|Hj]; [injection Hj as <- <-; constructor|]); try (destruct Hj); try assumption;
    try (intros j Hj; apply in_map_iff in Hj as (x & <- & _); constructor).
  destruct p; apply utf8_iff; reflexivity.
Qed.
Lemma item_in : In ("ItemNumber", Impl de_item_number ser_item_number) implementations.
Proof. unfold implementations. cbn [In]. tauto. Qed.
Lemma label_split : forall shown st a b r r', Forall scalar (inum_str a) -> Forall scalar (inum_str b) -> stop r -> stop r' ->
  (debug_item_number shown st a ++ r = debug_item_number shown st b ++ r')%string -> a = b /\ r = r'.
Proof.
  intros shown st a b r r' A B R R' E.
  apply (C97_every_type _ _ _ _ item_in shown st) in E as [E ->]; [|apply texts_item, enc_texts; assumption|apply texts_item, enc_texts; assumption|exact R|exact R'].
  split; [|reflexivity]. destruct a as [s n e g p], b as [s' n' e' g' p']. cbn [inum_str inum_base inum_eda inum_range inum_pattern] in *.
  injection E as E1 -> -> -> ->. rewrite (enc_one s s' A B E1). reflexivity.
Qed.

(** One datum and two data after the same name. *)
Lemma tuple_split : forall st name x y r r', (debug_tuple st name x ++ r = debug_tuple st name y ++ r')%string ->
  (x ++ closing st "" ++ ")" ++ r = y ++ closing st "" ++ ")" ++ r')%string.
Proof. intros st name x y r r' E. unfold debug_tuple in E. rewrite !sapp in E. do 3 apply append_inj_l in E. exact E. Qed.
Lemma data_split : forall st name x y x' y' r r', (debug_pair st name x y ++ r = debug_pair st name x' y' ++ r')%string ->
  (x ++ between st ++ y ++ closing st "" ++ ")" ++ r = x' ++ between st ++ y' ++ closing st "" ++ ")" ++ r')%string.
Proof. intros st name x y x' y' r r' E. unfold debug_pair in E. cbn [listed] in E. rewrite !sapp in E. do 3 apply append_inj_l in E. exact E. Qed.
Lemma closed : forall st r r', (closing st "" ++ ")" ++ r = closing st "" ++ ")" ++ r')%string -> r = r'.
Proof. intros st r r' E. do 2 apply append_inj_l in E. exact E. Qed.
Lemma numbered_split : forall shown st name a b t t' r r', Forall scalar t -> Forall scalar t' ->
  (debug_pair st name (debug_AN shown (deeper st) a) (debug_str shown (enc t)) ++ r =
   debug_pair st name (debug_AN shown (deeper st) b) (debug_str shown (enc t')) ++ r')%string -> a = b /\ t = t' /\ r = r'.
Proof.
  intros shown st name a b t t' r r' H H' E. apply data_split in E. apply number_split in E as [-> E]; [|apply stop_between..].
  apply append_inj_l in E. apply text_split in E as [-> E]; [|assumption..]. apply closed in E. auto.
Qed.

(** C97, the private enum of lines: its [Debug], in both styles, determines the line, and where it ends. *)
Theorem C97_lines : forall shown st a b r r', Forall (Forall scalar) (line_texts a) -> Forall (Forall scalar) (line_texts b) ->
  (debug_line shown st a ++ r = debug_line shown st b ++ r')%string -> a = b /\ r = r'.
Proof.
  intros shown st a b r r' A B E.
  assert (F1 : forall x, Forall (Forall scalar) [x] -> Forall scalar x) by (intros x F; inversion F; assumption).
  assert (F2 : forall x y, Forall (Forall scalar) [x; y] -> Forall scalar x /\ Forall scalar y) by (intros x y F; inversion F as [|? ? ? G]; inversion G; auto).
  destruct a as [s|n t|n t|n t|n t|n t|n t|n t|i t|o|s], b as [s'|n' t'|n' t'|n' t'|n' t'|n' t'|n' t'|n' t'|i' t'|o'|s']; try discriminate E;
    unfold debug_line in E; cbv zeta in E;
    try (cbn [line_texts] in A, B; apply F1 in A; apply F1 in B; apply numbered_split in E as (-> & -> & ->); [split; reflexivity|assumption..]).
  - cbn [line_texts] in A, B. apply F1 in A. apply F1 in B. apply tuple_split in E. apply text_split in E as [-> E]; [|assumption..]. apply closed in E. subst. auto.
  - cbn [line_texts] in A, B. apply F2 in A as [A A']. apply F2 in B as [B B']. apply data_split in E. apply label_split in E as [-> E]; [|assumption..|apply stop_between|apply stop_between].
    apply append_inj_l in E. apply text_split in E as [-> E]; [|assumption..]. apply closed in E. subst. auto.
  - apply tuple_split in E. destruct o as [s|], o' as [s'|]; cbn [line_texts] in A, B; try discriminate E.
    + apply F1 in A. apply F1 in B. apply tuple_split in E. apply text_split in E as [-> E]; [|assumption..]. apply closed in E. apply closed in E. subst. auto.
    + apply append_inj_l in E. apply closed in E. subst. auto.
  - cbn [line_texts] in A, B. apply F1 in A. apply F1 in B. apply tuple_split in E. apply text_split in E as [-> E]; [|assumption..]. apply closed in E. subst. auto.
Qed.
Print Assumptions C97_lines.
(** So it agrees with the derived equality. *)
Theorem C97_lines_equal : forall shown st a b, Forall (Forall scalar) (line_texts a) -> Forall (Forall scalar) (line_texts b) ->
  debug_line shown st a = debug_line shown st b <-> peq_plain_line a b = true.
Proof.
  intros shown st a b A B. rewrite (proj2 (proj2 C92_items) a b). split; [|intros ->; reflexivity]. intros E.
  apply (C97_lines shown st a b "" "" A B). rewrite !sapp_nil. exact E.
Qed.
Print Assumptions C97_lines_equal.

Definition shown_line : line := LItem (mkIN (u "（一）") 1 [] [] ParenKansuji) (u "甲").
Example C97_lines_case :
  debug_line all_shown Compact (LPart (mkAN 1 [] []) (u "総則")) =
    ("Part(ArticleNumber { base_number: 1, eda_numbers: [], range_end_numbers: [] }, " ++ quote ++ "総則" ++ quote ++ ")")%string /\
  debug_line all_shown Compact (LSuppl None) = "SupplProvision(None)" /\
  debug_line all_shown (Pretty 0) shown_line = ("Item(
    ItemNumber {
        str: " ++ quote ++ "（一）" ++ quote ++ ",
        base_number: 1,
        eda_numbers: [],
        range_end_numbers: [],
        pattern: ParenKansuji,
    },
    " ++ quote ++ "甲" ++ quote ++ ",
)")%string /\
  Forall (Forall scalar) (line_texts shown_line).
Proof.
  repeat (split; [vm_compute; reflexivity|]). repeat (apply Forall_cons); try apply Forall_nil;
    (left; vm_compute; reflexivity) || (right; split; vm_compute; [discriminate|reflexivity]).
Qed.

(** C98, the same enum: one line without control characters. *)
Theorem C98_plain_line : forall shown l, no_controls shown -> Forall (Forall scalar) (line_texts l) ->
  bytes (fun b => 32 <= b)%N (debug_line shown Compact l).
Proof.
  intros shown l Hs H.
  assert (W : forall s, wordb s = true -> bytes (fun b => 32 <= b)%N s) by (intros s; apply bytes_word; auto).
  assert (S : forall t, Forall scalar t -> bytes (fun b => 32 <= b)%N (debug_str shown (enc t))).
  { intros t Ht. apply (bytes_str shown Hs (fun b => 32 <= b)%N (fun b Hb => Hb)), enc_texts, Ht. }
  assert (T : forall n x, wordb n = true -> bytes (fun b => 32 <= b)%N x -> bytes (fun b => 32 <= b)%N (debug_tuple Compact n x)).
  { intros n x Hn Hx. unfold debug_tuple, opening, closing. rewrite !bytes_app. repeat split; auto; cbn; lia. }
  assert (D : forall n x y, wordb n = true -> bytes (fun b => 32 <= b)%N x -> bytes (fun b => 32 <= b)%N y ->
    bytes (fun b => 32 <= b)%N (debug_pair Compact n x y)).
  { intros n x y Hn Hx Hy. unfold debug_pair, opening, closing, listed, between. rewrite !bytes_app. repeat split; auto; cbn; lia. }
  assert (A : forall n, bytes (fun b => 32 <= b)%N (debug_AN shown Compact n)).
  { intros n. apply (debug_bytes shown Hs (fun b => 32 <= b)%N (fun b Hb => Hb) (fun st => st = Compact)) with (n := depth (ser_AN n));
      [|apply Nat.le_refl|apply AN_form|apply texts_AN|reflexivity]. intros st ->. cbn. repeat split; lia. }
  assert (F1 : forall x, Forall (Forall scalar) [x] -> Forall scalar x) by (intros x F; inversion F; assumption).
  destruct l as [s|n t|n t|n t|n t|n t|n t|n t|i t|o|s]; unfold debug_line; cbv zeta; cbn [deeper]; cbn [line_texts] in H;
    try (apply F1 in H; apply D; [reflexivity|apply A|apply S, H]); try (apply F1 in H; apply T; [reflexivity|apply S, H]).
  - inversion H as [|? ? H1 H2]; subst. inversion H2 as [|? ? H3 _]; subst. apply D; [reflexivity| |apply S, H3].
    apply (C98_one_line _ _ _ _ item_in shown); [exact Hs|]. apply texts_item, enc_texts, H1.
  - destruct o as [s|]; [|cbn; repeat split; lia]. apply T; [reflexivity|]. apply T; [reflexivity|]. apply S, F1, H.
Qed.
Print Assumptions C98_plain_line.
Example C98_plain_line_case : no_controls all_shown /\ bytes (fun b => 32 <= b)%N (debug_line all_shown Compact (LText [27%N; 10%N])) /\
  debug_line all_shown Compact (LText [27%N; 10%N]) = ("Text(" ++ quote ++ "\u{1b}\n" ++ quote ++ ")")%string.
Proof.
  split; [intros c H; apply N.leb_le, H|]. split; [|vm_compute; reflexivity]. apply C98_plain_line; [intros c H; apply N.leb_le, H|].
  repeat (apply Forall_cons); try apply Forall_nil; left; reflexivity.
Qed.
