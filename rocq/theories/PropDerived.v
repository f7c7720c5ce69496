(** Properties of the derived comparison and hash. *)
From Coq Require Import String List NArith Bool Lia.
From Verif Require Import Base NumStr Ast Regex NumText NumTextSpec Utils Serde SerdeFacts TextParse TextFacts Samples PropSerde
  SerdeSpec Derived DerivedLib DerivedEq DerivedHash HashSpec HashFacts.
Import ListNotations.
Open Scope string_scope.
Open Scope list_scope.

(** C92.  [==] holds of two values of a type exactly if they are the same value. *)
Theorem C92_all_types : forall k x y, peq k x y = true <-> x = y.
Proof. exact eqr_knot. Qed.
Print Assumptions C92_all_types.
Theorem C92_law : forall a b, peq_law a b = true <-> a = b.
Proof. exact eqr_law. Qed.
Print Assumptions C92_law.
Theorem C92_number : forall a b, peq_AN a b = true <-> a = b.
Proof. exact eqr_AN. Qed.
Print Assumptions C92_number.
Theorem C92_results : (forall a b, peq_wna a b = true <-> a = b) /\ (forall a b, peq_toc_row a b = true <-> a = b) /\
  (forall i j, peq_index i j = true <-> i = j).
Proof. split; [exact eqr_wna|split; [exact eqr_toc_row|exact eqr_index]]. Qed.
Print Assumptions C92_results.
Theorem C92_items : (forall i j, peq_item_number i j = true <-> i = j) /\ (forall i j, peq_item_number_u i j = true <-> i = j) /\
  (forall a b, peq_plain_line a b = true <-> a = b).
Proof. split; [exact eqr_item_number|split; [exact eqr_item_number_u|exact eqr_plain_line]]. Qed.
Print Assumptions C92_items.
(** The comparison of forms that the reader of plain text is modelled with. *)
Theorem C92_pattern : forall p q, pat_eqb p q = peq_pattern p q.
Proof. intros p q. apply eq_true_iff_eq. rewrite pat_eqb_eq. symmetry. apply eqr_pattern. Qed.
Print Assumptions C92_pattern.
(** Laws are equal exactly if they are stored alike. *)
Theorem C92_stored : forall a b, peq_law a b = true <-> ser_law a = ser_law b.
Proof. intros a b. rewrite (C92_law a b). split; [intros ->; reflexivity|apply C84_distinct]. Qed.
Print Assumptions C92_stored.

(** Two laws that differ in the words of one sentence of one item. *)
Definition deep_law (s : string) : Law :=
  mkLaw Showa 22 None None None Act Ja "x" (mkLawBody (mkLawBodyF None [] None None None
    (mkMain (mkMainF [MC_Article (mkArticle (mkArticleF None [] [mkParagraph (mkParagraphF None [] [] [] [] []
      [mkItem (l := Item0) (mkItemF None (SCT_Sentence [mkSentence (mkSentenceF [SE_String s] None None None Vertical)]) [] [] None false false)]
      (num1 1) false false false)] None (num1 1) false false))] None)) [] [] [] [] [] [] [])).
Example C92_case :
  peq_law s_law s_law = true /\ peq_law (deep_law "甲") (deep_law "乙") = false /\ peq_law (deep_law "甲") (deep_law "甲") = true /\
  peq_AN (mkAN 1 [2%N] []) (mkAN 1 [] [2%N]) = false /\
  peq (KCont CQuote) (mkCont (c := CQuote) [CE_Sup "a"]) (mkCont (c := CQuote) [CE_Sub "a"]) = false.
Proof. repeat split; vm_compute; reflexivity. Qed.

(** C93.  The calls made to the hasher determine the value, and where it ends; so equal values are hashed alike, different
    ones are told apart by every hasher that tells different sequences of calls apart, and this remains so for values
    hashed one after the other. *)
Theorem C93_all_types : forall k x y, hash k x = hash k y <-> x = y.
Proof. intros k x y. split; [|intros ->; reflexivity]. intros H. apply (inj_knot k x y [] []). rewrite !app_nil_r. exact H. Qed.
Print Assumptions C93_all_types.
Theorem C93_prefix : forall k x y r r', hash k x ++ r = hash k y ++ r' -> x = y /\ r = r'.
Proof. exact inj_knot. Qed.
Print Assumptions C93_prefix.
Theorem C93_law : forall a b, hash_law a = hash_law b <-> peq_law a b = true.
Proof.
  intros a b. rewrite (C92_law a b). split; [|intros ->; reflexivity].
  intros H. apply (inj_law a b [] []). rewrite !app_nil_r. exact H.
Qed.
Print Assumptions C93_law.
Theorem C93_results : forall r r', (forall a b, hash_wna a ++ r = hash_wna b ++ r' -> a = b /\ r = r') /\
  (forall a b, hash_toc_row a ++ r = hash_toc_row b ++ r' -> a = b /\ r = r') /\
  (forall i j, hash_index i ++ r = hash_index j ++ r' -> i = j /\ r = r') /\
  (forall a b, hash_AN a ++ r = hash_AN b ++ r' -> a = b /\ r = r') /\
  (forall i j, hash_item_number i ++ r = hash_item_number j ++ r' -> i = j /\ r = r').
Proof.
  intros r r'.
  split; [intros a b; apply inj_wna|split; [intros a b; apply inj_toc_row|split; [intros a b; apply inj_index|
    split; [intros a b; apply inj_AN|intros a b; apply inj_item_number]]]].
Qed.
Print Assumptions C93_results.

(** The calls are those that the declarations of the types say: fields in the order of their declaration, variants numbered by
    their position. *)
Theorem C93_calls : forall k x, hashed (TRef (type_name k)) (ser k x) (hash k x).
Proof. exact hs_knot. Qed.
Print Assumptions C93_calls.
Theorem C93_calls_law : forall l, hashed (TRef "Law") (ser_law l) (hash_law l).
Proof. exact hs_law. Qed.
Print Assumptions C93_calls_law.
Theorem C93_calls_items : (forall i, hashed (TRef "TextIndex") (ser_index i) (hash_index i)) /\
  (forall i, hashed (TRef "ItemNumber") (ser_item_number i) (hash_item_number i)).
Proof. split; [exact hs_index|exact hs_item_number]. Qed.
Print Assumptions C93_calls_items.
(** And those are determined. *)
Theorem C93_calls_once : forall t j s s', hashed t j s -> hashed t j s' -> s = s'.
Proof. intros t j s s' H. exact (proj1 hashed_once t j s H s'). Qed.
Print Assumptions C93_calls_once.

Example C93_case :
  hash_AN (mkAN 3 [2%N] []) = [HUsize 3; HUsize 1; HUsizes [2%N]; HUsize 0; HUsizes []] /\
  hash_AN (mkAN 3 [] [2%N]) = [HUsize 3; HUsize 0; HUsizes []; HUsize 1; HUsizes [2%N]] /\
  hash (KCont CQuote) (mkCont (c := CQuote) [CE_Sup "a"]) = [HUsize 1; HIsize 10; HBytes "a"; HU8 255] /\
  Nat.leb 200 (length (hash_law s_law)) = true /\
  hash_law (deep_law "甲") <> hash_law (deep_law "乙").
Proof.
  split; [vm_compute; reflexivity|]. split; [vm_compute; reflexivity|]. split; [vm_compute; reflexivity|].
  split; [vm_compute; reflexivity|]. intros H. apply C93_law in H. vm_compute in H. discriminate H.
Qed.
