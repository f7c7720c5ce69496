(** Properties C84-C86: the documents of crate serde for a law and for every serialisable type. *)
From Coq Require Import String List NArith Bool.
From Verif Require Import Base NumStr Ast XmlWrite XmlParse NumText TextParse Utils Samples CodecSample PropLine PropStore
  Serde SerdeSpec SerdeTable.
Import ListNotations.
Open Scope string_scope.
Open Scope list_scope.

(** C84.  A law comes back from its document; so does every value of every type of the crate with
    [derive(Serialize, Deserialize)].  The types of [implementations] are all those of [declarations]. *)
Theorem C84_law : forall l, de_law (ser_law l) = Some l.
Proof. exact (table_back _ _ _ _ law_in). Qed.
Print Assumptions C84_law.

Theorem C84_all_types : map fst implementations = map fst declarations.
Proof. exact table_names. Qed.
Print Assumptions C84_all_types.

Theorem C84_every_type : forall n A (d : json -> option A) s, In (n, Impl d s) implementations ->
  forall x, d (s x) = Some x.
Proof. exact table_back. Qed.
Print Assumptions C84_every_type.

Theorem C84_distinct : forall a b, ser_law a = ser_law b -> a = b.
Proof. intros a b H. apply (f_equal de_law) in H. rewrite !C84_law in H. congruence. Qed.
Print Assumptions C84_distinct.

(** Unlike the XML tree, which loses something of some laws (C15-C26, C74). *)
Theorem C84_unlike_xml : exists l, parse_law (write_law l) <> Ok l /\ de_law (ser_law l) = Some l.
Proof. destruct C74_always_refuted as (l & _ & H). exists l. split; [exact H|apply C84_law]. Qed.
Print Assumptions C84_unlike_xml.

Example C84_case : de_law (ser_law s_law) = Some s_law /\ Nat.leb 10 (depth (ser_law s_law)) = true.
Proof. split; vm_compute; reflexivity. Qed.
Example C84_number : ser_AN (mkAN 3 [2%N] [5%N]) =
  JObj [("base_number", JNum 3); ("eda_numbers", JArr [JNum 2]); ("range_end_numbers", JArr [JNum 5])].
Proof. reflexivity. Qed.

(** C85.  Which documents are read, as what: the normal form of [SerdeSpec.v] with respect to the declaration
    of the type.  A document has a normal form exactly if it is read, the document written for what is read
    is the normal form, the documents that are written are those that are their own normal form, and two
    documents are read as the same value exactly if they have the same normal form. *)
Theorem C85_form : forall n A (d : json -> option A) s, In (n, Impl d s) implementations ->
  forall j, option_map s (d j) = form (TRef n) j.
Proof. exact table_form. Qed.
Print Assumptions C85_form.

Theorem C85_written : forall n A (d : json -> option A) s, In (n, Impl d s) implementations ->
  forall j, (exists x, j = s x) <-> form (TRef n) j = Some j.
Proof. intros n A d s I j. symmetry. apply (table_written n A d s I). Qed.
Print Assumptions C85_written.

Theorem C85_same : forall n A (d : json -> option A) s, In (n, Impl d s) implementations ->
  forall j j', d j = d j' <-> form (TRef n) j = form (TRef n) j'.
Proof. intros n A d s I j j'. symmetry. apply (table_same n A d s I). Qed.
Print Assumptions C85_same.

Theorem C85_law : forall j, option_map ser_law (de_law j) = form (TRef "Law") j.
Proof. exact (table_form _ _ _ _ law_in). Qed.
Print Assumptions C85_law.

(** Numbers, eras and texts in several spellings, and documents that are refused. *)
Example C85_array : de_AN (JArr [JNum 3; JArr [JNum 2]; JArr []]) = Some (mkAN 3 [2%N] []).
Proof. reflexivity. Qed.
Example C85_short_array : de_AN (JArr [JNum 3; JArr [JNum 2]]) = None.
Proof. reflexivity. Qed.
Example C85_missing : de_AN (JObj [("base_number", JNum 3); ("eda_numbers", JArr [])]) = None.
Proof. reflexivity. Qed.
Example C85_twice : de_AN (JObj [("base_number", JNum 3); ("base_number", JNum 3); ("eda_numbers", JArr []);
  ("range_end_numbers", JArr [])]) = None.
Proof. reflexivity. Qed.
Example C85_fraction : de_AN (JArr [JOther; JArr []; JArr []]) = None.
Proof. reflexivity. Qed.
Example C85_unit : de_era (JStr "Reiwa") = Some Reiwa /\ de_era (JObj [("Reiwa", JNull)]) = Some Reiwa /\
  de_era (JStr "reiwa") = None /\ de_era (JArr []) = None.
Proof. repeat split. Qed.
Example C85_variant : de_te de (JStr "Text") = None /\
  de_te de (JObj [("Text", JStr "a")]) = Some (TE_Text "a") /\
  de_te de (JObj [("Text", JStr "a"); ("Sup", JArr [JStr "a"])]) = None.
Proof. repeat split. Qed.
Example C85_form_case : form (TRef "Sub") (JArr [JStr "2"]) = Some (JObj [("text", JStr "2")]).
Proof. vm_compute. reflexivity. Qed.

(** C86.  The order of the entries of every object, entries whose key is the name of no field and of no variant
    of any type, and entries with the value null that are left out of a written document: none of them matters. *)
Theorem C86_order : forall n A (d : json -> option A) s, In (n, Impl d s) implementations ->
  forall j j', reordered j j' -> d j = d j'.
Proof. exact table_reordered. Qed.
Print Assumptions C86_order.

Theorem C86_undeclared : forall n A (d : json -> option A) s, In (n, Impl d s) implementations ->
  forall j x, d j = Some x -> d (pruned j) = Some x.
Proof. exact table_pruned. Qed.
Print Assumptions C86_undeclared.

Theorem C86_nulls : forall n A (d : json -> option A) s, In (n, Impl d s) implementations ->
  forall x, d (sparse (s x)) = Some x.
Proof. exact table_sparse. Qed.
Print Assumptions C86_nulls.

Example C86_law_case : de_law (sparse (ser_law s_law)) = Some s_law /\ sparse (ser_law s_law) <> ser_law s_law.
Proof. split; [vm_compute; reflexivity|]. vm_compute. discriminate. Qed.

Definition spelled : json :=
  JObj [("range_end_numbers", JArr []); ("comment", JObj [("base_number", JNum 9)]); ("base_number", JNum 3);
        ("eda_numbers", JArr [JNum 2])].
Example C86_spelled : de_AN spelled = Some (mkAN 3 [2%N] []) /\ pruned spelled <> spelled.
Proof. split; [vm_compute; reflexivity|]. vm_compute. discriminate. Qed.

(** An undeclared entry matters where only one entry may stand; it is not always possible to add one. *)
Theorem C86_addition_refuted : exists j x, de_te de (pruned j) = Some x /\ de_te de j = None.
Proof. exists (JObj [("Text", JStr "a"); ("comment", JNull)]), (TE_Text "a"). split; vm_compute; reflexivity. Qed.
Print Assumptions C86_addition_refuted.
