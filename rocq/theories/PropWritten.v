(** Property C82: which trees are written. *)
From Coq Require Import String Ascii List NArith Bool.
From Verif Require Import Base NumStr NumStrSpec BaseFacts NumStrFacts Xml Ast XmlParse XmlWrite XmlSpec WrittenSpec WrittenFacts
  WrittenFacts2 WrittenFacts3.
Import ListNotations.
Open Scope string_scope.
Open Scope list_scope.

(** C82.  An element is as the table says exactly if, up to the order of attributes, it is written
    for some value. *)
Theorem C82_law : forall e, law_written e <-> exists l, alike e (write_law l).
Proof. exact law_written_iff. Qed.
Print Assumptions C82_law.
Theorem C82_every_type : forall k e, written k e <-> exists v, alike e (write k v).
Proof. exact written_iff. Qed.
Print Assumptions C82_every_type.

(** The two kinds of numbers in attributes. *)
Theorem C82_decimal : forall s, decimal s <-> exists n, s = usize_to_string n.
Proof. exact decimal_iff. Qed.
Print Assumptions C82_decimal.
Theorem C82_numeral : forall s, numeral s <-> exists a, s = num_str a.
Proof. exact numeral_iff. Qed.
Print Assumptions C82_numeral.

(** The order of attributes does not matter for reading either. *)
Theorem C82_read_alike : forall e f, alike e f -> parse_law e = parse_law f.
Proof. exact alike_read_law. Qed.
Print Assumptions C82_read_alike.

(** A paragraph with a caption, an item and two flags, its attributes in another order than that of the writer. *)
Definition w_text (t s : string) : Element := mkElement t [] [NText s].
Definition w_sentence : Element := mkElement "Sentence" [("Num", "1"); ("Function", "main")] [NText "a"; NElement (w_text "Sub" "2")].
Definition w_item : Element :=
  mkElement "Item" [("Num", "1_2:5"); ("Delete", "true")]
    [NElement (mkElement "ItemSentence" [] [NElement w_sentence; NElement w_sentence])].
Definition w_par : Element :=
  mkElement "Paragraph" [("Hide", "true"); ("Num", "3")]
    [NElement (mkElement "ParagraphCaption" [("CommonCaption", "false")] [NText "c"]);
     NElement (w_text "ParagraphNum" "3"); NElement (mkElement "ParagraphSentence" [] [NElement w_sentence]);
     NElement w_item].
Definition v_sentence : Knot KSentence :=
  mkSentence (mkSentenceF [SE_String "a"; SE_Sub "2"] (Some 1%N) (Some FMain) None Vertical).
Definition v_par : Knot KParagraph :=
  mkParagraph (mkParagraphF (Some (mkCaption [TE_Text "c"] (Some false))) [TE_Text "3"] [] [] [v_sentence] []
    [mkItem (l := Item0) (mkItemF None (SCT_Sentence [v_sentence; v_sentence]) [] [] (Some (mkAN 1 [2] [5])%N) true false)]
    (mkAN 3 [] [])%N false false true).
Example C82_par_value : write KParagraph v_par = mkElement "Paragraph" [("Num", "3"); ("Hide", "true")] (children w_par).
Proof. vm_compute. reflexivity. Qed.
Example C82_par_alike : alike w_par (write KParagraph v_par).
Proof.
  rewrite C82_par_value. apply alike_iff. split; [reflexivity|]. split; [|apply likes_refl].
  intros a. unfold get, w_par. cbn [attrs assoc].
  destruct (String.eqb_spec a "Hide") as [->|]; [reflexivity|]. destruct (String.eqb a "Num"); reflexivity.
Qed.
Example C82_par_written : written KParagraph w_par.
Proof. apply C82_every_type. exists v_par. exact C82_par_alike. Qed.

(** Not written: the number of a paragraph after its sentence, remarks with a label, a number with a
    leading zero. *)
Definition tags (l : list XMLNode) : list string := map (fun x => match x with NElement e => name e | _ => "" end) l.
Lemma likes_tags : forall l m, likes l m -> tags l = tags m.
Proof.
  induction 1 as [|x y l m Hx H IH]; [reflexivity|]. unfold tags in *. cbn [map]. rewrite IH. f_equal.
  destruct Hx as [e f He| |]; [destruct He; assumption|reflexivity|reflexivity].
Qed.
Lemma written_tags : forall k e, written k e -> exists f, tags (children e) = tags (children (wstep write k f)).
Proof.
  intros k e H. apply C82_every_type in H as [v Hv]. apply alike_iff in Hv as (_ & _ & Hc). exists (un k v).
  rewrite <- KnotFacts.write_unfold, KnotFacts.mk_un. apply likes_tags, Hc.
Qed.
Example C82_swapped : ~ written KParagraph (mkElement "Paragraph" [("Num", "3")]
  [NElement (mkElement "ParagraphSentence" [] []); NElement (w_text "ParagraphNum" "3")]).
Proof. intros H. apply written_tags in H as [[[cap|] p2 p3 p4 p5 p6 p7 p8 p9 p10 p11] H]; discriminate. Qed.
Example C82_label : ~ written KRemarks (mkElement "Remarks" [] [NElement (w_text "RemarksLabel" "x")]).
Proof.
  intros H. apply written_tags in H as [[l [|[x|x] r]] H]; [discriminate|..];
  rewrite <- (KnotFacts.mk_un _ x) in H; discriminate.
Qed.
Example C82_zero : ~ decimal "01" /\ decimal "10" /\ numeral "1_2:5_3:5".
Proof.
  split; [|split].
  - intros H. apply C82_decimal in H as [n Hn]. pose proof (digits_of_string_of_digits (digits n) (digits_lt n)) as Hd.
    assert (Hs : string_of_digits (digits n) = "01") by (symmetry; exact Hn).
    pose proof (digits_val n) as V. rewrite <- string_of_digits_text, Hs in Hd.
    change (Some [0; 1]%N = Some (digits n)) in Hd. injection Hd as Hd.
    rewrite <- Hd in V. rewrite <- V in Hs. discriminate.
  - apply C82_decimal. exists 10%N. reflexivity.
  - apply C82_numeral. exists (mkAN 1 [2; 3] [5])%N. reflexivity.
Qed.
