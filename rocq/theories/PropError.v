(** Property C73: every error is the fault of an element of the document, and says which. *)
From Coq Require Import String Ascii List NArith Bool.
From Verif Require Import Base NumStr NumStrSpec Xml Ast XmlParse XmlSpec GrammarSpec PanicFacts ErrorSpec
  ErrorFacts2.
Import ListNotations.
Open Scope string_scope.
Open Scope list_scope.

(** C73.  If a law is refused with an error then the root has another tag, or the document contains
    an element that has the fault which the error describes. *)
Theorem C73_law_errors : forall e er, parse_law e = Err er ->
  (name e <> "Law" /\ er = WrongTagName (name e) "Law") \/ explained e er.
Proof. exact law_error_explained. Qed.
Print Assumptions C73_law_errors.

(** The same for the reader of every other type. *)
Theorem C73_errors : forall k e er, k <> KVoid -> tagged k e -> parse k e = Err er ->
  misnamed k e er \/ explained e er.
Proof. exact error_explained. Qed.
Print Assumptions C73_errors.

(** So a document without fault is read. *)
Definition faultless (e : Element) : Prop :=
  forall c, inside c e -> ~ bodyless c /\ forall er, ~ blamed c er.

Theorem C73_faultless : forall e, name e = "Law" -> get e "Num" <> None -> faultless e ->
  exists l, parse_law e = Ok l.
Proof.
  intros e N M F. destruct (parse_law e) as [l|er|] eqn:P.
  - exists l. reflexivity.
  - destruct (law_error_explained _ _ P) as [[H _]|(c & I & B)]; [contradiction|].
    destruct (proj2 (F c I) _ B).
  - destruct (parse_law_panic _ P) as [H|(c & I & B)]; [contradiction|]. destruct (proj1 (F c I) B).
Qed.
Print Assumptions C73_faultless.

(** Such a document. *)
Definition x_faultless : Element :=
  mkElement "Law" [("Era", "Heisei"); ("Year", "3"); ("Num", "7"); ("LawType", "Act"); ("Lang", "ja")]
    [NElement (mkElement "LawNum" [] [NText "平成三年法律第七号"]);
     NElement (mkElement "LawBody" []
       [NElement (mkElement "MainProvision" []
          [NElement (mkElement "Paragraph" [("Num", "1")]
             [NElement (mkElement "ParagraphSentence" []
                [NElement (mkElement "Sentence" [] [NText "文"; NElement (mkElement "Sup" [] [])])])])])])].

Lemma one_piece w c : piece w (String c "") -> ~ separator c -> w = String c "".
Proof.
  intros (b & a & E & B & A & _) N.
  destruct B as [->|(b' & s & S & ->)].
  - destruct A as [->|(s & a' & S & ->)].
    + cbn in E. clear -E. revert c E. induction w as [|x w IH]; intros c E; [discriminate|].
      cbn in E. injection E as -> E. destruct w; [reflexivity|discriminate].
    + destruct w as [|x w]; cbn in E.
      * injection E as -> E. contradiction.
      * injection E as -> E. destruct w; discriminate.
  - destruct b' as [|x b']; cbn in E.
    + injection E as -> E. contradiction.
    + injection E as -> E. destruct b'; discriminate.
Qed.

Lemma one_digit d : (d < 10)%N -> usize_text (dec_text [d]) d.
Proof.
  intros L. exists [d]. repeat split.
  - discriminate.
  - constructor; [exact L|constructor].
  - unfold dec_value. cbn. rewrite N.add_0_r. apply N.mul_1_r.
  - eapply N.lt_le_trans; [exact L|]. vm_compute. discriminate.
  - left. reflexivity.
Qed.

Lemma in_of (T : Type) (l : list (string * T)) t x : In (t, x) l ->
  In x (map snd (filter (fun p => fst p =? t)%string l)).
Proof.
  intros H. apply in_map_iff. exists (t, x). split; [reflexivity|]. apply filter_In.
  split; [exact H|]. apply String.eqb_refl.
Qed.

Lemma digit_7 : exists n, usize_text "7" n.
Proof. exists 7%N. apply (one_digit 7). reflexivity. Qed.
Lemma digit_3 : exists n, usize_text "3" n.
Proof. exists 3%N. apply (one_digit 3). reflexivity. Qed.
Lemma digit_1 : exists n, usize_text "1" n.
Proof. exists 1%N. apply (one_digit 1). reflexivity. Qed.

Example C73_faultless_case : faultless x_faultless.
Proof.
  intros c I. unfold x_faultless in I.
  repeat match goal with
  | H : In _ (children _) |- _ => cbn in H
  | H : _ \/ _ |- _ => destruct H
  | H : NElement _ = NElement _ |- _ => injection H as <-
  | H : NText _ = NElement _ |- _ => discriminate H
  | H : False |- _ => destruct H
  | H : inside _ _ |- _ => inversion H; clear H; subst
  end.
  all: split; [intros [H _]; discriminate H|].
  all: intros er B; destruct B;
    repeat match goal with
    | H : In (name _, _) _ |- _ => apply in_of in H; vm_compute in H
    end;
    repeat match goal with
    | H : _ \/ _ |- _ => destruct H as [H|H]
    | H : False |- _ => destruct H
    | H : name _ = _ |- _ => discriminate H
    end.
  all: repeat match goal with
    | H : In _ (_ ++ _) |- _ => vm_compute in H
    | H : In _ heading_tags |- _ => vm_compute in H
    | H : In _ (_ :: _) |- _ => cbn in H
    | H : _ \/ _ |- _ => destruct H as [H|H]
    | H : False |- _ => destruct H
    | H : (_, _) = (_, _) |- _ => injection H as <- <-
    | H : _ = ?x |- _ => is_var x; subst x
    | H : String _ _ = String _ _ |- _ => discriminate H
    | H : assoc _ grammar = Some _ |- _ => vm_compute in H
    | H : misplaced _ _ |- _ => destruct H as (? & ? & ? & ?)
    | H : get _ _ = _ |- _ => vm_compute in H
    | H : None = Some _ |- _ => discriminate H
    | H : Some _ = None |- _ => discriminate H
    | H : Some _ = Some _ |- _ => injection H as <-
    | H : NElement _ = NElement _ |- _ => injection H as <-
    | H : NText _ = NElement _ |- _ => discriminate H
    | H : In _ (further _ (children _)) |- _ => vm_compute in H
    | H : piece _ _ |- _ => apply one_piece in H; [|intros [X|X]; discriminate X]
    end.
  all: match goal with
    | H : ~ legal _ _ |- _ => apply H; cbn; first [exact digit_3 | exact digit_1]
    | H : forall s, get _ _ = Some s -> _ |- _ =>
        eapply H; [vm_compute; reflexivity|cbn; tauto]
    | H : ?w = "7", K : forall n, ~ usize_text ?w n |- _ =>
        rewrite H in K; destruct digit_7 as [n D]; exact (K n D)
    | H : ?w = "1", K : forall n, ~ usize_text ?w n |- _ =>
        rewrite H in K; destruct digit_1 as [n D]; exact (K n D)
    | H : children _ = NElement _ :: NElement _ :: _, K : name _ <> _ |- _ =>
        cbn in H; injection H as <- <- <-; apply K; reflexivity
    | H : children _ = NElement _ :: _, K : name _ <> _ |- _ =>
        cbn in H; injection H as <- <-; apply K; reflexivity
    | H : forall n rest, children _ = n :: rest -> ~ is_element n |- _ =>
        eapply H; [reflexivity|eexists; reflexivity]
    | H : forall c, In (NElement c) (children _) -> ~ In (name c) _ |- _ =>
        eapply H; [left; reflexivity|left; reflexivity]
    | H : ~ In _ (nested _), K : ~ In _ (plain _) |- _ =>
        first [apply H; cbn; tauto | apply K; cbn; tauto]
    | H : children _ = NElement _ :: ?r, K : forall b r', ?r = b :: r' -> _ |- _ =>
        cbn in H; injection H as <- <-; eapply K; [reflexivity|eexists; reflexivity]
    | H : name _ <> _ |- _ => apply H; reflexivity
    end.
Qed.

(** Documents with one fault each, deep inside. *)
Definition x_el (n : string) (a : list (string * string)) (l : list Element) : Element :=
  mkElement n a (map NElement l).
Definition x_sentence (a : list (string * string)) (l : list XMLNode) : Element := mkElement "Sentence" a l.
Definition x_paragraph (a : list (string * string)) (l : list Element) : Element :=
  x_el "Paragraph" a l.
Definition x_law (l : list Element) : Element :=
  mkElement "Law" [("Era", "Heisei"); ("Year", "3"); ("Num", "7"); ("LawType", "Act"); ("Lang", "ja")]
    [NElement (mkElement "LawNum" [] [NText "平成三年法律第七号"]);
     NElement (x_el "LawBody" []
       [x_el "MainProvision" []
          [x_el "Article" [("Num", "1")]
             [mkElement "ArticleTitle" [] [NText "第一条"]; x_paragraph [("Num", "1")] l]]])].

Definition x_para_sentence (s : Element) : Element := x_el "ParagraphSentence" [] [s].
Definition x_good : Element := x_law [x_para_sentence (x_sentence [] [NText "文"])].
Example C73_good : exists l, parse_law x_good = Ok l.
Proof.
  destruct (parse_law x_good) as [l|er|] eqn:E; [exists l; reflexivity|vm_compute in E; discriminate|vm_compute in E; discriminate].
Qed.

Definition x_flag : Element := x_law [x_el "Item" [("Num", "1"); ("Hide", "yes")] []].
Example C73_flag : parse_law x_flag = Err (AttributeParseError "Item" "Hide").
Proof. vm_compute. reflexivity. Qed.
Example C73_flag_explained : explained x_flag (AttributeParseError "Item" "Hide").
Proof.
  exists (x_el "Item" [("Num", "1"); ("Hide", "yes")] []). split.
  - repeat (first [apply inside_here | eapply inside_below; [right; left; reflexivity|]
      | eapply inside_below; [left; reflexivity|]]).
  - change "Item" with (name (x_el "Item" [("Num", "1"); ("Hide", "yes")] [])) at 2.
    eapply (illegal_attribute _ "Hide" VBool "yes").
    + unfold checked. apply in_or_app. right. apply in_or_app. right. apply in_or_app. left.
      apply (in_map (fun t => (t, ("Hide", VBool))) _ "Item"). right. apply in_or_app. right. left. reflexivity.
    + reflexivity.
    + intros [H|H]; discriminate.
Qed.

Definition x_unknown : Element := x_law [x_para_sentence (x_sentence [] [NElement (mkElement "b" [] [])])].
Example C73_unknown : parse_law x_unknown = Err (UnexpectedTag "b" "Sentence").
Proof. vm_compute. reflexivity. Qed.

Definition x_other : Element := x_law [x_para_sentence (mkElement "Column" [] [])].
Example C73_other : parse_law x_other = Err (WrongTagName "Column" "Sentence").
Proof. vm_compute. reflexivity. Qed.

Definition x_missing : Element := x_law [x_el "TableStruct" [] [mkElement "TableStructTitle" [] []]].
Example C73_missing : parse_law x_missing = Err (MissingRequiredTag "Table").
Proof. vm_compute. reflexivity. Qed.

Definition x_number : Element :=
  x_el "Part" [("Num", "2_x:4")] [mkElement "PartTitle" [] []].
Example C73_number : parse KPart x_number = Err (ParsingError "usize" "x").
Proof. vm_compute. reflexivity. Qed.
Example C73_number_piece : piece "x" "2_x:4".
Proof.
  exists "2_", ":4". split; [reflexivity|]. split; [right; exists "2", "_"%char; split; [left|]; reflexivity|].
  split; [right; exists ":"%char, "4"; split; [right|]; reflexivity|].
  intros c [-> | ->] [H|[]]; discriminate.
Qed.

Definition x_list : Element :=
  x_law [x_el "List" [] [x_el "ListSentence" [] [mkElement "Table" [] []]]].
Example C73_list : parse_law x_list = Err (UnexpectedTag "Table" "List").
Proof. vm_compute. reflexivity. Qed.

(** Not every error names a tag of the document: some tags are misspelt. *)
Definition x_misspelt : Element :=
  mkElement "Law" [("Era", "Heisei"); ("Year", "3"); ("Num", "7"); ("LawType", "Act"); ("Lang", "ja")]
    [NElement (mkElement "LawNum" [] []);
     NElement (x_el "LawBody" [] [x_el "MainProvision" [] []; x_el "SupplProvision" [("Type", "Old")] []])].
Theorem C73_names_refuted : exists e t a, parse_law e = Err (AttributeParseError t a) /\
  forall c, inside c e -> name c <> t.
Proof.
  exists x_misspelt, "SupplProbision", "Type". split; [vm_compute; reflexivity|].
  intros c H. unfold x_misspelt, x_el in H. cbn [map] in H.
  repeat match goal with
  | H : inside _ _ |- _ => inversion H; clear H; subst; [discriminate|]
  | H : In _ (children _) |- _ => cbn in H
  | H : _ \/ _ |- _ => destruct H
  | H : NElement _ = NElement _ |- _ => injection H as <-
  | H : False |- _ => destruct H
  end.
Qed.
Print Assumptions C73_names_refuted.
