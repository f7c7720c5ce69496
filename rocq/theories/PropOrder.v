(** Property C90: order and repetition of child elements. *)
From Coq Require Import String List Bool.
From Verif Require Import Base NumStr Xml Ast XmlWrite XmlParse ReadSpec ReadingSpec Samples OrderSpec OrderFacts OrderFacts2.
Import ListNotations.
Open Scope string_scope.
Open Scope list_scope.

(** C90.  In the types listed in [sorts] the order of child elements counts within each sort only: with the same child
    elements, in the same order within each sort, the value read is the same. *)
Theorem C90_order : forall k g, sorts k = Some g -> forall n a l l', regrouped g l l' ->
  forall v, parse k (mkElement n a l) = Ok v <-> parse k (mkElement n a l') = Ok v.
Proof. exact order_free. Qed.
Print Assumptions C90_order.

(** In an article, as long as caption and title stand before the paragraphs. *)
Theorem C90_article : forall n a l l', head_first l -> head_first l' -> regrouped article_sorts l l' ->
  forall v, parse KArticle (mkElement n a l) = Ok v <-> parse KArticle (mkElement n a l') = Ok v.
Proof. exact article_order. Qed.
Print Assumptions C90_article.

(** Of child elements of which a value has one only, the last counts: an element with two of them is read exactly if it
    is read with either alone, and then as without the first. *)
Theorem C90_last : forall k t, In t (singles k) -> forall n a pre c mid c' post, name c = t -> name c' = t ->
  forall v, parse k (mkElement n a (pre ++ NElement c :: mid ++ NElement c' :: post)) = Ok v <->
    parse k (mkElement n a (pre ++ mid ++ NElement c' :: post)) = Ok v /\
    exists w, parse k (mkElement n a (pre ++ NElement c :: mid ++ post)) = Ok w.
Proof. exact last_counts. Qed.
Print Assumptions C90_last.

(** A law body with its title behind the main provision, and with two titles. *)
Definition o_title (s : string) : XMLNode := NElement (mkElement "LawTitle" [] [NText s]).
Definition o_main : XMLNode := NElement (mkElement "MainProvision" [] []).
Definition o_enact (s : string) : XMLNode := NElement (mkElement "EnactStatement" [] [NText s]).
Definition o_title_of (r : R (Knot KLawBody)) : option (Text Knot) :=
  match r with Ok b => option_map (fun t => lt_text (un KLawTitle t)) (lb_law_title (un KLawBody b)) | _ => None end.
Definition body_sorts : list (list string) := match sorts KLawBody with Some g => g | None => [] end.
Example C90_order_case :
  regrouped body_sorts [o_title "甲"; o_enact "一"; o_enact "二"; o_main] [o_main; o_enact "一"; o_title "甲"; o_enact "二"] /\
  ~ regrouped body_sorts [o_enact "一"; o_enact "二"] [o_enact "二"; o_enact "一"] /\
  exists v, parse KLawBody (mkElement "LawBody" [] [o_title "甲"; o_enact "一"; o_enact "二"; o_main]) = Ok v /\
    parse KLawBody (mkElement "LawBody" [] [o_main; o_enact "一"; o_title "甲"; o_enact "二"]) = Ok v.
Proof.
  split; [|split].
  - split; [intros c; cbn; tauto|]. intros ts H. cbn in H. repeat (destruct H as [<-|H]; [vm_compute; reflexivity|]). contradiction.
  - intros [_ H]. specialize (H ["EnactStatement"] ltac:(cbn; tauto)). vm_compute in H. discriminate H.
  - eexists. split; vm_compute; reflexivity.
Qed.
Example C90_last_case :
  In "LawTitle" (singles KLawBody) /\
  o_title_of (parse KLawBody (mkElement "LawBody" [] [o_title "甲"; o_main; o_title "乙"])) = Some [TE_Text "乙"].
Proof. split; [left; reflexivity|vm_compute; reflexivity]. Qed.

(** In a heading the title has to come first: the same child elements are not read in the other order. *)
Definition o_head (l : list XMLNode) : Element := mkElement "Division" [("Num", "1")] l.
Definition o_article : XMLNode := NElement (mkElement "Article" [("Num", "1")] [NElement (mkElement "ArticleTitle" [] []);
  NElement (mkElement "Paragraph" [("Num", "1")] [])]).
Example C90_heading_case :
  (exists v, parse KDivision (o_head [NElement (mkElement "DivisionTitle" [] []); o_article]) = Ok v) /\
  (exists er, parse KDivision (o_head [o_article; NElement (mkElement "DivisionTitle" [] [])]) = Err er).
Proof. split; eexists; vm_compute; reflexivity. Qed.

(** The paragraph before the title: not read either, and not [head_first]. *)
Definition o_par : XMLNode := NElement (mkElement "Paragraph" [("Num", "1")] []).
Definition o_atitle : XMLNode := NElement (mkElement "ArticleTitle" [] [NText "第一条"]).
Definition o_caption : XMLNode := NElement (mkElement "ArticleCaption" [] [NText "（目的）"]).
Definition o_art (l : list XMLNode) : Element := mkElement "Article" [("Num", "1")] l.
Example C90_article_case :
  head_first [o_caption; o_atitle; o_par] /\ head_first [o_atitle; o_caption; o_par] /\
  regrouped article_sorts [o_caption; o_atitle; o_par] [o_atitle; o_caption; o_par] /\
  (exists v, parse KArticle (o_art [o_caption; o_atitle; o_par]) = Ok v) /\
  (exists er, parse KArticle (o_art [o_par; o_atitle]) = Err er).
Proof.
  split; [|split; [|split; [|split]]].
  - do 2 eexists. split; [exact (eq_refl ([_; _] ++ [_]))|]. split; [discriminate|]. split; intros c H; cbn in H |- *; intuition subst; auto.
  - do 2 eexists. split; [exact (eq_refl ([_; _] ++ [_]))|]. split; [discriminate|]. split; intros c H; cbn in H |- *; intuition subst; auto.
  - split; [intros c; cbn; tauto|]. intros ts H. cbn in H. repeat (destruct H as [<-|H]; [vm_compute; reflexivity|]). contradiction.
  - eexists. vm_compute. reflexivity.
  - eexists. vm_compute. reflexivity.
Qed.
