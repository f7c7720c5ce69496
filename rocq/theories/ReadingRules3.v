(** Exact rules: classes and items. *)
From Coq Require Import String List Arith NArith Bool Lia.
From Verif Require Import Base NumStr NumStrSpec BaseFacts NumStrFacts Xml Ast XmlWrite XmlParse XmlSim
  KnotFacts GrammarSpec GrammarFacts ReadSpec ReadFacts ReadingSpec ReadingLib ReadingFacts.
Import ListNotations.
Open Scope string_scope.
Open Scope list_scope.

(** ** Sentences, columns or a table *)
Lemma sct_run : forall (e : Element) s,
  run no_text (reject e)
    [("Sentence", h_push at0 (fun v => v) (parse KSentence));
     ("Column", h_push at1 (fun v => v) (parse KColumn));
     ("Table", h_some at2 (parse KTable))]
    (children e) ([], ([], (None, tt))) = Ok s <->
  known ["Sentence"; "Column"; "Table"] (children e) /\
  each (reads KSentence) "Sentence" (children e) (fst s) /\
  each (reads KColumn) "Column" (children e) (fst (snd s)) /\
  latest (reads KTable) "Table" (children e) (fst (snd (snd s))).
Proof.
  intros e s. revert e s. apply exact_from.
  - intros e s Hrun. conjs; [known_done Hrun|fields Hrun|fields Hrun|fields Hrun].
  - intros e s (HK & H1 & H2 & H3). apply run_accept. accepted.
  - intros e (ss & cs & t & u) (ss' & cs' & t' & u') (HK & H1 & H2 & H3) (HK' & H1' & H2' & H3'). cbn in *.
    destruct u, u'. repeat f_equal; same rel_fun.
Qed.
Lemma sct_iff : forall c x, parse_sct parse c = Ok x <-> sct_reads c x.
Proof.
  intros c x. unfold parse_sct, ReadingSpec.sct_reads. rewrite bind_iff. split.
  - intros ((ss & cs & t & u) & Hr & H). apply sct_run in Hr as (HK & H1 & H2 & H3). cbn in *.
    split; [exact HK|]. exists ss, cs, t. do 3 (split; [assumption|]). destruct cs as [|b cs].
    + destruct ss as [|a ss].
      * destruct t as [t|]; [|discriminate]. injection H as <-. auto.
      * injection H as <-. repeat split; discriminate.
    + injection H as <-. split; [reflexivity|discriminate].
  - intros (HK & ss & cs & t & H1 & H2 & H3 & H). exists (ss, (cs, (t, tt))). split; [apply sct_run; auto|].
    destruct x as [l|l|b].
    + destruct H as (-> & -> & H). destruct ss; [contradiction|reflexivity].
    + destruct H as (-> & H). destruct cs; [contradiction|reflexivity].
    + destruct H as (-> & -> & ->). reflexivity.
Qed.
Lemma sct_fun : functional sct_reads.
Proof. eapply fun_of, sct_iff. Qed.

(** Further conversions. *)
Ltac conv H ::=
  first [ exact H | apply text_of_iff, H | apply caption_iff, H | apply sct_iff, H | apply amend_sentence_iff, H ].
Ltac back Hx ::=
  first [ exact Hx | apply text_of_iff, Hx | apply caption_iff, Hx | apply sct_iff, Hx
        | apply amend_sentence_iff, Hx ].
Ltac rel3 := first [apply sct_fun | rel_fun].

Lemma class_rule : forall e f, parse_class parse e = Ok f <-> reading KClass e f.
Proof. apply exact_from; unfold parse_class; [forward|accepts rel3|unique rel3]. Qed.

(** ** Items *)
Lemma item_tag_level : forall l, item_tag l = level_tag l.
Proof. destruct l; reflexivity. Qed.
Lemma item_rule : forall l e f, parse_item parse l e = Ok f <-> reading (KItem l) e f.
Proof.
  intros l. apply exact_from; unfold parse_item, item_table, struct_rows;
    destruct l; cbn [item_tag sub_item sub_tag app String.append].
  1-11: forward.
  1-11: accepts rel3.
  all: unique rel3.
Qed.
