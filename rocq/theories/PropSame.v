(** Property of the plain-text parser: exactly which texts it does not tell apart. *)
From Coq Require Import String List NArith ZArith Bool Arith Lia.
From Verif Require Import Base NumStr Ast Regex NumText NumTextSpec TextParse TextSpec TextFacts OutlineFacts CodecSample ApiSpec
  SameLinesSpec SameLinesFacts SameTextFacts.
Import ListNotations.
Open Scope string_scope.
Open Scope list_scope.

(** C100.  Two sequences of lines give the same law body exactly if the lines that are read are the same, but for
    captions that do not stand directly before an article and for how the labels of items are written, as long as each
    item has the same level. *)
Theorem C100_lines : forall title title' fuel fuel' ls ls' b b', Forall scalar title -> Forall scalar title' ->
  Forall (fun l => Forall scalar (words_of l)) ls -> Forall (fun l => Forall scalar (words_of l)) ls' ->
  parse_lines fuel title ls = Some (Ok b) -> parse_lines fuel' title' ls' = Some (Ok b') ->
  exists a a', read_part ls a /\ read_part ls' a' /\ (b = b' <-> title = title' /\ same_lines a a').
Proof. exact bodies_same. Qed.
Print Assumptions C100_lines.

(** The same of texts. *)
Theorem C100_texts : forall cd title title' fuel fuel' text text' ls ls' b b',
  Forall scalar (title ++ text) -> Forall scalar (title' ++ text') ->
  classify cd text = Ok ls -> classify cd text' = Ok ls' ->
  parse_body cd fuel title text = Some (Ok b) -> parse_body cd fuel' title' text' = Some (Ok b') ->
  exists a a', read_part ls a /\ read_part ls' a' /\ (b = b' <-> title = title' /\ same_lines a a').
Proof. exact texts_same. Qed.
Print Assumptions C100_texts.

(** The same of laws: they keep, besides, everything that the caller gives. *)
Theorem C100_laws : forall cd cal fuel fuel' text text' y y' m m' d d' ty ty' lang lang' num num' law_num law_num' title title' ls ls' l l',
  Forall scalar (title ++ text) -> Forall scalar (title' ++ text') -> classify cd text = Ok ls -> classify cd text' = Ok ls' ->
  parse_text cd cal fuel text y m d ty lang num law_num title = Some (Ok l) ->
  parse_text cd cal fuel' text' y' m' d' ty' lang' num' law_num' title' = Some (Ok l') ->
  exists a a', read_part ls a /\ read_part ls' a' /\
    (l = l' <-> (y, m, d) = (y', m', d') /\ (ty, lang, num, law_num) = (ty', lang', num', law_num') /\ title = title' /\ same_lines a a').
Proof. exact laws_same. Qed.
Print Assumptions C100_laws.

(** Which lines are read is determined by the lines. *)
Theorem C100_read_part : forall ls a a', read_part ls a -> read_part ls a' -> a = a'.
Proof. exact read_part_one. Qed.
Print Assumptions C100_read_part.

(** A text; the same with other labels, with a caption that is lost and a line that is given up; and one in which an
    item has another level. *)
Definition said : ustr :=
  u "第一条　次のとおり" ++ [10%N] ++ u "一　甲" ++ [10%N] ++ u "イ　乙" ++ [10%N] ++ u "二　丙" ++ [10%N].
Definition said_otherwise : ustr :=
  u "第一条　次のとおり" ++ [10%N] ++ u "イ　甲" ++ [10%N] ++ u "（一）　乙" ++ [10%N] ++ u "ロ　丙" ++ [10%N] ++
  u "（雑則）" ++ [10%N] ++ u "２　丁" ++ [10%N].
Definition said_deeper : ustr :=
  u "第一条　次のとおり" ++ [10%N] ++ u "一　甲" ++ [10%N] ++ u "イ　乙" ++ [10%N] ++ u "（二）　丙" ++ [10%N].
Definition lines_in (t : ustr) : list line := match classify sample_codec t with Ok l => l | _ => [] end.
Example C100_case :
  (exists b, parse_body sample_codec 20 (u "法") said = Some (Ok b) /\
     parse_body sample_codec 20 (u "法") said_otherwise = Some (Ok b) /\
     exists b', parse_body sample_codec 20 (u "法") said_deeper = Some (Ok b') /\ b <> b') /\
  (exists a, read_part (lines_in said_otherwise) a /\ same_lines (lines_in said) a) /\
  Forall2 like (lines_in said) (lines_in said_deeper) /\
  levels [] (lines_in said) = [0; 1; 0] /\ levels [] (lines_in said_deeper) = [0; 1; 2].
Proof.
  split; [|split; [|split; [|split; vm_compute; reflexivity]]].
  - eexists. split; [vm_compute; reflexivity|]. split; [vm_compute; reflexivity|]. eexists. split; [vm_compute; reflexivity|]. discriminate.
  - exists (firstn 5 (lines_in said_otherwise)). split.
    + exists (skipn 5 (lines_in said_otherwise)). split; [symmetry; apply firstn_skipn|]. split; [apply readable_run; eexists; vm_compute; reflexivity|].
      right. do 2 eexists. split; [vm_compute; reflexivity|]. cbn [misplaced]. intros (b & n & t & c & E & F).
      assert (Z : last (firstn 5 (lines_in said_otherwise)) (LSuppl None) = LCaption (u "雑則")) by (vm_compute; reflexivity).
      destruct c as [|x c] using rev_ind.
      * rewrite E, last_last in Z. discriminate Z.
      * clear IHc. rewrite E in Z. rewrite app_comm_cons, app_assoc, last_last in Z. subst x.
        apply Forall_app in F as [_ F]. inversion F as [|? ? Y _]. exact Y.
    + split; [|vm_compute; reflexivity]. vm_compute. repeat constructor.
  - vm_compute. repeat constructor.
Qed.
