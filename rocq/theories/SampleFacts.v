(** The sample XML printer and reader keep every tree with proper names. *)
From Coq Require Import String Ascii List Arith NArith Bool Lia.
From Verif Require Import Base BaseFacts NumStr Xml Ast XmlWrite XmlParse Regex RoundTripSpec KnotFacts XmlSim RoundTripLib
  Api TidySpec TidyFacts ApiSpec Utf8Facts ApiFacts SampleXml.
Import ListNotations.
Open Scope string_scope.
Open Scope list_scope.

Local Notation "a +++ b" := (String.append a b) (at level 60, right associativity).

Lemma length_app : forall a b, String.length (a +++ b) = String.length a + String.length b.
Proof. induction a; intros; cbn; [reflexivity|]. rewrite IHa. reflexivity. Qed.

(** ** Names *)
Lemma name_char_end : forall c, name_char c = true -> name_end c = false.
Proof. intros [[] [] [] [] [] [] [] []]; vm_compute; intros E; first [discriminate E | reflexivity]. Qed.
Lemma take_name_ok : forall n r, name_chars n = true -> (exists c r', r = String c r' /\ name_end c = true) ->
  take_name (n +++ r) = (n, r).
Proof.
  intros n r H (c & r' & -> & Hc). induction n as [|x n IH]; cbn [append take_name]; [rewrite Hc; reflexivity|].
  cbn [name_chars] in H. apply andb_true_iff in H as [Hx H]. rewrite (name_char_end x Hx), (IH H). reflexivity.
Qed.
Lemma after_ok : forall p r, after p (p +++ r) = Some r.
Proof. induction p as [|c p IH]; intros; cbn; [destruct r; reflexivity|]. rewrite Ascii.eqb_refl. apply IH. Qed.

(** ** Escaped text *)
Lemma entity_ok : forall c r, exists k,
  (escape_char c = String c "" /\ Ascii.eqb c "<" = false /\ Ascii.eqb c "&" = false /\ Ascii.eqb c """" = false) \/
  (escape_char c = String "&" k /\ entity (k +++ r) = Some (c, r)).
Proof.
  intros c r. unfold escape_char.
  destruct (Ascii.eqb_spec c "<") as [->|]; [exists "lt;"; right; split; [reflexivity|destruct r; reflexivity]|].
  destruct (Ascii.eqb_spec c ">") as [->|]; [exists "gt;"; right; split; [reflexivity|destruct r; reflexivity]|].
  destruct (Ascii.eqb_spec c "&") as [->|]; [exists "amp;"; right; split; [reflexivity|destruct r; reflexivity]|].
  destruct (Ascii.eqb_spec c """") as [->|]; [exists "quot;"; right; split; [reflexivity|destruct r; reflexivity]|].
  exists "". left. auto.
Qed.

Lemma read_value_ok : forall s fuel r, String.length (escape s +++ r) < fuel ->
  read_value fuel (escape s +++ String """" r) = Some (s, r).
Proof.
  induction s as [|c s IH]; intros [|fuel] r H; try (cbn in H; lia); [reflexivity|].
  cbn [escape] in *. rewrite app_assoc_s in *.
  destruct (entity_ok c (escape s +++ String """" r)) as (k & [(E & H1 & H2 & H3)|(E & H1)]); rewrite E in *.
  - cbn [append read_value String.length] in *. rewrite H3, H2, IH by lia. reflexivity.
  - cbn [append read_value String.length] in *. rewrite length_app in H.
    change (Ascii.eqb "&" """") with false. change (Ascii.eqb "&" "&") with true. cbv iota. rewrite H1, IH by lia. reflexivity.
Qed.

Lemma print_attrs_cons : forall n v l, print_attrs ((n, v) :: l) = String " " (n +++ String "=" (String """" (escape v +++ String """" (print_attrs l)))).
Proof. intros. unfold print_attrs. cbn [map concat_strings fold_right]. unfold print_attr at 1. cbn [fst snd append]. repeat (rewrite ?app_assoc_s; cbn [append]). reflexivity. Qed.

Lemma read_attrs_ok : forall l fuel (b : bool) r, forallb (fun x => name_ok (fst x)) l = true ->
  String.length (print_attrs l +++ (if b then " />" else ">") +++ r) < fuel ->
  read_attrs fuel (print_attrs l +++ (if b then " />" else ">") +++ r) = Some (l, b, r).
Proof.
  induction l as [|[n v] l IH]; intros [|fuel] b r H Hf; try (cbn in Hf; lia).
  - cbn [print_attrs map concat_strings append]. destruct b; cbn [append read_attrs]; destruct r; reflexivity.
  - cbn [forallb fst] in H. apply andb_true_iff in H as [Hn H]. unfold name_ok in Hn. apply andb_true_iff in Hn as [Hn Hc].
    rewrite print_attrs_cons in *. cbn [append] in *. cbn [read_attrs].
    destruct n as [|x n]; [discriminate Hn|]. pose proof Hc as Hc'. cbn [name_chars] in Hc'. apply andb_true_iff in Hc' as [Hx _].
    assert (E : after " />" (String " " ((String x n +++ String "=" (String """" (escape v +++ String """" (print_attrs l)))) +++ (if b then " />" else ">") +++ r)) = None).
    { cbn [append after]. destruct (Ascii.eqb_spec "/" x) as [<-|]; [discriminate Hx|reflexivity]. }
    rewrite E. clear E. cbv iota beta.
    match goal with |- context [after ">" ?u] => change (after ">" u) with (@None string) end.
    match goal with |- context [after " " (String " " ?u)] => replace (after " " (String " " u)) with (Some u) by (destruct u; reflexivity) end.
    rewrite app_assoc_s. rewrite take_name_ok; [|exact Hc|eexists; eexists; split; reflexivity].
    cbv iota beta. cbn [append].
    match goal with |- context [after "=""" ?u] => set (q := u) end.
    assert (Q : after "=""" q = Some (escape v +++ String """" (print_attrs l +++ (if b then " />" else ">") +++ r))).
    { unfold q. cbn. rewrite app_assoc_s. cbn [append]. match goal with |- context [match ?u with _ => _ end] => destruct u; reflexivity end. }
    rewrite Q. cbn [String.length] in Hf. rewrite !length_app in Hf. cbn [String.length] in Hf. rewrite !length_app in Hf. cbn [String.length] in Hf.
    rewrite read_value_ok by (rewrite !length_app; lia). rewrite IH by (try exact H; rewrite !length_app; lia). reflexivity.
Qed.

(** ** Nodes *)
Lemma read_nodes_step : forall f acc c r, Ascii.eqb c "<" = false -> Ascii.eqb c "&" = false ->
  read_nodes (S f) acc (String c r) = read_nodes f (acc +++ String c "") r.
Proof. intros f acc c r H1 H2. cbn [read_nodes]. rewrite H1, H2. reflexivity. Qed.
Lemma read_nodes_entity : forall f acc c k r, entity k = Some (c, r) ->
  read_nodes (S f) acc (String "&" k) = read_nodes f (acc +++ String c "") r.
Proof. intros f acc c k r H. cbn [read_nodes]. change (Ascii.eqb "&" "<") with false. change (Ascii.eqb "&" "&") with true. cbv iota. rewrite H. reflexivity. Qed.

Lemma read_text : forall s fuel acc r, String.length (escape s +++ r) < fuel ->
  exists f, String.length r < f /\ read_nodes fuel acc (escape s +++ r) = read_nodes f (acc +++ s) r.
Proof.
  induction s as [|c s IH]; intros fuel acc r H.
  - exists fuel. split; [exact H|]. rewrite app_nil_s. reflexivity.
  - destruct fuel as [|fuel]; [lia|]. cbn [escape] in *. rewrite app_assoc_s in *.
    assert (A : forall b d : string, ((b +++ String c "") +++ d = b +++ String c d)) by (intros; rewrite app_assoc_s; reflexivity).
    destruct (entity_ok c (escape s +++ r)) as (k & [(E & H1 & H2 & _)|(E & H1)]); rewrite E in *; cbn [append String.length] in *.
    + rewrite read_nodes_step by assumption. destruct (IH fuel (acc +++ String c "") r) as (f & Hf & ->); [lia|]. exists f. rewrite A. auto.
    + rewrite (read_nodes_entity fuel acc c _ _ H1). rewrite length_app in H. destruct (IH fuel (acc +++ String c "") r) as (f & Hf & ->); [lia|]. exists f. rewrite A. auto.
Qed.

Lemma escape_spaces : forall n, escape (spaces n) = spaces n.
Proof. induction n; [reflexivity|]. cbn [spaces append escape]. rewrite IHn. reflexivity. Qed.
Lemma escape_newline : forall n, escape (newline n) = newline n.
Proof. intros. unfold newline. cbn [escape]. rewrite escape_spaces. reflexivity. Qed.
Lemma blank_newline : forall n, blank (newline n) = true.
Proof. intros. unfold newline. cbn [blank]. assert (E : blank (spaces n) = true) by (induction n; [reflexivity|exact IHn]). rewrite E. reflexivity. Qed.

Section Go.
Variable lvl : nat.
Fixpoint print_nodes (text some : bool) (l : list XMLNode) : string :=
  match l with
  | [] => if some && negb text then newline lvl else ""
  | NText s :: r => escape s ++ print_nodes true some r
  | NElement d :: r => (if text then "" else newline (S lvl)) ++ print (S lvl) d ++ print_nodes text true r
  | NOther _ :: r => print_nodes text some r
  end%string.
End Go.
Lemma print_eq : forall lvl n a c, print lvl (mkElement n a c) = String "<" (n +++ print_attrs a +++
  match c with [] => " />" | _ => ">" +++ print_nodes lvl false false c +++ "</" +++ n +++ ">" end).
Proof. intros lvl n a [|x c]; reflexivity. Qed.

Definition reads (e : Element) : Prop := forall lvl fuel acc r, String.length (print lvl e +++ r) < fuel ->
  exists f, String.length r < f /\ read_nodes fuel acc (print lvl e +++ r) =
    match read_nodes f "" r with
    | Some (ns, rest) => Some (flush NText acc ++ NElement (coalesce e) :: ns, rest)
    | None => None
    end.

Lemma read_end : forall f acc r, read_nodes (S f) acc ("</" +++ r) = Some (flush NText acc, r).
Proof. intros. cbn. destruct r; reflexivity. Qed.
Lemma flush_blank : forall s, blank s = true -> flush NText s = [].
Proof. intros s H. unfold flush. rewrite H. reflexivity. Qed.

Lemma read_list : forall lvl l, (forall e, In (NElement e) l -> reads e) -> (forall s, ~ In (NOther s) l) ->
  forall text some fuel acc rest, (text = false -> acc = "") ->
  String.length (print_nodes lvl text some l +++ "</" +++ rest) < fuel ->
  read_nodes fuel acc (print_nodes lvl text some l +++ "</" +++ rest) = Some (join_from node_text_in NText acc (map cnode l), rest).
Proof.
  intros lvl. induction l as [|x l IH]; intros He Ho text some fuel acc rest Ha Hf.
  - cbn [print_nodes map join_from] in *. destruct (some && negb text) eqn:E.
    + apply andb_true_iff in E as [_ E]. apply negb_true_iff in E. rewrite (Ha E). rewrite <- escape_newline in *.
      destruct (read_text (newline lvl) fuel "" ("</" +++ rest) Hf) as ([|f] & Hl & ->); [lia|]. rewrite read_end.
      cbn [append]. rewrite !flush_blank; [reflexivity|reflexivity|apply blank_newline].
    + cbn [append] in Hf. destruct fuel as [|f]; [lia|]. change ("" +++ "</" +++ rest) with ("</" +++ rest). apply read_end.
  - assert (He' : forall e, In (NElement e) l -> reads e) by (intros; apply He; right; assumption).
    assert (Ho' : forall s, ~ In (NOther s) l) by (intros s Hs; apply (Ho s); right; assumption).
    specialize (IH He' Ho'). destruct x as [e|s|s]; [| |destruct (Ho s); left; reflexivity].
    + cbn [print_nodes map join_from node_text_in] in *. rewrite !app_assoc_s in *.
      assert (G : forall fuel acc, (text = false -> blank acc = true) ->
        String.length (print (S lvl) e +++ print_nodes lvl text true l +++ "</" +++ rest) < fuel ->
        read_nodes fuel acc (print (S lvl) e +++ print_nodes lvl text true l +++ "</" +++ rest) =
        Some (flush NText acc ++ NElement (coalesce e) :: join_from node_text_in NText "" (map cnode l), rest)).
      { intros fuel0 acc0 Ha0 Hf0. destruct (He e (or_introl eq_refl) _ _ acc0 _ Hf0) as (f & Hl & ->).
        rewrite IH; [reflexivity|reflexivity|exact Hl]. }
      destruct text.
      * cbn [append] in *. apply G; [discriminate|exact Hf].
      * rewrite (Ha eq_refl). rewrite <- escape_newline in *.
        destruct (read_text (newline (S lvl)) fuel "" _ Hf) as (f & Hl & ->). cbn [append]. rewrite G; [|intros _; apply blank_newline|exact Hl].
        rewrite !flush_blank; [reflexivity|reflexivity|apply blank_newline].
    + cbn [print_nodes map join_from node_text_in] in *. rewrite app_assoc_s in *.
      destruct (read_text s fuel acc _ Hf) as (f & Hl & ->). apply IH; [discriminate|exact Hl].
Qed.

Lemma read_element : forall e, well_named e = true -> reads e.
Proof.
  intros e. induction e as [e IH] using element_ind_height. intros H. destruct e as [n a c]. cbn [well_named] in H.
  apply andb_true_iff in H as [H Hc]. apply andb_true_iff in H as [Hn Ha]. rewrite forallb_forall in Hc.
  assert (He : forall e, In (NElement e) c -> reads e).
  { intros e Hi. apply IH; [apply height_child; exact Hi|]. exact (Hc _ Hi). }
  assert (Ho : forall s, ~ In (NOther s) c) by (intros s Hs; discriminate (Hc _ Hs)).
  unfold name_ok in Hn. apply andb_true_iff in Hn as [Hn Hch].
  intros lvl [|fuel] acc r Hf; [lia|]. rewrite print_eq in *. rewrite coalesce_eq. cbn [append] in *.
  assert (St : forall u, after "/" (n +++ u) = None).
  { intros u. destruct n as [|x n]; [discriminate Hn|]. cbn [name_chars] in Hch. apply andb_true_iff in Hch as [Hx _]. cbn [append after].
    destruct (Ascii.eqb_spec "/" x) as [<-|]; [discriminate Hx|reflexivity]. }
  assert (Nm : forall b u, take_name (n +++ print_attrs a +++ (if b : bool then " />" else ">") +++ u) = (n, print_attrs a +++ (if b then " />" else ">") +++ u)).
  { intros b u. apply take_name_ok; [exact Hch|]. destruct a as [|[m v] a']; [|rewrite print_attrs_cons; eexists; eexists; split; reflexivity].
    destruct b; eexists; eexists; split; reflexivity. }
  cbn [read_nodes]. change (Ascii.eqb "<" "<") with true. cbv iota. rewrite !app_assoc_s in *. rewrite St.
  cbn [String.length] in Hf. destruct c as [|x c].
  - rewrite (Nm true). rewrite read_attrs_ok with (b := true); [|exact Ha|rewrite length_app in Hf; lia].
    exists fuel. split; [rewrite !length_app in Hf; lia|]. reflexivity.
  - cbv iota in Hf |- *. set (l := x :: c) in *.
    set (body := String ">" _ +++ r) in *.
    assert (Eb : body = ">" +++ (print_nodes lvl false false l +++ "</" +++ n +++ ">" +++ r)).
    { unfold body. cbn [append]. rewrite app_assoc_s. cbn [append]. rewrite app_assoc_s. reflexivity. }
    rewrite Eb in *. clear body Eb. rewrite (Nm false).
    rewrite read_attrs_ok with (b := false); [|exact Ha|rewrite length_app in Hf; lia].
    assert (L : String.length (print_nodes lvl false false l +++ "</" +++ n +++ ">" +++ r) < fuel) by (rewrite !length_app in *; cbn [String.length] in *; lia).
    rewrite (read_list lvl l He Ho false false fuel "" (n +++ ">" +++ r) (fun _ => eq_refl) L).
    rewrite <- app_assoc_s, after_ok. exists fuel. split; [rewrite !length_app in *; lia|]. reflexivity.
Qed.

Theorem read_print : forall e, well_named e = true -> read_document (print_document e) = Some (coalesce e).
Proof.
  intros e H. unfold read_document, print_document. rewrite after_ok.
  set (fuel := S _). assert (L : String.length ((newline 0 +++ print 0 e) +++ "</") < fuel).
  { unfold fuel. rewrite !length_app. cbn [String.length]. lia. }
  clearbody fuel. rewrite app_assoc_s in *. rewrite <- escape_newline in *.
  destruct (read_text (newline 0) fuel "" _ L) as (f & Hf & ->). destruct (read_element e H 0 f ("" +++ newline 0) "</" Hf) as ([|g] & Hg & ->); [lia|].
  change "</" with ("</" +++ ""). rewrite read_end. rewrite !flush_blank; [reflexivity|reflexivity|reflexivity].
Qed.

(** ** What is printed is text *)
Lemma enc_lit : forall s, utf8 s = true -> encoded s.
Proof. intros s H. apply utf8_iff, H. Qed.
Lemma encoded_name : forall n, name_chars n = true -> encoded n.
Proof.
  intros n H. apply enc_lit. unfold utf8. induction n as [|c n IH]; [reflexivity|]. cbn [name_chars] in H. apply andb_true_iff in H as [Hc H].
  cbn [utf8_from]. assert (L : N.ltb (N_of_ascii c) 128 = true).
  { apply N.ltb_lt. unfold name_char in Hc. rewrite !orb_true_iff, !andb_true_iff, !N.leb_le, N.eqb_eq in Hc. lia. }
  rewrite L. apply IH, H.
Qed.
Lemma escape_app : forall a b, escape (a +++ b) = escape a +++ escape b.
Proof. induction a as [|c a IH]; intros b; cbn [append escape]; [reflexivity|]. rewrite IH, app_assoc_s. reflexivity. Qed.
Lemma escape_high : forall n r, (128 <= n < 256)%N -> escape (String (ascii_of_N n) r) = String (ascii_of_N n) (escape r).
Proof.
  intros n r H. cbn [escape]. unfold escape_char.
  assert (D : forall d, (N_of_ascii d < 128)%N -> Ascii.eqb (ascii_of_N n) d = false).
  { intros d Hd. apply Ascii.eqb_neq. intros E. apply (f_equal N_of_ascii) in E. rewrite N_ascii_embedding in E by lia. lia. }
  rewrite !D by reflexivity. reflexivity.
Qed.
Lemma encoded_escape_char : forall c, scalar c -> encoded (escape (utf8_char c)).
Proof.
  intros c H. assert (E : encoded (utf8_char c)) by (exists [c]; split; [constructor; [exact H|constructor]|cbn [enc fold_right map concat_strings]; rewrite ?app_nil_s; reflexivity]).
  unfold utf8_char in *. destruct (N.ltb_spec c 128).
  - cbn [escape]. unfold escape_char.
    repeat match goal with |- context [if ?b then _ else _] => destruct b; [apply enc_lit; reflexivity|] end. exact E.
  - unfold scalar in H.
    pose proof (N.div_mod c 64 ltac:(discriminate)) as D1. pose proof (N.mod_lt c 64 ltac:(discriminate)) as M1.
    pose proof (N.div_mod (c / 64) 64 ltac:(discriminate)) as D2. pose proof (N.mod_lt (c / 64) 64 ltac:(discriminate)) as M2.
    pose proof (N.div_mod (c / 4096) 64 ltac:(discriminate)) as D3. pose proof (N.mod_lt (c / 4096) 64 ltac:(discriminate)) as M3.
    assert (E1 : (c / 64 / 64 = c / 4096)%N) by (rewrite N.div_div by discriminate; reflexivity).
    assert (E2 : (c / 4096 / 64 = c / 262144)%N) by (rewrite N.div_div by discriminate; reflexivity).
    rewrite E1 in D2. rewrite E2 in D3. clear E1 E2.
    set (q1 := (c / 64)%N) in *. set (q2 := (c / 4096)%N) in *. set (q3 := (c / 262144)%N) in *.
    set (r1 := (c mod 64)%N) in *. set (r2 := (q1 mod 64)%N) in *. set (r3 := (q2 mod 64)%N) in *.
    clearbody q1 q2 q3 r1 r2 r3.
    destruct (N.ltb_spec c 2048); [|destruct (N.ltb_spec c 65536)]; rewrite !escape_high by lia; cbn [escape]; exact E.
Qed.
Lemma encoded_escape : forall s, encoded s -> encoded (escape s).
Proof.
  intros s (t & Ht & ->). induction Ht as [|c t Hc Ht IH]; [apply enc_lit; reflexivity|].
  rewrite enc_cons, escape_app. apply encoded_app; [apply encoded_escape_char, Hc|exact IH].
Qed.
Lemma encoded_newline : forall n, encoded (newline n).
Proof. intros. apply enc_lit. unfold utf8, newline. cbn [utf8_from]. induction n; [reflexivity|exact IHn]. Qed.
Lemma encoded_attrs : forall l, forallb (fun x => name_ok (fst x)) l = true -> Forall (fun x : string * string => encoded (snd x)) l ->
  encoded (print_attrs l).
Proof.
  intros l Hn H. induction H as [|[n v] l Hv H IH]; [apply enc_lit; reflexivity|].
  cbn [forallb fst] in Hn. apply andb_true_iff in Hn as [Hn Hl]. apply andb_true_iff in Hn as [_ Hn].
  unfold print_attrs. cbn [map concat_strings fold_right]. unfold print_attr at 1. cbn [fst snd] in *.
  repeat apply encoded_app; try (apply enc_lit; reflexivity); [apply encoded_name, Hn|apply encoded_escape, Hv|apply IH, Hl].
Qed.
Lemma encoded_print : forall e, well_named e = true -> encoded_tree e -> forall lvl, encoded (print lvl e).
Proof.
  intros e. induction e as [e IH] using element_ind_height. intros H He lvl. destruct He as [n a c Ha Hc]. cbn [well_named] in H.
  apply andb_true_iff in H as [H Hw]. apply andb_true_iff in H as [Hn Hna].
  assert (En : encoded n) by (apply andb_true_iff in Hn as [_ Hn]; apply encoded_name, Hn).
  pose proof (encoded_attrs a Hna Ha) as Ea.
  assert (Ec : forall text some, encoded (print_nodes lvl text some c)).
  { assert (G : forall l, (forall x, In x l -> In x c) -> forall text some, encoded (print_nodes lvl text some l)).
    { induction l as [|x l IHl]; intros Hl text some; cbn [print_nodes].
      - destruct (some && negb text); [apply encoded_newline|apply enc_lit; reflexivity].
      - assert (Hx : In x c) by (apply Hl; left; reflexivity). assert (Hl' : forall y, In y l -> In y c) by (intros; apply Hl; right; assumption).
        rewrite Forall_forall in Hc. rewrite forallb_forall in Hw. pose proof (Hc x Hx) as X. pose proof (Hw x Hx) as W.
        destruct X as [e E|s E|s]; [| |apply IHl, Hl'].
        + repeat apply encoded_app; [destruct text; [apply enc_lit; reflexivity|apply encoded_newline]| |apply IHl, Hl'].
          apply IH; [apply height_child; exact Hx|exact W|exact E].
        + apply encoded_app; [apply encoded_escape, E|apply IHl, Hl']. }
    apply G. auto. }
  rewrite print_eq.
  match goal with |- encoded (String "<" ?u) => change (String "<" u) with ("<" +++ u) end.
  apply encoded_app; [apply enc_lit; reflexivity|]. apply encoded_app; [exact En|]. apply encoded_app; [exact Ea|].
  destruct c; [apply enc_lit; reflexivity|]. apply encoded_app; [apply enc_lit; reflexivity|]. apply encoded_app; [apply Ec|].
  apply encoded_app; [apply enc_lit; reflexivity|]. apply encoded_app; [exact En|apply enc_lit; reflexivity].
Qed.

Lemma same_refl : forall e, same e e.
Proof.
  intros e. induction e as [e IH] using element_ind_height. destruct e as [n a c]. constructor; [reflexivity|].
  assert (G : forall l, (forall x, In x l -> In x c) -> Forall2 same_node l l).
  { induction l as [|x l IHl]; intros Hl; constructor; [|apply IHl; intros; apply Hl; right; assumption].
    destruct x as [e|s|s]; constructor. apply IH. apply height_child. apply Hl. left. reflexivity. }
  apply G. auto.
Qed.

Theorem sample_keeps : forall e, well_named e = true -> encoded_tree e -> keeps sample_xml e.
Proof.
  intros e H He. exists [print_document e], (coalesce e). split; [reflexivity|]. split; [|split].
  - constructor; [|constructor]. apply encoded_app; [apply enc_lit; reflexivity|]. apply encoded_app; [apply encoded_newline|].
    apply encoded_print; assumption.
  - cbn [concat_strings fold_right]. rewrite app_nil_s. apply read_print, H.
  - apply same_refl.
Qed.
