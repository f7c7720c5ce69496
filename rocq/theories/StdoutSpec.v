(** Specification of what reading plain text prints. *)
From Coq Require Import String List NArith ZArith Bool.
From Verif Require Import Base NumStr Regex NumText NumTextSpec NumberSpec TextParse TextSpec ItemSpec.
Import ListNotations.
Open Scope string_scope.
Open Scope list_scope.

(** A line divided into its first word [s] and the rest [t]: the two are printed; if the word is no number of a heading
    or paragraph, it is also printed whether it is a label of an item, and if not, the line once more. *)
Inductive word_output (cd : codec) (s t : ustr) : list ustr -> Prop :=
| output_number n : number_reading cd s (Ok (Some n)) -> word_output cd s t [s ++ u ": " ++ t]
| output_number_panic : number_reading cd s Panic -> word_output cd s t [s ++ u ": " ++ t]
| output_item i : number_reading cd s (Ok None) -> label_reading cd s (Ok (Some i)) ->
    word_output cd s t [s ++ u ": " ++ t; u "ok!!!"]
| output_item_panic : number_reading cd s (Ok None) -> label_reading cd s Panic ->
    word_output cd s t [s ++ u ": " ++ t; u "ok!!!"]
| output_none : number_reading cd s (Ok None) -> label_reading cd s (Ok None) ->
    word_output cd s t [s ++ u ": " ++ t; u "err!!"; u "text!!!" ++ s ++ u ": " ++ t].
(** Nothing is printed for these lines: captions and lines of at most one character. *)
Definition silent_line (l : ustr) : Prop :=
  exists x w y, blank x /\ blank y /\ no_edge w /\ l = x ++ w ++ y /\ (caption_line w \/ length w <= 1).
Definition line_output (cd : codec) (l : ustr) (o : list ustr) : Prop :=
  silent_line l /\ o = [] \/
  exists x w y s t, blank x /\ blank y /\ l = x ++ w ++ y /\ ~ caption_line w /\ first_word w s t /\ word_output cd s t o.
(** Line after line, up to the first one that panics. *)
Inductive text_output (cd : codec) : list ustr -> list ustr -> Prop :=
| output_end : text_output cd [] []
| output_line l x ls o os : line_reading cd l (Ok x) -> line_output cd l o -> text_output cd ls os -> text_output cd (l :: ls) (o ++ os)
| output_panic l ls o : line_reading cd l Panic -> line_output cd l o -> text_output cd (l :: ls) o.
