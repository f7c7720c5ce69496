(** How [{:#?}] lays out values: as the standard library does it, by passing what is printed for an entry through a writer that
    puts four spaces at the start of every line (the [PadAdapter]).  There are no levels of nesting here, and nothing is taken from
    the layout in [Debug.v]. *)
From Coq Require Import String Ascii List NArith Bool.
From Verif Require Import Base Serde SerdeSpec Debug.
Import ListNotations.
Open Scope string_scope.
Open Scope list_scope.

(** Four spaces after every line feed. *)
Fixpoint pad (s : string) : string :=
  match s with
  | EmptyString => ""
  | String c r => if N.eqb (N_of_ascii c) 10 then String c ("    " ++ pad r)%string else String c (pad r)
  end.
Definition line_feed : string := String (ascii_of_N 10) "".
(** An entry on lines of its own. *)
Definition entry (s : string) : string := ("    " ++ pad s ++ "," ++ line_feed)%string.
(** What stands between brackets. *)
Definition block (l : list string) : string := (line_feed ++ concat_strings (map entry l))%string.

Fixpoint pretty (shown : N -> bool) (j : json) {struct j} : sty -> string :=
  fix go (t : sty) : string :=
    match t, j with
    | TStr, JStr s => debug_str shown s
    | TBool, JBool b => if b then "true" else "false"
    | TNum, JNum n => usize_to_string n
    | TOpt u, JNull => "None"
    | TOpt u, _ => ("Some(" ++ block [go u] ++ ")")%string
    | TVec u, JArr [] => "[]"
    | TVec u, JArr l => ("[" ++ block (map (fun x => pretty shown x u) l) ++ "]")%string
    | TRef r, _ =>
        match find_decl r declarations, j with
        | Some (DStruct []), _ => r
        | Some (DStruct fs), JObj l =>
            (r ++ " {" ++ block
              ((fix fields (fs : list (string * sty)) (l : list (string * json)) {struct l} : list string :=
                 match fs, l with
                 | (n, t) :: fs', (_, x) :: l' => (n ++ ": " ++ pretty shown x t)%string :: fields fs' l'
                 | _, _ => []
                 end) fs l) ++ "}")%string
        | Some (DEnum vs), JStr v => v
        | Some (DEnum vs), JObj ((v, x) :: nil) =>
            match find_variant v vs with
            | Some (Some t) => (v ++ "(" ++ block [pretty shown x t] ++ ")")%string
            | _ => v
            end
        | _, _ => ""
        end
    | _, _ => ""
    end.
