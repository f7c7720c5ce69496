(** Specification of the calls that [derive(Hash)] makes: from the declared types alone.

    Independent of [Derived.v] except for the type of calls.  A value is given by its document
    (see [SerdeSpec]), which determines it (C84); the declarations say in which order the fields
    of a struct are fed to the hasher and which number a variant has. *)
From Coq Require Import String List NArith Bool.
From Verif Require Import Ast Serde SerdeSpec Derived.
Import ListNotations.
Open Scope string_scope.
Open Scope list_scope.

Inductive hashed : sty -> json -> stream -> Prop :=
| hd_str : forall s, hashed TStr (JStr s) [HBytes s; HU8 255]
| hd_false : hashed TBool (JBool false) [HU8 0]
| hd_true : hashed TBool (JBool true) [HU8 1]
| hd_num : forall n, hashed TNum (JNum n) [HUsize n]
| hd_none : forall t, hashed (TOpt t) JNull [HIsize 0]
| hd_some : forall t j s, j <> JNull -> hashed t j s -> hashed (TOpt t) j (HIsize 1 :: s)
| hd_nums : forall l, hashed (TVec TNum) (JArr (map JNum l)) [HUsize (N.of_nat (length l)); HUsizes l]
| hd_vec : forall t l s, t <> TNum -> hashed_all t l s -> hashed (TVec t) (JArr l) (HUsize (N.of_nat (length l)) :: s)
(** The fields in the order of the declaration. *)
| hd_struct : forall r fs l s, find_decl r declarations = Some (DStruct fs) -> hashed_fields fs l s ->
    hashed (TRef r) (JObj l) s
(** The number of the variant is its position in the declaration. *)
| hd_unit : forall r vs n v, find_decl r declarations = Some (DEnum vs) -> nth_error vs n = Some (v, None) ->
    hashed (TRef r) (JStr v) [HIsize n]
| hd_variant : forall r vs n v t j s, find_decl r declarations = Some (DEnum vs) -> nth_error vs n = Some (v, Some t) ->
    hashed t j s -> hashed (TRef r) (JObj [(v, j)]) (HIsize n :: s)
with hashed_all : sty -> list json -> stream -> Prop :=
| ha_nil : forall t, hashed_all t [] []
| ha_cons : forall t j l s r, hashed t j s -> hashed_all t l r -> hashed_all t (j :: l) (s ++ r)
with hashed_fields : list (string * sty) -> list (string * json) -> stream -> Prop :=
| hf_nil : hashed_fields [] [] []
| hf_cons : forall n t fs j l s r, hashed t j s -> hashed_fields fs l r ->
    hashed_fields ((n, t) :: fs) ((n, j) :: l) (s ++ r).
