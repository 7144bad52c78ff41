(** What makes the values of a dict alike, independently of ModelRecipe.v. *)
From Coq Require Import String List Bool.
From Verif Require Import Base ModelRecipe.
Import ListNotations.

(** the kinds of values that the documentation allows in a dict *)
Inductive kind := KNumber | KString | KNone | KTensor | KRecipe.
Inductive of_kind : kind -> pyobj -> Prop :=
| kind_int : forall z, of_kind KNumber (VInt z)
| kind_float : forall s, of_kind KNumber (VFloat s)
| kind_bool : forall b, of_kind KNumber (VBool b)
| kind_str : forall s, of_kind KString (VStr s)
| kind_none : of_kind KNone VNone
| kind_tensor : forall i, of_kind KTensor (VTensor i)
| kind_literal : forall v c s, of_kind KRecipe (VLit v c s)
| kind_model : forall p c s, of_kind KRecipe (VModel p c s)
| kind_merge : forall m args kwargs, of_kind KRecipe (VMerge m args kwargs).

(** every value of the dict *)
Definition values (P : pyobj -> Prop) (l : list (string * pyobj)) : Prop := forall k v, In (k, v) l -> P v.

(** a recipe of config [c] in space [s] *)
Definition recipe_of (E : env) (c : option string) (s : string) (v : pyobj) : Prop :=
  of_kind KRecipe v /\ node_config E v = Ok c /\ node_space E v = Ok s.
