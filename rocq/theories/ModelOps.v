(** Model of the operators of recipe nodes (sd_mecha/recipe_nodes.py:32-57) and of
    the signatures of the built-in methods they call. *)
From Coq Require Import String Ascii List Bool Arith.
From Verif Require Import Base ModelRecipe.
Import ListNotations.
Open Scope string_scope.
Open Scope list_scope.
Open Scope nat_scope.

(** merge_spaces.py:61-72: the merge spaces there are *)
Definition all_spaces : list string := ["weight"; "delta"; "param"].
(** Parameter(Tensor, sp) *)
Definition tensor_in (sp : pspace) : param := Param sp None false true.
(** Parameter(Tensor) *)
Definition tensor_any : param := tensor_in PNone.

(** builtin/merge_methods/__init__.py:67-77 *)
Definition sig_add_difference : sig :=
  Sig [("a", tensor_in (PSet ["weight"])); ("b", tensor_in (PSet ["delta"])); ("alpha", tensor_any)] [VFloat "1.0"]
      None [] [] (RFixed "weight") None all_spaces.
(** builtin/merge_methods/__init__.py:80-85 *)
Definition sig_subtract : sig :=
  Sig [("a", tensor_in (PSet ["weight"])); ("b", tensor_in (PSet ["weight"]))] [] None [] [] (RFixed "delta") None all_spaces.
(** builtin/merge_methods/__init__.py:806-811 *)
Definition sig_fallback : sig :=
  Sig [("a", tensor_any); ("default", tensor_any)] [] None [] [] RNone None all_spaces.

(** [merge_methods.resolve(m)( *args)] *)
Definition call (E : env) (m : string) (args : list pyobj) : result pyobj :=
  let* g := resolve_method E m in create_recipe E m g args [].

(** [merge_methods.value_to_node(other)] without an expected type: the type is
    taken from the value (merge_methods.py:572-576), which fails on an empty dict,
    and a path is never accepted *)
Definition operand (E : env) (v : pyobj) : result pyobj :=
  match v with
  | VDict [] => Err StopIteration
  | _ => value_to_node E v false
  end.

(** recipe_nodes.py:32-37 *)
Definition op_add (E : env) (self other : pyobj) : result pyobj :=
  let* o := operand E other in
  let* s := node_space E o in
  if String.eqb s "weight" then call E "add_difference" [o; self]
  else call E "add_difference" [self; o].
(** recipe_nodes.py:43-45 *)
Definition op_sub (E : env) (self other : pyobj) : result pyobj :=
  let* o := operand E other in call E "subtract" [self; o].
(** recipe_nodes.py:51-53 *)
Definition op_or (E : env) (self other : pyobj) : result pyobj :=
  let* o := operand E other in call E "fallback" [self; o].
(** recipe_nodes.py:39-41, 47-49, 55-57: the operators with a plain value on the left *)
Definition op_radd (E : env) (self other : pyobj) : result pyobj := let* o := operand E other in op_add E o self.
Definition op_rsub (E : env) (self other : pyobj) : result pyobj := let* o := operand E other in op_sub E o self.
Definition op_ror (E : env) (self other : pyobj) : result pyobj := let* o := operand E other in op_or E o self.
