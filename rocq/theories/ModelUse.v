(** Model of the places where a recipe is expected and a plain value may be given:
    sd_mecha/helpers.py (model, literal) and the first lines of merging.py (merge).
    The operators are in ModelOps.v, the wrappers in ModelWrap.v. *)
From Coq Require Import String Ascii List Bool Arith.
From Verif Require Import Base Dec Json PyStr ModelRecipe ModelSerial ModelOps.
Import ListNotations.
Open Scope string_scope.
Open Scope list_scope.
Open Scope nat_scope.

(** recipe_nodes.py:83-84: configs and spaces given as names are looked up, None is kept *)
Definition resolve_opt (f : string -> result string) (s : option string) : result (option string) :=
  match s with None => Ok None | Some x => let* y := f x in Ok (Some y) end.

(** helpers.literal: 43-68.  Configs and merge spaces are given by name or as None *)
Definition h_literal (E : env) (v : pyobj) (cfg sp : option string) : result pyobj :=
  let* c := resolve_opt (resolve_config E) cfg in
  let* s := resolve_opt (resolve_space E) sp in
  mk_literal E v c s.

(** helpers.model: 13-40.  [pathlib.Path(s)] is normalised as in ModelSerial.v; anything but a
    path is refused by ModelRecipeNode (recipe_nodes.py:130-131) *)
Definition h_model (E : env) (v : pyobj) (cfg sp : option string) : result pyobj :=
  match sp with
  | None => Err ValueError
  | Some s =>
    match v with
    | VDict [] | VDict ((_, VTensor _) :: _) => h_literal E v cfg sp
    | VDict _ => Err ValueError
    | VStr p => mk_model E (l2s (path_norm (s2l p))) cfg s
    | VPath p => mk_model E p cfg s
    | _ => Err TypeError
    end
  end.

(** merge: merging.py:128-131, the recipe that is then evaluated, before any cast.
    [fallback_model] is [VNone] when there is none (97-98) *)
Definition merge_recipe (E : env) (recipe fallback_model : pyobj) : result pyobj :=
  let* r := operand E recipe in
  match fallback_model with
  | VNone => Ok r
  | f => op_or E r f
  end.
