(** Model of sd_mecha/merge_method_wrappers.py: the exported functions that build
    recipes out of several methods, with the signatures of those methods
    (sd_mecha/extensions/builtin/merge_methods/__init__.py). *)
From Coq Require Import String Ascii List Bool Arith ZArith.
From Verif Require Import Base ModelRecipe ModelOps.
Import ListNotations.
Open Scope string_scope.
Open Scope list_scope.
Open Scope nat_scope.

(** Parameter(float) *)
Definition number : param := Param PNone None true false.
(** keyword parameters that are numbers *)
Definition named (l : list string) : list (string * param) := map (fun n => (n, number)) l.

(** __init__.py:88-97 *)
Definition sig_perpendicular : sig :=
  Sig [("a", tensor_any); ("b", tensor_any)] [] None [] [] RNone None all_spaces.
(** __init__.py:142-148, 163-169 *)
Definition sig_region (width : string) : sig :=
  Sig [("a", tensor_any); ("b", tensor_any); ("width", number); ("offset", number)] [VFloat width; VFloat "0.0"]
      None [] [] RNone None all_spaces.
(** __init__.py:382-389 *)
Definition sig_rotate : sig :=
  Sig [("a_dict", tensor_any); ("b_dict", tensor_any); ("alignment", number); ("alpha", tensor_any)] [VFloat "1.0"; VFloat "0.0"]
      None [] [] RNone None all_spaces.
(** __init__.py:451-456 *)
Definition sig_clamp : sig :=
  Sig [("a", tensor_any)] [] (Some tensor_any) (named ["stiffness"]) [("stiffness", VFloat "0.0")] RNone None all_spaces.
(** the methods over any number of deltas *)
Definition sig_deltas (defaults : list (string * pyobj)) : sig :=
  Sig [] [] (Some (tensor_in (PSet ["delta"]))) (named (map fst defaults)) defaults (RFixed "delta") None all_spaces.
(** __init__.py:525-530 *)
Definition ties_defaults : list (string * pyobj) := [("k", VFloat "1.0"); ("vote_sgn", VBool false)].
(** __init__.py:486-497 *)
Definition ties_extended_defaults : list (string * pyobj) :=
  [("k", VFloat "0.2"); ("vote_sgn", VBool false); ("apply_stock", VBool false); ("apply_median", VBool false);
   ("cos_eps", VFloat "1e-06"); ("eps", VFloat "1e-06"); ("maxiter", VInt 100%Z); ("ftol", VFloat "1e-20")].
(** __init__.py:583-591 *)
Definition dropout_defaults : list (string * pyobj) :=
  [("probability", VFloat "0.9"); ("rescale", VFloat "1.0"); ("overlap", VFloat "1.0"); ("overlap_emphasis", VFloat "0.0"); ("seed", VNone)].
(** __init__.py:658-672 *)
Definition ties_dropout_defaults : list (string * pyobj) :=
  [("probability", VFloat "0.9"); ("no_rescale", VBool false); ("k", VFloat "0.2"); ("vote_sgn", VBool false);
   ("apply_stock", VBool false); ("cos_eps", VFloat "1e-06"); ("apply_median", VBool false); ("eps", VFloat "1e-06");
   ("maxiter", VInt 100%Z); ("ftol", VFloat "1e-20"); ("seed", VNone)].
(** __init__.py:721-725 *)
Definition stock_defaults : list (string * pyobj) := [("cos_eps", VFloat "1e-06")].

(** the built-in merge methods the wrappers call, with their signatures *)
Definition builtin_sigs : list (string * sig) :=
  [("add_difference", sig_add_difference); ("subtract", sig_subtract); ("perpendicular_component", sig_perpendicular);
   ("tensor_sum", sig_region "0.5"); ("top_k_tensor_sum", sig_region "1.0"); ("rotate", sig_rotate); ("clamp", sig_clamp);
   ("ties_sum", sig_deltas ties_defaults); ("ties_sum_extended", sig_deltas ties_extended_defaults);
   ("dropout", sig_deltas dropout_defaults); ("ties_sum_with_dropout", sig_deltas ties_dropout_defaults);
   ("model_stock", sig_deltas stock_defaults)].

(** the module-level method objects, called with keywords *)
Definition method (E : env) (m : string) (args : list pyobj) (kwargs : list (string * pyobj)) : result pyobj :=
  match dget String.eqb m builtin_sigs with
  | Some g => create_recipe E m g args kwargs
  | None => Err AttributeError
  end.

(** merge_method_wrappers.py:16-46 *)
Definition w_add_difference (E : env) (a b : pyobj) (c : option pyobj) (alpha : pyobj) (clamp_to_ab : bool) : result pyobj :=
  let* a := operand E a in
  let* b := operand E b in
  let original_b := b in
  let* b := match c with
            | None => Ok b
            | Some c => let* c := operand E c in method E "subtract" [b; c] []
            end in
  let* res := method E "add_difference" [a; b] [("alpha", alpha)] in
  let* sa := node_space E a in
  let* so := node_space E original_b in
  let b := if String.eqb sa so then original_b else b in
  if clamp_to_ab then
    let* sb := node_space E b in
    if negb (String.eqb sa sb) then Err TypeError else method E "clamp" [res; a; b] []
  else Ok res.

(** merge_method_wrappers.py:49-71 *)
Definition w_add_perpendicular (E : env) (a b c alpha : pyobj) : result pyobj :=
  let* a := operand E a in
  let* b := operand E b in
  let* c := operand E c in
  let* a_diff := method E "subtract" [a; c] [] in
  let* b_diff := method E "subtract" [b; c] [] in
  let* perp := method E "perpendicular_component" [a_diff; b_diff] [] in
  method E "add_difference" [a; perp] [("alpha", alpha)].

(** lines 96-101, 137-142, 289-294, 325-330: the models as deltas *)
Definition as_delta (E : env) (base model : pyobj) : result pyobj :=
  let* s := node_space E model in
  if String.eqb s "weight" then method E "subtract" [model; base] [] else Ok model.

(** merge_method_wrappers.py:84-115 *)
Definition w_ties (E : env) (base : pyobj) (models : list pyobj) (alpha k : pyobj) : result pyobj :=
  let* base := operand E base in
  let* models := map_res (operand E) models in
  let* deltas := map_res (as_delta E base) models in
  let* res := method E "ties_sum" deltas [("k", k)] in
  w_add_difference E base res None alpha false.

(** merge_method_wrappers.py:118-163; [opts] are the keywords vote_sgn, ...,
    ftol as the caller gives them or their defaults, in the order of the call *)
Definition w_ties_extended (E : env) (base : pyobj) (models : list pyobj) (alpha : pyobj) (opts : list (string * pyobj)) : result pyobj :=
  let* base := operand E base in
  let* models := map_res (operand E) models in
  let* deltas := map_res (as_delta E base) models in
  let* res := method E "ties_sum_extended" deltas opts in
  w_add_difference E base res None alpha false.
Definition ties_extended_call : list string :=
  ["k"; "vote_sgn"; "apply_stock"; "cos_eps"; "apply_median"; "eps"; "maxiter"; "ftol"].

(** merge_method_wrappers.py:166-198, and 204-235 with [rotate] in the middle;
    [set_cache] returns the node *)
Definition around (E : env) (a b : pyobj) (c : option pyobj) (middle : pyobj -> pyobj -> result pyobj) : result pyobj :=
  let* a := operand E a in
  let* b := operand E b in
  match c with
  | None => middle a b
  | Some c =>
      let* c := operand E c in
      let* a := method E "subtract" [a; c] [] in
      let* b := method E "subtract" [b; c] [] in
      let* res := middle a b in
      method E "add_difference" [c; res] [("alpha", VFloat "1.0")]
  end.
Definition w_copy_region (E : env) (a b : pyobj) (c : option pyobj) (width offset : pyobj) (top_k : bool) : result pyobj :=
  around E a b c (fun a b => method E (if top_k then "top_k_tensor_sum" else "tensor_sum") [a; b] [("width", width); ("offset", offset)]).
Definition w_rotate (E : env) (a b : pyobj) (c : option pyobj) (alignment alpha : pyobj) : result pyobj :=
  around E a b c (fun a b => method E "rotate" [a; b] [("alignment", alignment); ("alpha", alpha)]).

(** merge_method_wrappers.py:238-252 *)
Definition w_dropout (E : env) (a : pyobj) (models : list pyobj) (probability alpha overlap overlap_emphasis seed : pyobj) : result pyobj :=
  let* deltas := map_res (fun model => method E "subtract" [model; a] []) models in
  let* delta := method E "dropout" deltas
    [("probability", probability); ("overlap", overlap); ("overlap_skew", overlap_emphasis); ("seed", seed)] in
  method E "add_difference" [a; delta] [("alpha", alpha)].

(** merge_method_wrappers.py:270-313; [opts] are k, vote_sgn, seed, apply_stock,
    cos_eps, apply_median, eps, maxiter and ftol *)
Definition w_ties_with_dare (E : env) (base : pyobj) (models : list pyobj) (probability rescale alpha : pyobj)
    (opts : list (string * pyobj)) : result pyobj :=
  let* base := operand E base in
  let* models := map_res (operand E) models in
  let* deltas := map_res (as_delta E base) models in
  let* res := method E "ties_sum_with_dropout" deltas (("probability", probability) :: ("rescale", rescale) :: opts) in
  method E "add_difference" [base; res] [("alpha", alpha)].

(** merge_method_wrappers.py:318-340 *)
Definition w_model_stock (E : env) (base : pyobj) (models : list pyobj) (cos_eps : pyobj) : result pyobj :=
  let* base := operand E base in
  let* models := map_res (operand E) models in
  let* deltas := map_res (as_delta E base) models in
  let* res := method E "model_stock" deltas [("cos_eps", cos_eps)] in
  method E "add_difference" [base; res] [("alpha", VFloat "1.0")].
