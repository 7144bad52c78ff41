(** Model of recipe nodes and of building them: sd_mecha/recipe_nodes.py,
    sd_mecha/extensions/merge_methods.py (create_recipe, merge spaces, configs,
    value_to_node), merge_spaces.py (resolve), model_configs.py (resolve). *)
From Coq Require Import String Ascii List Bool Arith NArith ZArith Lia.
From Verif Require Import Base PyStr.
Import ListNotations.
Open Scope string_scope.
Open Scope list_scope.
Open Scope nat_scope.

(** Python objects that occur in recipes: recipe_nodes.py:68-71 (literal values),
    74-103 (LiteralRecipeNode), 121-141 (ModelRecipeNode), 159-172
    (MergeRecipeNode).  Model configs and merge spaces are represented by their
    identifiers; a merge method by its identifier.  A float is represented by a
    spelling of it; a tensor by an opaque number.  Dict keys are strings. *)
Inductive pyobj : Type :=
| VStr (s : string)
| VInt (z : Z)
| VFloat (spelling : string)
| VBool (b : bool)
| VNone
| VTensor (id : nat)
| VPath (p : string)
| VDict (l : list (string * pyobj))
| VLit (v : pyobj) (cfg : option string) (space : string)
| VModel (path : string) (cfg : option string) (space : string)
| VMerge (method : string) (args : list pyobj) (kwargs : list (string * pyobj)).

(** [isinstance(x, RecipeNode)] *)
Definition is_node (v : pyobj) : bool :=
  match v with VLit _ _ _ | VModel _ _ _ | VMerge _ _ _ => true | _ => false end.

(** merge space annotation of a parameter: a set of spaces, or a symbol
    (merge_spaces.py:22-30), or nothing.  Symbols compare by identity. *)
Inductive pspace : Type :=
| PNone
| PSet (l : list string)
| PSym (id : nat) (l : list string).

(** merge_methods.py:32-41; [p_literal] is
    [is_subclass(interface, PythonLiteralValue)], [p_tensor] tells whether a path
    is accepted (the interface is a type variable or a tensor: 607-609) *)
Record param := Param { p_space : pspace; p_config : option string; p_literal : bool; p_tensor : bool }.

(** the merge space of a return annotation: merge_methods.py:98-133; a symbol is told by its identity *)
Inductive rspace : Type :=
| RNone
| RFixed (s : string)
| RSym (id : nat).

(** a merge method, as [inspect.getfullargspec] and the annotations give it:
    merge_methods.py:171-179, 405-447 *)
Record sig := Sig {
  g_args : list (string * param);
  g_defaults : list pyobj;
  g_vararg : option param;
  g_kw : list (string * param);
  g_kwdefaults : list (string * pyobj);
  g_rspace : rspace;
  g_rconfig : option string;
  g_all_spaces : list string }.

(** symbol [default_merge_space] of a method: merge_methods.py:178 *)
Definition default_sym : nat := 0.

(** the registries *)
Record env := Env {
  e_methods : list (string * sig);
  e_configs : list string;
  e_spaces : list string }.

(** model_configs.py:381-405, merge_spaces.py:39-44, merge_methods.py:532-537;
    ["infer"] always resolves *)
Definition resolve_config (E : env) (s : string) : result string :=
  if existsb (String.eqb s) ("infer" :: e_configs E) then Ok s else Err ValueError.
Definition resolve_space (E : env) (s : string) : result string :=
  if existsb (String.eqb s) (e_spaces E) then Ok s else Err ValueError.
Definition resolve_method (E : env) (s : string) : result sig :=
  match dget String.eqb s (e_methods E) with Some g => Ok g | None => Err ValueError end.

(** [s in l] for strings *)
Definition mem_str (s : string) (l : list string) : bool := existsb (String.eqb s) l.

(** merge_methods.py:350-382 get_input_merge_spaces *)
Definition space_or_default (g : sig) (p : param) (has_default : bool) : pspace :=
  match p_space p with
  | PNone => if has_default || p_literal p then PSet ["param"] else PSym default_sym (g_all_spaces g)
  | s => s
  end.

(** merge_methods.py:350-382, positional parameters from [i] on *)
Fixpoint arg_spaces (g : sig) (first_default i : nat) (l : list (string * param)) : list pspace :=
  match l with
  | [] => []
  | (_, p) :: l' => space_or_default g p (first_default <=? i) :: arg_spaces g first_default (S i) l'
  end.

(** merge_methods.py:350-382, all positional parameters *)
Definition in_spaces_args (g : sig) : list pspace :=
  arg_spaces g (length (g_args g) - length (g_defaults g)) 0 (g_args g).
(** merge_methods.py:350-382, the variadic parameter *)
Definition in_space_vararg (g : sig) : option pspace :=
  match g_vararg g with
  | None => None
  | Some p => Some (match p_space p with PNone => PSym default_sym (g_all_spaces g) | s => s end)
  end.
(** merge_methods.py:350-382, keyword parameters *)
Definition in_spaces_kw (g : sig) : list (string * pspace) :=
  map (fun kp => (fst kp, space_or_default g (snd kp) (dmem String.eqb (fst kp) (g_kwdefaults g)))) (g_kw g).

(** [FunctionArgs.args_varargs(n)] : merge_methods.py:152-162 *)
Definition args_varargs {P} (l : list P) (va : option P) (n : nat) : list P :=
  l ++ match va with Some p => repeat p (n - length l) | None => [] end.

(** one pass of the loop at merge_methods.py:316-332 *)
Definition check_space (p : option pspace) (a : string) (bound : list (nat * string)) : result (list (nat * string)) :=
  match p with
  | None => Err KeyError
  | Some PNone => Err Unmodelled
  | Some (PSet l) => if mem_str a l then Ok bound else Err TypeError
  | Some (PSym i l) =>
    if negb (mem_str a l) then Err TypeError else
    match dget Nat.eqb i bound with
    | Some r => if String.eqb a r then Ok bound else Err TypeError
    | None => Ok (dset Nat.eqb i a bound)
    end
  end.

(** the loop at merge_methods.py:316-332 *)
Fixpoint check_spaces (l : list (option pspace * string)) (bound : list (nat * string)) : result (list (nat * string)) :=
  match l with
  | [] => Ok bound
  | (p, a) :: l' => let* b := check_space p a bound in check_spaces l' b
  end.

(** the pairs (parameter space, argument space) the loop visits, in order *)
Definition space_pairs (g : sig) (sargs : list string) (skw : list (string * string)) : list (option pspace * string) :=
  let ps := args_varargs (in_spaces_args g) (in_space_vararg g) (length sargs) in
  map (fun ia => (nth_error ps (fst ia), snd ia)) (combine (seq 0 (length sargs)) sargs) ++
  map (fun ka => (dget String.eqb (fst ka) (in_spaces_kw g), snd ka)) skw.

(** set equality of annotations / identity of symbols *)
Definition pspace_eqb (a b : pspace) : bool :=
  match a, b with
  | PNone, PNone => true
  | PSet l, PSet m => forallb (fun x => mem_str x m) l && forallb (fun x => mem_str x l) m
  | PSym i _, PSym j _ => Nat.eqb i j
  | _, _ => false
  end.

(** merge_methods.py:303-348.  [sargs]/[skw] are the merge spaces of the inputs.
    A symbol as result is rejected by MergeRecipeNode.__validate_args
    (recipe_nodes.py:174-176) with RuntimeError. *)
Definition return_space (g : sig) (sargs : list string) (skw : list (string * string)) : result string :=
  let* bound := check_spaces (space_pairs g sargs skw) [] in
  match g_rspace g with
  | RFixed s => Ok s
  | RSym i => match dget Nat.eqb i bound with Some s => Ok s | None => Err KeyError end
  | RNone =>
    match dget Nat.eqb default_sym bound with
    | Some s => Ok s
    | None =>
      let all := args_varargs (in_spaces_args g) (in_space_vararg g) (length sargs) ++ map snd (in_spaces_kw g) in
      match all with
      | [] => Err StopIteration
      | p :: _ =>
        if forallb (fun q => pspace_eqb q p) all then
          match p with
          | PSet l => match nodup string_dec l with [s] => Ok s | _ => Err RuntimeError end
          | _ => Err RuntimeError
          end
        else Err RuntimeError
      end
    end
  end.

(** merge_methods.py:384-403 get_return_config *)
Fixpoint check_configs (l : list (option (option string) * option string)) (default : option string) : result (option string) :=
  match l with
  | [] => Ok default
  | (_, None) :: l' => check_configs l' default
  | (None, Some _) :: l' => Err KeyError
  | (Some pc, Some a) :: l' =>
    match pc with
    | Some c => if String.eqb c a then check_configs l' default else Err ValueError
    | None =>
      match default with
      | Some c => if String.eqb c a then check_configs l' default else Err ValueError
      | None => check_configs l' (Some a)
      end
    end
  end.

(** the pairs of declared and actual configs: merge_methods.py:384-403 *)
Definition config_pairs (g : sig) (cargs : list (option string)) (ckw : list (string * option string)) :=
  let ps := args_varargs (map (fun kp => p_config (snd kp)) (g_args g))
                         (match g_vararg g with Some p => Some (p_config p) | None => None end) (length cargs) in
  map (fun ia => (nth_error ps (fst ia), snd ia)) (combine (seq 0 (length cargs)) cargs) ++
  map (fun ka => (dget String.eqb (fst ka) (map (fun kp => (fst kp, p_config (snd kp))) (g_kw g)), snd ka)) ckw.

(** merge_methods.py:384-403 get_return_config *)
Definition return_config (g : sig) (cargs : list (option string)) (ckw : list (string * option string)) : result (option string) :=
  check_configs (config_pairs g cargs ckw) (g_rconfig g).

(** mapping a partial function over the inputs of a node, left to right *)
Section MapR.
  Context {A B : Type} (f : A -> result B).
  Fixpoint map_res (l : list A) : result (list B) :=
    match l with
    | [] => Ok []
    | x :: l' => let* y := f x in let* ys := map_res l' in Ok (y :: ys)
    end.
  Fixpoint map_kres (l : list (string * A)) : result (list (string * B)) :=
    match l with
    | [] => Ok []
    | (k, x) :: l' => let* y := f x in let* ys := map_kres l' in Ok ((k, y) :: ys)
    end.
End MapR.

(** the [merge_space] property: recipe_nodes.py:102-104, 140-142, 180-185 *)
Fixpoint node_space (E : env) (v : pyobj) : result string :=
  match v with
  | VLit _ _ s | VModel _ _ s => Ok s
  | VMerge m args kwargs =>
    let* g := resolve_method E m in
    let* sa := map_res (node_space E) args in
    let* sk := map_kres (node_space E) kwargs in
    return_space g sa sk
  | _ => Err AttributeError
  end.

(** the [model_config] property: recipe_nodes.py:106-108, 144-146, 187-192 *)
Fixpoint node_config (E : env) (v : pyobj) : result (option string) :=
  match v with
  | VLit _ c _ | VModel _ c _ => Ok c
  | VMerge m args kwargs =>
    let* g := resolve_method E m in
    let* ca := map_res (node_config E) args in
    let* ck := map_kres (node_config E) kwargs in
    return_config g ca ck
  | _ => Err AttributeError
  end.

(** equality of optional identifiers (model_configs.py:72-74; None equals None) *)
Definition ostr_eqb (a b : option string) : bool :=
  match a, b with Some x, Some y => String.eqb x y | None, None => true | _, _ => false end.

(** LiteralRecipeNode.__init__: recipe_nodes.py:75-97 *)
Definition mk_literal (E : env) (v : pyobj) (cfg : option string) (sp : option string) : result pyobj :=
  let finish c s := Ok (VLit v c (match s with Some x => x | None => "param" end)) in
  match v with
  | VDict (((_, first) :: _) as l) =>
    if is_node first then
      let* c := match cfg with None => node_config E first | Some c => Ok (Some c) end in
      let* s1 := node_space E first in
      let s := match sp with None => Some s1 | Some s => Some s end in
      let* cs := map_kres (node_config E) l in
      if negb (forallb (fun kc => ostr_eqb (snd kc) c) cs) then Err ValueError else
      let* ss := map_kres (node_space E) l in
      if negb (forallb (fun ks => String.eqb (snd ks) s1) ss) then Err ValueError else
      finish c s
    else finish cfg sp
  | _ => finish cfg sp
  end.

(** [isinstance(v, actual_type)] where the type is that of the first value *)
Definition same_kind (first v : pyobj) : bool :=
  match first with
  | VInt _ | VFloat _ | VBool _ => match v with VInt _ | VFloat _ | VBool _ => true | _ => false end
  | VStr _ => match v with VStr _ => true | _ => false end
  | VNone => match v with VNone => true | _ => false end
  | VTensor _ => match v with VTensor _ => true | _ => false end
  | VLit _ _ _ | VModel _ _ _ | VMerge _ _ _ => is_node v
  | VPath _ | VDict _ => false
  end.

(** merge_methods.py:548-618 value_to_node.  [tensor_ok]: the parameter accepts
    a path.  A path becomes a model node (recipe_nodes.py:122-141). *)
Definition value_to_node (E : env) (v : pyobj) (tensor_ok : bool) : result pyobj :=
  if is_node v then Ok v else
  let* _ := match v with
            | VDict (((_, first) :: _) as l) =>
              match first with
              | VPath _ | VDict _ => Err TypeError
              | _ =>
                if negb (forallb (fun kv => same_kind first (snd kv)) l) then Err TypeError
                else if is_node first then
                  let* c := node_config E first in
                  let* cs := map_kres (node_config E) l in
                  if negb (forallb (fun kc => ostr_eqb (snd kc) c) cs) then Err RuntimeError else
                  let* s := node_space E first in
                  let* ss := map_kres (node_space E) l in
                  if negb (forallb (fun ks => String.eqb (snd ks) s) ss) then Err RuntimeError else Ok tt
                else Ok tt
              end
            | _ => Ok tt
            end in
  match v with
  | VPath p => if tensor_ok then Ok (VModel p None "weight") else Err TypeError
  | _ => mk_literal E v None None
  end.

(** index of the first of [names] that occurs in [kwargs]:
    merge_methods.py:247-250 (the minimum over kwargs of the index) *)
Fixpoint first_index {V} (names : list string) (kwargs : list (string * V)) (i : nat) : option nat :=
  match names with
  | [] => None
  | n :: names' => if dmem String.eqb n kwargs then Some i else first_index names' kwargs (S i)
  end.

(** merge_methods.py:263-268: the value bound to positional parameter [i] *)
Definition bind_one (args : list pyobj) (defaults : list pyobj) (first_default : nat) (fa : nat)
    (kwargs : list (string * pyobj)) (i : nat) (name : string) : result pyobj :=
  if i <? fa then
    match nth_error args i with Some v => Ok v | None => Err IndexError end
  else match dget String.eqb name kwargs with
       | Some v => Ok v
       | None =>
         if i <? first_default then Err RuntimeError
         else match nth_error defaults (i - first_default) with Some v => Ok v | None => Err IndexError end
       end.

(** merge_methods.py:263-268, all positional parameters from [i] on *)
Fixpoint bind_args (args defaults : list pyobj) (first_default fa : nat) (kwargs : list (string * pyobj))
    (i : nat) (names : list string) : result (list pyobj) :=
  match names with
  | [] => Ok []
  | n :: names' =>
    let* v := bind_one args defaults first_default fa kwargs i n in
    let* vs := bind_args args defaults first_default fa kwargs (S i) names' in
    Ok (v :: vs)
  end.

(** how many of the conditions hold: the length of the list at merge_methods.py:259 *)
Definition sumb (l : list bool) : nat := fold_right (fun (b : bool) n => if b then S n else n) 0 l.

(** merge_methods.py:242-276: the binding phase of create_recipe.  [kwargs.pop]
    removes the keywords that name positional parameters. *)
Definition bind_call (g : sig) (args : list pyobj) (kwargs : list (string * pyobj)) : result (list pyobj * list (string * pyobj)) :=
  let names := map fst (g_args g) in
  let np := length names in
  let first_default := np - length (g_defaults g) in
  let fa := match first_index names kwargs 0 with Some i => Nat.min i (length args) | None => length args end in
  let n_args := length args + sumb (map (fun n => dmem String.eqb n kwargs) names) in
  if (n_args <? first_default) || (match g_vararg g with None => np <? n_args | Some _ => false end)
  then Err TypeError else
  let* bound := bind_args args (g_defaults g) first_default fa kwargs 0 names in
  let args' := bound ++ skipn np args in
  let kw := filter (fun kv => negb (mem_str (fst kv) names)) kwargs in
  if negb (forallb (fun kv => dmem String.eqb (fst kv) (g_kw g)) kw) then Err TypeError else
  if negb (forallb (fun kp => dmem String.eqb (fst kp) kw || dmem String.eqb (fst kp) (g_kwdefaults g)) (g_kw g)) then Err TypeError else
  Ok (args', dupdate String.eqb (g_kwdefaults g) kw).

(** merge_methods.py:278-288: conversion of the bound values, then
    MergeRecipeNode.__init__ (recipe_nodes.py:159-176) *)
Definition convert_args (E : env) (g : sig) (args : list pyobj) : result (list pyobj) :=
  map_res (fun vp => value_to_node E (fst vp) (p_tensor (snd vp)))
    (combine args (args_varargs (map snd (g_args g)) (g_vararg g) (length args))).

(** merge_methods.py:283-286 *)
Definition convert_kwargs (E : env) (g : sig) (kw : list (string * pyobj)) : result (list (string * pyobj)) :=
  map_res (fun kv : string * pyobj => match dget String.eqb (fst kv) (g_kw g) with
                     | None => Err KeyError
                     | Some p => let* n := value_to_node E (snd kv) (p_tensor p) in Ok (fst kv, n)
                     end) kw.

(** merge_methods.py:242-288 create_recipe *)
Definition create_recipe (E : env) (m : string) (g : sig) (args : list pyobj) (kwargs : list (string * pyobj)) : result pyobj :=
  let* b := bind_call g args kwargs in
  let* nargs := convert_args E g (fst b) in
  let* nkw := convert_kwargs E g (snd b) in
  let* sa := map_res (node_space E) nargs in
  let* sk := map_kres (node_space E) nkw in
  let* _ := return_space g sa sk in
  Ok (VMerge m nargs nkw).

(** ModelRecipeNode(path, model_config=.., merge_space=..): recipe_nodes.py:122-137 *)
Definition mk_model (E : env) (path : string) (cfg : option string) (sp : string) : result pyobj :=
  let* c := match cfg return result (option string) with None => Ok None | Some c => let* x := resolve_config E c in Ok (Some x) end in
  let* s := resolve_space E sp in
  Ok (VModel path c s).
