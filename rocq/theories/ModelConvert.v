(** Model of sd_mecha/conversion.py: the search for a chain of converters. *)
From Coq Require Import String Ascii List Bool Arith.
From Verif Require Import Base ModelRecipe ModelOps.
Import ListNotations.
Open Scope string_scope.
Open Scope list_scope.
Open Scope nat_scope.

(** a registered converter: the config of its first parameter, its return config,
    its identifier (conversion.py:39-42) *)
Record converter := Converter { c_src : string; c_tgt : string; c_id : string }.

Notation sget := (dget String.eqb).
Notation sset := (dset String.eqb).

(** Dict[str, List[Tuple[str, converter]]] *)
Definition graph := list (string * list (string * string)).

(** [d.setdefault(k, [])] *)
Definition setdefault (k : string) (g : graph) : graph :=
  match sget k g with Some _ => g | None => sset k [] g end.

(** conversion.py:38-45: one pass of the loop *)
Definition add_converter (g : graph) (c : converter) : graph :=
  let g := setdefault (c_tgt c) (setdefault (c_src c) g) in
  let l := match sget (c_src c) g with Some l => l | None => [] end in
  sset (c_src c) (l ++ [(c_tgt c, c_id c)]) g.
Definition converter_paths (cs : list converter) : graph := fold_left add_converter cs [].

(** state of the search: conversion.py:96-100; [None] is infinity or Python's None.
    The heap is kept as a bag; [heappop] takes the least (distance, node) pair. *)
Record dstate := DState {
  d_dist : list (string * option nat);
  d_pred : list (string * option string);
  d_edge : list (string * option string);
  d_heap : list (nat * string) }.

(** [<=] of two tuples of the heap: conversion.py:103, 116 *)
Definition item_leb (a b : nat * string) : bool :=
  (fst a <? fst b) || ((fst a =? fst b) && String.leb (snd a) (snd b)).

(** [heapq.heappop] *)
Fixpoint pop_min (best : nat * string) (rest : list (nat * string)) : (nat * string) * list (nat * string) :=
  match rest with
  | [] => (best, [])
  | x :: rest' =>
    if item_leb best x then let (m, r) := pop_min best rest' in (m, x :: r)
    else let (m, r) := pop_min x rest' in (m, best :: r)
  end.

(** [distances[v]]: conversion.py:96-97, 104, 112, 118 *)
Definition infinite (s : dstate) (v : string) : result (option nat) :=
  match sget v (d_dist s) with Some o => Ok o | None => Err KeyError end.

(** conversion.py:110-116: relaxing one edge *)
Definition relax (cur : string) (dist : nat) (s : dstate) (edge : string * string) : result dstate :=
  let (v, e) := edge in
  let* dv := infinite s v in
  if match dv with None => true | Some d => S dist <? d end
  then Ok (DState (sset v (Some (S dist)) (d_dist s)) (sset v (Some cur) (d_pred s)) (sset v (Some e) (d_edge s)) ((S dist, v) :: d_heap s))
  else Ok s.

(** the loop of conversion.py:110-116 *)
Fixpoint relax_all (cur : string) (dist : nat) (s : dstate) (l : list (string * string)) : result dstate :=
  match l with
  | [] => Ok s
  | e :: l' => let* s' := relax cur dist s e in relax_all cur dist s' l'
  end.

(** conversion.py:102-116 *)
Fixpoint search (fuel : nat) (g : graph) (goal : string) (s : dstate) : result dstate :=
  match d_heap s with
  | [] => Ok s
  | x :: rest =>
    match fuel with
    | 0 => Err OutOfFuel
    | S f =>
      let '((dist, cur), heap) := pop_min x rest in
      let s := DState (d_dist s) (d_pred s) (d_edge s) heap in
      let* dc := infinite s cur in
      if match dc with Some d => d <? dist | None => false end then search f g goal s
      else if String.eqb cur goal then Ok s
      else match sget cur g with
           | None => Err KeyError
           | Some es => let* s' := relax_all cur dist s es in search f g goal s'
           end
    end
  end.

(** conversion.py:121-125; a [None] in the path would make [reduce] fail *)
Fixpoint walk_back (fuel : nat) (s : dstate) (start node : string) : result (list string) :=
  if String.eqb node start then Ok [] else
  match fuel with
  | 0 => Err OutOfFuel
  | S f =>
    match sget node (d_edge s), sget node (d_pred s) with
    | Some (Some e), Some (Some p) => let* l := walk_back f s start p in Ok (e :: l)
    | _, _ => Err KeyError
    end
  end.

(** conversion.py:85-128.  The fuel is the number of nodes; exhausting it would be
    an error value, and the theorems exclude it. *)
Definition dijkstra (g : graph) (start goal : string) : result (option (list string)) :=
  let s0 := DState (sset start (Some 0) (map (fun kv => (fst kv, None)) g))
                   (map (fun kv => (fst kv, None)) g) (map (fun kv => (fst kv, None)) g) [(0, start)] in
  let* s := search (S (length g)) g goal s0 in
  let* dg := infinite s goal in
  match dg with
  | None => Ok None
  | Some _ => let* l := walk_back (S (length g)) s start goal in Ok (Some (rev l))
  end.

(** conversion.py:78-82 create_conversion_recipe *)
Fixpoint apply_all (E : env) (path : list string) (recipe : pyobj) : result pyobj :=
  match path with
  | [] => Ok recipe
  | m :: path' => let* r := call E m [recipe] in apply_all E path' r
  end.

(** conversion.py:78-82 create_conversion_recipe, with the path found by dijkstra *)
Definition conversion_recipe (E : env) (cs : list converter) (recipe : pyobj) (src tgt : string) : result (option pyobj) :=
  let* p := dijkstra (converter_paths cs) src tgt in
  match p with
  | None => Ok None
  | Some path => let* r := apply_all E path recipe in Ok (Some r)
  end.

(** conversion.py:64-75: a recipe whose config is known after opening its inputs *)
Definition convert (E : env) (cs : list converter) (recipe : pyobj) (src tgt : string) : result pyobj :=
  if String.eqb src "structural" then Err ValueError else
  let* r := conversion_recipe E cs recipe src tgt in
  match r with Some x => Ok x | None => Err ValueError end.

(** conversion.py:53-62: a plain state dict; [candidates] are the inferred configs,
    best first *)
Fixpoint convert_mapping (E : env) (cs : list converter) (recipe : pyobj) (candidates : list string) (tgt : string) : result pyobj :=
  match candidates with
  | [] => Err ValueError
  | c :: candidates' =>
    let* r := conversion_recipe E cs recipe c tgt in
    match r with Some x => Ok x | None => convert_mapping E cs recipe candidates' tgt end
  end.

(** conversion.py:12-75 for any value: a mapping is looked at as a state dict, anything else has to become
    a node without a hint of its type (line 64).  [opened] is the config of a node other than a plain literal
    while its inputs are open (line 65-66), with the error of opening them; opening leaves a literal that is
    no dict as it is (merging.py:373-375).  The target is an identifier. *)
Definition convert_value (E : env) (cs : list converter) (opened : pyobj -> result (option string)) (recipe : pyobj)
    (candidates : list string) (tgt : string) : result pyobj :=
  match recipe with
  | VDict _ => convert_mapping E cs recipe candidates tgt
  | _ =>
    let* n := operand E recipe in
    let* c := match n with
              | VLit (VDict _) _ _ => opened n
              | VLit _ cfg _ => Ok cfg
              | _ => opened n
              end in
    match c with
    | Some src => convert E cs n src tgt
    | None => Err AttributeError
    end
  end.
