(** Model of config objects where it matters that they are objects: the dict and the sets of configs that
    inference builds (merging.py:462-481), the question whether the config a parameter wants is among them
    (merging.py:430-439), and the list of all configs (model_configs.py:408-419). *)
From Coq Require Import String List Bool Arith.
From Verif Require Import Base ModelConfigs.
Import ListNotations.
Open Scope list_scope.
Open Scope nat_scope.

(** How a config object is made: ModelConfigImpl is a dataclass with a generated [__eq__]
    (model_configs.py:109-116), the others are plain classes (LazyModelConfigBase, YamlModelConfig,
    LycorisModelConfig: model_configs.py:188-221, 293-307, lycoris.py:58-82). *)
Inductive made := Dataclass | Plain.
(** [o_at] tells objects apart; [o_cfg]: what [identifier], [keys()] and [aliases()] give *)
Record obj := Obj { o_at : nat; o_made : made; o_cfg : cfg }.
Definition o_id (o : obj) : string := c_id (o_cfg o).

(** [hash(o)]: the decorator [dataclass] with [eq] and without [frozen] sets [__hash__] to None; the protocol
    ModelConfig defines neither [__eq__] nor [__hash__] (model_configs.py:70-106: its method is called [eq]), so
    that plain objects are hashed and compared by identity *)
Definition hash (o : obj) : result nat :=
  match o_made o with Dataclass => Err TypeError | Plain => Ok (o_at o) end.

(** [configs_affinity[o] = n] *)
Definition put (o : obj) (n : nat) (d : list (obj * nat)) : result (list (obj * nat)) :=
  let* h := hash o in
  Ok (if existsb (fun p => o_at (fst p) =? h) d
      then map (fun p => if o_at (fst p) =? h then (fst p, n) else p) d
      else d ++ [(o, n)]).

(** merging.py:466-475; [n]: the number of distinct keys *)
Fixpoint affinity_loop (n : nat) (sd : list string) (objs : list obj) (d : list (obj * nat)) : result (list (obj * nat)) :=
  match objs with
  | [] => Ok d
  | o :: objs' =>
    let m := matched sd (o_cfg o) in
    let* d' := (if n <=? 10 * m then put o m d else Ok d) in
    if (m =? n) && (9 * length (c_keys (o_cfg o)) <=? 10 * m) then Ok d' else affinity_loop n sd objs' d'
  end.

(** infer_model_configs: merging.py:462-481, the configs registered being [objs] in the order of [get_all] *)
Definition infer_objects (objs : list obj) (sd : list string) : result (list (list obj)) :=
  let* d := affinity_loop (length (nodup string_dec sd)) sd objs [] in
  Ok (map (fun n => map fst (filter (fun p => snd p =? n) d)) (sort_desc_set (map snd d))).

(** __determine_model_config: merging.py:430-439.  [None in s] hashes None, which works, and is false.
    [infer]: the config was given as "infer"; [Ok None]: the config will be a structural one *)
Definition determine_object (objs : list obj) (sd : list string) (param : option obj) (infer : bool) : result (option obj) :=
  let* groups := infer_objects objs sd in
  let* wanted := (match groups, param with
                  | _ :: _, Some p => let* h := hash p in Ok (existsb (existsb (fun o => o_at o =? h)) groups)
                  | _, _ => Ok false
                  end) in
  if wanted then Ok param
  else match groups with
       | [o] :: _ => Ok (Some o)
       | _ => if infer then Err RuntimeError else Ok None
       end.

(** get_all: model_configs.py:408-419, sorted by identifier, the largest first; [regs]: base, then aux *)
Fixpoint insert_obj (o : obj) (l : list obj) : list obj :=
  match l with
  | [] => [o]
  | x :: l' => if String.leb (o_id x) (o_id o) then o :: l else x :: insert_obj o l'
  end.
Definition get_all (regs : list obj) : list obj := fold_right insert_obj [] regs.
