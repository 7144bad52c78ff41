(** Model of the evaluation of a recipe at a key, the rewriting of
    its inputs and the forwarding of extra keys: sd_mecha/merging.py.  Tensors are an arbitrary type [T]; a merge method is an
    arbitrary function of its inputs.  Caches ([node.cache]) are not modelled. *)
From Coq Require Import String Ascii List Bool Arith ZArith.
From Verif Require Import Base.
Import ListNotations.
Open Scope string_scope.
Open Scope list_scope.
Open Scope nat_scope.

(** Python literal values (recipe_nodes.py:68); a float by its spelling *)
Inductive lit := LStr (s : string) | LInt (z : Z) | LFloat (s : string) | LBool (b : bool) | LNone.

(** declared parameter types as far as [cast_node_value] distinguishes them;
    [TAny] is a type variable *)
Inductive ety := TInt | TFloat | TTensor | TStr | TBool | TAny.

(** a model config: what tells it apart, its keys, the aliases of each key, its components and their
    keys (model_configs.py:145-173).  Configs are compared as objects (model_configs.py:70-106 defines no [__eq__]).
    [cf_id] is the identifier for a registered config, which is one object; a structural config is made anew for
    each input (merging.py:453), so that each has a [cf_id] of its own. *)
Record config := Config {
  cf_id : string;
  cf_keys : list string;
  cf_aliases : list (string * list string);
  cf_components : list (string * list string) }.

(** a value at a key: a tensor, or a literal of another kind (merging.py:533-541) *)
Inductive value (T : Type) := VT (t : T) | VL (l : lit).
Arguments VT {T} t.
Arguments VL {T} l.

(** what a merge method receives for a parameter: a value, or a lazy state dict
    (MergeNodeWrapperStateDict, merging.py:617-646) *)
Inductive inp (T : Type) := IVal (v : value T) | ISd (get : string -> result (value T)) (cfg : option config).
Arguments IVal {T} v.
Arguments ISd {T} get cfg.

(** the interface of a parameter: a value, or StateDict of values (merging.py:583-587) *)
Inductive kind := KVal (e : ety) | KSd (e : ety).

(** a merge method: how each parameter is declared, and the wrapped function.
    Keyword inputs are handed over in the order of the node (a Python function
    with named parameters cannot observe another order).  [m_fun args kwargs key]. *)
Record mmethod (T : Type) := Method {
  m_args : list kind;
  m_vararg : option kind;
  m_kw : list (string * kind);
  m_fun : list (inp T) -> list (string * inp T) -> string -> result (value T) }.
Arguments Method {T} _ _ _ _.
Arguments m_args {T} _.
Arguments m_vararg {T} _.
Arguments m_kw {T} _.
Arguments m_fun {T} _ _ _ _.

(** recipe nodes after their inputs were opened: a literal value, a dict of
    literals and nodes with its config and merge space, a model with its path, the
    lookup function of its state dict (an arbitrary function), the keys listed in its
    header, its config and merge space, a merge node with its [model_config] *)
Inductive node (T : Type) :=
| NLit (v : value T)
| NDict (d : list (string * node T)) (cfg : config) (space : string)
| NModel (path : string) (get : string -> result T) (keys : list string) (cfg : config) (space : string)
| NMerge (m : mmethod T) (args : list (node T)) (kw : list (string * node T)) (cfg : option config).
Arguments NLit {T} v.
Arguments NDict {T} d cfg space.
Arguments NModel {T} path get keys cfg space.
Arguments NMerge {T} m args kw cfg.

(** the property model_config: recipe_nodes.py:107, 145, 188-192 *)
Definition node_cfg {T} (n : node T) : option config :=
  match n with NLit _ => None | NDict _ c _ | NModel _ _ _ c _ => Some c | NMerge _ _ _ c => c end.

(** [except KeyError] also catches StateDictKeyError, its subclass *)
Definition is_key_error (e : exn) : bool := match e with KeyError | StateDictKeyError _ => true | _ => false end.
Definition is_missing (e : exn) : bool := match e with StateDictKeyError _ => true | _ => false end.

(** KeyMergeVisitor.__visit_sd: merging.py:546-555 *)
Definition aliases_of (c : config) (key : string) : list string :=
  match dget String.eqb key (cf_aliases c) with Some l => l | None => [] end.

(** the loop of __visit_sd, merging.py:550-555: the first key that is there *)
Fixpoint try_keys {A} (get : string -> result A) (keys : list string) (key : string) : result A :=
  match keys with
  | [] => Err Unmodelled   (* the list of keys is never empty *)
  | k :: keys' =>
    match get k with
    | Ok v => Ok v
    | Err e =>
      if is_key_error e then match keys' with [] => Err (StateDictKeyError key) | _ => try_keys get keys' key end
      else Err e
    end
  end.
Definition visit_sd {A} (get : string -> result A) (c : config) (key : string) : result A :=
  try_keys get (key :: aliases_of c key) key.

(** subscripting a Python dict *)
Definition dict_get {A} (d : list (string * A)) (k : string) : result A :=
  match dget String.eqb k d with Some v => Ok v | None => Err KeyError end.

Section Eval.
  Context {T : Type}.
  (** [int(v)], [float(v)] and [torch.tensor(v, dtype=torch.float32)] on a value
      that does not have the type already: any function *)
  Variable conv : ety -> value T -> result (value T).

  (** [isinstance(value, expected_type)]; a bool is an int *)
  Definition instance_of (v : value T) (e : ety) : bool :=
    match e, v with
    | TInt, VL (LInt _) | TInt, VL (LBool _) | TFloat, VL (LFloat _) | TStr, VL (LStr _) | TBool, VL (LBool _) | TTensor, VT _ => true
    | _, _ => false
    end.

  (** cast_node_value: merging.py:649-669 *)
  Definition cast_value (v : value T) (e : ety) : result (value T) :=
    match v with
    | VL LNone => Ok v
    | _ =>
      match e with
      | TAny => Ok v
      | _ => if instance_of v e then Ok v else
             match e with TInt | TFloat | TTensor => conv e v | TBool => conv TInt v | _ => Ok v end
      end
    end.

  (** ModelDepthRecipeVisitor: recipe_nodes.py:223-235; [max] of nothing raises *)
  Section Lists.
    Context {A B : Type} (f : A -> B).
    Fixpoint lmap (l : list A) : list B := match l with [] => [] | x :: l' => f x :: lmap l' end.
    Fixpoint kmap (l : list (string * A)) : list (string * B) := match l with [] => [] | (k, x) :: l' => (k, f x) :: kmap l' end.
  End Lists.

  (** [max] over the depths of the inputs, recipe_nodes.py:230-235 *)
  Fixpoint max_depth (l : list (result nat)) : result nat :=
    match l with
    | [] => Err ValueError
    | [r] => r
    | r :: l' => let* a := r in let* b := max_depth l' in Ok (Nat.max a b)
    end.

  (** ModelDepthRecipeVisitor: recipe_nodes.py:223-235 *)
  Fixpoint depth (n : node T) : result nat :=
    match n with
    | NLit _ | NDict _ _ _ => Ok 0
    | NModel _ _ _ _ _ => Ok 1
    | NMerge _ args kw _ => let* d := max_depth (lmap depth args ++ map snd (kmap depth kw)) in Ok (S d)
    end.

  (** one input of a merge node, ready to be visited: its kind, its depth, its
      evaluation and its config *)
  Record slot := Slot { s_kind : kind; s_depth : nat; s_eval : string -> result (value T); s_cfg : option config }.

  (** [sorted(indices, key=depth, reverse=True)] is stable: insertion sort by
      decreasing depth, merging.py:581 *)
  Fixpoint insert (x : nat * slot) (l : list (nat * slot)) : list (nat * slot) :=
    match l with
    | [] => [x]
    | y :: l' => if s_depth (snd y) <? s_depth (snd x) then x :: l else y :: insert x l'
    end.
  Definition visit_order (l : list (nat * slot)) : list (nat * slot) :=
    fold_left (fun acc x => insert x acc) l [].

  (** one step of the loop at merging.py:581-587: [held] is the exception kept by
      the ErrorHolder, overwritten by a later one (merging.py:599-604) *)
  Definition visit_one (key : string) (s : slot) (held : option exn) : result (inp T * option exn) :=
    match s_kind s with
    | KSd e => Ok (ISd (fun k => let* v := s_eval s k in cast_value v e) (s_cfg s), held)
    | KVal e =>
      match s_eval s key with
      | Ok v => let* w := cast_value v e in Ok (IVal w, held)
      | Err x => let* w := cast_value (VL LNone) e in Ok (IVal w, Some x)
      end
    end.

  (** the loop of merging.py:581-587 *)
  Fixpoint visit_all (key : string) (l : list (nat * slot)) (held : option exn) (merged : list (nat * inp T)) : result (list (nat * inp T) * option exn) :=
    match l with
    | [] => Ok (merged, held)
    | (i, s) :: l' =>
      let* r := visit_one key s held in
      visit_all key l' (snd r) ((i, fst r) :: merged)
    end.

  (** declared kind of positional input [i], of keyword input [k] *)
  Definition kind_at (m : mmethod T) (i : nat) : option kind :=
    match nth_error (m_args m) i with Some k => Some k | None => m_vararg m end.

  (** the positional inputs with their types: merging.py:578-587 *)
  Fixpoint arg_slots (m : mmethod T) (i : nat) (l : list (result nat * (string -> result (value T)) * option config)) : result (list slot) :=
    match l with
    | [] => Ok []
    | (d, f, c) :: l' =>
      match kind_at m i with
      | None => Err KeyError
      | Some k => let* n := d in let* ss := arg_slots m (S i) l' in Ok (Slot k n f c :: ss)
      end
    end.
  (** the keyword inputs with their types: merging.py:578-587 *)
  Fixpoint kw_slots (m : mmethod T) (l : list (string * (result nat * (string -> result (value T)) * option config))) : result (list slot) :=
    match l with
    | [] => Ok []
    | (x, (d, f, c)) :: l' =>
      match dget String.eqb x (m_kw m) with
      | None => Err KeyError
      | Some k => let* n := d in let* ss := kw_slots m l' in Ok (Slot k n f c :: ss)
      end
    end.

  (** inputs collected by position: [merged.get(index)] *)
  Fixpoint collect (merged : list (nat * inp T)) (from n : nat) : result (list (inp T)) :=
    match n with
    | 0 => Ok []
    | S n' => match dget Nat.eqb from merged with
              | Some v => let* l := collect merged (S from) n' in Ok (v :: l)
              | None => Err Unmodelled   (* every index is visited *)
              end
    end.

  (** KeyMergeVisitor.visit_merge: merging.py:557-592 *)
  Definition eval_merge (m : mmethod T) (na : nat) (kws : list string) (slots : list slot) (key : string) : result (value T) :=
    let* r := visit_all key (visit_order (combine (seq 0 (length slots)) slots)) None [] in
    match snd r with
    | Some e => Err e
    | None =>
      let* args := collect (fst r) 0 na in
      let* kw := collect (fst r) na (length kws) in
      m_fun m args (combine kws kw) key
    end.

  (** KeyMergeVisitor: merging.py:529-592.  A dict literal's entry that is a plain
      value is a literal node here; it evaluates to itself either way. *)
  Fixpoint eval (n : node T) : string -> result (value T) :=
    match n with
    | NLit v => fun _ => Ok v
    | NDict d c _ =>
      let fs := kmap eval d in
      fun key => let* f := visit_sd (dict_get fs) c key in f key
    | NModel _ get _ c _ => fun key => let* t := visit_sd get c key in Ok (VT t)
    | NMerge m args kw _ =>
      let fa := lmap (fun a => (depth a, eval a, node_cfg a)) args in
      let fk := kmap (fun a => (depth a, eval a, node_cfg a)) kw in
      fun key =>
        let* sa := arg_slots m 0 fa in
        let* sk := kw_slots m fk in
        eval_merge m (length args) (map fst kw) (sa ++ sk) key
    end.
End Eval.

(** ** built-in methods that act on whole state dicts *)

(** builtin/merge_methods/__init__.py:806-816 *)
Definition fallback {T} : mmethod T :=
  Method [KSd TAny; KSd TAny] None [] (fun args _ key =>
    match args with
    | [ISd a _; ISd b _] =>
      match a key with
      | Err e => if is_missing e then b key else Err e
      | Ok v => Ok v
      end
    | _ => Err Unmodelled
    end).

(** builtin/merge_methods/__init__.py:874-909 *)
Definition component_of {T} (cfg : option config) (v : value T) : result (list string) :=
  match cfg, v with
  | Some c, VL (LStr s) => match dget String.eqb s (cf_components c) with Some l => Ok l | None => Err ValueError end
  | Some _, _ => Err ValueError
  | None, _ => Err AttributeError
  end.
Definition pick_component {T} : mmethod T :=
  Method [KSd TAny; KVal TStr] None [] (fun args _ key =>
    match args with
    | [ISd a c; IVal comp] =>
      let* keys := component_of c comp in
      if existsb (String.eqb key) keys then a key else Err (StateDictKeyError key)
    | _ => Err Unmodelled
    end).
Definition omit_component {T} : mmethod T :=
  Method [KSd TAny; KVal TStr] None [] (fun args _ key =>
    match args with
    | [ISd a c; IVal comp] =>
      let* keys := component_of c comp in
      if existsb (String.eqb key) keys then Err (StateDictKeyError key) else a key
    | _ => Err Unmodelled
    end).

(** builtin/merge_methods/__init__.py:17-35.  [all_zero], [all_one]: torch.allclose
    against zeros and ones; [wsum]: (1-alpha)*a + alpha*b; any functions. *)
Definition weighted_sum {T} (all_zero all_one : T -> bool) (wsum : T -> T -> T -> T) : mmethod T :=
  Method [KSd TTensor; KSd TTensor; KVal TTensor] None [] (fun args _ key =>
    match args with
    | [ISd a _; ISd b _; IVal (VT alpha)] =>
      if all_zero alpha then a key
      else if all_one alpha then b key
      else let* x := a key in let* y := b key in
           match x, y with VT x', VT y' => Ok (VT (wsum x' y' alpha)) | _, _ => Err TypeError end
    | _ => Err TypeError
    end).

(** builtin/merge_methods/__init__.py:819-834.  [to device dtype t]: any function *)
Definition cast {T} (to : lit -> lit -> T -> result T) : mmethod T :=
  Method [KVal TTensor; KVal TStr; KVal TStr] None [] (fun args _ _ =>
    match args with
    | [IVal (VT a); IVal (VL device); IVal (VL dtype)] => let* t := to device dtype a in Ok (VT t)
    | _ => Err AttributeError
    end).

(** CastInputDicts: merging.py:672-700.  [device] and [dtype] are what
    [RecipeNode.to] passes on (recipe_nodes.py:59-65).  [first] of a dict: an empty
    one raises StopIteration. *)
Section CastInputs.
  Context {T : Type} (to : lit -> lit -> T -> result T) (device dtype : lit).

  (** [node.to(device=..., dtype=...)]: merging.py:682, 692 and recipe_nodes.py:59-65 *)
  Definition cast_node (n : node T) : node T :=
    NMerge (cast to) [n; NLit (VL device); NLit (VL dtype)] [] (node_cfg n).

  (** isinstance(v, Tensor | int | float) *)
  Definition castable (v : value T) : bool :=
    match v with VT _ | VL (LInt _) | VL (LFloat _) | VL (LBool _) => true | _ => false end.

  Section M.
    Variable f : node T -> result (node T).
    (** the positional inputs of merging.py:697, in order, up to the first exception *)
    Fixpoint mapN (l : list (node T)) : result (list (node T)) :=
      match l with [] => Ok [] | x :: l' => let* y := f x in let* ys := mapN l' in Ok (y :: ys) end.
    (** the dicts of merging.py:685 and 698, in order, up to the first exception *)
    Fixpoint kmapN (l : list (string * node T)) : result (list (string * node T)) :=
      match l with [] => Ok [] | (k, x) :: l' => let* y := f x in let* ys := kmapN l' in Ok ((k, y) :: ys) end.
  End M.

  (** CastInputDicts: merging.py:672-700 *)
  Fixpoint cast_inputs (n : node T) : result (node T) :=
    match n with
    | NLit v => Ok (if castable v then cast_node n else n)
    | NDict d c sp =>
      match d with
      | [] => Err StopIteration
      | (_, first) :: _ =>
        match first with
        | NLit v => Ok (if castable v then cast_node n else n)
        | _ => let* d' := kmapN cast_inputs d in Ok (NDict d' c sp)
        end
      end
    | NModel _ _ _ _ _ => Ok (cast_node n)
    | NMerge m args kw c =>
      let* args' := mapN cast_inputs args in
      let* kw' := kmapN cast_inputs kw in
      Ok (NMerge m args' kw' c)
    end.
End CastInputs.

(** ** extra keys *)

(** ForwardableNodesVisitor: merging.py:228-259.  [node in n[0]] compares two
    models by path.  Between two in-memory dicts it compares the dicts: the same
    object is equal, dicts with different key sets are not, otherwise two different
    tensors are compared with [==] and the truth value of that raises (it is only
    defined for one-element tensors, which are not modelled).  [same] decides
    whether two tensors are the same object. *)
Section Extra.
  Context {T : Type} (same : T -> T -> bool).

  (** [config == other]: model_configs.py:72-74, by identifier *)
  Definition cfg_eqb (a b : config) : bool := String.eqb (cf_id a) (cf_id b).

  (** [d == e] for two dicts of the same length whose values are nodes or tensors *)
  Fixpoint dict_eq (d e : list (string * node T)) : result bool :=
    match d with
    | [] => Ok true
    | (k, n) :: d' =>
      match dget String.eqb k e with
      | None => Ok false
      | Some n' =>
        match n, n' with
        | NLit (VT t), NLit (VT t') => if same t t' then dict_eq d' e else Err RuntimeError
        | _, _ => Err Unmodelled   (* a forwardable dict starts with a tensor *)
        end
      end
    end.

  (** [item in n]: recipe_nodes.py:114-119, 152-156, 194-199, for the nodes ForwardableNodesVisitor collects *)
  Definition node_in (item n : node T) : result bool :=
    match item, n with
    | NModel p _ _ _ _, NModel q _ _ _ _ => Ok (String.eqb p q)
    | NDict d _ _, NDict e _ _ => if length d =? length e then dict_eq e d else Ok false
    | _, _ => Ok false
    end.
  (** [any(node in n[0] for n in self.forwardable_nodes)]: merging.py:245, 254 *)
  Fixpoint any_in (item : node T) (l : list (node T)) : result bool :=
    match l with
    | [] => Ok false
    | n :: l' => let* b := node_in item n in if b then Ok true else any_in item l'
    end.

  Section Visit.
    Variable f : node T -> list (node T) -> result (list (node T)).
    (** the loop of merging.py:258-259 *)
    Fixpoint visit_nodes (l : list (node T)) (acc : list (node T)) : result (list (node T)) :=
      match l with [] => Ok acc | n :: l' => let* acc' := f n acc in visit_nodes l' acc' end.
    (** the loop of merging.py:239-240 *)
    Fixpoint visit_entries (l : list (string * node T)) (acc : list (node T)) : result (list (node T)) :=
      match l with [] => Ok acc | (_, n) :: l' => let* acc' := f n acc in visit_entries l' acc' end.
  End Visit.

  (** ForwardableNodesVisitor: merging.py:228-259 *)
  Fixpoint forwardable (target : config) (space : string) (n : node T) (acc : list (node T)) : result (list (node T)) :=
    match n with
    | NLit _ => Ok acc
    | NDict d c sp =>
      match d with
      | [] => Ok acc
      | (_, NLit (VT _)) :: _ =>
        if cfg_eqb c target && String.eqb sp space then
          let* b := any_in n acc in Ok (if b then acc else acc ++ [n])
        else Ok acc
      | (_, NLit (VL _)) :: _ => Ok acc
      | _ => visit_entries (forwardable target space) d acc
      end
    | NModel _ _ _ c _ =>
      if cfg_eqb c target then let* b := any_in n acc in Ok (if b then acc else acc ++ [n]) else Ok acc
    | NMerge _ args kw _ =>
      let* acc' := visit_nodes (forwardable target space) args acc in
      visit_entries (forwardable target space) kw acc'
    end.

  (** the keys of a collected node: merging.py:247-250, 255 *)
  Definition node_keys (n : node T) : list string :=
    match n with NModel _ _ keys _ _ => keys | NDict d _ _ => map fst d | _ => [] end.
  (** the merge space of a literal or a model: recipe_nodes.py:103, 141 *)
  Definition node_space (n : node T) : option string :=
    match n with NModel _ _ _ _ s | NDict _ _ s => Some s | _ => None end.

  (** [operator.or_] between the recipe and a forwardable node: the merge spaces
      must agree (merge_methods.py:303-348), the configs do *)
  Fixpoint or_all (r : node T) (target : config) (space : string) (l : list (node T)) : result (node T) :=
    match l with
    | [] => Ok r
    | n :: l' =>
      match node_space n with
      | Some s => if String.eqb s space then or_all (NMerge fallback [r; n] [] (Some target)) target space l' else Err TypeError
      | None => Err Unmodelled
      end
    end.

  (** the canonical name of each alias: the dict comprehension at merging.py:217,
      a later entry replaces an earlier one *)
  Definition alias_pairs (c : config) : list (string * string) :=
    flat_map (fun p => map (fun a => (a, fst p)) (snd p)) (cf_aliases c).
  Definition canonical (c : config) (k : string) : string :=
    match dget String.eqb k (rev (alias_pairs c)) with Some k' => k' | None => k end.

  (** the keys of an OrderedDict built from [l]: each once, where it came first (merging.py:224) *)
  Fixpoint dedup (l seen : list string) : list string :=
    match l with
    | [] => []
    | k :: l' => if existsb (String.eqb k) seen then dedup l' seen else k :: dedup l' (k :: seen)
    end.

  (** copy_extra_keys: merging.py:213-225: the new recipe and the keys to merge *)
  Definition copy_extra_keys (r : node T) (target : config) (space : string) : result (node T * list string) :=
    let* l := forwardable target space r [] in
    let* r' := or_all r target space l in
    Ok (r', dedup (flat_map (fun n => map (canonical target) (node_keys n)) l ++ cf_keys target) []).
End Extra.
