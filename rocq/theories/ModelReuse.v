(** Model of what opening a recipe's inputs leaves on its nodes: [LoadInputDictsVisitor] assigns a config to every
    model and every in-memory dict (merging.py:373-455), and nothing removes it when the inputs are closed
    (merging.py:511-526 only resets [state_dict]).  Nodes are objects: a number is a node, which may occur in several
    recipes.  The data of a node does not change between merges. *)
From Coq Require Import String List Bool Arith.
From Verif Require Import Base ModelConfigs.
Import ListNotations.
Open Scope string_scope.
Open Scope list_scope.
Open Scope nat_scope.

(** a node's config: "infer", one of the registry, or a structural one, which refers to a dict of keys that
    it shares with the other nodes of the same visitor (merging.py:370, 453, model_configs.py:224-226) *)
Inductive conf := Infer | Known (id : string) | Struct (d : nat).

(** recipes: literals that are not dicts; models and in-memory dicts of data; dicts with recipes among their values, in order;
    merges, with the config the method declares for its
    result and, for every input, the config of its parameter *)
Inductive rnode :=
| RConst
| RLeaf (id : nat)
| RDict (id : nat) (values : list rnode)
| RMerge (ret : option string) (children : list (option string * rnode)).

(** the configs of the nodes ([None]: no entry), and the dicts of the structural configs *)
Record rstate := RS { rs_conf : list (nat * conf); rs_dicts : list (list (string * kmeta)) }.

(** a change at one index *)
Definition set_nth {A} (i : nat) (x : A) (l : list A) : list A := firstn i l ++ match skipn i l with [] => [] | _ :: t => x :: t end.

Section Reuse.
  Variable configs : list cfg.                               (* the registry *)
  Variable meta : nat -> list (string * kmeta).              (* the keys of a node's data; values that are recipes do not count: merging.py:378-384 *)
  (** check_model_config (merging.py:484-508) on a node, its config and, if this is structural, its keys: any function *)
  Variable check : nat -> conf -> list (string * kmeta) -> option exn.

  (** the keys of a structural config: model_configs.py:224-252 *)
  Definition dict_of (st : rstate) (c : conf) : list (string * kmeta) :=
    match c with Struct d => nth d (rs_dicts st) [] | _ => [] end.

  (** the loop of merging.py:445-452; an exception leaves the dict as it is at that point *)
  Fixpoint join_all (struct metadata : list (string * kmeta)) (ks : list string) : list (string * kmeta) * option exn :=
    match ks with
    | [] => (struct, None)
    | k :: ks' => match join_key struct metadata k with Ok s => join_all s metadata ks' | Err e => (struct, Some e) end
    end.
  Definition join (struct metadata : list (string * kmeta)) : list (string * kmeta) * option exn :=
    match struct with
    | [] => (dupdate String.eqb [] metadata, None)
    | _ => join_all struct metadata (map fst struct)
    end.

  (** [node.model_config = c]: recipe_nodes.py:111, 149 *)
  Definition assign (st : rstate) (id : nat) (c : conf) : rstate := RS (dset Nat.eqb id c (rs_conf st)) (rs_dicts st).

  (** visit_literal on a dict, visit_model: merging.py:373-393; [d] is the visitor's structural_metadata *)
  Definition open_leaf (d : nat) (param : option string) (st : rstate) (id : nat) : rstate * option exn :=
    let finish st c := let st' := assign st id c in (st', check id c (dict_of st' c)) in
    let undetermined infer :=
      match determine configs (map fst (meta id)) param infer with
      | Err e => (st, Some e)
      | Ok (Some i) => finish st (Known i)
      | Ok None =>
        let '(s, e) := join (nth d (rs_dicts st) []) (meta id) in
        let st' := RS (rs_conf st) (set_nth d s (rs_dicts st)) in
        match e with Some e => (st', Some e) | None => finish st' (Struct d) end
      end in
    match dget Nat.eqb id (rs_conf st) with
    | None => undetermined false
    | Some Infer => undetermined true
    | Some c => finish st c
    end.

  (** the second action, unless the first one raised *)
  Definition seq_open (r : rstate * option exn) (f : rstate -> rstate * option exn) : rstate * option exn :=
    match r with (s, None) => f s | (s, Some e) => (s, Some e) end.

  (** the visitor: merging.py:373-398; a copy with another param_config keeps the dict *)
  Fixpoint open_node (d : nat) (param : option string) (r : rnode) (st : rstate) {struct r} : rstate * option exn :=
    match r with
    | RConst => (st, None)
    | RLeaf id => open_leaf d param st id
    | RDict id values =>
      seq_open ((fix each l st := match l with [] => (st, None) | n :: l' => seq_open (open_node d param n st) (each l') end) values st)
               (fun st => open_leaf d param st id)
    | RMerge _ children =>
      (fix each l st := match l with
                        | [] => (st, None)
                        | (p, n) :: l' => seq_open (open_node d p n st) (each l')
                        end) children st
    end.

  (** open_input_dicts makes a visitor with a new dict and no param_config: merging.py:353-354, 369-371 *)
  Definition open_recipe (st : rstate) (r : rnode) : rstate * option exn :=
    open_node (length (rs_dicts st)) None r (RS (rs_conf st) (rs_dicts st ++ [[]])).

  (** [config.identifier]: model_configs.py:81, 231, 268 *)
  Definition ident (c : conf) : string := match c with Infer => "infer" | Known i => i | Struct _ => "structural" end.

  (** get_return_config: merge_methods.py:384-403 *)
  Fixpoint config_of (st : rstate) (r : rnode) {struct r} : result (option conf) :=
    match r with
    | RConst => Ok None
    | RLeaf id | RDict id _ => Ok (dget Nat.eqb id (rs_conf st))
    | RMerge ret children =>
      (fix each l (default : option conf) := match l with
        | [] => Ok default
        | (p, n) :: l' =>
          let* c := config_of st n in
          match c with
          | None => each l' default
          | Some c =>
            match (match p with Some i => Some (Known i) | None => default end) with
            | Some e => if String.eqb (ident e) (ident c) then each l' default else Err ValueError
            | None => each l' (Some c)
            end
          end
        end) children (match ret with Some i => Some (Known i) | None => None end)
    end.

  (** the keys of a config ([metadata()]) *)
  Definition conf_keys (st : rstate) (c : conf) : result (list string) :=
    match c with
    | Infer => Err RuntimeError
    | Known i => match find (fun x => String.eqb (c_id x) i) configs with Some x => Ok (c_keys x) | None => Err ValueError end
    | Struct d => structural_keys (nth d (rs_dicts st) [])
    end.

  (** the part of [merge] that decides the keys: merging.py:157-161.  The nodes keep what it did to them. *)
  Definition merge_keys_of (st : rstate) (r : rnode) : rstate * result (list string) :=
    let '(st', e) := open_recipe st r in
    (st', match e with
          | Some e => Err e
          | None => let* c := config_of st' r in match c with None => Err AttributeError | Some c => conf_keys st' c end
          end).

  (** a history of merges, whatever becomes of them *)
  Definition reopen (st : rstate) (h : list rnode) : rstate := fold_left (fun st r => fst (merge_keys_of st r)) h st.
End Reuse.
