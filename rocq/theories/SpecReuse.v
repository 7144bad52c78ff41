(** Vocabulary for reusing the nodes of a recipe. *)
From Coq Require Import String List Bool Arith.
From Verif Require Import Base ModelConfigs ModelReuse.
Import ListNotations.
Open Scope list_scope.

(** in a recipe that is the input of a parameter of config [p], node [id] is the input of one of config [q]; the values
    of a dict are where the dict is *)
Inductive within (p : option string) : rnode -> option string -> nat -> Prop :=
| in_leaf : forall id, within p (RLeaf id) p id
| in_dict : forall id values, within p (RDict id values) p id
| in_value : forall id values n q i, In n values -> within p n q i -> within p (RDict id values) q i
| in_input : forall ret children p' n q i, In (p', n) children -> within p' n q i -> within p (RMerge ret children) q i.

(** node [id] occurs in the recipe, as the input of a parameter of config [p] *)
Definition occurs (r : rnode) (p : option string) (id : nat) : Prop := within None r p id.

(** [st] has every node of the recipe at a config that does not need to be inferred any more *)
Definition decided (st : rstate) (id : nat) : Prop :=
  (exists i, dget Nat.eqb id (rs_conf st) = Some (Known i)) \/ exists d, dget Nat.eqb id (rs_conf st) = Some (Struct d).

(** wherever it occurs in these recipes, the node's keys and the parameter say that its config is [i] *)
Definition settled (configs : list cfg) (meta : nat -> list (string * kmeta)) (st : rstate) (rs : list rnode) (id : nat) (i : string) : Prop :=
  match dget Nat.eqb id (rs_conf st) with
  | Some (Known j) => j = i
  | Some (Struct _) => False
  | Some Infer => forall r p, In r rs -> occurs r p id -> determine configs (map fst (meta id)) p true = Ok (Some i)
  | None => forall r p, In r rs -> occurs r p id -> determine configs (map fst (meta id)) p false = Ok (Some i)
  end.

(** the structural configs of the nodes refer to existing dicts *)
Definition sane (st : rstate) : Prop := forall id d, dget Nat.eqb id (rs_conf st) = Some (Struct d) -> d < length (rs_dicts st).
