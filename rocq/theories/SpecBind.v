(** Specifications for C16-C20, independent of the way the code computes. *)
From Coq Require Import String Ascii List Bool Arith.
From Verif Require Import Base ModelRecipe.
Import ListNotations.
Open Scope string_scope.
Open Scope list_scope.
Open Scope nat_scope.

(** ** How Python binds a call f( *args, **kwargs) *)

(** the value of positional parameter number [i] called [name]; [None] when it
    is missing or given twice *)
Definition py_positional (g : sig) (args : list pyobj) (kwargs : list (string * pyobj)) (i : nat) (name : string) : option pyobj :=
  match nth_error args i, dget String.eqb name kwargs with
  | Some v, None => Some v
  | None, Some v => Some v
  | Some _, Some _ => None
  | None, None =>
    let optional := length (g_args g) - length (g_defaults g) in
    if optional <=? i then nth_error (g_defaults g) (i - optional) else None
  end.

(** the value of keyword-only parameter [k] *)
Definition py_keyword (g : sig) (kwargs : list (string * pyobj)) (k : string) : option pyobj :=
  match dget String.eqb k kwargs with
  | Some v => Some v
  | None => dget String.eqb k (g_kwdefaults g)
  end.

(** Python accepts the call *)
Definition py_accepts (g : sig) (args : list pyobj) (kwargs : list (string * pyobj)) : Prop :=
  (g_vararg g = None -> length args <= length (g_args g)) /\
  (forall i name p, nth_error (g_args g) i = Some (name, p) -> py_positional g args kwargs i name <> None) /\
  (forall k v, In (k, v) kwargs -> In k (map fst (g_args g)) \/ In k (map fst (g_kw g))) /\
  (forall k, In k (map fst (g_kw g)) -> py_keyword g kwargs k <> None).

(** some positional parameter is given both by position and by keyword *)
Definition given_twice (g : sig) (args : list pyobj) (kwargs : list (string * pyobj)) : Prop :=
  exists i name p, nth_error (g_args g) i = Some (name, p) /\ i < length args /\ In name (map fst kwargs).

(** ** Merge spaces of parameters *)

(** what an annotation means: a declared space or symbol stands for itself; an
    undeclared one is "param" for a parameter with a default value or a plain
    Python type, else the method's own symbol *)
Definition meaning (g : sig) (p : param) (plain : bool) : pspace :=
  match p_space p with
  | PNone => if plain then PSet ["param"] else PSym default_sym (g_all_spaces g)
  | s => s
  end.

(** the merge space expected of positional input [i], of keyword input [k] *)
Definition expected_pos (g : sig) (i : nat) : option pspace :=
  match nth_error (g_args g) i with
  | Some (_, p) => Some (meaning g p ((length (g_args g) - length (g_defaults g) <=? i) || p_literal p))
  | None => match g_vararg g with Some p => Some (meaning g p false) | None => None end
  end.
Definition expected_kw (g : sig) (k : string) : option pspace :=
  match dget String.eqb k (g_kw g) with
  | Some p => Some (meaning g p (dmem String.eqb k (g_kwdefaults g) || p_literal p))
  | None => None
  end.

(** [input g sargs skw p s]: some input whose merge space is [s] goes to a
    parameter that expects [p] *)
Definition input (g : sig) (sargs : list string) (skw : list (string * string)) (p : option pspace) (s : string) : Prop :=
  (exists i, nth_error sargs i = Some s /\ p = expected_pos g i) \/
  (exists k, In (k, s) skw /\ p = expected_kw g k).

Definition allowed (p : option pspace) (s : string) : Prop :=
  match p with
  | Some (PSet l) => In s l
  | Some (PSym _ l) => In s l
  | _ => False
  end.

(** every input is allowed, and inputs tied to one symbol agree *)
Definition spaces_ok (g : sig) (sargs : list string) (skw : list (string * string)) : Prop :=
  (forall p s, input g sargs skw p s -> allowed p s) /\
  (forall i l l' s s', input g sargs skw (Some (PSym i l)) s -> input g sargs skw (Some (PSym i l')) s' -> s = s').

(** ** Model configs of parameters *)
Definition config_pos (g : sig) (i : nat) : option (option string) :=
  match nth_error (g_args g) i with
  | Some (_, p) => Some (p_config p)
  | None => match g_vararg g with Some p => Some (p_config p) | None => None end
  end.
Definition config_kw (g : sig) (k : string) : option (option string) :=
  match dget String.eqb k (g_kw g) with Some p => Some (p_config p) | None => None end.

(** some input with known config [c] goes to a parameter declared with [d] *)
Definition cinput (g : sig) (cargs : list (option string)) (ckw : list (string * option string)) (d : option (option string)) (c : string) : Prop :=
  (exists i, nth_error cargs i = Some (Some c) /\ d = config_pos g i) \/
  (exists k, In (k, Some c) ckw /\ d = config_kw g k).

(** every parameter has an input (what [create_recipe] establishes) *)
Definition full {A} (g : sig) (args : list A) (kw : list (string * A)) : Prop :=
  length (g_args g) <= length args /\
  (g_vararg g = None -> length args = length (g_args g)) /\
  (forall k, In k (map fst kw) <-> In k (map fst (g_kw g))).

(** the merge space of the result: the declared one; the one the declared symbol
    stands for; without a declaration, the one the method's own symbol stands
    for, or the only space that every parameter accepts *)
Definition result_space (g : sig) (sargs : list string) (skw : list (string * string)) (s : string) : Prop :=
  match g_rspace g with
  | RFixed r => s = r
  | RSym i => exists l, input g sargs skw (Some (PSym i l)) s
  | RNone =>
    (exists l, input g sargs skw (Some (PSym default_sym l)) s) \/
    ((exists p a, input g sargs skw p a) /\
     (forall p a, input g sargs skw p a -> exists l, p = Some (PSet l) /\ forall x, In x l <-> x = s))
  end.

(** the model config of the result: an input of a parameter with a declared
    config must have that config; all the other inputs with a known config must
    share the result's config, which is the declared one if there is one *)
Definition config_ok (g : sig) (cargs : list (option string)) (ckw : list (string * option string)) (r : option string) : Prop :=
  (forall d c, cinput g cargs ckw (Some (Some d)) c -> c = d) /\
  (forall c, cinput g cargs ckw (Some None) c -> r = Some c) /\
  (forall c, g_rconfig g = Some c -> r = Some c) /\
  (g_rconfig g = None -> (forall c, ~ cinput g cargs ckw (Some None) c) -> r = None).
