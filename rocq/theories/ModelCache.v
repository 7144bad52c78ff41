(** The cache of a merge node as [rotate] uses it: builtin/merge_methods/__init__.py:414-432 and
    builtin/merge_methods/svd.py:23-39, the cache being set by [set_cache] (recipe_nodes.py:201-206) and handed to
    the method (merging.py:557-564, merge_methods.py:215-237).  Calls of several threads that share a cache
    take turns; one lookup or store in a dict is one step.  What is computed from the tensors are arbitrary functions. *)
From Coq Require Import String List Bool Arith.
From Verif Require Import Base.
Import ListNotations.
Open Scope list_scope.
Open Scope nat_scope.

Section Cache.
  (** [X]: the two centred tensors of a call; [A]: alignment and alpha; [M]: matrices; [V], [W]: eigenvalues and
      eigenvectors; [R]: results *)
  Context {X A M V W R : Type}.
  (** [alignment_is_float], which is true for whole numbers: __init__.py:422 *)
  Variable whole : A -> bool.
  (** orthogonal_procrustes: svd.py:6-20 *)
  Variable procrustes : X -> bool -> M.
  (** torch.linalg.eig and torch.linalg.inv: svd.py:30-31 *)
  Variable eig : M -> V * W.
  Variable inv : W -> W.
  (** the power of the eigenvalues and the products: svd.py:37-39.  That [pow_] writes into the eigenvalues does not
      touch the cache, whose tensors have another dtype (complex32) than those computed with (complex64 or complex128);
      matrices of half precision, where it would, are left out: torch has no eigenvalues for them. *)
  Variable recompose : V -> W -> W -> A -> M.
  (** the other powers: __init__.py:433-440 *)
  Variable other_power : M -> A -> M.
  (** the rest of the method: __init__.py:442-448 *)
  Variable finish : X -> A -> M -> M -> R.
  (** what [.to("cpu", torch.float16)] and, later, [.to(a.device, a.dtype)] make of a matrix
      (__init__.py:425, 429), and the same for complex32 (svd.py:25-28, 33-35) *)
  Variable half : M -> M.
  Variable halfV : V -> V.
  Variable halfW : W -> W.

  (** [cache[key]]: "rotation", "eigenvalues", "eigenvectors", "eigenvectors_inv" *)
  Record inner := Inner { i_rotation : option M; i_values : option V; i_vectors : option W; i_inverse : option W }.
  Definition empty : inner := Inner None None None None.

  (** [cache]: a dict of dicts, which are objects *)
  Record cache := Cache { c_outer : string -> option nat; c_heap : nat -> inner; c_next : nat }.
  Definition set_outer (c : cache) (k : string) (d : inner) : cache :=
    Cache (fun k' => if String.eqb k' k then Some (c_next c) else c_outer c k')
          (fun a => if a =? c_next c then d else c_heap c a) (S (c_next c)).
  Definition set_inner (c : cache) (a : nat) (f : inner -> inner) : cache :=
    Cache (c_outer c) (fun a' => if a' =? a then f (c_heap c a') else c_heap c a') (c_next c).

  (** one call of the method *)
  Record call := Call { k_key : string; k_input : X; k_how : A }.

  (** where a call is: before [key not in cache], before [cache[key] = {}], before [cache = cache[key]]
      (__init__.py:418-420); with the dict: before ["rotation" in cache], reading it, computing and storing it
      (424-429); then before ["eigenvalues" in cache], reading the three entries, computing and storing
      them (svd.py:24-35); done *)
  Inductive place :=
  | Contains | Insert | Lookup
  | HasRotation (a : nat) | ReadRotation (a : nat) | StoreRotation (a : nat)
  | HasValues (a : nat) (r : M) | ReadValues (a : nat) (r : M) | ReadVectors (a : nat) (r : M) (v : V)
  | ReadInverse (a : nat) (r : M) (v : V) (w : W)
  | StoreValues (a : nat) (r : M) | StoreVectors (a : nat) (r : M) (v : V) (w u : W) | StoreInverse (a : nat) (r : M) (v : V) (w u : W).

  (** what a step of a call does: it goes on, or it returns or raises *)
  Inductive outcome := Go (c : cache) (p : place) | Stop (c : cache) (r : result R).

  (** after the rotation is known: __init__.py:431-440 *)
  Definition rotated (c : cache) (q : call) (a : nat) (r : M) : outcome :=
    if whole (k_how q) then Go c (HasValues a r)
    else Stop c (Ok (finish (k_input q) (k_how q) r (other_power r (k_how q)))).
  Definition raised (c : cache) (q : call) (r : M) (v : V) (w u : W) : outcome :=
    Stop c (Ok (finish (k_input q) (k_how q) r (recompose v w u (k_how q)))).
  Definition get {B} (c : cache) (o : option B) (f : B -> outcome) : outcome :=
    match o with Some b => f b | None => Stop c (Err KeyError) end.

  (** one step of a call: __init__.py:415-440, svd.py:24-35 *)
  Definition step1 (c : cache) (q : call) (p : place) : outcome :=
    match p with
    | Contains => Go c (match c_outer c (k_key q) with Some _ => Lookup | None => Insert end)
    | Insert => Go (set_outer c (k_key q) empty) Lookup
    | Lookup => get c (c_outer c (k_key q)) (fun a => Go c (HasRotation a))
    | HasRotation a => Go c (match i_rotation (c_heap c a) with Some _ => ReadRotation a | None => StoreRotation a end)
    | ReadRotation a => get c (i_rotation (c_heap c a)) (fun r => rotated c q a r)
    | StoreRotation a =>
      let r := procrustes (k_input q) (whole (k_how q)) in
      rotated (set_inner c a (fun d => Inner (Some (half r)) (i_values d) (i_vectors d) (i_inverse d))) q a r
    | HasValues a r => Go c (match i_values (c_heap c a) with Some _ => ReadValues a r | None => StoreValues a r end)
    | ReadValues a r => get c (i_values (c_heap c a)) (fun v => Go c (ReadVectors a r v))
    | ReadVectors a r v => get c (i_vectors (c_heap c a)) (fun w => Go c (ReadInverse a r v w))
    | ReadInverse a r v w => get c (i_inverse (c_heap c a)) (fun u => raised c q r v w u)
    | StoreValues a r =>
      let (v, w) := eig r in
      Go (set_inner c a (fun d => Inner (i_rotation d) (Some (halfV v)) (i_vectors d) (i_inverse d))) (StoreVectors a r v w (inv w))
    | StoreVectors a r v w u =>
      Go (set_inner c a (fun d => Inner (i_rotation d) (i_values d) (Some (halfW w)) (i_inverse d))) (StoreInverse a r v w u)
    | StoreInverse a r v w u =>
      raised (set_inner c a (fun d => Inner (i_rotation d) (i_values d) (i_vectors d) (Some (halfW u)))) q r v w u
    end.

  (** a thread: finished calls with their outcomes, and the calls to make, the first of which is at [t_place] *)
  Record thread := Thread { t_done : list (call * result R); t_place : place; t_todo : list call }.
  Definition turn (c : cache) (t : thread) : cache * thread :=
    match t_todo t with
    | [] => (c, t)
    | q :: l =>
      match step1 c q (t_place t) with
      | Go c' p => (c', Thread (t_done t) p (t_todo t))
      | Stop c' r => (c', Thread (t_done t ++ [(q, r)]) Contains l)
      end
    end.
  Fixpoint at_thread (i : nat) (c : cache) (l : list thread) : cache * list thread :=
    match l, i with
    | [], _ => (c, [])
    | t :: l', 0 => let (c', t') := turn c t in (c', t' :: l')
    | t :: l', S j => let (c', l'') := at_thread j c l' in (c', t :: l'')
    end.
  (** the threads take turns in the given order *)
  Fixpoint run (turns : list nat) (c : cache) (l : list thread) : cache * list thread :=
    match turns with
    | [] => (c, l)
    | i :: turns' => let (c', l') := at_thread i c l in run turns' c' l'
    end.

  (** a thread before its first call *)
  Definition start (calls : list call) : thread := Thread [] Contains calls.
  (** [set_cache()]: recipe_nodes.py:201-206 *)
  Definition no_entries : cache := Cache (fun _ => None) (fun _ => empty) 0.

  (** without a cache ([cache is None]) *)
  Definition uncached (q : call) : R :=
    let r := procrustes (k_input q) (whole (k_how q)) in
    finish (k_input q) (k_how q) r
      (if whole (k_how q) then let (v, w) := eig r in recompose v w (inv w) (k_how q) else other_power r (k_how q)).
End Cache.
