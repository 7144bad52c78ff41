(** Model of the workers of merge on a machine with CUDA: sd_mecha/merging.py:176-190 (the tasks),
    297-308 (_track_output), 323-334 (_wrap_thread_context: each worker launches its operations on a
    stream of its own), builtin/merge_methods/__init__.py:819-834 (cast).
    Streams are as documented by PyTorch ("CUDA semantics"): operations are launched without waiting,
    those of one stream run one after the other, those of different streams in any order; reading a
    tensor from the host - a copy to the cpu, or the truth value of a tensor - waits for the current stream,
    and nothing else does.  Every operation writes a tensor of its own (memory is not reused
    while a tensor is referenced); operations in place are not modelled. *)
From Coq Require Import String List Bool Arith.
From Verif Require Import Base.
Import ListNotations.
Open Scope list_scope.
Open Scope nat_scope.

Section Cuda.
  Variable V : Type.

  (** an operation: the tensor it writes, those it reads, what it computes *)
  Record op := Op { o_dst : nat; o_srcs : list nat; o_fun : list V -> V }.
  Definition mem := nat -> V.
  Definition run_op (m : mem) (o : op) : mem := fun l => if l =? o_dst o then o_fun o (map m (o_srcs o)) else m l.

  (** what a worker does: launch an operation on its stream, wait for its stream, put a tensor into the output *)
  Inductive instr := Launch (o : op) | Sync | Store (k : string) (l : nat).

  (** memory, the queues of the streams, and what the workers have left to do *)
  Record state := State {
    st_mem : mem;
    st_queue : nat -> list op;       (* launched and not run yet, for each stream *)
    st_prog : nat -> list instr;     (* what is left to do, for each worker *)
    st_out : list (string * nat) }.

  (** a change at one index *)
  Definition upd {A} (f : nat -> A) (i : nat) (x : A) : nat -> A := fun j => if j =? i then x else f j.

  (** worker [t] launches on stream [t]; other streams are the caller's *)
  Inductive step : state -> state -> Prop :=
  | s_launch : forall s t o p, st_prog s t = Launch o :: p ->
      step s (State (st_mem s) (upd (st_queue s) t (st_queue s t ++ [o])) (upd (st_prog s) t p) (st_out s))
  | s_sync : forall s t p, st_prog s t = Sync :: p -> st_queue s t = [] ->
      step s (State (st_mem s) (st_queue s) (upd (st_prog s) t p) (st_out s))
  | s_store : forall s t k l p, st_prog s t = Store k l :: p ->
      step s (State (st_mem s) (st_queue s) (upd (st_prog s) t p) ((k, l) :: st_out s))
  | s_run : forall s i o q, st_queue s i = o :: q ->
      step s (State (run_op (st_mem s) o) (upd (st_queue s) i q) (st_prog s) (st_out s)).

  (** any number of steps *)
  Inductive steps : state -> state -> Prop :=
  | st_refl : forall s, steps s s
  | st_next : forall s s' s'', steps s s' -> step s' s'' -> steps s s''.

  (** one key: the operations that compute its tensor [c_res]; [c_copy] is where the copy on the
      cpu goes, [c_flag] the result of [isfinite().all()].  [to_cpu]: the recipe ends with a cast to the cpu
      (merging.py:136-137 with output_device="cpu", the default) *)
  Record task := Task { c_key : string; c_ops : list op; c_res : nat; c_copy : nat; c_flag : nat }.
  (** [other]: the value of a malformed copy, which does not occur; [finite]: any function *)
  Variables (other : V) (finite : V -> V).
  Definition copy_op (c : task) : op := Op (c_copy c) [c_res c] (hd other).
  Definition flag_op (c : task) (l : nat) : op := Op (c_flag c) [l] (fun x => finite (hd other x)).

  (** merging.py:297-308, 324-332.  [not res.isfinite().all()] reads a truth value *)
  Definition result_of (to_cpu : bool) (c : task) : nat := if to_cpu then c_copy c else c_res c.
  Definition task_ops (to_cpu check_finite : bool) (c : task) : list op :=
    c_ops c ++ (if to_cpu then [copy_op c] else []) ++ (if check_finite then [flag_op c (result_of to_cpu c)] else []).
  Definition program (to_cpu check_finite : bool) (c : task) : list instr :=
    map Launch (c_ops c) ++
    (if to_cpu then [Launch (copy_op c); Sync] else []) ++
    (if check_finite then [Launch (flag_op c (result_of to_cpu c)); Sync] else []) ++
    [Store (c_key c) (result_of to_cpu c)].

  (** the workers at the start: worker [t] does the tasks it will be given, one after the other *)
  Definition start (to_cpu check_finite : bool) (m0 : mem) (queues : nat -> list op) (work : list (list task)) : state :=
    State m0 queues (fun t => concat (map (program to_cpu check_finite) (nth t work []))) [].
  (** [merge] returns when every worker is done (merging.py:184-190) *)
  Definition returned (s : state) : Prop := forall t, st_prog s t = [].
End Cuda.
Arguments Op {V} o_dst o_srcs o_fun.
Arguments o_dst {V}. Arguments o_srcs {V}. Arguments o_fun {V}.
Arguments run_op {V} m o.
Arguments Launch {V} o. Arguments Sync {V}. Arguments Store {V} k l.
Arguments State {V}. Arguments st_mem {V}. Arguments st_queue {V}. Arguments st_prog {V}. Arguments st_out {V}.
Arguments step {V}. Arguments steps {V}.
Arguments Task {V}. Arguments c_key {V}. Arguments c_ops {V}. Arguments c_res {V}. Arguments c_copy {V}. Arguments c_flag {V}.
Arguments copy_op {V}. Arguments flag_op {V}. Arguments result_of {V}. Arguments task_ops {V}. Arguments program {V}. Arguments start {V}. Arguments returned {V}.
