(** Model of input files shared by the threads of a merge: every task of the pool asks the same
    InSafetensorsDict objects for tensors (merging.py:185-197, 543-555; streaming.py:93-96, 152-167) and looks at what it
    was given whenever it likes.  A request runs under the lock of the file (streaming.py:164-167) and is one step;
    what it gives is a view of a buffer of that file, and looking at it later reads that buffer as it is then.
    What a task computes is any program; writes into tensors are left out (ModelHeap.v and C13 have those). *)
From Coq Require Import String List Bool Arith.
From Verif Require Import Base ModelStream.
Import ListNotations.

(** what a task does: it asks file [i] for a key, and knows whether it was given a tensor; it looks at the [n]th
    tensor it was given; it ends with a result *)
Inductive task (V : Type) :=
| Done (r : result V)
| Ask (i : nat) (k : string) (next : option exn -> task V)
| Look (n : nat) (next : option tensor -> task V).
Arguments Done {V} r.
Arguments Ask {V} i k next.
Arguments Look {V} n next.

Section Shared.
  Variable V : Type.
  Variable cap : nat.

  (** a task under way: what it has been given, as views of the buffers of files *)
  Record worker := Worker { w_task : task V; w_given : list (nat * view) }.
  (** the open files and the workers *)
  Record world := World { files_of : list ins; workers_of : list worker }.

  (** a change at one index *)
  Definition replace_nth {A} (n : nat) (x : A) (l : list A) : list A :=
    firstn n l ++ match skipn n l with [] => [] | _ :: t => x :: t end.

  (** one step of worker [t]; the file that does not exist stands for a recipe without that input *)
  Definition wstep (t : nat) (g : world) : world :=
    match nth_error (workers_of g) t with
    | None => g
    | Some w =>
      match w_task w with
      | Done _ => g
      | Ask i k next =>
        match nth_error (files_of g) i with
        | None => World (files_of g) (replace_nth t (Worker (next (Some IndexError)) (w_given w)) (workers_of g))
        | Some r =>
          let '(x, r') := in_get cap r k in
          let w' := match x with
                    | Ok v => Worker (next None) (w_given w ++ [(i, v)])
                    | Err e => Worker (next (Some e)) (w_given w)
                    end in
          World (replace_nth i r' (files_of g)) (replace_nth t w' (workers_of g))
        end
      | Look n next =>
        let seen := match nth_error (w_given w) n with
                    | None => None
                    | Some (i, v) => match nth_error (files_of g) i with
                                     | None => None
                                     | Some r => Some (view_tensor (in_heap r) v)
                                     end
                    end in
        World (files_of g) (replace_nth t (Worker (next seen) (w_given w)) (workers_of g))
      end
    end.

  (** the workers take turns in the given order *)
  Definition wrun (sched : list nat) (g : world) : world := fold_left (fun g t => wstep t g) sched g.
  (** the files just opened, and workers that have read nothing *)
  Definition start (rs : list ins) (ps : list (task V)) : world := World rs (map (fun p => Worker p []) ps).
End Shared.
Arguments Worker {V}. Arguments w_task {V}. Arguments w_given {V}.
Arguments World {V}. Arguments files_of {V}. Arguments workers_of {V}.
Arguments wstep {V}. Arguments wrun {V}. Arguments start {V}.
