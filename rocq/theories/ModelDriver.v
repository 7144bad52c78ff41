(** Model of the driver of [merge]: the tasks, one per key, the pool of threads that
    runs them, and where their results go: sd_mecha/merging.py:172-200.
    What a task computes is any function [ev] from keys to outcomes (ModelEval.v gives
    the one of a recipe).  Progress reports and the check for finite values are in
    ModelReports.v; other logging and CUDA streams are not modelled. *)
From Coq Require Import String List Bool Arith.
From Verif Require Import Base ModelStream ModelEval.
Import ListNotations.
Open Scope string_scope.
Open Scope list_scope.
Open Scope nat_scope.

(** where results go.  [call tid k v] starts [output[k] = v] in thread [tid], [step]
    lets that thread go on, [idle] tells whether it is through; [late] tells whether
    the output still takes results once the main thread has seen a failure. *)
Record sink (V S : Type) := Sink {
  sk_call : nat -> string -> V -> S -> option S;
  sk_step : nat -> S -> option S;
  sk_idle : nat -> S -> bool;
  sk_late : bool }.
Arguments Sink {V S}.
Arguments sk_call {V S}.
Arguments sk_step {V S}.
Arguments sk_idle {V S}.
Arguments sk_late {V S}.

(** a dict: merging.py:294-297; assignment is atomic and the dict is never closed *)
Definition mem_sink {V} : sink V (list (string * V)) :=
  Sink (fun _ k v d => Some (dset String.eqb k v d)) (fun _ _ => None) (fun _ _ => true) true.

(** a safetensors file: merging.py:270-293.  The context managers are left in reverse
    order, so a failure closes the file before the pool is shut down: results of
    tasks still running then no longer reach it. *)
Definition file_sink (cap : nat) : sink tensor ost :=
  Sink (fun tid k t s => ostep cap s (Call tid k t)) (fun tid s => ostep cap s (Run tid))
       (fun tid s => match dget Nat.eqb tid (o_thr s) with
                     | Some ts => match ts_pc ts with Idle => true | _ => false end
                     | None => true end)
       false.

Section Pool.
  Context {V S : Type} (sk : sink V S) (ev : string -> result V) (threads : nat).

  (** where a task is: computing, holding its outcome, storing it *)
  Inductive phase := Working | Got (r : result V) | Storing.

  (** what was done to the output, a ghost log *)
  Inductive sop := SCall (tid : nat) (k : string) (v : V) | SStep (tid : nat).

  (** keys still to submit, tasks waiting, tasks running by thread, finished tasks
      with the exception of their future, the output, the exception [merge] is
      raising, tasks cancelled, and the ghost log *)
  Record pool := Pool {
    p_todo : list string;
    p_queue : list string;
    p_run : list (nat * (string * phase));
    p_done : list (string * option exn);
    p_sink : S;
    p_failed : option exn;
    p_cancelled : list string;
    p_ops : list sop }.

  (** before the first submit: merging.py:184-190 *)
  Definition pool_init (keys : list string) (s : S) : pool := Pool keys [] [] [] s None [] [].

  (** what can happen during the loops of merging.py:185-197 *)
  Inductive event :=
  | Submit                 (* executor.submit for the next key: merging.py:185-190 *)
  | Start (tid : nat)      (* a worker takes the oldest waiting task *)
  | Evaluate (tid : nat)   (* recipe.accept(KeyMergeVisitor(key)) returns or raises *)
  | Store (tid : nat)      (* output[key] = res: merging.py:307 *)
  | Step (tid : nat)       (* the output goes on with that *)
  | Finish (tid : nat)     (* the task ends; its future is set *)
  | Observe (k : string).  (* as_completed hands over a failed future: merging.py:192-196 *)

  (** a change of what the workers are doing *)
  Definition with_run p r := Pool (p_todo p) (p_queue p) r (p_done p) (p_sink p) (p_failed p) (p_cancelled p) (p_ops p).

  (** _track_output: merging.py:300-310 — a missing key is not a failure *)
  Definition future_of (r : result V) : option exn :=
    match r with Ok _ => None | Err e => if is_missing e then None else Some e end.

  (** a task is over: its future has a result or an exception *)
  Definition finish_with p tid k x :=
    Pool (p_todo p) (p_queue p) (ddel Nat.eqb tid (p_run p)) (p_done p ++ [(k, x)]) (p_sink p) (p_failed p) (p_cancelled p) (p_ops p).

  (** after a failure, whether results are still put into the output *)
  Definition open_for_results p : bool := match p_failed p with None => true | Some _ => sk_late sk end.

  (** one event, or [None] if it cannot happen: merging.py:184-197, 300-342 *)
  Definition pstep (p : pool) (e : event) : option pool :=
    match e with
    | Submit =>
      match p_todo p with
      | k :: l => Some (Pool l (p_queue p ++ [k]) (p_run p) (p_done p) (p_sink p) (p_failed p) (p_cancelled p) (p_ops p))
      | [] => None
      end
    | Start tid =>
      if tid <? threads then
        match dget Nat.eqb tid (p_run p), p_queue p with
        | None, k :: q =>
          Some (Pool (p_todo p) q ((tid, (k, Working)) :: p_run p) (p_done p) (p_sink p) (p_failed p) (p_cancelled p) (p_ops p))
        | _, _ => None
        end
      else None
    | Evaluate tid =>
      match dget Nat.eqb tid (p_run p) with
      | Some (k, Working) => Some (with_run p (dset Nat.eqb tid (k, Got (ev k)) (p_run p)))
      | _ => None
      end
    | Store tid =>
      match dget Nat.eqb tid (p_run p) with
      | Some (k, Got (Ok v)) =>
        let p' := with_run p (dset Nat.eqb tid (k, Storing) (p_run p)) in
        if open_for_results p then
          match sk_call sk tid k v (p_sink p) with
          | Some s => Some (Pool (p_todo p') (p_queue p') (p_run p') (p_done p') s (p_failed p') (p_cancelled p') (p_ops p ++ [SCall tid k v]))
          | None => None
          end
        else Some p'
      | _ => None
      end
    | Step tid =>
      match dget Nat.eqb tid (p_run p) with
      | Some (k, Storing) =>
        if open_for_results p then
          match sk_step sk tid (p_sink p) with
          | Some s => Some (Pool (p_todo p) (p_queue p) (p_run p) (p_done p) s (p_failed p) (p_cancelled p) (p_ops p ++ [SStep tid]))
          | None => None
          end
        else None
      | _ => None
      end
    | Finish tid =>
      match dget Nat.eqb tid (p_run p) with
      | Some (k, Got (Err e)) => Some (finish_with p tid k (future_of (Err e)))
      | Some (k, Storing) =>
        if negb (open_for_results p) || sk_idle sk tid (p_sink p) then Some (finish_with p tid k None) else None
      | _ => None
      end
    | Observe k =>
      match p_todo p, p_failed p, dget String.eqb k (p_done p) with
      | [], None, Some (Some e) =>
        Some (Pool [] [] (p_run p) (p_done p) (p_sink p) (Some e) (p_cancelled p ++ p_queue p) (p_ops p))
      | _, _, _ => None
      end
    end.

  (** a sequence of events *)
  Fixpoint prun (p : pool) (evs : list event) : option pool :=
    match evs with
    | [] => Some p
    | e :: evs' => match pstep p e with Some p' => prun p' evs' | None => None end
    end.

  (** the loop over the futures is over and the pool has shut down *)
  Definition pool_over (p : pool) : Prop :=
    p_todo p = [] /\ p_queue p = [] /\ p_run p = [] /\
    (p_failed p = None -> forall k x, In (k, x) (p_done p) -> x = None).
End Pool.
Arguments Working {V}.
Arguments Storing {V}.

(** [threads = 0]: ThisThreadExecutor, merging.py:337-341 — every task runs inside
    [submit], and its exception leaves the loop *)
Fixpoint merge_here {V} (ev : string -> result V) (keys : list string) (out : list (string * V)) : list (string * V) * option exn :=
  match keys with
  | [] => (out, None)
  | k :: keys' =>
    match ev k with
    | Ok v => merge_here ev keys' (dset String.eqb k v out)
    | Err e => if is_missing e then merge_here ev keys' out else (out, Some e)
    end
  end.
