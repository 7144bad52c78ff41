(** What a merge reports while it runs: the progress bar and the warnings of [check_finite]
    (merging.py:174, 186-190, 300-320), on the pool of ModelDriver.v. *)
From Coq Require Import String List Bool Arith.
From Verif Require Import Base ModelEval ModelDriver.
Import ListNotations.

(** what the user is told, in order *)
Inductive report :=
| Announce (k : string)     (* progress.set_postfix: merging.py:316 *)
| Warn (k : string)         (* logging.warning: merging.py:306 *)
| Update (k : string).      (* progress.update: merging.py:318; the key is a ghost *)

Section Reports.
  Context {V S : Type} (sk : sink V S) (ev : string -> result V) (threads : nat).
  (** [check_finite], and whether a result is a tensor with an entry that is not finite (merging.py:305) *)
  Variable check : bool.
  Variable nonfinite : V -> bool.

  (** what the step [e] from [p] reports.  A task announces its key first, warns between the evaluation and the store, and
      reports progress unless [track_output] raises, which it does for failures other than a missing key. *)
  Definition reports (p : @pool V S) (e : event) : list report :=
    match e with
    | Start _ => match p_queue p with k :: _ => [Announce k] | [] => [] end
    | Store tid =>
      match dget Nat.eqb tid (p_run p) with
      | Some (k, Got (Ok v)) => if check && nonfinite v then [Warn k] else []
      | _ => []
      end
    | Finish tid =>
      match dget Nat.eqb tid (p_run p) with
      | Some (k, Got (Err e)) => if is_missing e then [Update k] else []
      | Some (k, Storing) => [Update k]
      | _ => []
      end
    | _ => []
    end.

  (** a run with its reports, oldest first *)
  Fixpoint rrun (p : @pool V S) (evs : list event) : option (pool * list report) :=
    match evs with
    | [] => Some (p, [])
    | e :: evs' =>
      match pstep sk ev threads p e with
      | Some p' => match rrun p' evs' with Some (q, l) => Some (q, reports p e ++ l) | None => None end
      | None => None
      end
    end.

  (** [threads=0]: every task runs inside [submit] (merging.py:337-341) *)
  Fixpoint reports_here (keys : list string) : list report :=
    match keys with
    | [] => []
    | k :: keys' =>
      Announce k ::
      match ev k with
      | Ok v => (if check && nonfinite v then [Warn k] else []) ++ Update k :: reports_here keys'
      | Err e => if is_missing e then Update k :: reports_here keys' else []
      end
    end.
End Reports.

(** [isinstance(res, torch.Tensor) and not res.isfinite().all()] for the results of a recipe *)
Definition tensor_nonfinite {T} (nf : T -> bool) (v : value T) : bool := match v with VT t => nf t | VL _ => false end.
