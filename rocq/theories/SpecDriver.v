(** Vocabulary for the properties of [merge] as a whole (C21, C30, C66) *)
From Coq Require Import String List.
From Verif Require Import Base ModelStream ModelEval.
Import ListNotations.

(** evaluating key [k] reports an error other than a missing key *)
Definition failing {V} (ev : string -> result V) (k : string) (e : exn) : Prop :=
  ev k = Err e /\ forall k', e <> StateDictKeyError k'.

(** [out] holds the value of every key that has one, and is otherwise unchanged from
    [out0]; keys are those to merge *)
Definition merged {V} (ev : string -> result V) (keys : list string) (out0 out : list (string * V)) : Prop :=
  forall k v, dget String.eqb k out = Some v <->
    (In k keys /\ ev k = Ok v) \/
    (dget String.eqb k out0 = Some v /\ ~ (In k keys /\ exists w, ev k = Ok w)).

(** a file takes tensors only *)
Definition as_tensor (r : result (value tensor)) : result tensor :=
  match r with Ok (VT t) => Ok t | Ok (VL _) => Err AttributeError | Err e => Err e end.

(** the tensors a merge to a file produces, in some order *)
Definition lists_results (ev : string -> result tensor) (keys : list string) (l : list (string * tensor)) : Prop :=
  NoDup (map fst l) /\ forall k t, In (k, t) l <-> In k keys /\ ev k = Ok t.
