(** The tensors that a merge into memory returns, as objects: sd_mecha/merging.py:133-137 (the cast of the inputs and
    of the output), 176-200, 297-306 ([output[key] = res] stores the tensor that the recipe gives, not a copy). *)
From Coq Require Import List Bool Arith.
From Verif Require Import Base ModelHeap.
Import ListNotations.
Open Scope list_scope.
Open Scope nat_scope.

Section Out.
  Context {A : Type}.
  Variable conv : nat -> nat -> A -> A.

  (** one key: its recipe, evaluated in the merge dtype [dt], then [recipe.to(dtype=ot)] *)
  Definition key_h (dt ot : nat) (n : hnode A) (h : heap A) : result (nat * heap A) :=
    let* r := heval conv dt n h in cast_h conv ot (fst r) (snd r).
  (** the keys one after the other; the workers take turns, which is left out (C21).  Dtypes are both given
      (by default they are float64 and float16) *)
  Fixpoint merge_h (dt ot : nat) (keys : list (nat * hnode A)) (h : heap A) : result (list (nat * nat) * heap A) :=
    match keys with
    | [] => Ok ([], h)
    | (k, n) :: keys' =>
        let* r := key_h dt ot n h in
        let* rest := merge_h dt ot keys' (snd r) in
        Ok ((k, fst r) :: fst rest, snd rest)
    end.
End Out.
