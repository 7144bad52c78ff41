(** Model of the last steps of [ties_sum] on IEEE numbers (extensions/builtin/merge_methods/__init__.py:525-573), for one
    entry: the election of a sign and the average over the deltas that have it. *)
From Coq Require Import ZArith List Bool.
From Flocq Require Import Core BinarySingleNaN.
From Verif Require Import ModelRound.
Import ListNotations.
Open Scope Z_scope.

Section Ties.
Variable m : dtype.

(** [torch.sign] (555): none for NaN, which equals nothing *)
Definition sgn (x : num m) : option Z :=
  match x with
  | B754_zero _ => Some 0
  | B754_infinity s | B754_finite s _ _ _ => Some (if s then -1 else 1)
  | B754_nan => None
  end.
Definition sign_number (x : num m) : num m :=
  match sgn x with
  | Some 0 => B754_zero false
  | Some z => if z <? 0 then Bopp (one m) else one m
  | None => B754_nan
  end.

(** 557-559: what is added up to elect a sign.  [vote_sgn] selects the deltas (C57). *)
Definition votes (vote_sgn : bool) (deltas : list (num m)) : list (num m) :=
  if vote_sgn then deltas else map sign_number deltas.

(** 564: [signs == final_sign] *)
Definition agrees (s : option Z) (x : num m) : bool :=
  match sgn x, s with Some a, Some b => a =? b | _, _ => false end.
(** 567: how many agree.  The code adds ones in float32; that is exact for up to 2^24 models. *)
Definition kept (s : option Z) (deltas : list (num m)) : nat := length (filter (agrees s) deltas).
(** 571: [deltas * delta_filters] *)
Definition filtered (s : option Z) (deltas : list (num m)) : list (num m) :=
  map (fun x => mul m x (if agrees s x then one m else B754_zero false)) deltas.

(** [torch.nan_to_num] *)
Definition nan_to_num (x : num m) : num m :=
  match x with
  | B754_nan => B754_zero false
  | B754_infinity s => if s then Bopp Bmax_float else Bmax_float
  | _ => x
  end.

(** 534, 559: [torch.sum] adds in an order of its choice, a tree: [tv] over [votes], [t] over [filtered] *)
Definition ties1 (deltas : list (num m)) (tv t : tree m) : num m :=
  nan_to_num (div m (total m t) (of_nat m (kept (sgn (total m tv)) deltas))).
End Ties.
