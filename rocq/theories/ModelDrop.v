(** Model of the mask distribution of dropout: builtin/merge_methods/__init__.py:622-651, 711-717,
    in exact real arithmetic (64-bit integer wrap-around is modelled). *)
From Coq Require Import Reals List Bool Arith ZArith.
From Verif Require Import Base ModelNum.
Import ListNotations.
Open Scope list_scope.
Open Scope R_scope.

(** np.int64 arithmetic wraps around *)
Definition wrap64 (z : Z) : Z := ((z + 2 ^ 63) mod 2 ^ 64 - 2 ^ 63)%Z.

(** binomial_coefficient_np: 711-717.  [//] is floor division *)
Fixpoint binomial_loop (n : Z) (i : nat) : Z :=
  match i with
  | O => 1%Z
  | S i' => (wrap64 (binomial_loop n i' * (n - Z.of_nat i + 1)) / Z.of_nat i)%Z
  end.
Definition binomial_coefficient_np (n k : Z) : Z :=
  let k' := if (n - k <? k)%Z then (n - k)%Z else k in binomial_loop n (Z.to_nat k').

(** [bin(i).count("1")] for [i < 2 ** bits] *)
Fixpoint popcount (bits i : nat) : nat :=
  match bits with O => O | S b => (i mod 2 + popcount b (i / 2))%nat end.

(** Python's [round]: to the nearest integer, halves to the even one *)
Definition py_round (x : R) : Z :=
  let f := Int_part x in
  let d := x - IZR f in
  if Rlt_dec d (1 / 2) then f else if Rlt_dec (1 / 2) d then (f + 1)%Z else if Z.even f then f else (f + 1)%Z.
(** np.isclose with the default tolerances *)
Definition isclose (x y : R) : bool := rleb (Rabs (x - y)) (1 / 100000000 + 1 / 100000 * Rabs y).

(** scipy's [binom.pmf(k, n, p)] for [0 <= p <= 1]: [n choose k] by Pascal's rule *)
Fixpoint choose (n k : nat) : nat :=
  match n, k with
  | _, O => 1%nat
  | O, S _ => O
  | S n', S k' => (choose n' k' + choose n' k)%nat
  end.
Definition binom_pmf (k n : nat) (p : R) : R := INR (choose n k) * p ^ k * (1 - p) ^ (n - k).

(** 622-651.  Masks are the numbers [1 .. 2**n - 1]; the result lists the probability of mask 0 and
    of those.  [None]: the array contains NaN (a division of zero by zero at 643). *)
Definition masks (n : nat) : list nat := seq 1 (2 ^ n - 1).

(** 623-627 *)
Definition pmf_even (n i : nat) : R := if (popcount n i =? 1)%nat then 1 / INR n else 0.
Definition pmf_odd (n i : nat) : R := if (i =? 2 ^ n - 1)%nat then 1 else 0.
(** 632-637 *)
Definition pmf_weight (n : nat) (overlap : R) (i : nat) : R :=
  exp (tan (PI * (overlap - 1 / 2)) * (INR (popcount n i) - INR n / 2)).
Definition pmf_soft (n : nat) (overlap : R) (i : nat) : R :=
  pmf_weight n overlap i / rsum (map (pmf_weight n overlap) (masks n)).
(** 639-644 *)
Definition expanded (n : nat) (p : R) (i : nat) : R :=
  binom_pmf (popcount n i) n p / IZR (binomial_coefficient_np (Z.of_nat n) (Z.of_nat (popcount n i))).

(** __init__.py:622-651 overlapping_sets_pmf *)
Definition overlapping_sets_pmf (n : nat) (p overlap emphasis : R) : option (list R) :=
  let close := isclose overlap (IZR (py_round overlap)) in
  let overlap' := if close then overlap else if Z.odd (Int_part overlap) then - overlap else overlap in
  let pmf := if close then (if Z.even (py_round overlap) then pmf_even n else pmf_odd n) else pmf_soft n overlap' in
  let total := rsum (map (expanded n p) (masks n)) in
  if Req_EM_T total 0 then None else
  let mixed i := lerp emphasis (pmf i) (lerp (1 - Rabs (2 * overlap' - 1)) (pmf i) (expanded n p i / total)) in
  Some (p :: map (fun i => mixed i * (1 - p)) (masks n)).
