(** Model of ratio_to_region and tensor_sum: builtin/merge_methods/__init__.py:142-160, 196-215,
    once for any arithmetic, with exact reals and with IEEE doubles. *)
From Coq Require Import Reals List Bool Arith ZArith Floats.SpecFloat.
From Verif Require Import Base ModelNum ModelDrop.
Import ListNotations.
Open Scope list_scope.

(** the operations of Python floats the function uses *)
Record arith := Arith {
  num : Type;
  of_Z : Z -> num;
  add : num -> num -> num;
  sub : num -> num -> num;
  mul : num -> num -> num;
  opp : num -> num;
  ltb : num -> num -> bool;
  leb : num -> num -> bool;
  to_int : num -> Z;        (* int(x): toward zero *)
  fmod1 : num -> num;       (* math.fmod(x, 1.0) *)
  to_round : num -> Z }.    (* round(x): halves to even *)

(** 196-215; comparisons and sums with Python ints convert them to floats *)
Definition ratio_to_region (A : arith) (width offset : num A) (n : Z) : Z * Z * bool :=
  let z := of_Z A 0 in
  let one := of_Z A 1 in
  let neg := ltb A width z in
  let offset := if neg then add A offset width else offset in
  let width := if neg then opp A width else width in
  let width := if ltb A one width then one else width in
  let offset := if ltb A offset z then sub A (add A one offset) (of_Z A (to_int A offset)) else offset in
  let offset := fmod1 A offset in
  let nf := of_Z A n in
  if leb A (add A width offset) one
  then (to_round A (mul A offset nf), to_round A (mul A (add A width offset) nf), false)
  else (to_round A (mul A (sub A (add A width offset) one) nf), to_round A (mul A offset nf), true).

(** exact real arithmetic *)
Definition exact : arith :=
  Arith R IZR Rplus Rminus Rmult Ropp
    (fun x y => if Rlt_dec x y then true else false) rleb trunc (fun x => x - IZR (trunc x))%R py_round.

(** ** binary64, by the standard library's specification of IEEE 754 *)
Definition prec := 53%Z.
Definition emax := 1024%Z.
Definition sf_of_Z (z : Z) : spec_float := binary_normalize prec emax z 0 false.
(** the integer part; infinities and NaN, on which Python raises, give 0 *)
Definition sf_int (x : spec_float) : Z :=
  match x with
  | S754_finite s m e =>
    let a := if (0 <=? e)%Z then (Z.pos m * 2 ^ e)%Z else (Z.pos m / 2 ^ (- e))%Z in
    if s then (- a)%Z else a
  | _ => 0%Z
  end.
(** halves to even *)
Definition sf_round (x : spec_float) : Z :=
  match x with
  | S754_finite s m e =>
    let a :=
      if (0 <=? e)%Z then (Z.pos m * 2 ^ e)%Z else
      let d := (2 ^ (- e))%Z in
      let q := (Z.pos m / d)%Z in
      match (2 * (Z.pos m mod d) ?= d)%Z with
      | Lt => q
      | Gt => (q + 1)%Z
      | Eq => if Z.even q then q else (q + 1)%Z
      end in
    if s then (- a)%Z else a
  | _ => 0%Z
  end.
(** fmod is exact, and so is the subtraction of the integer part *)
Definition double : arith :=
  Arith spec_float sf_of_Z (SFadd prec emax) (SFsub prec emax) (SFmul prec emax) SFopp SFltb SFleb
    sf_int (fun x => SFsub prec emax x (sf_of_Z (sf_int x))) sf_round.

(** tensor_sum: 142-160 on tensors of at least one dimension, given as lists of rows; [x[s:e] = y[s:e]]
    on Python slices with [0 <= s] *)
Definition assign_slice {A} (x y : list A) (s e : nat) : list A :=
  map (fun p => match p with (j, (u, v)) => if (s <=? j)%nat && (j <? e)%nat then v else u end)
    (combine (seq 0 (length x)) (combine x y)).
Definition tensor_sum {A} (Ar : arith) (a b : list A) (width offset : num Ar) : list A :=
  match ratio_to_region Ar width offset (Z.of_nat (length a)) with
  | (s, e, inverted) =>
    if inverted then assign_slice b a (Z.to_nat s) (Z.to_nat e) else assign_slice a b (Z.to_nat s) (Z.to_nat e)
  end.
