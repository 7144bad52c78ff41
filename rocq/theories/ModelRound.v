(** The arithmetic of the merge methods in the dtypes of torch: IEEE numbers, rounded to nearest even after
    every operation (Flocq's [binary_float], one NaN). *)
From Coq Require Import ZArith Reals List Lia Bool.
From Flocq Require Import Core BinarySingleNaN.
Import ListNotations.
Open Scope Z_scope.

(** A floating point dtype: bits of the mantissa with the implicit one, and exponent of the infinities. *)
Record dtype := Dtype {
  prec : Z;
  emax : Z;
  prec_pos : Prec_gt_0 prec;
  prec_lt : Prec_lt_emax prec emax }.
Global Existing Instance prec_pos.
Global Existing Instance prec_lt.

(** streaming.py:369-390 (DTYPE_MAPPING), merge_methods/__init__.py:837-849 (cast_dtype_map): the floating dtypes that are
    IEEE formats.  float8_e4m3fn has no infinities and is left out. *)
Definition float64 : dtype := Dtype 53 1024 eq_refl eq_refl.
Definition float32 : dtype := Dtype 24 128 eq_refl eq_refl.
Definition float16 : dtype := Dtype 11 16 eq_refl eq_refl.
Definition bfloat16 : dtype := Dtype 8 128 eq_refl eq_refl.
Definition float8_e5m2 : dtype := Dtype 3 16 eq_refl eq_refl.

(** the numbers of a floating dtype: IEEE 754 binary floats (Flocq) *)
Definition num (d : dtype) : Type := binary_float (prec d) (emax d).

(** One number of [Tensor.to(dtype=...)] (merge_methods/__init__.py:820-834, cast): one rounding to nearest even. *)
Definition cast (d e : dtype) (x : num d) : num e :=
  match x with
  | B754_zero s => B754_zero s
  | B754_infinity s => B754_infinity s
  | B754_nan => B754_nan
  | B754_finite s m ex _ =>
      binary_normalize (prec e) (emax e) (prec_pos e) (prec_lt e) mode_NE (cond_Zopp s (Zpos m)) ex s
  end.

(** The cast to output_dtype (merging.py:136-137).  On a CPU torch converts float64 to float16 and bfloat16 by
    way of float32; [i] is the dtype in between ([i = m] for a direct conversion). *)
Definition narrow (m i o : dtype) (x : num m) : num o := cast i o (cast m i x).

Section Arith.
Variable m : dtype.

(** torch's [+], rounded to nearest even *)
Definition add (x y : num m) : num m := Bplus mode_NE x y.
(** torch's [-], rounded to nearest even *)
Definition sub (x y : num m) : num m := Bminus mode_NE x y.
(** torch's [*], rounded to nearest even *)
Definition mul (x y : num m) : num m := Bmult mode_NE x y.
(** torch's [/], rounded to nearest even *)
Definition div (x y : num m) : num m := Bdiv mode_NE x y.
(** the Python number 1 converted to the dtype *)
Definition one : num m := Bone.
(** a Python int converted to the dtype, rounded to nearest even *)
Definition of_nat (n : nat) : num m :=
  binary_normalize (prec m) (emax m) (prec_pos m) (prec_lt m) mode_NE (Z.of_nat n) 0 false.

(** merge_methods/__init__.py:34-35: (1-alpha)*a + alpha*b, four torch operations, for one number. *)
Definition weighted_sum_impl (alpha a b : num m) : num m :=
  add (mul (sub one alpha) a) (mul alpha b).

(** an operation on each entry of three tensors of the same shape *)
Fixpoint map3 {A B C D} (f : A -> B -> C -> D) (l : list A) (l' : list B) (l'' : list C) : list D :=
  match l, l', l'' with
  | x :: l, y :: l', z :: l'' => f x y z :: map3 f l l' l''
  | _, _, _ => []
  end.

(** merge_methods/__init__.py:17-31: [alpha] after broadcasting; [close] stands for one number of torch.allclose. *)
Definition weighted_sum (close : num m -> num m -> bool) (a b alpha : list (num m)) : list (num m) :=
  if forallb (fun x => close x (B754_zero false)) alpha then a
  else if forallb (fun x => close x one) alpha then b
  else map3 weighted_sum_impl alpha a b.

(** merge_methods/__init__.py:38-42: torch.mean(torch.stack(models), dim=0) for one number.  torch adds in an
    order of its choice, starting from zero, and divides by the number of models; the order is a tree. *)
Inductive tree := Zero | Term (x : num m) | Plus (l r : tree).
Fixpoint total (t : tree) : num m :=
  match t with
  | Zero => B754_zero false
  | Term x => x
  | Plus l r => add (total l) (total r)
  end.
Fixpoint terms (t : tree) : list (num m) :=
  match t with
  | Zero => []
  | Term x => [x]
  | Plus l r => terms l ++ terms r
  end.
Definition mean (t : tree) : num m := div (total t) (of_nat (length (terms t))).

(** merge_methods/__init__.py:80-85 (subtract) and 67-77 (add_difference: a.addcmul(b, alpha)), for one number. *)
Definition subtract (a b : num m) : num m := sub a b.
Definition add_difference (a b alpha : num m) : num m := add a (mul b alpha).
End Arith.

Arguments Zero {m}.
Arguments Term {m} x.
Arguments Plus {m} l r.
