(** Model of the masks on IEEE numbers (extensions/builtin/merge_methods/__init__.py:218-246), for one entry. *)
From Coq Require Import ZArith List Bool.
From Flocq Require Import Core BinarySingleNaN.
From Verif Require Import ModelRound ModelTiesRound ModelClampRound.

Section Masks.
Variable m : dtype.

(** [x.abs()] *)
Definition abs (x : num m) : num m := Babs x.
(** the Python number 1.8 in the dtype of the tensors: 9/5 rounded (so in float32 and float64; torch multiplies tensors of
    half precision by a float32 and rounds then) *)
Definition eighteen : num m := div m (of_nat m 9) (of_nat m 5).
Definition two : num m := of_nat m 2.

(** 218-225: [torch.nan_to_num(x, nan=0)] replaces infinities by the largest numbers as well *)
Definition train_difference_mask (a b c alpha : num m) : num m :=
  mul m (mul m alpha eighteen) (nan_to_num m (div m (abs (sub m b a)) (add m (abs (sub m b a)) (abs (sub m b c))))).

(** 228-235 *)
Definition add_opposite_mask (a b c alpha : num m) : num m :=
  mul m (mul m alpha two)
    (nan_to_num m (div m (abs (sub m a b)) (add m (abs (sub m a b)) (abs (sub m (add m a b) (mul m two c)))))).

(** 238-246: [threshold**2] is a product; [torch.clamp(x, 0)] is the maximum of [x] and 0 *)
Definition add_strict_opposite_mask (a b c alpha : num m) : num m :=
  let threshold := maximum m (abs (sub m a c)) (abs (sub m b c)) in
  mul m (mul m alpha (maximum m (nan_to_num m (div m (mul m (sub m c a) (sub m b c)) (mul m threshold threshold))) (B754_zero false))) two.
End Masks.
