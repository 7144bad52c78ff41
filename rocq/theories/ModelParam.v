(** The value that a number given to a merge method has when the method receives it: sd_mecha/merging.py:649-669
    (cast_node_value), 672-700 (CastInputDicts), builtin/merge_methods/__init__.py:819-834 (cast). *)
From Coq Require Import ZArith Bool.
From Flocq Require Import BinarySingleNaN.
From Verif Require Import ModelRound.
Open Scope Z_scope.

(** merging.py:667-668: torch.tensor(value, dtype=torch.float32); an int is a double first (torch's store_scalar) *)
Definition literal (x : num float64) : num float32 := cast float64 float32 x.
Definition double_of (z : Z) : num float64 :=
  binary_normalize (prec float64) (emax float64) (prec_pos float64) (prec_lt float64) mode_NE z 0 false.

(** merge_device and merge_dtype: [Some m] casts to [m]; [None] with a device only moves the tensor (133-134) *)
Definition work (m : option dtype) : dtype := match m with Some m => m | None => float32 end.
(** a parameter declared as a Tensor *)
Definition handed_tensor (m : option dtype) (x : num float64) : num (work m) :=
  match m with Some m => cast float32 m (literal x) | None => literal x end.
(** a parameter declared as a float: 665-666, float(value) of the cast literal; without merge_device and merge_dtype
    ([cast_given] is false) the literal is not cast, and is a float already (659-660) *)
Definition handed_float (cast_given : bool) (m : option dtype) (x : num float64) : num float64 :=
  if cast_given then cast (work m) float64 (handed_tensor m x) else x.
(** a parameter declared as an int: 663-664, int(value); [None] is an OverflowError, or a ValueError for NaN *)
Definition handed_int (m : option dtype) (z : Z) : option Z :=
  let t := handed_tensor m (double_of z) in if is_finite t then Some (Btrunc t) else None.
