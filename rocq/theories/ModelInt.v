(** What happens to an integer given for a parameter declared [int] when
    [merge] casts its inputs: the literal becomes a float32 tensor
    (cast_node_value, merging.py:649-669: torch.tensor(value, dtype=torch.float32)),
    the tensor is converted to the merge dtype (builtin cast,
    builtin/merge_methods/__init__.py:819-834; float64 by default, merging.py:101-102,
    which holds every float32 value) and the parameter takes int() of it.
    Only 0-dimensional tensors with an integer value are modelled, as integers. *)
From Coq Require Import String List Bool ZArith.
From Verif Require Import Base ModelEval.
Import ListNotations.
Open Scope Z_scope.

(** rounding an integer to float32: 24 significant bits, ties to even *)
Definition f32 (z : Z) : Z :=
  let a := Z.abs z in
  let k := Z.log2 a - 23 in
  if k <=? 0 then z
  else
    let q := a / 2 ^ k in
    let r := a mod 2 ^ k in
    let h := 2 ^ (k - 1) in
    let q' := if (h <? r) || ((r =? h) && Z.odd q) then q + 1 else q in
    Z.sgn z * (q' * 2 ^ k).

(** torch.tensor and int() on such tensors; integers that do not fit 64 bits are not
    modelled *)
Definition int_conv (t : ety) (v : value Z) : result (value Z) :=
  match t, v with
  | TTensor, VL (LInt z) => if Z.abs z <? 2 ^ 63 then Ok (VT (f32 z)) else Err Unmodelled
  | TTensor, VL (LBool b) => Ok (VT (if b then 1 else 0))
  | TInt, VT t => Ok (VL (LInt t))
  | _, _ => Err Unmodelled
  end.

(** [.to(device, dtype=torch.float64)] *)
Definition to_float64 (_ _ : lit) (t : Z) : result Z := Ok t.
