(** Model of [clamp] on IEEE numbers (extensions/builtin/merge_methods/__init__.py:451-474), for one entry. *)
From Coq Require Import ZArith List Bool.
From Flocq Require Import Core BinarySingleNaN.
From Verif Require Import ModelRound.
Import ListNotations.

Section Clamp.
Variable m : dtype.

(** [torch.maximum], [torch.minimum]: NaN if one of the two is *)
Definition maximum (x y : num m) : num m := match Bcompare x y with Some Lt => y | Some _ => x | None => B754_nan end.
Definition minimum (x y : num m) : num m := match Bcompare x y with Some Gt => y | Some _ => x | None => B754_nan end.
(** [x <= y] *)
Definition leb (x y : num m) : bool := match Bcompare x y with Some Gt | None => false | _ => true end.

(** 464-469: the loop over the bounds *)
Definition nearest_above (average start : num m) (bounds : list (num m)) : num m :=
  fold_left (fun sp b => if leb b sp && leb average b then b else sp) bounds start.
Definition nearest_below (average start : num m) (bounds : list (num m)) : num m :=
  fold_left (fun ln b => if leb ln b && leb b average then b else ln) bounds start.

(** 457-474, for the first bound and the others.  [average] is the mean of the bounds (462), added in torch's order;
    [stiffness] is a Python float, used as it is in the default float64; zero is false. *)
Definition clamp1 (a b0 : num m) (bs : list (num m)) (average stiffness : num m) : num m :=
  let mx := fold_left maximum bs b0 in
  let mn := fold_left minimum bs b0 in
  match stiffness with
  | B754_zero _ => minimum (maximum a mn) mx
  | _ =>
    let mx' := weighted_sum_impl m stiffness mx (nearest_above average mx (b0 :: bs)) in
    let mn' := weighted_sum_impl m stiffness mn (nearest_below average mn (b0 :: bs)) in
    minimum (maximum a mn') mx'
  end.
End Clamp.
