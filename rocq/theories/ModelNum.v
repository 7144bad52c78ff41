(** Model of the arithmetic of built-in merge methods (builtin/merge_methods/__init__.py) in
    exact real arithmetic: rounding, overflow and devices are not modelled, except where a
    definition says so.  A tensor is the list of its elements; tensors combined element by
    element have the same length, or one element ([bcast]).  NaN and infinities are values of
    [ext] where a division can produce them. *)
From Coq Require Import Reals List Bool Arith ZArith Lia Lra.
From Verif Require Import Base.
Import ListNotations.
Open Scope list_scope.
Open Scope R_scope.

(** a tensor: its entries in row-major order *)
Definition vec := list R.

(** ** torch primitives *)

(** an operation on each entry of two tensors of the same shape *)
Fixpoint map2 {A B C} (f : A -> B -> C) (a : list A) (b : list B) : list C :=
  match a, b with x :: a', y :: b' => f x y :: map2 f a' b' | _, _ => [] end.
(** a one-element tensor is expanded to [n] elements *)
Definition bcast (n : nat) (a : vec) : vec := match a with [x] => repeat x n | _ => a end.
(** [a * alpha] for a number [alpha] *)
Definition vscale (k : R) (a : vec) : vec := map (Rmult k) a.
Definition vadd (a b : vec) : vec := map2 Rplus a b.
Definition vsub (a b : vec) : vec := map2 Rminus a b.
Definition rsum (l : list R) : R := fold_right Rplus 0 l.
Definition dot (a b : vec) : R := rsum (map2 Rmult a b).
(** [torch.linalg.norm], [torch.dist] *)
Definition norm (a : vec) : R := sqrt (dot a a).
Definition dist (a b : vec) : R := norm (vsub a b).
Definition mean (l : list R) : R := rsum l / INR (length l).
(** a reduction over the first dimension of [torch.stack(models)]: [f] on each column *)
Definition over0 (f : list R -> R) (models : list vec) : vec :=
  match models with
  | [] => []
  | m :: _ => map (fun j => f (map (fun v => nth j v 0) models)) (seq 0 (length m))
  end.
(** comparisons as Python booleans *)
Definition rleb (x y : R) : bool := if Rle_dec x y then true else false.
Definition reqb (x y : R) : bool := if Req_EM_T x y then true else false.
(** [torch.sign] *)
Definition sign (x : R) : R := if Rlt_dec 0 x then 1 else if Rlt_dec x 0 then -1 else 0.
(** [torch.allclose(a, c * ones_like(a))] with the default tolerances *)
Definition allclose (a : vec) (c : R) : bool :=
  forallb (fun x => rleb (Rabs (x - c)) (1 / 100000000 + 1 / 100000 * Rabs c)) a.

(** results of a division *)
Inductive ext := Fin (x : R) | PosInf | NegInf | NaN.
Definition fdiv (x y : R) : ext :=
  if Req_EM_T y 0 then (if Rlt_dec 0 x then PosInf else if Rlt_dec x 0 then NegInf else NaN) else Fin (x / y).
(** [torch.nan_to_num(x, nan=0)]; [fmax] is the largest finite number of the dtype *)
Definition nan_to_num (fmax : R) (x : ext) : R :=
  match x with Fin r => r | PosInf => fmax | NegInf => - fmax | NaN => 0 end.

(** ** weighted_sum, n_average: __init__.py:17-42 *)

(** weighted_sum_impl: 34-35 *)
Definition lerp (alpha x y : R) : R := (1 - alpha) * x + alpha * y.
Definition weighted_sum_impl (a b alpha : vec) : vec :=
  map2 (fun t xy => lerp t (fst xy) (snd xy)) (bcast (length a) alpha) (combine a b).
Definition weighted_sum (a b alpha : vec) : vec :=
  if allclose alpha 0 then a else if allclose alpha 1 then b else weighted_sum_impl a b alpha.

(** 38-42; stacking no tensors raises *)
Definition n_average (models : list vec) : result vec :=
  match models with [] => Err RuntimeError | _ => Ok (over0 mean models) end.

(** ** slerp, add_difference, subtract, perpendicular_component: __init__.py:45-97 *)

(** 45-64.  A division by zero in it divides zero by zero: [a / a.norm()] for [a = 0]; the sum
    of the contributions by [sin omega] when a and b are parallel (both sines vanish, or the
    contributions cancel).  The NaN this gives is what selects the last line. *)
Definition clamp11 (x : R) : R := Rmin (Rmax x (-1)) 1.
Definition slerp (a b : vec) (alpha : R) : vec :=
  let na := norm a in
  let nb := norm b in
  if reqb na 0 || reqb nb 0 then map2 (lerp alpha) a b else
  let an := map (fun x => x / na) a in
  let bn := map (fun x => x / nb) b in
  let omega := acos (clamp11 (dot an bn)) in
  if reqb (sin omega) 0 then map2 (lerp alpha) a b else
  vscale (lerp alpha na nb)
    (map (fun x => x / sin omega)
       (vadd (vscale (sin ((1 - alpha) * omega)) an) (vscale (sin (alpha * omega)) bn))).

(** 67-77: [a.addcmul(b, alpha)] *)
Definition add_difference (a b alpha : vec) : vec :=
  map2 (fun t xy => fst xy + snd xy * t) (bcast (length a) alpha) (combine a b).
(** 80-85 *)
Definition subtract (a b : vec) : vec := vsub a b.
(** 88-97; dividing by the norm of a zero tensor gives NaN *)
Definition perpendicular_component (a b : vec) : vec :=
  let n := norm a in
  if reqb n 0 then map (fun _ => 0) a
  else map2 (fun x y => y - x * rsum (map2 (fun u v => (u / n) * (v / n)) a b)) a b.

(** ** masks: __init__.py:218-246, one element *)
Definition train_difference_mask (fmax a b c alpha : R) : R :=
  alpha * (18 / 10) * nan_to_num fmax (fdiv (Rabs (b - a)) (Rabs (b - a) + Rabs (b - c))).
Definition add_opposite_mask (fmax a b c alpha : R) : R :=
  alpha * 2 * nan_to_num fmax (fdiv (Rabs (a - b)) (Rabs (a - b) + Rabs (a + b - 2 * c))).
Definition add_strict_opposite_mask (fmax a b c alpha : R) : R :=
  let threshold := Rmax (Rabs (a - c)) (Rabs (b - c)) in
  alpha * Rmax (nan_to_num fmax (fdiv ((c - a) * (b - c)) (threshold * threshold))) 0 * 2.

(** ** clamp: __init__.py:451-474, one element [x] and its bounds *)

(** functools.reduce on an empty sequence raises TypeError *)
Definition reduce (f : R -> R -> R) (l : list R) : result R :=
  match l with [] => Err TypeError | x :: l' => Ok (fold_left f l' x) end.
(** the loop at 467-469 *)
Definition smallest_positive (avg : R) (bounds : list R) (start : R) : R :=
  fold_left (fun sp b => if rleb b sp && rleb avg b then b else sp) bounds start.
Definition largest_negative (avg : R) (bounds : list R) (start : R) : R :=
  fold_left (fun ln b => if rleb ln b && rleb b avg then b else ln) bounds start.
Definition clamp1 (stiffness x : R) (bounds : list R) : result R :=
  let* mx := reduce Rmax bounds in
  let* mn := reduce Rmin bounds in
  if reqb stiffness 0 then Ok (Rmin (Rmax x mn) mx) else
  let avg := mean bounds in
  let mx' := lerp stiffness mx (smallest_positive avg bounds mx) in
  let mn' := lerp stiffness mn (largest_negative avg bounds mn) in
  Ok (Rmin (Rmax x mn') mx').

(** all elements; [bounds] have the length of [a] *)
Definition clamp (a : vec) (bounds : list vec) (stiffness : R) : result vec :=
  match bounds with
  | [] => Err TypeError
  | _ => mapM (fun j => clamp1 stiffness (nth j a 0) (map (fun v => nth j v 0) bounds)) (seq 0 (length a))
  end.

(** ** filter_top_k, ties: __init__.py:525-580 *)

(** [int(x)]: toward zero *)
Definition trunc (x : R) : Z := if Rle_dec 0 x then Int_part x else (- Int_part (- x))%Z.

(** one step of the sort of [kthvalue] *)
Fixpoint insert_asc (x : R) (l : list R) : list R :=
  match l with [] => [x] | y :: l' => if Rle_dec x y then x :: l else y :: insert_asc x l' end.
(** the entries in increasing order *)
Definition sort_asc (l : list R) : list R := fold_right insert_asc [] l.
(** [kthvalue(k)]: the k-th smallest, counting from 1 *)
Definition kthvalue (l : list R) (k : Z) : result R :=
  if ((1 <=? k) && (k <=? Z.of_nat (length l)))%Z
  then Ok (nth (Z.to_nat k - 1) (sort_asc l) 0) else Err RuntimeError.

(** 576-580.  [f32] is the rounding of [.float()] to single precision: any function here *)
Definition top_k_rank (k : R) (n : nat) : Z := Z.max (trunc ((1 - k) * INR n)) 1.
Definition filter_top_k (f32 : R -> R) (a : vec) (k : R) : result vec :=
  let* t := kthvalue (map (fun x => f32 (Rabs x)) a) (top_k_rank k (length a)) in
  Ok (map (fun x => x * (if rleb t (Rabs x) then 1 else 0)) a).

(** ties_sum_deltas, one element of every model: 549-573.  [col] are the trimmed deltas *)
Definition elected (vote_sgn : bool) (col : list R) : R := sign (rsum (if vote_sgn then col else map sign col)).
Definition delta_filters (vote_sgn : bool) (col : list R) : list R :=
  map (fun x => if reqb (sign x) (elected vote_sgn col) then 1 else 0) col.
Definition param_counts (vote_sgn : bool) (col : list R) : R := rsum (delta_filters vote_sgn col).
Definition filtered_delta (vote_sgn : bool) (col : list R) : list R := map2 Rmult col (delta_filters vote_sgn col).
(** ties_sum, one element: 531 *)
Definition ties1 (fmax : R) (vote_sgn : bool) (col : list R) : R :=
  nan_to_num fmax (fdiv (rsum (filtered_delta vote_sgn col)) (param_counts vote_sgn col)).

(** 525-534; stacking no tensors raises *)
Definition ties_sum (f32 : R -> R) (fmax : R) (models : list vec) (k : R) (vote_sgn : bool) : result vec :=
  let* deltas := mapM (fun m => filter_top_k f32 m k) models in
  match deltas with [] => Err RuntimeError | _ => Ok (over0 (ties1 fmax vote_sgn) deltas) end.

(** ** geometric_median: __init__.py:753-786 *)
Definition weighted_average_tuple (points : list vec) (weights : list R) : vec :=
  over0 (fun col => rsum (map2 Rmult col weights) / rsum weights) points.
Definition geometric_median_objective (median : vec) (points : list vec) (weights : list R) : R :=
  mean (map2 Rmult (map (fun p => dist p median) points) weights).
(** the loop at 768-777: the weights it ends with *)
Fixpoint weiszfeld (iterations : nat) (models : list vec) (weights : list R) (eps ftol : R)
    (median : vec) (objective : R) (new_weights : list R) : list R :=
  match iterations with
  | O => new_weights
  | S n =>
    let denom := map (fun p => dist p median) models in
    let w := map2 (fun w d => w / Rmax d eps) weights denom in
    let median' := weighted_average_tuple models w in
    let objective' := geometric_median_objective median' models weights in
    if Rle_dec (Rabs (objective - objective')) (ftol * objective') then w
    else weiszfeld n models weights eps ftol median' objective' w
  end.
Definition geometric_median (models : list vec) (eps : R) (maxiter : Z) (ftol : R) : result vec :=
  match models with
  | [] => Err IndexError
  | _ =>
    let weights := map (fun _ => 1) models in
    let median := weighted_average_tuple models weights in
    Ok (weighted_average_tuple models
          (weiszfeld (Z.to_nat maxiter) models weights eps ftol median
             (geometric_median_objective median models weights) weights))
  end.
