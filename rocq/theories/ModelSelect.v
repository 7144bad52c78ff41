(** Model of top_k_tensor_sum, select_max_delta, add_cosine_a, add_cosine_b, geometric_sum and
    multiply_quotient: builtin/merge_methods/__init__.py:100-139, 163-193, 249-257, 277-296, in exact
    real arithmetic with the conventions of [ModelNum]. *)
From Coq Require Import Reals List Bool Arith ZArith.
From Verif Require Import Base ModelNum ModelFilter ModelModes ModelRegion.
Import ListNotations.
Open Scope list_scope.
Open Scope R_scope.

(** ** top_k_tensor_sum: 163-186 *)

(** [torch.argsort(l, stable=True)]: the places of [l] in the order of their values, places of equal
    values in their own order.  The second argsort (174) has no equal values, so that its order
    does not depend on [stable]. *)
Fixpoint insert_by {A} (le : A -> A -> bool) (x : A * nat) (l : list (A * nat)) : list (A * nat) :=
  match l with [] => [x] | y :: l' => if le (fst x) (fst y) then x :: l else y :: insert_by le x l' end.
Definition argsort {A} (le : A -> A -> bool) (l : list A) : list nat :=
  map snd (fold_right (insert_by le) [] (combine l (seq 0 (length l)))).
(** [torch.gather(x, 0, indices)] *)
Definition gather {A} (d : A) (x : list A) (indices : list nat) : list A := map (fun i => nth i x d) indices.
(** kth_abs_value: 189-193 *)
Definition kth_abs_value (f32 : R -> R) (a : vec) (k : Z) : result R :=
  if (k <=? 0)%Z then Ok (-1) else kthvalue (map (fun x => f32 (Rabs x)) a) k.
Definition top_k_tensor_sum (A : arith) (f32 : R -> R) (a b : vec) (width offset : num A) : result vec :=
  let a_dist := sort_asc a in
  let b_indices := argsort rleb b in
  let redist_indices := argsort Nat.leb b_indices in
  match ratio_to_region A width offset (Z.of_nat (length a)) with
  | (start_i, end_i, inverted) =>
    let* start_top_k := kth_abs_value f32 a_dist start_i in
    let* end_top_k := kth_abs_value f32 a_dist end_i in
    let mask := map (fun x => xorb inverted (rleb start_top_k (Rabs x) && rleb (Rabs x) end_top_k)) a_dist in
    let mask := gather 0 (map b2r mask) redist_indices in
    let a_redist := gather 0 a_dist redist_indices in
    Ok (map2 (fun m xy => (1 - m) * fst xy + m * snd xy) mask (combine a a_redist))
  end.

(** ** select_max_delta: 249-257 *)

(** [((a - a.mean()) / a.std()).nan_to_num(nan=0).abs()]; the standard deviation of one element is
    NaN (a division of 0 by 0), and so is the quotient *)
Definition std (a : vec) : R := sqrt (rsum (map (fun x => (x - mean a) * (x - mean a)) a) / INR (length a - 1)).
Definition deviation (fmax : R) (a : vec) (x : R) : R :=
  if (length a <=? 1)%nat then 0 else Rabs (nan_to_num fmax (fdiv (x - mean a) (std a))).
Definition select_max_delta (fmax : R) (a b alpha : vec) : vec :=
  map2 (fun t xy => if rleb (t * deviation fmax b (snd xy)) ((1 - t) * deviation fmax a (fst xy)) then fst xy else snd xy)
    (bcast (length a) alpha) (combine a b).

(** ** add_cosine_a, add_cosine_b: 112-139.  A tensor of [r] rows (dimension 0) of [c] elements is the
    list of its rows, one after the other; [alpha] is a number. *)
Definition col (r c j : nat) (v : vec) : vec := map (fun i => nth (i * c + j) v 0) (seq 0 r).
(** 137-139, one element; clamp and the sum keep NaN *)
Definition cosine_blend (similarity : ext) (alpha x y : R) : ext :=
  match similarity with
  | Fin s => Fin (lerp (1 - clip01 (s - alpha)) x y)
  | PosInf => Fin (lerp 0 x y)
  | NegInf => Fin (lerp 1 x y)
  | NaN => NaN
  end.
Definition add_cosine_generic (r c : nat) (a b : vec) (alpha : R) (similarity : nat -> ext) : list ext :=
  map (fun p => cosine_blend (similarity (p mod c)) alpha (nth p a 0) (nth p b 0)) (seq 0 (r * c)).
(** torch.nn.functional.normalize(v, dim=0) of one column; its smallest divisor is 1e-12 and that of
    cosine_similarity 1e-8 *)
Definition normalized (v : vec) : vec := map (fun x => x / Rmax (norm v) (/ 10 ^ 12)) v.
Definition add_cosine_a (r c : nat) (a b : vec) (alpha : R) : list ext :=
  add_cosine_generic r c a b alpha
    (fun j => Fin (cosine (/ 10 ^ 8) (normalized (col r c j a)) (normalized (col r c j b)))).
Definition add_cosine_b (r c : nat) (a b : vec) (alpha : R) : list ext :=
  add_cosine_generic r c a b alpha
    (fun j => match fdiv (dot a b) (norm a * norm b) with
              | Fin m => Fin ((cosine (/ 10 ^ 8) (col r c j a) (col r c j b) + m) / 2)
              | e => e
              end).

(** ** geometric_sum: 100-109, one element that is not zero *)

(** complex numbers, and the power of a complex number without imaginary part to a real exponent: the
    argument of a negative number is pi *)
Definition cmul (x y : R * R) : R * R := (fst x * fst y - snd x * snd y, fst x * snd y + snd x * fst y).
Definition cpow (x w : R) : R * R :=
  if Rlt_dec 0 x then (Rpower x w, 0) else (Rpower (- x) w * cos (PI * w), Rpower (- x) w * sin (PI * w)).
Definition geometric_sum1 (a b alpha : R) : R := fst (cmul (cpow a (1 - alpha)) (cpow b alpha)).

(** ** multiply_quotient: 277-296 *)

(** 284-296, one element, none of [a], [b], [c] zero: no NaN occurs past nan_to_num *)
Definition multiply_quotient1 (fmax a b c alpha : R) : R :=
  let ac := ln (Rabs a) - ln (Rabs c) in
  let bc := ln (Rabs b) - ln (Rabs c) in
  let threshold := Rmax (Rabs ac) (Rabs bc) in
  let alpha := alpha * Rmax (- nan_to_num fmax (fdiv (ac * bc) (threshold * threshold))) 0 in
  fst (cmul (a, 0) (cpow (b / c) alpha)).
(** a tensor without dimensions, or one with the dimensions of the others *)
Inductive alpha_arg := Scalar (x : R) | Elements (v : vec).
(** 291: [alpha *= t] writes into [alpha]: a tensor without dimensions cannot hold the product when [t]
    has dimensions ([scalars] says that a, b and c have none) *)
Definition multiply_quotient (fmax : R) (scalars : bool) (a b c : vec) (alpha : alpha_arg) : result vec :=
  let elements alpha := map2 (fun t xyz => multiply_quotient1 fmax (fst (fst xyz)) (snd (fst xyz)) (snd xyz) t)
                          alpha (combine (combine a b) c) in
  match alpha with
  | Scalar t => if scalars then Ok (elements [t]) else Err RuntimeError
  | Elements v => Ok (elements v)
  end.
