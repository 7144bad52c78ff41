(** Model of rotate: builtin/merge_methods/__init__.py:382-448 on matrices with at least one row and one
    column, in exact arithmetic over an ordered field, without a cache.  math.isclose, round, the
    comparison of halves and the power of a matrix are arguments.  That the centring writes into the
    caller's tensors (409-412) is not modelled here; ModelHeap.v has such writes. *)
From Verif Require Import Base ModelRank ModelProcrustes.
From mathcomp Require Import all_ssreflect all_algebra.
Set Implicit Arguments.
Unset Strict Implicit.
Unset Printing Implicit Defensive.
Import GRing.Theory Num.Theory.
Local Open Scope ring_scope.

(** [a_dict]: a dict of tensors, of which the one for the key matters; or a tensor, as declared by
    [Parameter(Tensor)], which cannot be subscripted by a string
    (torch raises TypeError or IndexError, depending on the lengths; here TypeError stands for both) *)
Inductive operand (F : Type) m n := AsDict (A : 'M[F]_(m, n)) | AsTensor (A : 'M[F]_(m, n)).
Definition subscript F m n (x : operand F m n) : result 'M[F]_(m, n) :=
  match x with AsDict A => Ok A | AsTensor _ => Err TypeError end.

Section Rotate.
Variable F : realFieldType.
Variable svd_full : forall n, 'M[F]_n -> 'M[F]_n * 'rV[F]_n * 'M[F]_n.
Variable qr : forall m n, 'M[F]_(m, n) -> 'M[F]_(m, n).
Variable svd : forall m n, 'M[F]_(m, n) -> 'M[F]_(m, n) * 'rV[F]_n * 'M[F]_n.
Variable randn : forall m n, 'M[F]_(m, n).
Variable isclose : F -> F -> bool.
Variable round : F -> nat.
Variable allclose_half : forall m n, 'M[F]_(m, n) -> 'M[F]_(m, n) -> bool.
Variable power : forall n, 'M[F]_n -> F -> 'M[F]_n.

(** [x.mean(0)] *)
Definition centroid m n (x : 'M[F]_(m.+1, n)) : 'rV[F]_n := \row_j ((\sum_i x i j) / m.+1%:R).
(** a row under each row *)
Definition spread m n (r : 'rV[F]_n) : 'M[F]_(m, n) := \matrix_(i, j) r 0 j.

(** __init__.py:382-448 rotate *)
Definition rotate m n (a_dict b_dict : operand F m.+1 n.+1) (alignment alpha : F) : result 'M[F]_(m.+1, n.+1) :=
  if isclose alignment 0 && isclose alpha 0 then subscript a_dict
  else if isclose alignment 1 && isclose alpha 1 then subscript b_dict
  else
    let* a := subscript a_dict in
    let* b := subscript b_dict in
    if allclose_half a b then Ok ((1 - alpha) *: a + alpha *: b)
    else
      let a_centroid := centroid a in
      let b_centroid := centroid b in
      let a_neurons := a - spread _ a_centroid in
      let b_neurons := b - spread _ b_centroid in
      let alignment_is_float := isclose alignment (round alignment)%:R in
      let* rotation := orthogonal_procrustes svd_full qr svd randn a_neurons b_neurons alignment_is_float in
      let transform :=
        if alignment_is_float then power rotation alignment
        else if isclose alignment 0 then 1%:M
        else if ~~ isclose alignment 1 then iter (round alignment) (mulmx rotation) 1%:M
        else rotation in
      let a_neurons := if isclose alpha 0 then a_neurons else (1 - alpha) *: a_neurons + alpha *: b_neurons *m rotation^T in
      Ok (a_neurons *m transform + spread _ ((1 - alignment) *: a_centroid + alignment *: b_centroid)).
End Rotate.
