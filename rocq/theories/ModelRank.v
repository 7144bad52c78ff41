(** Model of truncate_rank: builtin/merge_methods/__init__.py:789-803, and of torch_svd_lowrank and
    get_approximate_basis: builtin/merge_methods/svd.py:51-95, over any field (exact arithmetic).
    The factorisations of torch and the random draw are arguments. *)
From Coq Require Import ZArith.
From Verif Require Import Base ModelRegion.
From mathcomp Require Import all_ssreflect all_algebra.
Set Implicit Arguments.
Unset Strict Implicit.
Unset Printing Implicit Defensive.
Local Open Scope ring_scope.

(** 799: [min(max(round(max_rank * rank_ratio), 1), max_rank)] *)
Definition target_rank (A : arith) (max_rank : nat) (rank_ratio : num A) : nat :=
  let r := to_round A (mul A (of_Z A (Z.of_nat max_rank)) rank_ratio) in
  Z.to_nat (Z.min (Z.max r 1) (Z.of_nat max_rank)).

Arguments target_rank A max_rank rank_ratio : clear implicits.

Section Rank.
Variable F : fieldType.
(** [torch.linalg.qr(x).Q] of a matrix with at least as many rows as columns, which the code's matrices
    are after the assertion; [torch.linalg.svd(x, full_matrices=False)] of such a matrix;
    [torch.randn(n, q)] *)
Variable qr : forall m n, 'M[F]_(m, n) -> 'M[F]_(m, n).
Variable svd : forall m n, 'M[F]_(m, n) -> 'M[F]_(m, n) * 'rV[F]_n * 'M[F]_n.
Variable randn : forall m n, 'M[F]_(m, n).

(** svd.py:82-95; [m, n] are the dimensions of the argument, the number of iterations the default 2 *)
Definition basis_step m n q (A : 'M[F]_(m, n)) (Q : 'M[F]_(m, q)) : 'M[F]_(m, q) :=
  qr (A *m qr (A^T *m Q)).
Definition approximate_basis m n (A : 'M[F]_(m, n)) q : 'M[F]_(m, q) :=
  iter 2 (basis_step A) (qr (A *m randn n q)).

(** svd.py:51-79 with [full_matrices=False]; conjugation is the identity.  The three later
    assertions (73-75) hold for the shapes of the model: their conditions are [m == m], [q == q] and
    [q <= m], which the caller's [q] meets *)
Definition svd_lowrank m n (A : 'M[F]_(m, n)) q : result ('M[F]_(m, q) * 'rV[F]_q * 'M[F]_(q, n)) :=
  if (m < n)%N || (q < n)%N then
    let Q := approximate_basis A^T q in
    let '(U, s, Vh) := svd (A *m Q) in
    let V := Q *m Vh^T in
    Ok (U, s, V^T)
  else Err AssertionError.

(** a tensor of less than two dimensions, or one of more, as the matrix [a.flatten(start_dim=1)] *)
Inductive ranked := Low (v : list F) | Mat m n (A : 'M[F]_(m, n)).
(** 789-803 *)
Definition truncate_rank (Ar : arith) (a : ranked) (rank_ratio : num Ar) : result ranked :=
  match a with
  | Low v => Ok (Low v)
  | Mat m n A =>
    let max_rank := minn m n in
    let q := target_rank Ar max_rank rank_ratio in
    let* usv := svd_lowrank A q in
    let '(u, s, vt) := usv in
    Ok (Mat (u *m diag_mx s *m vt))
  end.
End Rank.
Arguments Low {F} v.
Arguments Mat {F m n} A.
