(** Model of orthogonal_procrustes and fractional_matrix_power: builtin/merge_methods/svd.py:6-39, in
    exact arithmetic over any ordered field.  The factorisations of torch and the random draw are
    arguments. *)
From Verif Require Import Base ModelRank.
From mathcomp Require Import all_ssreflect all_algebra.
Set Implicit Arguments.
Unset Strict Implicit.
Unset Printing Implicit Defensive.
Import GRing.Theory Num.Theory.
Local Open Scope ring_scope.

Section Procrustes.
Variable F : realFieldType.
(** [torch.linalg.svd(x)] of a square matrix *)
Variable svd_full : forall n, 'M[F]_n -> 'M[F]_n * 'rV[F]_n * 'M[F]_n.
(** those of ModelRank.v, for the wide case *)
Variable qr : forall m n, 'M[F]_(m, n) -> 'M[F]_(m, n).
Variable svd : forall m n, 'M[F]_(m, n) -> 'M[F]_(m, n) * 'rV[F]_n * 'M[F]_n.
Variable randn : forall m n, 'M[F]_(m, n).

(** [torch.slogdet(x)[0]] *)
Definition slogdet_sign n (x : 'M[F]_n) : F := Num.sg (\det x).
(** [u[:, -1] /= c] *)
Definition divide_last n (u : 'M[F]_n.+1) (c : F) : 'M[F]_n.+1 :=
  \matrix_(i, j) (if j == ord_max then u i j / c else u i j).
(** svd.py:6-20 for matrices of the same shape with at least one column *)
Definition orthogonal_procrustes m n (a b : 'M[F]_(m, n.+1)) (cancel_reflection : bool) : result 'M[F]_n.+1 :=
  if ~~ cancel_reflection && (m + 10 < n.+1)%N then
    let* usv := svd_lowrank qr svd randn (a^T *m b) (m + 10) in
    let '(u, _, v_t) := usv in
    Ok (u *m v_t)
  else
    let '(u, _, v_t) := svd_full (a^T *m b) in
    let u := if cancel_reflection then divide_last u (slogdet_sign u * slogdet_sign v_t) else u in
    Ok (u *m v_t).
End Procrustes.

Section Power.
Variable (F : fieldType) (E : Type).
(** [torch.linalg.eig]: eigenvalues and eigenvectors; [x ** p] of complex numbers *)
Variable eig : forall n, 'M[F]_n -> 'rV[F]_n * 'M[F]_n.
Variable pow : F -> E -> F.
(** svd.py:23-39 without a cache and before [.real] *)
Definition fractional_matrix_power n (matrix : 'M[F]_n) (power : E) : 'M[F]_n :=
  let '(eigenvalues, eigenvectors) := eig matrix in
  let eigenvectors_inv := invmx eigenvectors in
  eigenvectors *m diag_mx (map_mx (pow^~ power) eigenvalues) *m eigenvectors_inv.
End Power.
