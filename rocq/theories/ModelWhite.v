(** Model of select_max_white_delta and copy_distribution: builtin/merge_methods/__init__.py:260-274,
    477-481, in exact real arithmetic with infinities and NaN.  Tensors have one dimension (for others
    see ModelShape: most shapes raise) *)
From Coq Require Import Reals List Bool Arith.
From Verif Require Import Base ModelNum.
Import ListNotations.
Open Scope list_scope.
Open Scope R_scope.

(** ** torch arithmetic with infinities *)
Definition times_sign (x : ext) (up : bool) : ext :=
  match x with PosInf => if up then PosInf else NegInf | NegInf => if up then NegInf else PosInf | y => y end.
Definition xmul (x y : ext) : ext :=
  match x, y with
  | Fin u, Fin v => Fin (u * v)
  | NaN, _ | _, NaN => NaN
  | Fin u, i | i, Fin u => if Rlt_dec 0 u then times_sign i true else if Rlt_dec u 0 then times_sign i false else NaN
  | i, PosInf => i
  | i, NegInf => times_sign i false
  end.
Definition xadd (x y : ext) : ext :=
  match x, y with
  | Fin u, Fin v => Fin (u + v)
  | NaN, _ | _, NaN => NaN
  | PosInf, NegInf | NegInf, PosInf => NaN
  | Fin _, i | i, Fin _ => i
  | i, _ => i
  end.
Definition xabs (x : ext) : ext := match x with Fin u => Fin (Rabs u) | NegInf => PosInf | y => y end.
(** [x >= y]; false when one is NaN *)
Definition xge (x y : ext) : bool :=
  match x, y with
  | NaN, _ | _, NaN => false
  | Fin u, Fin v => rleb v u
  | PosInf, _ | _, NegInf => true
  | _, _ => false
  end.
(** the sum over [0 .. n-1] in a matrix product *)
Definition xsum (n : nat) (f : nat -> ext) : ext := fold_right (fun i s => xadd (f i) s) (Fin 0) (seq 0 n).
Definition rsum_to (n : nat) (f : nat -> R) : R := fold_right (fun i s => f i + s) 0 (seq 0 n).
(** [1 / v.sqrt()] *)
Definition inv_sqrt (v : R) : ext := if Rlt_dec v 0 then NaN else fdiv 1 (sqrt v).

(** ** select_max_white_delta: 260-274 *)

(** [a.std(correction=0)] *)
Definition std0 (a : vec) : R := sqrt (rsum (map (fun x => (x - mean a) * (x - mean a)) a) / INR (length a)).
(** element [i] of [(a - a.mean()) / a.std(correction=0)], when the deviation is not 0 *)
Definition normal (a : vec) (i : nat) : R := (nth i a 0 - mean a) / std0 a.

(** [d.cov(correction=0)] of [d = torch.stack((a_norm.flatten(), b_norm.flatten()), dim=-1)]: the rows
    of [d] are the variables, so there are as many variables as elements, observed twice *)
Definition cov2 (x y : nat -> R) (i j : nat) : R :=
  let m k := (x k + y k) / 2 in
  ((x i - m i) * (x j - m j) + (y i - m i) * (y j - m j)) / 2.

Section White.
  (** [torch.linalg.eigh(c)] of an [n] by [n] matrix: the eigenvalues, and the matrix of eigenvectors *)
  Variable eigh : nat -> (nat -> nat -> R) -> (nat -> R) * (nat -> nat -> R).

  (** 271-272: the matrix [w], and the rows of [(w @ d).T] *)
  Definition whitening (n : nat) (v : nat -> R) (vs : nat -> nat -> R) (i j : nat) : ext :=
    let vd k := xsum n (fun l => xmul (Fin (vs i l)) (if l =? k then inv_sqrt (v k) else Fin 0)) in
    xsum n (fun k => xmul (vd k) (Fin (vs j k))).
  Definition whitened (n : nat) (w : nat -> nat -> ext) (x : nat -> R) (i : nat) : ext :=
    xsum n (fun j => xmul (w i j) (Fin (x j))).

  (** a tensor without deviation becomes NaN, of which eigh raises; [alpha] is a number *)
  Definition select_max_white_delta (a b : vec) (alpha : R) : result vec :=
    let n := length a in
    if reqb (std0 a) 0 || reqb (std0 b) 0 then Err RuntimeError else
    let (v, vs) := eigh n (cov2 (normal a) (normal b)) in
    let w := whitening n v vs in
    Ok (map (fun i => if xge (xmul (Fin (1 - alpha)) (xabs (whitened n w (normal a) i)))
                             (xmul (Fin alpha) (xabs (whitened n w (normal b) i)))
                      then nth i a 0 else nth i b 0) (seq 0 n)).
End White.

(** ** copy_distribution: 477-481.  [noise]: what torch.randn_like draws *)
Definition copy_distribution (noise a : vec) : vec := map (fun g => g * std0 a + mean a) noise.
