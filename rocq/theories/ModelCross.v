(** Model of crossover: builtin/merge_methods/__init__.py:299-325, in exact real arithmetic.  The two
    Fourier transforms and the comparison of the halved tensors are arguments. *)
From Coq Require Import Reals List Bool Arith.
From Verif Require Import Base ModelNum ModelFilter.
Import ListNotations.
Open Scope list_scope.
Open Scope R_scope.

(** an entry of a complex tensor *)
Definition complex := (R * R)%type.
(** [+] of complex tensors: __init__.py:299-325 *)
Definition cadd (x y : complex) : complex := (fst x + fst y, snd x + snd y).
(** [*] of a complex and a real tensor: __init__.py:299-325 *)
Definition cscale (k : R) (x : complex) : complex := (k * fst x, k * snd x).
(** the number of entries of a shape *)
Definition numel (shape : list nat) : nat := fold_right Nat.mul 1%nat shape.
(** the shape of [torch.fft.rfftn(a, s=shape)]: half the last dimension *)
Fixpoint dft_shape (shape : list nat) : list nat :=
  match shape with [] => [] | [n] => [(n / 2 + 1)%nat] | n :: s => n :: dft_shape s end.
(** the indices of a shape, the last one running fastest *)
Fixpoint all_idx (shape : list nat) : list (list nat) :=
  match shape with [] => [[]] | n :: s => flat_map (fun i => map (cons i) (all_idx s)) (seq 0 n) end.
(** 324: [(1 - dft_filter)*a_dft + dft_filter*b_dft] *)
Definition mix (f : list R) (a b : list complex) : list complex :=
  map2 cadd (map2 cscale (map (fun x => 1 - x) f) a) (map2 cscale f b).
Definition crossover (close : vec -> vec -> bool) (rfftn : list nat -> vec -> list complex)
    (irfftn : list nat -> list complex -> vec) (shape : list nat) (a b : vec) (alpha tilt : R) : result vec :=
  if Req_EM_T alpha 0 then Ok a
  else if Req_EM_T alpha 1 then Ok b
  else if Req_EM_T tilt 1 then Ok (map2 (lerp alpha) a b)
  else if (length shape =? 0)%nat || close a b then Ok (map2 (lerp tilt) a b)
  else
    let* f := mapM (create_filter (dft_shape shape) alpha tilt) (all_idx (dft_shape shape)) in
    Ok (irfftn shape (mix f (rfftn shape a) (rfftn shape b))).
