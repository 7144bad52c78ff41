(** The Fourier transforms that crossover calls: [torch.fft.rfftn(a, s=a.shape)] and
    [torch.fft.irfftn(x, s=a.shape)] (builtin/merge_methods/__init__.py:319-325), by their definitions, in exact real
    arithmetic.  Tensors are flat lists, the last dimension running fastest. *)
From Coq Require Import Reals List Bool Arith.
From Verif Require Import Base ModelNum ModelFilter ModelCross.
Import ListNotations.
Open Scope list_scope.
Open Scope R_scope.

(** [sum(k[d] * j[d] / shape[d] for d in dims)] *)
Fixpoint phase (s k j : list nat) : R :=
  match s, k, j with
  | n :: s', p :: k', q :: j' => INR p * INR q / INR n + phase s' k' j'
  | _, _, _ => 0
  end.
Definition angle (s k j : list nat) : R := 2 * PI * phase s k j.

(** a frequency of a tensor: [sum(x[j] * exp(-i angle(k, j)) for j in indices)] *)
Definition frequency (s : list nat) (x : vec) (k : list nat) : complex :=
  (rsum (map (fun p => fst p * cos (angle s k (snd p))) (combine x (all_idx s))),
   - rsum (map (fun p => fst p * sin (angle s k (snd p))) (combine x (all_idx s)))).
(** rfftn: the frequencies up to half of the last dimension *)
Definition rfftn (s : list nat) (x : vec) : list complex := map (frequency s x) (all_idx (dft_shape s)).

(** how often a frequency of [rfftn] occurs among all of them: the conjugate of every frequency strictly between 0 and half
    of the last dimension is left out by [rfftn] and put back by [irfftn] *)
Fixpoint weight (s k : list nat) : R :=
  match s, k with
  | [n], [p] => if (p =? 0)%nat || (2 * p =? n)%nat then 1 else 2
  | _ :: s', _ :: k' => weight s' k'
  | _, _ => 1
  end.
(** irfftn: [sum(real(x[k] * exp(i angle(k, j)))) / numel] over all frequencies *)
Definition irfftn (s : list nat) (X : list complex) : vec :=
  map (fun j => rsum (map (fun p => weight s (snd p) * (fst (fst p) * cos (angle s (snd p) j) - snd (fst p) * sin (angle s (snd p) j)))
                          (combine X (all_idx (dft_shape s)))) / INR (numel s)) (all_idx s).
