(** What a geometric median is measured by: the sum of the distances to the inputs, and the
    same sum with distances rounded off below [eps]. *)
From Coq Require Import Reals List.
From Verif Require Import ModelNum.
Import ListNotations.
Open Scope R_scope.

(** sum of the distances from [v] to the inputs *)
Definition total_distance (models : list vec) (v : vec) : R := rsum (map (fun p => dist p v) models).

(** a distance, rounded off to a parabola below [eps] *)
Definition smoothed (eps d : R) : R := if Rle_dec eps d then d else (d * d / eps + eps) / 2.
Definition smoothed_total (eps : R) (models : list vec) (v : vec) : R := rsum (map (fun p => smoothed eps (dist p v)) models).

(** the average of the inputs *)
Definition centre (n : nat) (models : list vec) : vec :=
  map (fun j => rsum (map (fun p => nth j p 0) models) / INR (length models)) (seq 0 n).
