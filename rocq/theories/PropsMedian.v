(** geometric_median against the sum of distances to its inputs (C88), in exact arithmetic. *)
From Coq Require Import Reals List Bool Arith ZArith Lia Lra.
From Verif Require Import Base ModelNum NumProofs SpecMedian MedianProofs.
Import ListNotations.
Open Scope list_scope.
Open Scope R_scope.

(** The sum of the distances from the result to the inputs is at most that of the average,
    plus half of [eps] per input, however many iterations are made; and more iterations never
    increase the smoothed sum. *)
Theorem C88_no_worse_than_average : forall n models eps maxiter maxiter' ftol,
  0 < eps -> models <> [] -> (forall v, In v models -> length v = n) -> (maxiter <= maxiter')%Z ->
  exists v v', geometric_median models eps maxiter ftol = Ok v /\ geometric_median models eps maxiter' ftol = Ok v' /\
    total_distance models v <= total_distance models (centre n models) + INR (length models) * (eps / 2) /\
    smoothed_total eps models v' <= smoothed_total eps models v <= smoothed_total eps models (centre n models).
Proof.
  intros n models eps k k' ftol E N S K.
  pose proof (start_centre n models N S) as C.
  set (w := fun k => weiszfeld (Z.to_nat k) models (ones models) eps ftol (weighted_average_tuple models (ones models))
                    (geometric_median_objective (weighted_average_tuple models (ones models)) models (ones models)) (ones models)).
  exists (weighted_average_tuple models (w k)), (weighted_average_tuple models (w k')).
  split; [destruct models; [congruence|reflexivity]|]. split; [destruct models; [congruence|reflexivity]|].
  assert (smoothed_total eps models (weighted_average_tuple models (w k)) <= smoothed_total eps models (centre n models)) as D.
  { rewrite <- C. unfold w. apply (loop_descends n); auto. }
  split; [|split; auto].
  - destruct (total_between models eps E (weighted_average_tuple models (w k))) as [A _].
    destruct (total_between models eps E (centre n models)) as [_ B].
    eapply Rle_trans; [exact A|]. eapply Rle_trans; [exact D|exact B].
  - unfold w. apply (loop_monotone n); auto. lia.
Qed.

(** Which tensor it is: without iterations the average; with one more iteration the average of the
    inputs weighted by one over their distance (at least [eps]) to the result before.  A negative
    tolerance switches early stopping off, except where all inputs are equal to the result. *)
Theorem C88_iterations : forall n models eps ftol,
  0 < eps -> models <> [] -> (forall v, In v models -> length v = n) -> ftol < 0 ->
  (forall maxiter, (maxiter <= 0)%Z -> geometric_median models eps maxiter ftol = Ok (centre n models)) /\
  forall maxiter, (0 <= maxiter)%Z -> exists v v',
    geometric_median models eps maxiter ftol = Ok v /\ geometric_median models eps (maxiter + 1) ftol = Ok v' /\
    (total_distance models v = 0 \/
     length v' = n /\ forall j, (j < n)%nat ->
       nth j v' 0 = rsum (map (fun p => nth j p 0 * (1 / Rmax (dist p v) eps)) models) / rsum (map (fun p => 1 / Rmax (dist p v) eps) models)).
Proof.
  intros n models eps ftol E N S F. pose proof (start_centre n models N S) as C.
  set (w := fun k => weiszfeld k models (ones models) eps ftol (weighted_average_tuple models (ones models))
                    (geometric_median_objective (weighted_average_tuple models (ones models)) models (ones models)) (ones models)).
  assert (forall k, geometric_median models eps k ftol = Ok (weighted_average_tuple models (w (Z.to_nat k)))) as G
    by (intros k; destruct models; [congruence|reflexivity]).
  split.
  - intros k K. rewrite G. replace (Z.to_nat k) with 0%nat by lia. unfold w. cbn [weiszfeld]. rewrite C. reflexivity.
  - intros k K. eexists _, _. split; [apply G|]. split; [apply G|].
    replace (Z.to_nat (k + 1)) with (Datatypes.S (Z.to_nat k)) by lia.
    destruct (early_stop n models eps N S (Z.to_nat k) ftol _ _ (ones models) F eq_refl eq_refl) as [X|X].
    + right.
      change (weighted_average_tuple models (w (Datatypes.S (Z.to_nat k))) = next models eps (weighted_average_tuple models (w (Z.to_nat k)))) in X.
      rewrite X. split; [apply next_length; auto|].
      intros j J. unfold next at 1. rewrite (wat_coord n) by auto. reflexivity.
    + left. change (geometric_median_objective (weighted_average_tuple models (w (Z.to_nat k))) models (ones models) = 0) in X.
      rewrite objective_total in X.
      assert (0 < INR (length models)) as P by (destruct models; [congruence|]; apply lt_0_INR; simpl; lia).
      apply Rmult_eq_reg_r with (/ INR (length models)); [rewrite Rmult_0_l; exact X|]. apply Rinv_neq_0_compat. lra.
Qed.

(** Once one more iteration, with early stopping switched off by a negative tolerance, does not
    change the result, no tensor at all has a smaller sum of distances, up to half of [eps] per input. *)
Theorem C88_standstill : forall n models eps maxiter ftol v x,
  0 < eps -> (forall v, In v models -> length v = n) -> (0 <= maxiter)%Z -> ftol < 0 ->
  geometric_median models eps maxiter ftol = Ok v -> geometric_median models eps (maxiter + 1) ftol = Ok v ->
  length x = n -> total_distance models v <= total_distance models x + INR (length models) * (eps / 2).
Proof.
  intros n models eps k ftol v x E S K F R1 R2 L.
  assert (models <> []) as N by (intros ->; discriminate).
  set (w := fun k => weiszfeld k models (ones models) eps ftol (weighted_average_tuple models (ones models))
                    (geometric_median_objective (weighted_average_tuple models (ones models)) models (ones models)) (ones models)).
  assert (v = weighted_average_tuple models (w (Z.to_nat k))) as V1.
  { destruct models; [congruence|]. injection R1 as <-. reflexivity. }
  assert (v = weighted_average_tuple models (w (Datatypes.S (Z.to_nat k)))) as V2.
  { replace (Datatypes.S (Z.to_nat k)) with (Z.to_nat (k + 1)) by lia. destruct models; [congruence|]. injection R2 as <-. reflexivity. }
  assert (length v = n) as LV by (rewrite V1; apply wat_length; auto).
  destruct (early_stop n models eps N S (Z.to_nat k) ftol _ _ (ones models) F eq_refl eq_refl) as [X|X].
  - change (weighted_average_tuple models (w (Datatypes.S (Z.to_nat k))) = next models eps (weighted_average_tuple models (w (Z.to_nat k)))) in X.
    rewrite <- V1, <- V2 in X.
    destruct (total_between models eps E v) as [A _]. destruct (total_between models eps E x) as [_ B].
    eapply Rle_trans; [exact A|]. eapply Rle_trans; [|exact B]. apply (standstill n); auto.
  - change (geometric_median_objective (weighted_average_tuple models (w (Z.to_nat k))) models (ones models) = 0) in X.
    rewrite <- V1, objective_total in X.
    assert (0 < INR (length models)) as P by (destruct models; [congruence|]; apply lt_0_INR; simpl; lia).
    assert (total_distance models v = 0) as ->.
    { apply Rmult_eq_reg_r with (/ INR (length models)); [rewrite Rmult_0_l; exact X|]. apply Rinv_neq_0_compat. lra. }
    pose proof (total_pos models x). assert (0 <= INR (length models) * (eps / 2)) by (apply Rmult_le_pos; lra). lra.
Qed.

(** ** the hypotheses are met *)

Lemma dist1 : forall a b, dist [a] [b] = Rabs (a - b).
Proof.
  intros. unfold dist, norm, dot, vsub. cbn [map2]. unfold rsum. cbn [fold_right].
  rewrite Rplus_0_r. apply sqrt_Rsqr_abs.
Qed.
Lemma avg1 : forall a b c u v w, weighted_average_tuple [[a]; [b]; [c]] [u; v; w] = [(a * u + b * v + c * w) / (u + v + w)].
Proof. intros. unfold weighted_average_tuple, over0. cbn. unfold rsum. cbn. f_equal. rewrite !Rplus_0_r, !Rplus_assoc. reflexivity. Qed.

(** one step on 0, 0 and 3 moves from the average 1 to 3/5, where the sum of distances is 18/5 instead of 4 *)
Example C88_case : geometric_median [[0]; [0]; [3]] 1 1%Z 0 = Ok [3 / 5] /\ total_distance [[0]; [0]; [3]] [3 / 5] = 18 / 5 /\ total_distance [[0]; [0]; [3]] (centre 1 [[0]; [0]; [3]]) = 4.
Proof.
  assert (centre 1 [[0]; [0]; [3]] = [1]) as ->.
  { unfold centre. cbn. unfold rsum. cbn. f_equal. lra. }
  assert (forall x, 0 <= x <= 3 -> total_distance [[0]; [0]; [3]] [x] = 3 + x) as T.
  { intros x X. unfold total_distance. cbn [map]. rewrite !dist1. unfold rsum. cbn [fold_right].
    rewrite (Rabs_left1 (0 - x)), (Rabs_pos_eq (3 - x)) by lra. lra. }
  split; [|rewrite !T by lra; lra].
  unfold geometric_median. cbn [map]. f_equal. change (Z.to_nat 1) with 1%nat. cbn [weiszfeld map map2].
  rewrite !avg1. replace ((0 * 1 + 0 * 1 + 3 * 1) / (1 + 1 + 1)) with 1 by lra.
  rewrite !dist1, (Rabs_left1 (0 - 1)), (Rabs_pos_eq (3 - 1)) by lra.
  rewrite (Rmax_right (- (0 - 1))), (Rmax_left (3 - 1)) by lra.
  destruct (Rle_dec _ _); rewrite avg1; f_equal; field.
Qed.

(** 0 and 2: the average 1 is a standstill *)
Example C88_case_standstill : geometric_median [[0]; [2]] 1 0 (-1) = Ok [1] /\ geometric_median [[0]; [2]] 1 (0 + 1) (-1) = Ok [1] /\ total_distance [[0]; [2]] [1] = 2.
Proof.
  assert (forall u v, weighted_average_tuple [[0]; [2]] [u; v] = [2 * v / (u + v)]) as A.
  { intros. unfold weighted_average_tuple, over0. cbn. unfold rsum. cbn. f_equal. f_equal; ring. }
  assert (2 * 1 / (1 + 1) = 1) as H1 by lra.
  split; [unfold geometric_median; cbn [map Z.to_nat weiszfeld]; rewrite A, H1; reflexivity|].
  split.
  - unfold geometric_median. f_equal. change (Z.to_nat (0 + 1)) with 1%nat. cbn [weiszfeld map map2].
    rewrite !A, !H1, !dist1, (Rabs_left1 (0 - 1)), (Rabs_pos_eq (2 - 1)) by lra.
    rewrite (Rmax_right (- (0 - 1))), (Rmax_right (2 - 1)) by lra.
    destruct (Rle_dec _ _); rewrite A; f_equal; field.
  - unfold total_distance. cbn [map]. rewrite !dist1. unfold rsum. cbn [fold_right].
    rewrite (Rabs_left1 (0 - 1)), (Rabs_pos_eq (2 - 1)) by lra. lra.
Qed.

Print Assumptions C88_no_worse_than_average.
Print Assumptions C88_iterations.
Print Assumptions C88_standstill.
