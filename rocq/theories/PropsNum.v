(** Properties of averages, perpendicular components, masks and clamping (C47, C52, C53, C55),
    in exact arithmetic. *)
From Coq Require Import Reals List Bool Arith ZArith Lia Lra Psatz Permutation.
From Verif Require Import Base ModelNum NumProofs.
Import ListNotations.
Open Scope list_scope.
Open Scope R_scope.

(** element [j] of a tensor *)
Notation at_ v j := (nth j v 0).

(** all inputs are tensors of [n] elements *)
Definition shaped (n : nat) (models : list vec) : Prop := forall v, In v models -> length v = n.

(** every element lies between the corresponding elements of two inputs *)
Definition in_hull (v : vec) (models : list vec) : Prop :=
  forall j, (j < length v)%nat -> exists lo hi, In lo models /\ In hi models /\ at_ lo j <= at_ v j <= at_ hi j.

(** ** C53 *)
Lemma over0_hull : forall f n models, models <> [] -> shaped n models ->
  (forall col lo hi, length col = length models -> (forall x, In x col -> lo <= x <= hi) -> lo <= f col <= hi) ->
  length (over0 f models) = n /\ in_hull (over0 f models) models.
Proof.
  intros f n [|m ms] N S B; [congruence|].
  assert (length m = n) as L by (apply S; left; auto).
  split; [rewrite over0_length; auto|].
  intros j J. rewrite over0_length in J. destruct (column_range (m :: ms) j N) as (lo & hi & I1 & I2 & H).
  exists lo, hi. repeat split; auto; rewrite over0_nth by auto;
    apply (B _ (at_ lo j) (at_ hi j)); auto; unfold column; rewrite map_length; auto.
Qed.

Lemma all_eq_over0 : forall f c models, models <> [] -> (forall v, In v models -> v = c) ->
  (forall col x, length col = length models -> (forall y, In y col -> y = x) -> f col = x) -> over0 f models = c.
Proof.
  intros f c [|m ms] N E H; [congruence|]. assert (m = c) by (apply E; left; auto). subst m.
  apply nth_ext0; [apply over0_length|]. intros j J. rewrite over0_length in J. rewrite over0_nth by auto.
  apply H; [unfold column; rewrite map_length; auto|].
  intros y Hy. apply column_hull in Hy as (v & I & ->). rewrite (E v); auto.
Qed.

Theorem C53_n_average : forall n models, models <> [] -> shaped n models ->
  exists v, n_average models = Ok v /\ length v = n /\ in_hull v models /\
    (forall j, (j < n)%nat -> INR (length models) * at_ v j = rsum (map (fun m => at_ m j) models)) /\
    (forall models', Permutation models models' -> n_average models' = Ok v) /\
    (forall c, (forall m, In m models -> m = c) -> v = c).
Proof.
  intros n models N S. exists (over0 mean models).
  destruct (over0_hull mean n models N S) as [L H].
  { intros col lo hi LC B. apply mean_bounds; auto. destruct models, col; simpl in *; congruence. }
  split; [destruct models; [congruence|reflexivity]|]. split; auto. split; auto.
  assert (forall j, (j < n)%nat -> at_ (over0 mean models) j = mean (column j models)) as E.
  { intros j J. destruct models as [|m ms]; [congruence|]. apply over0_nth. rewrite (S m) by (left; auto). auto. }
  split; [|split].
  - intros j J. rewrite E by auto. unfold mean, column. rewrite map_length.
    assert (INR (length models) <> 0) by (apply not_0_INR; destruct models; simpl; congruence).
    unfold Rdiv. rewrite (Rmult_comm (rsum _)), <- Rmult_assoc, Rinv_r, Rmult_1_l by auto. reflexivity.
  - intros models' P. assert (models' <> []) as N'.
    { intros ->. apply Permutation_sym, Permutation_nil in P. auto. }
    assert (shaped n models') as S' by (intros v I; apply S; eapply Permutation_in; [apply Permutation_sym|]; eauto).
    destruct models' as [|m' ms']; [congruence|]. unfold n_average. f_equal.
    assert (length m' = n) as L' by (apply S'; left; auto).
    apply nth_ext0; [rewrite over0_length; congruence|].
    intros j J. rewrite over0_length in J. rewrite over0_nth, E by congruence.
    unfold mean. f_equal; [|unfold column; rewrite !map_length; f_equal; symmetry; apply Permutation_length; exact P].
    apply rsum_perm, Permutation_map, Permutation_sym; auto.
  - intros c A. apply all_eq_over0; auto. intros col x LC Hc. unfold mean. rewrite (rsum_const x) by auto.
    assert (INR (length col) <> 0) by (rewrite LC; apply not_0_INR; destruct models; simpl; congruence).
    field; auto.
Qed.

(** [alpha] has the shape of the tensors or one element; [weight j] is its value at [j] *)
Theorem C53_weighted_sum : forall a b alpha, length a = length b ->
  (length alpha = length a \/ length alpha = 1%nat) ->
  let weight j := at_ (bcast (length a) alpha) j in
  let v := weighted_sum a b alpha in
  length v = length a /\
  ((forall t, In t alpha -> 0 <= t <= 1) -> in_hull v [a; b]) /\
  (* exactly the interpolation, unless all weights are within torch.allclose of 0 or of 1 *)
  (forall j, (j < length a)%nat ->
     Rabs (at_ v j - ((1 - weight j) * at_ a j + weight j * at_ b j)) <= (1001 / 100000000) * Rabs (at_ b j - at_ a j)) /\
  ((exists t, In t alpha /\ 1001 / 100000000 < Rabs t /\ 1001 / 100000000 < Rabs (t - 1)) ->
     forall j, (j < length a)%nat -> at_ v j = (1 - weight j) * at_ a j + weight j * at_ b j) /\
  ((forall t, In t alpha -> t = 0) -> v = a) /\
  ((forall t, In t alpha -> t = 1) -> v = b) /\
  (a = b -> v = a).
Proof.
  intros a b alpha L La weight v.
  assert (forall j, (j < length a)%nat -> In (weight j) alpha) as W by (intros; apply bcast_nth; auto).
  assert (length v = length a) as Lv.
  { unfold v, weighted_sum. destruct (allclose alpha 0); auto. destruct (allclose alpha 1); [auto|].
    apply ws_impl_length; auto. }
  split; auto. split; [|split; [|split; [|split; [|split]]]].
  - intros B j J. rewrite Lv in J. unfold v, weighted_sum.
    destruct (allclose alpha 0). { exists a, a. simpl; repeat split; auto; lra. }
    destruct (allclose alpha 1). { exists b, b. simpl; repeat split; auto; lra. }
    rewrite ws_impl_nth by auto.
    destruct (lerp_between (weight j) (at_ a j) (at_ b j)) as [H1 H2]; [apply B; auto|].
    unfold Rmin, Rmax in H1, H2. destruct (Rle_dec (at_ a j) (at_ b j)).
    + exists a, b. simpl; auto.
    + exists b, a. simpl; auto.
  - intros j J. unfold v, weighted_sum. specialize (W j J).
    destruct (allclose alpha 0) eqn:A0.
    + apply (allclose_In _ _ _ A0) in W. rewrite Rabs_R0, Rminus_0_r in W.
      replace (_ - _) with (- weight j * (at_ b j - at_ a j)) by ring.
      rewrite Rabs_mult, Rabs_Ropp. apply Rmult_le_compat_r; [apply Rabs_pos|]. fold (weight j) in W. lra.
    + destruct (allclose alpha 1) eqn:A1.
      * apply (allclose_In _ _ _ A1) in W. rewrite Rabs_R1 in W.
        replace (_ - _) with (- (weight j - 1) * (at_ b j - at_ a j)) by ring.
        rewrite Rabs_mult, Rabs_Ropp. apply Rmult_le_compat_r; [apply Rabs_pos|]. lra.
      * rewrite ws_impl_nth by auto. unfold lerp, weight. rewrite Rminus_eq_0, Rabs_R0.
        apply Rmult_le_pos; [lra|apply Rabs_pos].
  - intros (t & I & T0 & T1) j J. unfold v, weighted_sum.
    destruct (allclose alpha 0) eqn:A0.
    { apply (allclose_In _ _ _ A0) in I. rewrite Rabs_R0, Rminus_0_r in I. lra. }
    destruct (allclose alpha 1) eqn:A1.
    { apply (allclose_In _ _ _ A1) in I. rewrite Rabs_R1 in I. lra. }
    rewrite ws_impl_nth by auto. reflexivity.
  - intros Z. unfold v, weighted_sum. replace (allclose alpha 0) with true; auto.
    symmetry. apply forallb_forall. intros x I. apply rleb_true. rewrite (Z x I), Rminus_0_r, Rabs_R0. lra.
  - intros O. unfold v, weighted_sum. destruct (allclose alpha 0) eqn:A0.
    + destruct alpha as [|t l].
      * destruct a, b; simpl in *; auto; try lia.
      * apply (allclose_In _ _ t) in A0; [|left; auto]. rewrite (O t) in A0 by (left; auto).
        rewrite Rabs_R0, Rminus_0_r, Rabs_R1 in A0. lra.
    + replace (allclose alpha 1) with true; auto.
      symmetry. apply forallb_forall. intros x I. apply rleb_true. rewrite (O x I), Rminus_eq_0, Rabs_R0, Rabs_R1. lra.
  - intros <-. unfold v, weighted_sum. destruct (allclose alpha 0); auto. destruct (allclose alpha 1); auto.
    apply nth_ext0; [apply ws_impl_length; auto|]. intros j J. rewrite ws_impl_length in J by auto.
    rewrite ws_impl_nth by auto. unfold lerp. ring.
Qed.

Theorem C53_geometric_median : forall n models eps maxiter ftol, 0 < eps -> models <> [] -> shaped n models ->
  exists v, geometric_median models eps maxiter ftol = Ok v /\ length v = n /\ in_hull v models /\
    (forall c, (forall m, In m models -> m = c) -> v = c).
Proof.
  intros n models eps maxiter ftol E N S.
  set (ones := map (fun _ : vec => 1) models).
  assert (length ones = length models) as L1 by (unfold ones; rewrite map_length; auto).
  assert (forall w, In w ones -> 0 < w) as P1 by (intros w I; apply in_map_iff in I as (? & ? & ?); lra).
  set (med := weighted_average_tuple models ones).
  destruct (weiszfeld_weights (Z.to_nat maxiter) models ones eps ftol med (geometric_median_objective med models ones) ones E L1 P1 L1 P1) as [L P].
  set (ws := weiszfeld _ _ _ _ _ _ _ _) in *.
  assert (ws <> []) as NW by (destruct models, ws; simpl in *; congruence).
  exists (weighted_average_tuple models ws).
  split; [destruct models; [congruence|reflexivity]|].
  destruct (over0_hull (fun col => rsum (map2 Rmult col ws) / rsum ws) n models N S) as [A B].
  { intros col lo hi LC H. apply wavg_bounds; auto. congruence. }
  split; auto. split; auto.
  intros c A'. apply all_eq_over0; auto. intros col x LC Hc.
  assert (x <= rsum (map2 Rmult col ws) / rsum ws <= x); [|lra].
  apply wavg_bounds; auto; [congruence|]. intros y Hy. rewrite (Hc y Hy). lra.
Qed.

(** the hypotheses are met; the average of two different tensors *)
Example C53_case : shaped 2 [[1; 4]; [3; 8]] /\ n_average [[1; 4]; [3; 8]] = Ok [2; 6].
Proof.
  split; [intros v [<-|[<-|[]]]; auto|]. unfold n_average, over0, mean, rsum. simpl. repeat f_equal; lra.
Qed.
Example C53_case_weighted : weighted_sum [0; 10] [4; 20] [1/2] = [2; 15].
Proof.
  unfold weighted_sum, allclose. simpl.
  replace (rleb (Rabs (1 / 2 - 0)) _) with false.
  2:{ symmetry; apply rleb_false. rewrite Rabs_R0, Rminus_0_r, Rabs_pos_eq; lra. }
  simpl. replace (rleb (Rabs (1 / 2 - 1)) _) with false.
  2:{ symmetry; apply rleb_false. rewrite Rabs_R1, Rabs_left; lra. }
  simpl. unfold weighted_sum_impl, lerp. simpl. repeat f_equal; lra.
Qed.

(** ** C52 *)
Lemma dot_self : forall a, 0 <= dot a a.
Proof.
  induction a; unfold dot in *; simpl; [unfold rsum; simpl; lra|]. rewrite rsum_cons. pose proof (Rle_0_sqr a). unfold Rsqr in *. lra.
Qed.
Lemma dot_zero : forall a, dot a a = 0 -> forall x, In x a -> x = 0.
Proof.
  induction a; intros H x I; [destruct I|]. unfold dot in *; simpl in H. rewrite rsum_cons in H.
  pose proof (dot_self a0) as D. unfold dot in D. pose proof (Rle_0_sqr a) as Q; unfold Rsqr in Q.
  destruct I as [<-|I].
  - apply Rsqr_0_uniq. unfold Rsqr. lra.
  - apply IHa; auto. lra.
Qed.
Lemma norm_zero : forall a, norm a = 0 <-> forall x, In x a -> x = 0.
Proof.
  intros a. unfold norm. split.
  - intros H. apply dot_zero. apply sqrt_eq_0 in H; auto using dot_self.
  - intros H. replace (dot a a) with 0; [apply sqrt_0|]. induction a; [reflexivity|].
    unfold dot in *. simpl. rewrite rsum_cons, <- IHa by auto using in_cons. rewrite (H a) by auto using in_eq. lra.
Qed.
Lemma norm_sqr : forall a, norm a * norm a = dot a a.
Proof. intros. apply sqrt_sqrt, dot_self. Qed.

Lemma dot_scaled : forall n a b, n <> 0 -> rsum (map2 (fun u v => (u / n) * (v / n)) a b) = dot a b / (n * n).
Proof.
  unfold dot. induction a; destruct b; simpl; intros; try (unfold rsum; simpl; unfold Rdiv; lra).
  rewrite !rsum_cons, IHa by auto. field; auto.
Qed.
Lemma dot_combination : forall k a b, length a = length b -> dot a (map2 (fun x y => y - x * k) a b) = dot a b - k * dot a a.
Proof.
  unfold dot. induction a; destruct b; simpl; intros; try discriminate; [unfold rsum; simpl; lra|].
  rewrite !rsum_cons, IHa by auto. ring.
Qed.

Theorem C52_perpendicular : forall a b, length a = length b ->
  let p := perpendicular_component a b in
  length p = length a /\
  dot a p = 0 /\
  ((exists x, In x a /\ x <> 0) -> exists k, forall j, (j < length a)%nat -> at_ p j = at_ b j - k * at_ a j) /\
  ((forall x, In x a -> x = 0) -> forall x, In x p -> x = 0).
Proof.
  intros a b L p. unfold p, perpendicular_component. destruct (reqb (norm a) 0) eqn:E.
  - apply reqb_true in E. assert (forall x, In x a -> x = 0) as Z by (apply norm_zero; auto).
    split; [apply map_length|]. split; [|split].
    + clear - Z. unfold dot. induction a; simpl; [reflexivity|]. rewrite rsum_cons, IHa by auto using in_cons. ring.
    + intros (x & I & N). elim N; auto.
    + intros _ x I. apply in_map_iff in I as (? & ? & ?); auto.
  - apply reqb_false in E. rewrite dot_scaled by auto. set (k := dot a b / _).
    split; [apply map2_length; auto|]. split; [|split].
    + rewrite dot_combination by auto. unfold k. rewrite norm_sqr. field. rewrite <- norm_sqr. apply Rmult_integral_contrapositive; auto.
    + intros _. exists k. intros j J. rewrite (map2_nth _ _ _ _ _ _ j 0 0 0) by auto. ring.
    + intros Z. elim E. apply norm_zero; auto.
Qed.

Example C52_case : perpendicular_component [2; 0] [3; 5] = [0; 5].
Proof.
  unfold perpendicular_component. assert (norm [2; 0] = 2) as ->.
  { unfold norm, dot, rsum; simpl. replace (2 * 2 + (0 * 0 + 0)) with (2 * 2) by ring. apply sqrt_square; lra. }
  replace (reqb 2 0) with false by (symmetry; apply reqb_false; lra).
  unfold rsum; simpl. repeat f_equal; field.
Qed.

(** ** C55 *)
Lemma fdiv_ok : forall f x y, y <> 0 -> nan_to_num f (fdiv x y) = x / y.
Proof. intros; unfold fdiv; destruct (Req_EM_T y 0); [contradiction|reflexivity]. Qed.
Lemma fdiv_00 : forall f y, y = 0 -> nan_to_num f (fdiv 0 y) = 0.
Proof.
  intros; unfold fdiv. destruct (Req_EM_T y 0); [|contradiction].
  destruct (Rlt_dec 0 0); [lra|reflexivity].
Qed.
Lemma ratio_01 : forall x y, 0 <= x -> 0 <= y -> x + y <> 0 -> 0 <= x / (x + y) <= 1.
Proof.
  intros. assert (0 < x + y) by lra. split.
  - apply Rmult_le_pos; auto. left; apply Rinv_0_lt_compat; auto.
  - apply Rmult_le_reg_r with (x + y); auto. unfold Rdiv. rewrite Rmult_assoc, Rinv_l by lra. lra.
Qed.
Lemma mask_ratio : forall f x y, 0 <= x -> 0 <= y ->
  let r := nan_to_num f (fdiv x (x + y)) in
  0 <= r <= 1 /\ (x + y <> 0 -> r * (x + y) = x) /\ (x = 0 -> y = 0 -> r = 0).
Proof.
  intros f x y X Y r. unfold r. destruct (Req_dec (x + y) 0) as [Z|Z].
  - assert (x = 0) by lra. assert (y = 0) by lra. subst. rewrite fdiv_00 by auto. repeat split; try lra; intros; lra.
  - rewrite fdiv_ok by auto. split; [apply ratio_01; auto|]. split; intros.
    + field; auto.
    + subst. lra.
Qed.

(** [train_difference_mask]: how far b is from a, relative to how far it is from a and c *)
Theorem C55_train_difference_mask : forall fmax a b c alpha, 0 <= alpha ->
  let m := train_difference_mask fmax a b c alpha in
  0 <= m <= 18 / 10 * alpha /\
  m * (Rabs (b - a) + Rabs (b - c)) = 18 / 10 * alpha * Rabs (b - a) /\
  (a = b -> b = c -> m = 0).
Proof.
  intros. unfold m, train_difference_mask.
  destruct (mask_ratio fmax (Rabs (b - a)) (Rabs (b - c)) (Rabs_pos _) (Rabs_pos _)) as (B & F & Z).
  set (r := nan_to_num _ _) in *. split; [|split].
  - assert (0 <= alpha * r) by (apply Rmult_le_pos; lra).
    assert (alpha * r <= alpha * 1) by (apply Rmult_le_compat_l; lra). lra.
  - destruct (Req_dec (Rabs (b - a) + Rabs (b - c)) 0) as [E|E].
    + rewrite E. assert (Rabs (b - a) = 0) as ->; [|ring].
      pose proof (Rabs_pos (b - a)); pose proof (Rabs_pos (b - c)). lra.
    + rewrite <- (F E) at 2. ring.
  - intros -> ->. rewrite Z; [ring| |]; rewrite Rminus_eq_0; apply Rabs_R0.
Qed.

Theorem C55_add_opposite_mask : forall fmax a b c alpha, 0 <= alpha ->
  let m := add_opposite_mask fmax a b c alpha in
  0 <= m <= 2 * alpha /\
  m * (Rabs (a - b) + Rabs ((a - c) + (b - c))) = 2 * alpha * Rabs (a - b) /\
  (a = b -> b = c -> m = 0).
Proof.
  intros. unfold m, add_opposite_mask.
  replace (a + b - 2 * c) with (a - c + (b - c)) by ring.
  destruct (mask_ratio fmax (Rabs (a - b)) (Rabs (a - c + (b - c))) (Rabs_pos _) (Rabs_pos _)) as (B & F & Z).
  set (r := nan_to_num _ _) in *. split; [|split].
  - assert (0 <= alpha * r) by (apply Rmult_le_pos; lra).
    assert (alpha * r <= alpha * 1) by (apply Rmult_le_compat_l; lra). lra.
  - destruct (Req_dec (Rabs (a - b) + Rabs (a - c + (b - c))) 0) as [E|E].
    + rewrite E. assert (Rabs (a - b) = 0) as ->; [|ring].
      pose proof (Rabs_pos (a - b)); pose proof (Rabs_pos (a - c + (b - c))). lra.
    + rewrite <- (F E) at 2. ring.
  - intros -> ->. rewrite Z; [ring| |].
    + rewrite Rminus_eq_0. apply Rabs_R0.
    + rewrite Rminus_eq_0, Rplus_0_r. apply Rabs_R0.
Qed.

(** zero unless the changes a - c and b - c have opposite signs, then the ratio of the smaller to the larger *)
Theorem C55_add_strict_opposite_mask : forall fmax a b c alpha, 0 <= alpha ->
  let m := add_strict_opposite_mask fmax a b c alpha in
  0 <= m <= 2 * alpha /\
  (0 <= (a - c) * (b - c) -> m = 0) /\
  ((a - c) * (b - c) < 0 ->
     m * Rmax (Rabs (a - c)) (Rabs (b - c)) = 2 * alpha * Rmin (Rabs (a - c)) (Rabs (b - c))).
Proof.
  intros fmax a b c alpha A m. unfold m, add_strict_opposite_mask.
  replace ((c - a) * (b - c)) with (- ((a - c) * (b - c))) by ring.
  set (x := a - c). set (y := b - c).
  set (t := Rmax (Rabs x) (Rabs y)).
  destruct (Rle_dec 0 (x * y)) as [P|P].
  - assert (nan_to_num fmax (fdiv (- (x * y)) (t * t)) <= 0) as H.
    { unfold fdiv. destruct (Req_EM_T (t * t) 0) as [E|E].
      - destruct (Rlt_dec 0 (- (x * y))); [lra|].
        destruct (Rlt_dec (- (x * y)) 0) as [N|N]; simpl; [|lra].
        exfalso. assert (t = 0) as T0 by (apply Rmult_integral in E; tauto).
        assert (Rabs x <= 0) by (rewrite <- T0; apply Rmax_l). pose proof (Rabs_pos x).
        assert (x = 0) by (destruct (Req_dec x 0); auto; pose proof (Rabs_pos_lt x); lra).
        subst. rewrite H1 in N. lra.
      - simpl. unfold Rdiv. rewrite <- (Rmult_0_l (/ (t * t))). apply Rmult_le_compat_r; [|lra].
        left. apply Rinv_0_lt_compat. pose proof (Rle_0_sqr t). unfold Rsqr in *. lra. }
    rewrite Rmax_right by auto. repeat split; intros; lra.
  - assert (x * y < 0) as N by lra. clear P.
    assert (0 < Rabs x) as X by (apply Rabs_pos_lt; intros ->; lra).
    assert (0 < Rabs y) as Y by (apply Rabs_pos_lt; intros ->; lra).
    assert (0 < t) as T by (apply Rlt_le_trans with (Rabs x); auto; apply Rmax_l).
    assert (- (x * y) = t * Rmin (Rabs x) (Rabs y)) as E.
    { replace (- (x * y)) with (Rabs x * Rabs y).
      - unfold t, Rmax, Rmin. destruct (Rle_dec (Rabs x) (Rabs y)); ring.
      - rewrite <- Rabs_mult. apply Rabs_left; auto. }
    rewrite fdiv_ok by nra. rewrite E.
    replace (t * Rmin (Rabs x) (Rabs y) / (t * t)) with (Rmin (Rabs x) (Rabs y) / t) by (field; lra).
    assert (0 < Rmin (Rabs x) (Rabs y) <= t) as [M1 M2].
    { unfold t, Rmin, Rmax. destruct (Rle_dec (Rabs x) (Rabs y)); lra. }
    assert (0 <= Rmin (Rabs x) (Rabs y) / t <= 1) as [Q1 Q2].
    { split.
      - left. apply Rdiv_lt_0_compat; auto.
      - apply Rmult_le_reg_r with t; auto. unfold Rdiv. rewrite Rmult_assoc, Rinv_l by lra. lra. }
    rewrite Rmax_left by auto. split; [|split].
    + split; [apply Rmult_le_pos; [apply Rmult_le_pos; auto|lra]|]. replace (2 * alpha) with (alpha * 1 * 2) by ring.
      apply Rmult_le_compat_r; [lra|]. apply Rmult_le_compat_l; auto.
    + lra.
    + intros _. field. lra.
Qed.

Example C55_case : train_difference_mask 9 0 3 4 1 = 27 / 20 /\ add_opposite_mask 9 0 2 1 1 = 2 /\ add_strict_opposite_mask 9 0 3 1 1 = 1.
Proof.
  unfold train_difference_mask, add_opposite_mask, add_strict_opposite_mask.
  repeat split.
  - rewrite (Rabs_pos_eq (3 - 0)), (Rabs_left (3 - 4)) by lra. rewrite fdiv_ok by lra. field.
  - rewrite (Rabs_left (0 - 2)), (Rabs_pos_eq (0 + 2 - 2 * 1)) by lra. rewrite fdiv_ok by lra. field.
  - rewrite (Rabs_left (0 - 1)), (Rabs_pos_eq (3 - 1)) by lra. rewrite (Rmax_right (- (0 - 1))) by lra.
    rewrite fdiv_ok by lra. replace ((1 - 0) * (3 - 1) / _) with (1 / 2) by field. rewrite Rmax_left by lra. lra.
Qed.

(** ** C47 *)

(** the range a value is clamped to: the extreme bounds, moved by [s] toward the bounds next to
    the average on either side *)
Definition least (l : list R) (x : R) : Prop := In x l /\ forall y, In y l -> x <= y.
Definition greatest (l : list R) (x : R) : Prop := In x l /\ forall y, In y l -> y <= x.
Definition range (s : R) (bounds : list R) (lo hi : R) : Prop :=
  exists avg mn mx below above,
    avg * INR (length bounds) = rsum bounds /\
    least bounds mn /\ greatest bounds mx /\
    (below <= avg /\ greatest (filter (fun b => rleb b avg) bounds) below) /\
    (avg <= above /\ least (filter (fun b => rleb avg b) bounds) above) /\
    lo = (1 - s) * mn + s * below /\ hi = (1 - s) * mx + s * above.

Lemma reduce_max : forall b bs, greatest (b :: bs) (fold_left Rmax bs b).
Proof.
  intros b bs; revert b. induction bs as [|c bs IH]; intros b; simpl.
  - split; [left; auto|]. intros y [->|[]]; lra.
  - destruct (IH (Rmax b c)) as [I H]. split.
    + destruct I as [E|I]; [|right; right; auto]. rewrite <- E. unfold Rmax. destruct (Rle_dec b c); simpl; auto.
    + intros y [->|[->|Y]].
      * apply Rle_trans with (Rmax y c); [apply Rmax_l|apply H; left; auto].
      * apply Rle_trans with (Rmax b y); [apply Rmax_r|apply H; left; auto].
      * apply H; right; auto.
Qed.
Lemma reduce_min : forall b bs, least (b :: bs) (fold_left Rmin bs b).
Proof.
  intros b bs; revert b. induction bs as [|c bs IH]; intros b; simpl.
  - split; [left; auto|]. intros y [->|[]]; lra.
  - destruct (IH (Rmin b c)) as [I H]. split.
    + destruct I as [E|I]; [|right; right; auto]. rewrite <- E. unfold Rmin. destruct (Rle_dec b c); simpl; auto.
    + intros y [->|[->|Y]].
      * apply Rle_trans with (Rmin y c); [apply H; left; auto|apply Rmin_l].
      * apply Rle_trans with (Rmin b y); [apply H; left; auto|apply Rmin_r].
      * apply H; right; auto.
Qed.

Lemma smallest_positive_spec : forall avg l start, avg <= start ->
  let r := smallest_positive avg l start in
  avg <= r /\ (r = start \/ In r l) /\ r <= start /\ forall b, In b l -> avg <= b -> r <= b.
Proof.
  induction l as [|c l IH]; intros start A; simpl.
  - split; [auto|split; [auto|split; [lra|intros ? []]]].
  - destruct (rleb c start && rleb avg c) eqn:E.
    + apply andb_prop in E as [E1 E2]. apply rleb_true in E1, E2.
      destruct (IH c E2) as (H1 & H2 & H3 & H4). unfold smallest_positive in *. repeat split; auto; try lra.
      * destruct H2; auto.
      * intros b [->|I] B; auto.
    + destruct (IH start A) as (H1 & H2 & H3 & H4). unfold smallest_positive in *. repeat split; auto.
      * tauto.
      * intros b [->|I] B; auto. apply andb_false_iff in E as [E|E]; apply rleb_false in E; lra.
Qed.
Lemma largest_negative_spec : forall avg l start, start <= avg ->
  let r := largest_negative avg l start in
  r <= avg /\ (r = start \/ In r l) /\ start <= r /\ forall b, In b l -> b <= avg -> b <= r.
Proof.
  induction l as [|c l IH]; intros start A; simpl.
  - split; [auto|split; [auto|split; [lra|intros ? []]]].
  - destruct (rleb start c && rleb c avg) eqn:E.
    + apply andb_prop in E as [E1 E2]. apply rleb_true in E1, E2.
      destruct (IH c E2) as (H1 & H2 & H3 & H4). unfold largest_negative in *. repeat split; auto; try lra.
      * destruct H2; auto.
      * intros b [->|I] B; auto.
    + destruct (IH start A) as (H1 & H2 & H3 & H4). unfold largest_negative in *. repeat split; auto.
      * tauto.
      * intros b [->|I] B; auto. apply andb_false_iff in E as [E|E]; apply rleb_false in E; lra.
Qed.

Lemma clamp1_range : forall s bounds, bounds <> [] -> 0 <= s <= 1 -> exists lo hi, range s bounds lo hi /\ lo <= hi /\
  (exists mn mx, least bounds mn /\ greatest bounds mx /\ mn <= lo /\ hi <= mx) /\
  forall x, clamp1 s x bounds = Ok (Rmin (Rmax x lo) hi).
Proof.
  intros s [|b bs] N S; [congruence|].
  set (bounds := b :: bs) in *.
  set (mx := fold_left Rmax bs b). set (mn := fold_left Rmin bs b).
  assert (greatest bounds mx) as MX by apply reduce_max. assert (least bounds mn) as MN by apply reduce_min.
  set (avg := mean bounds).
  assert (mn <= avg <= mx) as [A1 A2].
  { apply mean_bounds; auto. intros x I. split; [apply MN; auto|apply MX; auto]. }
  destruct (smallest_positive_spec avg bounds mx A2) as (P1 & P2 & P3 & P4). set (above := smallest_positive avg bounds mx) in *.
  destruct (largest_negative_spec avg bounds mn A1) as (L1 & L2 & L3 & L4). set (below := largest_negative avg bounds mn) in *.
  assert (In above bounds) as IA by (destruct P2 as [->|]; auto; apply MX).
  assert (In below bounds) as IB by (destruct L2 as [->|]; auto; apply MN).
  assert (mn <= lerp s mn below <= below) as [Q1 Q2].
  { destruct (lerp_between s mn below S). rewrite Rmin_left, Rmax_right in * by auto. lra. }
  assert (above <= lerp s mx above <= mx) as [Q3 Q4].
  { destruct (lerp_between s mx above S). rewrite Rmin_right, Rmax_left in * by auto. lra. }
  exists (lerp s mn below), (lerp s mx above). split; [|split; [lra|split]].
  - exists avg, mn, mx, below, above. split.
    { unfold avg, mean. field. apply not_0_INR. discriminate. }
    split; auto. split; auto. split; [|split; [|split; reflexivity]].
    + split; auto. split.
      * apply filter_In. split; auto. apply rleb_true; auto.
      * intros y I. apply filter_In in I as [I E]. apply rleb_true in E. auto.
    + split; auto. split.
      * apply filter_In. split; auto. apply rleb_true; auto.
      * intros y I. apply filter_In in I as [I E]. apply rleb_true in E. auto.
  - exists mn, mx. auto.
  - intros x. unfold clamp1. cbn [reduce bounds bind]. fold mx mn.
    destruct (reqb s 0) eqn:E.
    + apply reqb_true in E. subst s. unfold lerp. do 3 f_equal; ring.
    + reflexivity.
Qed.

(** the nearest point of the range *)
Definition nearest (lo hi x r : R) : Prop := (x <= lo -> r = lo) /\ (lo <= x <= hi -> r = x) /\ (hi <= x -> r = hi).

Theorem C47_clamp : forall n a bounds s, length a = n -> shaped n bounds -> bounds <> [] -> 0 <= s <= 1 ->
  exists v, clamp a bounds s = Ok v /\ length v = n /\ in_hull v bounds /\
    (forall j, (j < n)%nat -> exists lo hi, range s (map (fun b => at_ b j) bounds) lo hi /\ lo <= hi /\
       nearest lo hi (at_ a j) (at_ v j)) /\
    clamp v bounds s = Ok v.
Proof.
  intros n a bounds s La S N B.
  set (col j := map (fun b : vec => at_ b j) bounds).
  assert (forall j, col j <> []) as NC by (intros j; unfold col; destruct bounds; simpl; congruence).
  assert (forall l a, exists rs, mapM (fun j => clamp1 s (at_ a j) (col j)) l = Ok rs /\ length rs = length l /\
    forall i, (i < length l)%nat -> clamp1 s (at_ a (nth i l 0%nat)) (col (nth i l 0%nat)) = Ok (at_ rs i)) as M.
  { clear a La. intros l a; induction l as [|j l IH]; simpl.
    - exists []. repeat split; auto. intros; lia.
    - destruct (clamp1_range s (col j) (NC j) B) as (lo & hi & _ & _ & _ & E). rewrite E. simpl.
      destruct IH as (rs & -> & L & H). simpl. eexists; split; [reflexivity|]. split; [simpl; auto|].
      intros [|i] I; simpl; auto. apply H; lia. }
  destruct (M (seq 0 (length a)) a) as (v & E & L & H). rewrite seq_length in L.
  assert (forall j, (j < n)%nat -> clamp1 s (at_ a j) (col j) = Ok (at_ v j)) as H'.
  { intros j J. specialize (H j). rewrite seq_length, seq_nth in H by lia. apply H; lia. }
  exists v. split; [|split; [congruence|split; [|split]]].
  - unfold clamp. destruct bounds; [congruence|exact E].
  - intros j J. destruct (clamp1_range s (col j) (NC j) B) as (lo & hi & _ & LH & (mn & mx & MN & MX & C1 & C2) & F).
    specialize (H' j ltac:(lia)). rewrite F in H'. injection H' as <-.
    destruct MN as [I1 _], MX as [I2 _]. unfold col in I1, I2.
    apply in_map_iff in I1 as (vl & E1 & I1). apply in_map_iff in I2 as (vh & E2 & I2).
    exists vl, vh. split; auto. split; auto. rewrite E1, E2.
    unfold Rmin, Rmax. destruct (Rle_dec (at_ a j) lo); [destruct (Rle_dec lo hi)|destruct (Rle_dec (at_ a j) hi)]; lra.
  - intros j J. destruct (clamp1_range s (col j) (NC j) B) as (lo & hi & R & LH & _ & F).
    exists lo, hi. split; auto. split; auto. specialize (H' j J). rewrite F in H'. injection H' as <-.
    unfold nearest, Rmin, Rmax.
    destruct (Rle_dec (at_ a j) lo); [destruct (Rle_dec lo hi)|destruct (Rle_dec (at_ a j) hi)]; repeat split; intros; lra.
  - destruct (M (seq 0 (length v)) v) as (w & E' & L' & Hw). rewrite seq_length in L'.
    assert (w = v) as ->.
    { apply nth_ext0; auto. intros j J. specialize (Hw j). rewrite seq_length, seq_nth in Hw by lia.
      specialize (Hw ltac:(lia)). simpl in Hw. specialize (H' j ltac:(lia)).
      destruct (clamp1_range s (col j) (NC j) B) as (lo & hi & _ & LH & _ & F). rewrite F in Hw, H'.
      injection Hw as <-. injection H' as <-. unfold Rmin, Rmax.
      repeat (destruct (Rle_dec _ _)); lra. }
    unfold clamp. destruct bounds; [congruence|exact E'].
Qed.

Example C47_case : clamp [5; 0] [[1; 1]; [2; 3]] 0 = Ok [2; 1].
Proof.
  unfold clamp. simpl. unfold clamp1. simpl.
  replace (reqb 0 0) with true by (symmetry; apply reqb_true; auto). simpl.
  repeat f_equal; unfold Rmin, Rmax; repeat (destruct (Rle_dec _ _)); lra.
Qed.

Print Assumptions C47_clamp.
Print Assumptions C52_perpendicular.
Print Assumptions C53_n_average.
Print Assumptions C53_weighted_sum.
Print Assumptions C53_geometric_median.
Print Assumptions C55_train_difference_mask.
Print Assumptions C55_add_opposite_mask.
Print Assumptions C55_add_strict_opposite_mask.
