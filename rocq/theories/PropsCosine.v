(** C75, C76, C77: add_cosine, geometric_sum and multiply_quotient. *)
From Coq Require Import Reals List Bool Arith ZArith Lia Lra Psatz.
From Verif Require Import Base ModelNum NumProofs PropsNum PropsTies ModelFilter PropsFilter ModelModes ModelRegion PropsSlerp PropsStock ModelSelect.
Import ListNotations.
Open Scope list_scope.
Open Scope R_scope.

(** ** C75.  A tensor of [r] rows of [c] elements is the list of its rows; the element of row [i] and column
    [j] is at place [i * c + j]. *)
Definition between (x y r : R) : Prop := Rmin x y <= r <= Rmax x y.
Definition column_of (r c j : nat) (v : vec) : vec := map (fun i => at_ v (i * c + j)) (seq 0 r).

Lemma blend_between : forall s alpha x y, exists r, cosine_blend (Fin s) alpha x y = Fin r /\ between x y r.
Proof.
  intros. eexists; split; [reflexivity|]. apply lerp_between. pose proof (clip01_range (s - alpha)). lra.
Qed.
Lemma place_mod : forall c i j, (j < c)%nat -> ((i * c + j) mod c = j)%nat.
Proof. intros. rewrite Nat.add_comm, Nat.mod_add by lia. apply Nat.mod_small. auto. Qed.
Lemma generic_nth : forall r c a b alpha sim i j, (i < r)%nat -> (j < c)%nat ->
  nth (i * c + j) (add_cosine_generic r c a b alpha sim) NaN = cosine_blend (sim j) alpha (at_ a (i * c + j)) (at_ b (i * c + j)).
Proof.
  intros. unfold add_cosine_generic.
  assert (i * c + j < r * c)%nat by nia.
  set (f := fun p => cosine_blend (sim (p mod c)%nat) alpha (at_ a p) (at_ b p)).
  rewrite (nth_indep _ NaN (f 0%nat)) by (rewrite map_length, seq_length; auto).
  rewrite map_nth, seq_nth by auto. unfold f. simpl. rewrite place_mod by auto. auto.
Qed.

Lemma normalized_dot : forall u v, dot (normalized u) (normalized v) =
  dot u v / (Rmax (norm u) (/ 10 ^ 12) * Rmax (norm v) (/ 10 ^ 12)).
Proof.
  intros u v. unfold normalized. pose proof (Rmax_r (norm u) (/ 10 ^ 12)). pose proof (Rmax_r (norm v) (/ 10 ^ 12)).
  assert (0 < / 10 ^ 12) by (apply Rinv_0_lt_compat; lra).
  revert H H0. generalize (Rmax (norm u) (/ 10 ^ 12)) (Rmax (norm v) (/ 10 ^ 12)). intros p q P Q. unfold dot.
  revert v. induction u as [|x u IH]; intros [|y v]; simpl; unfold rsum; simpl; try (field; split; lra).
  fold (rsum (map2 Rmult (map (fun x => x / p) u) (map (fun x => x / q) v))). fold (rsum (map2 Rmult u v)).
  rewrite IH. field. split; lra.
Qed.
Lemma normalized_norm : forall u, / 10 ^ 12 <= norm u -> norm (normalized u) = 1.
Proof.
  intros u U. assert (0 < / 10 ^ 12) by (apply Rinv_0_lt_compat; lra).
  unfold norm at 1. rewrite normalized_dot, Rmax_left by auto. rewrite <- norm_sqr.
  replace (norm u * norm u / (norm u * norm u)) with 1 by (field; lra). apply sqrt_1.
Qed.
Lemma norm_nonneg : forall u, 0 <= norm u.
Proof. intros. apply sqrt_pos. Qed.

(** the similarity used by add_cosine_a is that of the directions, the cosine of the angle *)
Lemma similarity_parallel : forall u v k, 0 < k -> / 10 ^ 12 <= norm u -> / 10 ^ 12 <= norm v -> v = map (Rmult k) u ->
  ModelModes.cosine (/ 10 ^ 8) (normalized u) (normalized v) = 1.
Proof.
  intros u v k K U V E. unfold ModelModes.cosine. rewrite !normalized_norm by auto.
  rewrite Rmax_left by (rewrite <- Rinv_1; apply Rinv_le_contravar; lra).
  rewrite normalized_dot, !Rmax_left by auto.
  assert (0 < / 10 ^ 12) by (apply Rinv_0_lt_compat; lra).
  assert (dot u v = k * (norm u * norm u)) as ->.
  { rewrite norm_sqr, dot_sym. rewrite E, dot_scale. auto. }
  assert (norm v = k * norm u) as ->.
  { unfold norm. rewrite E, dot_scale, dot_sym, dot_scale. rewrite <- Rmult_assoc, sqrt_mult.
    - rewrite sqrt_square by lra. auto.
    - nra.
    - apply dot_self. }
  field. lra.
Qed.

Definition all_between (r c : nat) (a b : vec) (v : list ext) : Prop :=
  forall i j, (i < r)%nat -> (j < c)%nat ->
    exists x, nth (i * c + j) v NaN = Fin x /\ between (at_ a (i * c + j)) (at_ b (i * c + j)) x.
Definition is_column (r c j : nat) (v : list ext) (w : vec) : Prop :=
  forall i, (i < r)%nat -> nth (i * c + j) v NaN = Fin (at_ w (i * c + j)).

(** add_cosine_a: every element lies between those of [a] and [b]; alpha at least 1 gives [b]; a column of [b] that is
    perpendicular to that of [a] is taken as it is, whatever alpha (not negative); and a column of [a] that has
    the direction of that of [b] is kept when alpha is 0 *)
Theorem C75_add_cosine_a : forall r c a b alpha,
  length (add_cosine_a r c a b alpha) = (r * c)%nat /\ all_between r c a b (add_cosine_a r c a b alpha) /\
  forall j, (j < c)%nat ->
    (1 <= alpha \/ (0 <= alpha /\ dot (column_of r c j a) (column_of r c j b) = 0) -> is_column r c j (add_cosine_a r c a b alpha) b) /\
    (forall k, alpha = 0 -> 0 < k -> / 10 ^ 12 <= norm (column_of r c j a) -> / 10 ^ 12 <= norm (column_of r c j b) ->
       column_of r c j b = map (Rmult k) (column_of r c j a) -> is_column r c j (add_cosine_a r c a b alpha) a).
Proof.
  intros r c a b alpha. unfold add_cosine_a. split; [|split].
  - unfold add_cosine_generic. rewrite map_length, seq_length. auto.
  - intros i j I J. rewrite generic_nth by auto. apply blend_between.
  - intros j J. change (column_of r c j a) with (col r c j a). change (column_of r c j b) with (col r c j b). split.
    + intros H i I. rewrite generic_nth by auto. unfold cosine_blend. f_equal.
      set (s := ModelModes.cosine _ _ _). assert (s - alpha <= 0) as Q.
      { destruct H as [H|[H D]].
        - assert (0 < / 10 ^ 8) as E by (apply Rinv_0_lt_compat; lra). pose proof (PropsStock.cosine_range (/ 10 ^ 8) (normalized (col r c j a)) (normalized (col r c j b)) E).
          fold s in H0. lra.
        - assert (s = 0); [|lra]. unfold s, ModelModes.cosine. rewrite normalized_dot, D. unfold Rdiv. rewrite !Rmult_0_l. auto. }
      rewrite clip01_low by auto. unfold lerp. ring.
    + intros k A K U V E i I. rewrite generic_nth by auto. rewrite (similarity_parallel _ _ k K U V E). subst alpha.
      unfold cosine_blend. rewrite clip01_high by lra. unfold lerp. f_equal. ring.
Qed.
Example C75_case : nth 0 (add_cosine_a 2 1 [1; 0] [0; 3] (1 / 2)) NaN = Fin 0.
Proof.
  destruct (C75_add_cosine_a 2 1 [1; 0] [0; 3] (1 / 2)) as (_ & _ & H).
  destruct (H 0%nat ltac:(lia)) as [H1 _]. apply (H1 ltac:(right; split; [lra|unfold dot, rsum; simpl; lra]) 0%nat). lia.
Qed.

Definition not_zero (a : vec) : Prop := exists x, In x a /\ x <> 0.
Lemma not_zero_norm : forall a, not_zero a -> 0 < norm a.
Proof. intros a (x & I & X). apply norm_pos. intros Z. apply X, Z; auto. Qed.

(** add_cosine_b does the same for tensors that are not zero *)
Theorem C75_add_cosine_b_partial : forall r c a b alpha, not_zero a -> not_zero b ->
  length (add_cosine_b r c a b alpha) = (r * c)%nat /\ all_between r c a b (add_cosine_b r c a b alpha) /\
  (1 <= alpha -> forall j, (j < c)%nat -> is_column r c j (add_cosine_b r c a b alpha) b).
Proof.
  intros r c a b alpha A B. apply not_zero_norm in A, B. unfold add_cosine_b.
  assert (norm a * norm b <> 0) as N by nra.
  unfold fdiv. destruct (Req_EM_T (norm a * norm b) 0); [contradiction|]. split; [|split].
  - unfold add_cosine_generic. rewrite map_length, seq_length. auto.
  - intros i j I J. rewrite generic_nth by auto. apply blend_between.
  - intros AL j J i I. rewrite generic_nth by auto. unfold cosine_blend. f_equal.
    assert (0 < / 10 ^ 8) as E by (apply Rinv_0_lt_compat; lra).
    pose proof (PropsStock.cosine_range (/ 10 ^ 8) (col r c j a) (col r c j b) E) as S1.
    assert (dot a b / (norm a * norm b) <= 1) as S2.
    { apply Rmult_le_reg_r with (norm a * norm b); [nra|]. unfold Rdiv. rewrite Rmult_assoc, Rinv_l by auto. rewrite Rmult_1_r, Rmult_1_l.
      pose proof (cauchy a b) as C. rewrite <- !norm_sqr in C.
      destruct (Rle_dec (dot a b) (norm a * norm b)); auto. exfalso. assert (0 < norm a * norm b) by nra. nra. }
    rewrite clip01_low by lra. unfold lerp. ring.
Qed.
(** for a zero tensor, such as the delta of an unchanged key, it gives only NaN *)
Theorem C75_add_cosine_b_refuted : forall r c b alpha, (forall p, (p < r * c)%nat ->
  nth p (add_cosine_b r c (repeat 0 (r * c)) b alpha) (Fin 0) = NaN).
Proof.
  intros r c b alpha p P. unfold add_cosine_b.
  assert (forall n b, dot (repeat 0 n) b = 0) as D.
  { clear. intros n b. revert n. unfold dot. induction b; intros [|n]; simpl; unfold rsum in *; simpl; auto. rewrite IHb. lra. }
  assert (norm (repeat 0 (r * c)) = 0) as N by (unfold norm; rewrite D; apply sqrt_0).
  rewrite N, D, Rmult_0_l. unfold fdiv. destruct (Req_EM_T 0 0); [|lra]. destruct (Rlt_dec 0 0); [lra|].
  unfold add_cosine_generic. cbn [cosine_blend].
  rewrite (nth_indep _ (Fin 0) NaN) by (rewrite map_length, seq_length; auto).
  change NaN with ((fun _ : nat => NaN) 0%nat) at 2. rewrite map_nth. auto.
Qed.

(** ** C76.  The power of a real to a real exponent, for positive numbers *)
Lemma Rpower_pos : forall x y, 0 < Rpower x y.
Proof. intros. apply exp_pos. Qed.
Lemma geometric_pos : forall a b alpha, 0 < a -> 0 < b -> geometric_sum1 a b alpha = exp ((1 - alpha) * ln a + alpha * ln b).
Proof.
  intros a b alpha A B. unfold geometric_sum1, cpow. destruct (Rlt_dec 0 a); [|lra]. destruct (Rlt_dec 0 b); [|lra].
  unfold cmul. simpl. unfold Rpower. rewrite exp_plus. ring.
Qed.
(** the general value: the magnitudes are blended geometrically, the sign turns from one to the other *)
Definition angle (x : R) : R := if Rlt_dec 0 x then 0 else PI.
Lemma cpow_polar : forall x w, x <> 0 -> cpow x w = (Rpower (Rabs x) w * cos (angle x * w), Rpower (Rabs x) w * sin (angle x * w)).
Proof.
  intros x w X. unfold cpow, angle. destruct (Rlt_dec 0 x).
  - rewrite Rabs_right by lra. rewrite Rmult_0_l, cos_0, sin_0. f_equal; ring.
  - rewrite Rabs_left by lra. auto.
Qed.
Lemma geometric_polar : forall a b alpha, a <> 0 -> b <> 0 ->
  geometric_sum1 a b alpha = Rpower (Rabs a) (1 - alpha) * Rpower (Rabs b) alpha * cos (angle a * (1 - alpha) + angle b * alpha).
Proof.
  intros. unfold geometric_sum1. rewrite !cpow_polar by auto. unfold cmul. simpl. rewrite cos_plus. ring.
Qed.
Lemma abs_cos_angle : forall x, x <> 0 -> Rabs x * cos (angle x) = x.
Proof.
  intros x X. unfold angle. destruct (Rlt_dec 0 x); [rewrite cos_0, Rabs_right by lra; ring|].
  rewrite cos_PI, Rabs_left by lra. ring.
Qed.
Lemma blend_bounds : forall a b alpha, 0 < a -> 0 < b -> 0 <= alpha <= 1 ->
  Rmin a b <= exp ((1 - alpha) * ln a + alpha * ln b) <= Rmax a b.
Proof.
  intros a b alpha A B AL.
  pose proof (lerp_between alpha (ln a) (ln b) AL) as [L1 L2]. unfold lerp in *.
  assert (forall x y, x <= y -> exp x <= exp y) as M.
  { intros x y [H| ->]; [left; apply exp_increasing; auto|lra]. }
  apply M in L1, L2. destruct (Rle_dec a b) as [H|H].
  - assert (ln a <= ln b) by (destruct H as [H| ->]; [left; apply ln_increasing; auto|lra]).
    rewrite (Rmin_left (ln a)), exp_ln in L1 by auto. rewrite (Rmax_right (ln a)), exp_ln in L2 by auto.
    rewrite Rmin_left, Rmax_right by lra. auto.
  - assert (ln b <= ln a) by (left; apply ln_increasing; lra).
    rewrite (Rmin_right (ln a)), exp_ln in L1 by auto. rewrite (Rmax_left (ln a)), exp_ln in L2 by auto.
    rewrite Rmin_right, Rmax_left by lra. auto.
Qed.

Theorem C76_geometric_sum_partial : forall a b alpha, a <> 0 -> b <> 0 ->
  geometric_sum1 a b 0 = a /\ geometric_sum1 a b 1 = b /\ geometric_sum1 a a alpha = a /\
  geometric_sum1 a b alpha = geometric_sum1 b a (1 - alpha) /\
  (0 <= alpha <= 1 -> Rabs (geometric_sum1 a b alpha) <= Rmax (Rabs a) (Rabs b)) /\
  (0 <= alpha <= 1 -> 0 < a * b -> between a b (geometric_sum1 a b alpha)) /\
  (0 < a -> 0 < b -> ln (geometric_sum1 a b alpha) = (1 - alpha) * ln a + alpha * ln b).
Proof.
  intros a b alpha A B.
  assert (0 < Rabs a) as A' by (apply Rabs_pos_lt; auto). assert (0 < Rabs b) as B' by (apply Rabs_pos_lt; auto).
  repeat apply conj.
  - rewrite geometric_polar by auto. replace (1 - 0) with 1 by ring. rewrite Rpower_1, Rpower_O by auto.
    replace (angle a * 1 + angle b * 0) with (angle a) by ring. rewrite Rmult_1_r. apply abs_cos_angle; auto.
  - rewrite geometric_polar by auto. replace (1 - 1) with 0 by ring. rewrite Rpower_1, Rpower_O by auto.
    replace (angle a * 0 + angle b * 1) with (angle b) by ring. rewrite Rmult_1_l. apply abs_cos_angle; auto.
  - rewrite geometric_polar by auto. rewrite <- Rpower_plus. replace (1 - alpha + alpha) with 1 by ring. rewrite Rpower_1 by auto.
    replace (angle a * (1 - alpha) + angle a * alpha) with (angle a) by ring. apply abs_cos_angle; auto.
  - rewrite !geometric_polar by auto. replace (1 - (1 - alpha)) with alpha by ring.
    replace (angle b * alpha + angle a * (1 - alpha)) with (angle a * (1 - alpha) + angle b * alpha) by ring. ring.
  - intros AL. rewrite geometric_polar by auto. unfold Rpower. rewrite <- exp_plus.
    pose proof (blend_bounds _ _ _ A' B' AL) as [_ H]. set (e := exp _) in *. assert (0 < e) by apply exp_pos.
    rewrite Rabs_mult, (Rabs_right e) by lra. pose proof (COS_bound (angle a * (1 - alpha) + angle b * alpha)).
    assert (Rabs (cos (angle a * (1 - alpha) + angle b * alpha)) <= 1) by (apply Rabs_le; lra). nra.
  - intros AL AB. unfold between. rewrite geometric_polar by auto. unfold Rpower. rewrite <- exp_plus.
    pose proof (blend_bounds _ _ _ A' B' AL) as H. set (e := exp _) in *.
    unfold angle. destruct (Rlt_dec 0 a).
    + assert (0 < b) by nra. destruct (Rlt_dec 0 b); [|lra]. rewrite Rabs_right, (Rabs_right b) in H by lra.
      rewrite !Rmult_0_l, Rplus_0_l, cos_0, Rmult_1_r. auto.
    + assert (b < 0) by nra. destruct (Rlt_dec 0 b); [lra|]. rewrite Rabs_left, (Rabs_left b) in H by lra.
      replace (PI * (1 - alpha) + PI * alpha) with PI by ring. rewrite cos_PI.
      unfold Rmin, Rmax in *. destruct (Rle_dec a b), (Rle_dec (- a) (- b)); lra.
  - intros PA PB. rewrite geometric_pos by auto. apply ln_exp.
Qed.
Example C76_case : between 2 8 (geometric_sum1 2 8 (1 / 2)).
Proof. apply C76_geometric_sum_partial; lra. Qed.
(** "between a and b" is false for numbers of opposite signs: a third of the way from 1 to -64 is 2 *)
Theorem C76_geometric_sum_refuted : exists a b alpha, a <> 0 /\ b <> 0 /\ 0 <= alpha <= 1 /\ ~ between a b (geometric_sum1 a b alpha).
Proof.
  exists 1, (-64), (1 / 3). repeat split; try lra. rewrite geometric_polar by lra.
  rewrite Rabs_R1, Rabs_left by lra. unfold angle. destruct (Rlt_dec 0 1); [|lra]. destruct (Rlt_dec 0 (-64)); [lra|].
  replace (0 * (1 - 1 / 3) + PI * (1 / 3)) with (PI / 3) by field. rewrite cos_PI3.
  assert (Rpower 1 (1 - 1 / 3) = 1) as -> by (unfold Rpower; rewrite ln_1, Rmult_0_r; apply exp_0).
  assert (Rpower (- -64) (1 / 3) = 4) as ->.
  { replace (- -64) with (4 ^ 3) by ring. rewrite <- (Rpower_pow 3 4) by lra. rewrite Rpower_mult. replace (INR 3 * (1 / 3)) with 1 by (simpl; field). apply Rpower_1. lra. }
  unfold between. rewrite Rmin_right, Rmax_left by lra. lra.
Qed.

(** ** C77 *)

(** [a] and [b] are on different sides of [c], by magnitude *)
Definition opposite (a b c : R) : Prop := (Rabs a < Rabs c < Rabs b) \/ (Rabs b < Rabs c < Rabs a).
Lemma ln_order : forall x y, 0 < x -> 0 < y -> (x < y <-> ln x < ln y).
Proof.
  intros x y X Y. split; [apply ln_increasing; auto|apply ln_lt_inv; auto].
Qed.
Lemma share : forall fmax x y, 0 <= Rmax (- nan_to_num fmax (fdiv (x * y) (Rmax (Rabs x) (Rabs y) * Rmax (Rabs x) (Rabs y)))) 0 <= 1 /\
  (0 <= x * y -> Rmax (- nan_to_num fmax (fdiv (x * y) (Rmax (Rabs x) (Rabs y) * Rmax (Rabs x) (Rabs y)))) 0 = 0) /\
  (x * y < 0 -> Rmax (- nan_to_num fmax (fdiv (x * y) (Rmax (Rabs x) (Rabs y) * Rmax (Rabs x) (Rabs y)))) 0 =
     Rmin (Rabs x) (Rabs y) / Rmax (Rabs x) (Rabs y)).
Proof.
  intros fmax x y. set (m := Rmax (Rabs x) (Rabs y)).
  assert (Rabs x <= m) as X by apply Rmax_l. assert (Rabs y <= m) as Y by apply Rmax_r.
  pose proof (Rabs_pos x) as PX. pose proof (Rabs_pos y) as PY.
  destruct (Req_dec m 0) as [Z|Z].
  - assert (x = 0) by (destruct (Req_dec x 0) as [|NX]; auto; pose proof (Rabs_pos_lt x NX); lra). subst x. rewrite Rmult_0_l, fdiv_00 by (rewrite Z; ring).
    rewrite Ropp_0, Rmax_left by lra. repeat split; try lra.
  - assert (0 < m) as M by lra. rewrite fdiv_ok by nra.
    assert (Rabs (x * y) <= m * m) as B by (rewrite Rabs_mult; nra).
    assert (-(1) <= x * y / (m * m) <= 1) as Q.
    { pose proof (Rle_abs (x * y)). pose proof (Rle_abs (- (x * y))) as N. rewrite Rabs_Ropp in N.
      split; apply Rmult_le_reg_r with (m * m); try nra; unfold Rdiv; rewrite Rmult_assoc, Rinv_l by nra; lra. }
    repeat split.
    + apply Rmax_r.
    + apply Rmax_lub; lra.
    + intros H. apply Rmax_right. assert (0 <= x * y / (m * m)); [|lra]. apply Rmult_le_pos; auto. left. apply Rinv_0_lt_compat. nra.
    + intros H. assert (x * y = - (Rabs x * Rabs y)) as E by (rewrite <- Rabs_mult, Rabs_left by auto; ring).
      assert (Rabs x * Rabs y = Rmin (Rabs x) (Rabs y) * m) as E'.
      { unfold m, Rmin, Rmax. destruct (Rle_dec (Rabs x) (Rabs y)); ring. }
      rewrite E, E'. rewrite Rmax_left.
      * field. lra.
      * apply Ropp_le_cancel. rewrite Ropp_involutive, Ropp_0. unfold Rdiv. 
        assert (0 <= Rmin (Rabs x) (Rabs y)) by (apply Rmin_glb; auto).
        assert (0 < / (m * m)) by (apply Rinv_0_lt_compat; nra). nra.
Qed.

Lemma scaled_between : forall a q e, Rmin 1 q <= e <= Rmax 1 q -> between a (a * q) (a * e).
Proof.
  intros a q e H. unfold between. revert H. unfold Rmin, Rmax. destruct (Rle_dec 1 q), (Rle_dec a (a * q)); intros; split;
    destruct (Rle_dec 0 a); nra.
Qed.
Lemma ln_quot : forall x y, 0 < x -> 0 < y -> ln (x / y) = ln x - ln y.
Proof. intros x y X Y. unfold Rdiv. rewrite ln_mult, ln_Rinv; auto; try lra. apply Rinv_0_lt_compat; auto. Qed.
Lemma product_neg : forall x y, x * y < 0 -> (x < 0 < y) \/ (y < 0 < x).
Proof.
  intros x y H. destruct (Rlt_dec x 0); [left; split; auto; nra|]. right. assert (x <> 0) by (intros ->; lra). split; nra.
Qed.

(** for tensors of no dimensions, or an alpha of the dimensions of the tensors: elements of [a] that are on the side of [b] are
    kept; others are multiplied by a power of the quotient of [b] by [c], with an exponent of at most alpha: for b and c of
    the same sign they keep their sign and lie between [a] and [a * b / c] *)
Theorem C77_multiply_quotient_partial : forall fmax a b c alpha, a <> 0 -> b <> 0 -> c <> 0 ->
  (~ opposite a b c -> multiply_quotient1 fmax a b c alpha = a) /\
  multiply_quotient1 fmax a b c 0 = a /\
  (0 <= alpha <= 1 -> 0 < b / c -> between a (a * (b / c)) (multiply_quotient1 fmax a b c alpha)) /\
  (opposite a b c -> 0 < b / c ->
     let to_a := Rabs (ln (Rabs a / Rabs c)) in let to_b := Rabs (ln (b / c)) in
     multiply_quotient1 fmax a b c alpha = a * Rpower (b / c) (alpha * (Rmin to_a to_b / Rmax to_a to_b))).
Proof.
  intros fmax a b c alpha A B C.
  assert (0 < Rabs a) as A' by (apply Rabs_pos_lt; auto). assert (0 < Rabs b) as B' by (apply Rabs_pos_lt; auto).
  assert (0 < Rabs c) as C' by (apply Rabs_pos_lt; auto).
  assert (b / c <> 0) as BC. { intros H. apply Rmult_integral in H as [H|H]; [auto|]. apply (Rinv_neq_0_compat c); auto. }
  assert (forall w, multiply_quotient1 fmax a b c w = a * fst (cpow (b / c) (w * Rmax (- nan_to_num fmax (fdiv ((ln (Rabs a) - ln (Rabs c)) * (ln (Rabs b) - ln (Rabs c)))
      (Rmax (Rabs (ln (Rabs a) - ln (Rabs c))) (Rabs (ln (Rabs b) - ln (Rabs c))) * Rmax (Rabs (ln (Rabs a) - ln (Rabs c))) (Rabs (ln (Rabs b) - ln (Rabs c)))))) 0))) as V.
  { intros w. unfold multiply_quotient1, cmul. simpl. ring. }
  assert (fst (cpow (b / c) 0) = 1) as P0.
  { rewrite cpow_polar by auto. simpl. rewrite Rmult_0_r, cos_0, Rpower_O by (apply Rabs_pos_lt; auto). ring. }
  destruct (share fmax (ln (Rabs a) - ln (Rabs c)) (ln (Rabs b) - ln (Rabs c))) as (S1 & S2 & S3).
  assert (~ opposite a b c -> 0 <= (ln (Rabs a) - ln (Rabs c)) * (ln (Rabs b) - ln (Rabs c))) as NO.
  { intros O. unfold opposite in O. destruct (Rle_dec 0 ((ln (Rabs a) - ln (Rabs c)) * (ln (Rabs b) - ln (Rabs c)))) as [|N]; auto. exfalso. apply O.
    apply Rnot_le_lt, product_neg in N as [[N1 N2]|[N1 N2]]; [left|right]; split; (apply ln_order; auto; lra). }
  repeat apply conj.
  - intros O. rewrite V, (S2 (NO O)), Rmult_0_r, P0. ring.
  - rewrite V, Rmult_0_l, P0. ring.
  - intros AL Q. rewrite V. set (s := Rmax (- _) 0) in *.
    assert (0 <= alpha * s <= 1) as E by (clear - AL S1; nra). rewrite cpow_polar by auto. simpl. unfold angle. destruct (Rlt_dec 0 (b / c)); [|lra].
    rewrite Rmult_0_l, cos_0, Rmult_1_r, Rabs_right by lra.
    pose proof (blend_bounds 1 (b / c) (alpha * s) ltac:(lra) Q E) as BB. rewrite ln_1, Rmult_0_r, Rplus_0_l in BB.
    change (exp (alpha * s * ln (b / c))) with (Rpower (b / c) (alpha * s)) in BB. set (e := Rpower _ _) in *.
    apply scaled_between; auto.
  - intros O Q to_a to_b. rewrite V.
    assert ((ln (Rabs a) - ln (Rabs c)) * (ln (Rabs b) - ln (Rabs c)) < 0) as N by (destruct O as [[O1 O2]|[O1 O2]]; apply ln_order in O1; auto; apply ln_order in O2; auto; clear - O1 O2; nra).
    rewrite (S3 N).
    assert (ln (Rabs a) - ln (Rabs c) = ln (Rabs a / Rabs c)) as -> by (symmetry; apply ln_quot; auto).
    assert (ln (Rabs b) - ln (Rabs c) = ln (b / c)) as ->.
    { rewrite <- ln_quot by auto. f_equal. unfold Rdiv. rewrite <- Rabs_inv, <- Rabs_mult. apply Rabs_right. unfold Rdiv in Q. lra. }
    fold to_a to_b. unfold cpow. destruct (Rlt_dec 0 (b / c)); [|lra]. auto.
Qed.
Example C77_case : multiply_quotient 1 false [6] [5] [1] (Elements [1]) = Ok [6].
Proof.
  simpl. do 2 f_equal. apply C77_multiply_quotient_partial; try lra.
  unfold opposite. rewrite !Rabs_right by lra. lra.
Qed.
(** with an alpha that is a number, as the default 1.0 is, it fails for every tensor that has dimensions *)
Theorem C77_multiply_quotient_refuted : forall fmax a b c x, multiply_quotient fmax false a b c (Scalar x) = Err RuntimeError.
Proof. reflexivity. Qed.
Print Assumptions C75_add_cosine_a.
Print Assumptions C75_add_cosine_b_partial.
Print Assumptions C75_add_cosine_b_refuted.
Print Assumptions C76_geometric_sum_partial.
Print Assumptions C76_geometric_sum_refuted.
Print Assumptions C77_multiply_quotient_partial.
Print Assumptions C77_multiply_quotient_refuted.
