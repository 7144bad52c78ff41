(** C51: spherical interpolation, in exact arithmetic. *)
From Coq Require Import Reals List Bool Arith ZArith Lia Lra Psatz.
From Verif Require Import Base ModelNum NumProofs PropsNum.
Import ListNotations.
Open Scope list_scope.
Open Scope R_scope.

Definition is_zero (a : vec) : Prop := forall x, In x a -> x = 0.
Definition multiple_of (b a : vec) : Prop := exists k, forall j, (j < length a)%nat -> at_ b j = k * at_ a j.
(** non-zero and not on one line *)
Definition independent (a b : vec) : Prop := ~ is_zero a /\ ~ multiple_of b a.

Lemma dot_sym : forall a b, dot a b = dot b a.
Proof. unfold dot. induction a; destruct b; simpl; auto. rewrite !rsum_cons, IHa. ring. Qed.

Lemma dot_scale : forall k a b, dot (map (Rmult k) a) b = k * dot a b.
Proof.
  unfold dot. induction a; destruct b; simpl; try (unfold rsum; simpl; ring).
  rewrite !rsum_cons, IHa. ring.
Qed.
Lemma dot_add : forall a b c, length a = length b -> length a = length c -> dot (vadd a b) c = dot a c + dot b c.
Proof.
  unfold dot, vadd. induction a; destruct b, c; simpl; intros; try discriminate; try (unfold rsum; simpl; ring).
  rewrite !rsum_cons, IHa by auto. ring.
Qed.

Lemma norm_pos : forall a, ~ is_zero a -> 0 < norm a.
Proof.
  intros a H. unfold norm. apply sqrt_lt_R0. destruct (dot_self a) as [D|D]; auto.
  elim H. unfold is_zero. apply dot_zero; auto.
Qed.

Lemma strict_cauchy : forall a b, length a = length b -> independent a b -> dot a b * dot a b < dot a a * dot b b.
Proof.
  intros a b L [Na Nb].
  assert (0 < dot a a) as A.
  { destruct (dot_self a) as [D|D]; auto. elim Na. unfold is_zero; apply dot_zero; auto. }
  set (k := dot a b / dot a a). set (p := map2 (fun x y => y - x * k) a b).
  assert (dot a p = 0) as D1. { unfold p. rewrite dot_combination by auto. unfold k. field. lra. }
  assert (dot p p = dot b b - k * dot a b) as D2.
  { assert (forall k a b, length a = length b -> dot (map2 (fun x y => y - x * k) a b) (map2 (fun x y => y - x * k) a b) =
              dot b b - 2 * k * dot a b + k * k * dot a a) as G.
    { clear. unfold dot. induction a; destruct b; simpl; intros; try discriminate; try (unfold rsum; simpl; ring).
      rewrite !rsum_cons, IHa by auto. ring. }
    unfold p. rewrite G by auto. unfold k. field. lra. }
  assert (0 < dot p p) as P.
  { destruct (dot_self p) as [D|D]; auto. elim Nb. exists k. intros j J.
    assert (at_ p j = 0). { apply (dot_zero p); auto. apply nth_In. unfold p. rewrite map2_length; auto. }
    unfold p in H. rewrite (map2_nth _ _ _ _ _ _ j 0 0 0) in H by auto. lra. }
  rewrite D2 in P. unfold k in P.
  assert (0 < dot a a * (dot b b - dot a b / dot a a * dot a b)) as Q by (apply Rmult_lt_0_compat; auto).
  replace (dot a a * (dot b b - dot a b / dot a a * dot a b)) with (dot a a * dot b b - dot a b * dot a b) in Q by (field; lra).
  lra.
Qed.

Lemma div_map : forall k a, k <> 0 -> map (fun x => x / k) a = map (Rmult (/ k)) a.
Proof. intros. apply map_ext. intros. unfold Rdiv. ring. Qed.

(** the cosine of the angle between two tensors *)
Definition cosine (a b : vec) : R := dot a b / (norm a * norm b).

Section Slerp.
  Variables (a b : vec) (alpha : R).
  Hypothesis L : length a = length b.
  Hypothesis I : independent a b.

  Lemma zero_multiple : is_zero b -> multiple_of b a.
  Proof. intros Z. exists 0. intros j J. rewrite (Z (at_ b j)); [ring|]. apply nth_In. lia. Qed.

  Lemma pos_norms : 0 < norm a /\ 0 < norm b.
  Proof.
    destruct I as [Na Nb]. split; apply norm_pos; auto. intros Z. apply Nb, zero_multiple; auto.
  Qed.

  Lemma cosine_range : -1 < cosine a b < 1.
  Proof.
    destruct pos_norms as [A B]. pose proof (strict_cauchy a b L I) as C.
    rewrite <- !norm_sqr in C. unfold cosine. set (n := norm a * norm b).
    assert (0 < n) by (apply Rmult_lt_0_compat; auto).
    assert (dot a b * dot a b < n * n) as C' by (unfold n; nra).
    assert (- n < dot a b < n) as [C1 C2] by nra.
    split; apply Rmult_lt_reg_r with n; auto; unfold Rdiv; rewrite Rmult_assoc, Rinv_l by lra; lra.
  Qed.

  Lemma sin_omega : 0 < sin (acos (cosine a b)).
  Proof.
    pose proof cosine_range as C. rewrite sin_acos by lra. apply sqrt_lt_R0. unfold Rsqr. nra.
  Qed.

  Definition scaled (k : R) (v : vec) : vec := map (Rmult k) v.
  Definition omega := acos (cosine a b).

  Lemma slerp_eq : slerp a b alpha =
    vscale (lerp alpha (norm a) (norm b)) (vscale (/ sin omega)
      (vadd (vscale (sin ((1 - alpha) * omega)) (vscale (/ norm a) a)) (vscale (sin (alpha * omega)) (vscale (/ norm b) b)))).
  Proof.
    destruct pos_norms as [A B]. unfold slerp.
    replace (reqb (norm a) 0) with false by (symmetry; apply reqb_false; lra).
    replace (reqb (norm b) 0) with false by (symmetry; apply reqb_false; lra). cbn [orb].
    rewrite !div_map by lra.
    assert (dot (map (Rmult (/ norm a)) a) (map (Rmult (/ norm b)) b) = cosine a b) as ->.
    { rewrite dot_scale, dot_sym, dot_scale, dot_sym. unfold cosine. field. lra. }
    assert (clamp11 (cosine a b) = cosine a b) as ->.
    { pose proof cosine_range. unfold clamp11. rewrite Rmax_left, Rmin_left by lra. auto. }
    fold omega. pose proof sin_omega as S. fold omega in S.
    replace (reqb (sin omega) 0) with false by (symmetry; apply reqb_false; lra).
    rewrite div_map by lra. reflexivity.
  Qed.

  Lemma vscale_length : forall k v, length (vscale k v) = length v.
  Proof. intros; apply map_length. Qed.
  Lemma vscale_nth : forall k v j, (j < length v)%nat -> at_ (vscale k v) j = k * at_ v j.
  Proof. intros. unfold vscale. rewrite (nth_indep _ 0 (k * 0)) by (rewrite map_length; auto). apply map_nth. Qed.
  Lemma vadd_length : forall u v, length u = length v -> length (vadd u v) = length u.
  Proof. intros; apply map2_length; auto. Qed.
  Lemma vadd_nth : forall u v j, length u = length v -> (j < length u)%nat -> at_ (vadd u v) j = at_ u j + at_ v j.
  Proof. intros; apply map2_nth; auto. Qed.
  Lemma dot_vscale : forall k u v, dot (vscale k u) v = k * dot u v.
  Proof. intros; apply dot_scale. Qed.

  (** the products of the result with any tensor *)
  Lemma slerp_dot : forall v, length v = length a ->
    dot (slerp a b alpha) v = lerp alpha (norm a) (norm b) * / sin omega *
      (sin ((1 - alpha) * omega) * (dot a v / norm a) + sin (alpha * omega) * (dot b v / norm b)).
  Proof.
    intros v Lv. destruct pos_norms as [A B]. rewrite slerp_eq.
    rewrite !dot_vscale, dot_add, !dot_vscale by (rewrite ?vscale_length; congruence).
    unfold Rdiv. ring.
  Qed.

  Lemma slerp_length : length (slerp a b alpha) = length a.
  Proof. rewrite slerp_eq, !vscale_length, vadd_length; rewrite ?vscale_length; congruence. Qed.

  Lemma cos_omega : cos omega = cosine a b.
  Proof. pose proof cosine_range. unfold omega. apply cos_acos; lra. Qed.

  Lemma slerp_angle_a : dot (slerp a b alpha) a = norm a * lerp alpha (norm a) (norm b) * cos (alpha * omega).
  Proof.
    destruct pos_norms as [A B]. pose proof sin_omega as S. fold omega in S.
    rewrite slerp_dot by auto. rewrite <- norm_sqr, (dot_sym b a).
    replace (dot a b) with (cosine a b * (norm a * norm b)) by (unfold cosine; field; lra).
    rewrite <- cos_omega. replace ((1 - alpha) * omega) with (omega - alpha * omega) by ring.
    rewrite sin_minus. field. lra.
  Qed.
  Lemma slerp_angle_b : dot (slerp a b alpha) b = norm b * lerp alpha (norm a) (norm b) * cos ((1 - alpha) * omega).
  Proof.
    destruct pos_norms as [A B]. pose proof sin_omega as S. fold omega in S.
    rewrite slerp_dot by auto. rewrite <- norm_sqr.
    replace (dot a b) with (cosine a b * (norm a * norm b)) by (unfold cosine; field; lra).
    rewrite <- cos_omega. replace (alpha * omega) with (omega - (1 - alpha) * omega) by ring.
    rewrite sin_minus. field. lra.
  Qed.

  Lemma slerp_norm : norm (slerp a b alpha) = Rabs (lerp alpha (norm a) (norm b)).
  Proof.
    destruct pos_norms as [A B]. pose proof sin_omega as S. fold omega in S.
    unfold norm at 1. rewrite slerp_dot by apply slerp_length.
    rewrite (dot_sym a), (dot_sym b), slerp_angle_a, slerp_angle_b.
    set (l := lerp _ _ _). set (x := (1 - alpha) * omega). set (y := alpha * omega).
    replace (l * / sin omega * (sin x * (norm a * l * cos y / norm a) + sin y * (norm b * l * cos x / norm b))) with (Rsqr l).
    - apply sqrt_Rsqr_abs.
    - assert (sin omega = sin x * cos y + cos x * sin y) as E by (rewrite <- sin_plus; f_equal; unfold x, y; ring).
      replace (sin x * (norm a * l * cos y / norm a) + sin y * (norm b * l * cos x / norm b)) with (l * sin omega)
        by (rewrite E; field; lra).
      unfold Rsqr. field. lra.
  Qed.
End Slerp.

(** For tensors that are not parallel, the result has the interpolated norm and splits the angle
    between a and b in the ratio alpha : 1 - alpha, so it is a at 0 and b at 1. *)
Theorem C51_slerp : forall a b alpha, length a = length b -> independent a b ->
  let r := slerp a b alpha in
  let n := (1 - alpha) * norm a + alpha * norm b in
  length r = length a /\
  norm r = Rabs n /\
  dot r a = norm a * n * cos (alpha * acos (cosine a b)) /\
  dot r b = norm b * n * cos ((1 - alpha) * acos (cosine a b)) /\
  (exists s t, forall j, (j < length a)%nat -> at_ r j = s * at_ a j + t * at_ b j) /\
  (alpha = 0 -> r = a) /\ (alpha = 1 -> r = b).
Proof.
  intros a b alpha L I r n. destruct (pos_norms a b L I) as [A B]. pose proof (sin_omega a b L I) as S. fold (omega a b) in S.
  assert (forall j, (j < length a)%nat -> at_ r j =
    (n * (/ sin (omega a b) * (sin ((1 - alpha) * omega a b) * / norm a))) * at_ a j +
    (n * (/ sin (omega a b) * (sin (alpha * omega a b) * / norm b))) * at_ b j) as E.
  { intros j J. unfold r. rewrite slerp_eq by auto.
    rewrite !vscale_nth, vadd_nth, !vscale_nth by (rewrite ?vscale_length, ?vadd_length; rewrite ?vscale_length; congruence).
    change (lerp alpha (norm a) (norm b)) with n. ring. }
  split; [apply slerp_length; auto|]. split; [apply slerp_norm; auto|].
  split; [apply slerp_angle_a; auto|]. split; [apply slerp_angle_b; auto|]. split; [eauto|]. split.
  - intros Z. subst alpha. apply nth_ext0; [apply slerp_length; auto|]. intros j J. unfold r in J. rewrite slerp_length in J by auto.
    rewrite E by auto. replace ((1 - 0) * omega a b) with (omega a b) by ring. rewrite Rmult_0_l, sin_0. unfold n. field. lra.
  - intros Z. subst alpha. apply nth_ext0; [unfold r; rewrite slerp_length; auto|]. intros j J. unfold r in J. rewrite slerp_length in J by auto.
    rewrite E by auto. replace ((1 - 1) * omega a b) with 0 by ring. rewrite Rmult_1_l, sin_0. unfold n. field. lra.
Qed.

(** parallel tensors: the plain interpolation *)
Theorem C51_slerp_parallel : forall a b alpha, length a = length b -> (is_zero a \/ multiple_of b a) ->
  slerp a b alpha = map2 (fun x y => (1 - alpha) * x + alpha * y) a b.
Proof.
  intros a b alpha L P. unfold slerp.
  destruct (reqb (norm a) 0) eqn:Ea; [reflexivity|]. destruct (reqb (norm b) 0) eqn:Eb; [reflexivity|]. cbn [orb].
  apply reqb_false in Ea, Eb.
  assert (0 <= norm a) as A by apply sqrt_pos. assert (0 <= norm b) as B by apply sqrt_pos.
  destruct P as [P|(k & P)]; [elim Ea; apply norm_zero; auto|].
  assert (b = map (Rmult k) a) as E.
  { apply nth_ext0; [rewrite map_length; auto|]. intros j J. rewrite P by lia.
    rewrite (nth_indep (map _ a) 0 (k * 0)) by (rewrite map_length; lia). rewrite map_nth; auto. }
  assert (norm b = Rabs k * norm a) as Nb.
  { unfold norm. rewrite E, dot_scale, dot_sym, dot_scale. rewrite <- Rmult_assoc.
    rewrite sqrt_mult_alt by (pose proof (Rle_0_sqr k); unfold Rsqr in *; lra).
    f_equal. apply sqrt_Rsqr_abs. }
  assert (k <> 0) as K by (intros ->; rewrite Rabs_R0 in Nb; lra).
  rewrite !div_map by auto.
  assert (dot (map (Rmult (/ norm a)) a) (map (Rmult (/ norm b)) b) = k / Rabs k) as ->.
  { rewrite dot_scale, dot_sym, dot_scale, Nb. rewrite E at 1. rewrite dot_scale, <- norm_sqr.
    field. split; auto using Rabs_no_R0. }
  assert (sin (acos (clamp11 (k / Rabs k))) = 0) as ->.
  { destruct (Rdichotomy k 0 K) as [N|N].
    - rewrite Rabs_left by auto. replace (k / - k) with (-1) by (field; auto).
      unfold clamp11. rewrite Rmax_left, Rmin_left by lra.
      replace (-1) with (-(1)) by ring. rewrite acos_opp, acos_1, Rminus_0_r. apply sin_PI.
    - rewrite Rabs_right by lra. replace (k / k) with 1 by (field; auto).
      unfold clamp11. rewrite Rmax_left, Rmin_left by lra. rewrite acos_1. apply sin_0. }
  replace (reqb 0 0) with true by (symmetry; apply reqb_true; auto). reflexivity.
Qed.

Example C51_case : independent [1; 0] [1; 1] /\ multiple_of [2; 4] [1; 2].
Proof.
  split; [split|].
  - intros Z. specialize (Z 1 (or_introl eq_refl)). lra.
  - intros (k & H). pose proof (H 0%nat ltac:(simpl; lia)). pose proof (H 1%nat ltac:(simpl; lia)). simpl in *. lra.
  - exists 2. intros [|[|j]] J; simpl in *; try lia; lra.
Qed.

Print Assumptions C51_slerp.
Print Assumptions C51_slerp_parallel.
