(** C92, C93: how far the merged number is from the exact one. *)
From Coq Require Import ZArith Reals List Lia Lra Psatz Bool Permutation.
From Flocq Require Import Core BinarySingleNaN.
From Verif Require Import ModelRound SpecRound RoundProofs PropsRound.
Import ListNotations.
Open Scope R_scope.

(** weighted_sum over the reals with its roundings against the exact value *)
Lemma ws_error : forall m o al x y M, finer m o -> 0 <= al <= 1 -> fmt m al -> Rabs x <= M -> Rabs y <= M ->
  Rabs (ws m al x y - ((1 - al) * x + al * y)) <= 4 * u m * M + 2 * p2 (emin m).
Proof.
  intros m o al x y M Hf Hal Fal Hx Hy. unfold ws.
  assert (E1 : exists e, Rabs e <= u m /\ comp m al = (1 - al) * (1 + e)).
  { unfold comp. destruct (rnd_plus m 1 (- al) (fmt_1 m) (fmt_opp m _ Fal)) as [e [A B]].
    exists e. split; [trivial|]. unfold Rminus. exact B. }
  destruct E1 as [e1 [A1 B1]].
  destruct (rnd_error m (comp m al * x)) as [e2 [n2 [A2 [N2 B2]]]].
  destruct (rnd_error m (al * y)) as [e3 [n3 [A3 [N3 B3]]]].
  destruct (rnd_plus m (rnd m (comp m al * x)) (rnd m (al * y)) (fmt_rnd _ _) (fmt_rnd _ _)) as [e4 [A4 B4]].
  rewrite B4, B2, B3, B1.
  pose proof (u_pos m) as U0. pose proof (u_small m o Hf) as U1.
  pose proof (bpow_gt_0 radix2 (emin m)) as P.
  set (k := 2 * u m + u m * u m).
  assert (K : Rabs (e1 + e2 + e1 * e2) <= k).
  { unfold k. replace (2 * u m) with (u m + u m) by ring.
    apply Rabs_plus_le; [now apply Rabs_plus_le | now apply Rabs_mult_le]. }
  assert (K3 : Rabs e3 <= k) by (unfold k; nra).
  assert (G : forall d, Rabs d <= k -> Rabs (d + e4 + d * e4) <= 4 * u m).
  { intros d Hd. eapply Rle_trans.
    - apply Rabs_plus_le; [apply Rabs_plus_le; [exact Hd | exact A4] | apply Rabs_mult_le; [exact Hd | exact A4]].
    - unfold k. nra. }
  assert (KN : Rabs ((n2 + n3) * (1 + e4)) <= 2 * p2 (emin m)).
  { eapply Rle_trans.
    - apply Rabs_mult_le; [apply Rabs_plus_le; [exact N2 | exact N3]|].
      apply Rabs_plus_le; [rewrite Rabs_R1; apply Rle_refl | exact A4].
    - nra. }
  set (d := e1 + e2 + e1 * e2) in *.
  replace (((1 - al) * (1 + e1) * x * (1 + e2) + n2 + (al * y * (1 + e3) + n3)) * (1 + e4) - ((1 - al) * x + al * y))
    with ((1 - al) * ((d + e4 + d * e4) * x) + al * ((e3 + e4 + e3 * e4) * y) + (n2 + n3) * (1 + e4)) by (unfold d; ring).
  apply Rabs_plus_le; [|exact KN].
  replace (4 * u m * M) with ((1 - al) * (4 * u m * M) + al * (4 * u m * M)) by ring.
  apply Rabs_plus_le; (apply Rabs_mult_le; [rewrite Rabs_pos_eq; lra|]).
  - apply Rabs_mult_le; [now apply G | exact Hx].
  - apply Rabs_mult_le; [now apply G | exact Hy].
Qed.

(** the two roundings of the output cast *)
Lemma u_le_half : forall d, u d <= / 2.
Proof.
  intro d. unfold u. replace (/ 2) with (p2 (-1)) by (simpl; lra). apply bpow_le. pose proof (prec_pos' d). lia.
Qed.
Lemma rnd_step : forall d v, Rabs (rnd d v - v) <= u d * Rabs v + p2 (emin d) / 2.
Proof.
  intros d v. destruct (rnd_error d v) as [e [n [He [Hn E]]]]. rewrite E.
  replace (v * (1 + e) + n - v) with (e * v + n) by ring.
  apply Rabs_plus_le; [apply Rabs_mult_le; [exact He | apply Rle_refl] | exact Hn].
Qed.
Lemma finer_u : forall m o, finer m o -> u m <= u o / 64 /\ p2 (emin m) <= p2 (emin o) / 64.
Proof.
  intros m o (P & _ & E).
  assert (Q : forall k, p2 k / 64 = p2 (k - 6)).
  { intro k. unfold Zminus. rewrite bpow_plus. simpl (p2 (- (6))). unfold Rdiv. f_equal; simpl; lra. }
  split; unfold u; rewrite Q; apply bpow_le; lia.
Qed.
Lemma holds_u : forall o i, holds_all o i -> u i <= u o /\ p2 (emin i) <= p2 (emin o).
Proof. intros o i (P & _ & E). split; apply bpow_le; lia. Qed.

Lemma output_error : forall o i v x M, holds_all o i -> Rabs x <= M ->
  Rabs (v - x) <= u o / 16 * M + p2 (emin o) / 16 ->
  Rabs (rnd o (rnd i v) - x) <= 3 * u o * M + 2 * p2 (emin o).
Proof.
  intros o i v x M Hi Hx Hv.
  destruct (holds_u o i Hi) as [Ui Ei]. pose proof (u_pos o) as U0. pose proof (u_le_half o) as U1.
  pose proof (bpow_gt_0 radix2 (emin o)) as P. pose proof (u_pos i) as U2.
  assert (PM : 0 <= M) by (pose proof (Rabs_pos x); lra).
  assert (Mv : Rabs v <= M + (u o / 16 * M + p2 (emin o) / 16)).
  { replace v with (x + (v - x)) by ring. now apply Rabs_plus_le. }
  pose proof (rnd_step i v) as S1. pose proof (rnd_step o (rnd i v)) as S2.
  pose proof (Rabs_pos v) as Pv.
  set (w := rnd i v) in *. set (z := rnd o w) in *.
  assert (W : Rabs (w - v) <= u o * Rabs v + p2 (emin o) / 2) by nra.
  assert (Mw : Rabs w <= Rabs v + (u o * Rabs v + p2 (emin o) / 2)).
  { replace w with (v + (w - v)) by ring. apply Rabs_plus_le; [apply Rle_refl | exact W]. }
  pose proof (Rabs_pos w) as Pw.
  replace (z - x) with ((z - w) + (w - v) + (v - x)) by ring.
  eapply Rle_trans; [apply Rabs_plus_le; [apply Rabs_plus_le; [exact S2 | exact W] | exact Hv]|].
  set (e := p2 (emin o)) in *. set (q := u o) in *. set (av := Rabs v) in *. set (aw := Rabs w) in *.
  assert (q * aw <= q * (av + (q * av + e / 2))) by (apply Rmult_le_compat_l; lra).
  assert (q * (q * av) <= q * (av / 2)) by (apply Rmult_le_compat_l; nra).
  assert (q * av <= q * (M + (q / 16 * M + e / 16))) by (apply Rmult_le_compat_l; lra).
  assert (q * (q * M) <= q * (M / 2)) by (apply Rmult_le_compat_l; nra).
  assert (0 <= q * M) by nra.
  assert (q * e <= e / 2) by nra.
  nra.
Qed.

(** a finite result of the output cast is the double rounding of its argument *)
Lemma narrow_value : forall m o i (z : num m), holds_all o i -> is_finite z = true -> is_finite (narrow m i o z) = true ->
  Rabs (rnd i (B2R z)) < p2 (emax i) -> Rabs (rnd o (rnd i (B2R z))) < p2 (emax o) ->
  B2R (narrow m i o z) = rnd o (rnd i (B2R z)).
Proof.
  intros m o i z Hi Fz _ Bi Bo. unfold narrow.
  destruct (cast_R m i z Fz Bi) as [F1 [R1 _]].
  destruct (cast_R i o (cast m i z) F1) as [F2 [R2 _]]; [now rewrite R1|]. now rewrite R2, R1.
Qed.
Lemma narrow_between_value : forall m o i (lo hi v w : R) (z : num m), holds_all o i -> holds_all o m ->
  is_finite z = true -> v <= B2R z <= w ->
  fmt o lo -> fmt o hi -> Rabs lo <= big o -> Rabs hi <= big o ->
  Rabs (v - lo) < ulp radix2 (fx o) lo / 8 -> Rabs (w - hi) < ulp radix2 (fx o) hi / 8 ->
  B2R (narrow m i o z) = rnd o (rnd i (B2R z)).
Proof.
  intros m o i lo hi v w z Hi Hm Fz Hz Flo Fhi Blo Bhi Cv Cw.
  destruct (narrow_between m o i lo hi v w z) as [Fn _]; trivial.
  destruct (narrow_back o i lo v Hi Flo Cv) as [V1 V2].
  destruct (narrow_back o i hi w Hi Fhi Cw) as [W1 W2].
  pose proof (rnd_le i v (B2R z) ltac:(lra)) as L1.
  pose proof (rnd_le i (B2R z) w ltac:(lra)) as L2.
  pose proof (big_beyond o lo (rnd i v) Blo V2) as T1.
  pose proof (big_beyond o hi (rnd i w) Bhi W2) as T2.
  assert (Ei : p2 (emax o) <= p2 (emax i)) by (apply bpow_le; apply Hi).
  pose proof (rnd_le o _ _ L1) as M1. pose proof (rnd_le o _ _ L2) as M2.
  rewrite V1 in M1. rewrite W1 in M2.
  pose proof (big_lt o lo Blo) as S1. pose proof (big_lt o hi Bhi) as S2.
  apply narrow_value; trivial.
  - apply Rabs_def2 in T1. apply Rabs_def2 in T2. apply Rabs_def1; lra.
  - apply Rabs_def2 in S1. apply Rabs_def2 in S2. apply Rabs_def1; lra.
Qed.

Lemma ws_accurate : forall A B m i o (a : num A) (b : num B) (alpha : num m),
  holds_all A o -> holds_all B o -> holds_all o i -> finer m o ->
  is_finite a = true -> is_finite b = true -> is_finite alpha = true -> 0 <= B2R alpha <= 1 ->
  Rabs (B2R (narrow m i o (weighted_sum_impl m alpha (cast A m a) (cast B m b))) - ((1 - B2R alpha) * B2R a + B2R alpha * B2R b))
    <= 3 * p2 (- prec o) * Rmax (Rabs (B2R a)) (Rabs (B2R b)) + 2 * p2 (emin o).
Proof.
  intros A B m i o a b alpha HA HB Hi Hf Fa Fb Fal Hal.
  assert (Hm : holds_all o m) by now apply finer_holds.
  assert (HAm : holds_all A m) by (unfold holds_all in *; lia).
  assert (HBm : holds_all B m) by (unfold holds_all in *; lia).
  destruct (cast_up A m a HAm Fa) as [Fa' [Ra _]].
  destruct (cast_up B m b HBm Fb) as [Fb' [Rb _]].
  assert (Oa : fmt o (B2R a)) by (apply (fmt_holds A); [trivial | apply num_fmt]).
  assert (Ob : fmt o (B2R b)) by (apply (fmt_holds B); [trivial | apply num_fmt]).
  assert (Ba : Rabs (B2R a) <= big o) by (eapply Rle_trans; [apply num_big | now apply big_le]).
  assert (Bb : Rabs (B2R b) <= big o) by (eapply Rle_trans; [apply num_big | now apply big_le]).
  destruct (ws_impl_R m o Hf alpha Fal Hal (cast A m a) (cast B m b)) as [Fs Rs];
    rewrite ?Ra, ?Rb in *; trivial.
  set (lo := Rmin (B2R a) (B2R b)). set (hi := Rmax (B2R a) (B2R b)).
  rewrite (narrow_between_value m o i lo hi (ws m (B2R alpha) lo lo) (ws m (B2R alpha) hi hi)); trivial;
    try (unfold lo, hi, Rmin, Rmax; destruct Rle_dec; trivial; fail).
  2: { rewrite Rs. split; apply ws_mono; trivial; unfold lo, hi; try apply Rmin_l; try apply Rmin_r; try apply Rmax_l; apply Rmax_r. }
  2: { apply small_ws; trivial. unfold lo, Rmin; destruct Rle_dec; trivial. }
  2: { apply small_ws; trivial. unfold hi, Rmax; destruct Rle_dec; trivial. }
  rewrite Rs. set (M := Rmax (Rabs (B2R a)) (Rabs (B2R b))).
  assert (Xa : Rabs (B2R a) <= M) by apply Rmax_l. assert (Xb : Rabs (B2R b) <= M) by apply Rmax_r.
  change (p2 (- prec o)) with (u o). apply output_error; trivial.
  - replace M with ((1 - B2R alpha) * M + B2R alpha * M) by ring.
    apply Rabs_plus_le; (apply Rabs_mult_le; [rewrite Rabs_pos_eq; lra|]); trivial.
  - eapply Rle_trans; [apply (ws_error m o _ _ _ M); trivial; apply num_fmt|].
    destruct (finer_u m o Hf) as [G1 G2]. assert (PM : 0 <= M) by (pose proof (Rabs_pos (B2R a)); lra).
    pose proof (Rmult_le_compat_r M _ _ PM G1). pose proof (bpow_gt_0 radix2 (emin o)). lra.
Qed.

(** C92.  Every number of merge(weighted_sum(a, b, alpha)) is the exact one up to three half units in the last place of
    the larger model (and two of the smallest numbers), and, when alpha is so close to 0 or 1 everywhere that a
    model is returned, up to that closeness. *)
Theorem C92_accuracy : forall A B m i o close eps (a : list (num A)) (b : list (num B)) (alpha : list (num m)),
  holds_all A o -> holds_all B o -> holds_all o i -> finer m o ->
  Forall (fun x => is_finite x = true) a -> Forall (fun x => is_finite x = true) b ->
  Forall (fun t => is_finite t = true /\ 0 <= B2R t <= 1) alpha -> 0 <= eps ->
  (forall t, close t (B754_zero false) = true -> B2R t <= eps) ->
  (forall t, close t (one m) = true -> 1 - B2R t <= eps) ->
  let r := map (narrow m i o) (weighted_sum m close (map (cast A m) a) (map (cast B m) b) alpha) in
  forall k x y t, nth_error a k = Some x -> nth_error b k = Some y -> nth_error alpha k = Some t ->
  exists z, nth_error r k = Some z /\
    Rabs (B2R z - ((1 - B2R t) * B2R x + B2R t * B2R y))
      <= (3 * p2 (- prec o) + 2 * eps) * Rmax (Rabs (B2R x)) (Rabs (B2R y)) + 2 * p2 (emin o).
Proof.
  intros A B m i o close eps a b alpha HA HB Hi Hf Fa Fb Hal He C0 C1 r k x y t Hx Hy Ht.
  assert (Hm : holds_all o m) by now apply finer_holds.
  assert (HAm : holds_all A m) by (unfold holds_all in *; lia).
  assert (HBm : holds_all B m) by (unfold holds_all in *; lia).
  assert (Fx : is_finite x = true) by (eapply Forall_forall in Fa; [exact Fa | eapply nth_error_In; eauto]).
  assert (Fy : is_finite y = true) by (eapply Forall_forall in Fb; [exact Fb | eapply nth_error_In; eauto]).
  assert (Pt : is_finite t = true /\ 0 <= B2R t <= 1)
    by (eapply Forall_forall in Hal; [exact Hal | eapply nth_error_In; eauto]).
  pose proof (Rmax_l (Rabs (B2R x)) (Rabs (B2R y))) as Mx. pose proof (Rmax_r (Rabs (B2R x)) (Rabs (B2R y))) as My.
  set (M := Rmax (Rabs (B2R x)) (Rabs (B2R y))) in *.
  pose proof (Rabs_pos (B2R x)) as Px. pose proof (bpow_gt_0 radix2 (emin o)) as P1. pose proof (bpow_gt_0 radix2 (- prec o)) as P2.
  assert (D : Rabs (B2R x - B2R y) <= 2 * M).
  { unfold Rminus. replace (2 * M) with (M + M) by ring. apply Rabs_plus_le; [trivial|]. now rewrite Rabs_Ropp. }
  pose proof (Rabs_pos (B2R x - B2R y)) as PD.
  unfold r, weighted_sum.
  match goal with |- context [if ?c then _ else _] => destruct c eqn:E0 end.
  { exists (narrow m i o (cast A m x)). rewrite nth_error_map, nth_error_map, Hx. split; [reflexivity|].
    destruct (narrow_up A m i o x) as [F [R _]]; trivial. rewrite R.
    assert (B2R t <= eps) by (apply C0; rewrite forallb_forall in E0; apply E0; eapply nth_error_In; eauto).
    replace (B2R x - ((1 - B2R t) * B2R x + B2R t * B2R y)) with (B2R t * (B2R x - B2R y)) by ring.
    rewrite Rabs_mult, (Rabs_pos_eq (B2R t)) by lra. nra. }
  match goal with |- context [if ?c then _ else _] => destruct c eqn:E1 end.
  { exists (narrow m i o (cast B m y)). rewrite nth_error_map, nth_error_map, Hy. split; [reflexivity|].
    destruct (narrow_up B m i o y) as [F [R _]]; trivial. rewrite R.
    assert (1 - B2R t <= eps) by (apply C1; rewrite forallb_forall in E1; apply E1; eapply nth_error_In; eauto).
    replace (B2R y - ((1 - B2R t) * B2R x + B2R t * B2R y)) with ((1 - B2R t) * - (B2R x - B2R y)) by ring.
    rewrite Rabs_mult, Rabs_Ropp, (Rabs_pos_eq (1 - B2R t)) by lra. nra. }
  exists (narrow m i o (weighted_sum_impl m t (cast A m x) (cast B m y))). split.
  - rewrite nth_error_map. erewrite map3_nth; [reflexivity | exact Ht | |];
      rewrite nth_error_map; [rewrite Hx | rewrite Hy]; reflexivity.
  - pose proof (ws_accurate A B m i o x y t HA HB Hi Hf Fx Fy (proj1 Pt) (proj2 Pt)) as Q. fold M in Q. nra.
Qed.

(** ** the average *)
Fixpoint rtotal (l : list R) : R := match l with [] => 0 | x :: l => x + rtotal l end.
Lemma rtotal_app : forall l l', rtotal (l ++ l') = rtotal l + rtotal l'.
Proof. induction l as [|x l IH]; intros l'; simpl; [ring | rewrite IH; ring]. Qed.
Lemma rtotal_perm : forall l l', Permutation l l' -> rtotal l = rtotal l'.
Proof. induction 1; simpl; lra. Qed.

Section Sums.
Variable m : dtype.
Implicit Type t : tree m.
Definition sumR t : R := rtotal (map (fun x => B2R x) (terms m t)).
Lemma totR_fmt : forall t, fmt m (totR m t).
Proof. induction t; cbn [totR]; [apply fmt_0 | apply num_fmt | apply fmt_rnd]. Qed.
Lemma totR_none : forall t, count m t = 0%nat -> totR m t = 0.
Proof.
  induction t as [|x|l IHl r IHr]; intros H; [reflexivity | discriminate|].
  rewrite count_plus in H. cbn [totR]. rewrite IHl, IHr, Rplus_0_l by lia. apply rnd_0.
Qed.
Lemma sumR_none : forall t, count m t = 0%nat -> sumR t = 0.
Proof. unfold count, sumR. intros t H. destruct (terms m t); [reflexivity | discriminate]. Qed.
Lemma sumR_bound : forall t M, (forall x, In x (terms m t) -> Rabs (B2R x) <= M) -> Rabs (sumR t) <= INR (count m t) * M.
Proof.
  intros t M. unfold sumR, count. induction (terms m t) as [|x l IH]; intros H.
  - simpl. rewrite Rabs_R0. lra.
  - cbn [map rtotal length]. rewrite S_INR. replace ((INR (length l) + 1) * M) with (M + INR (length l) * M) by ring.
    apply Rabs_plus_le; [apply H; left; reflexivity | apply IH; intros; apply H; right; trivial].
Qed.
Lemma totR_error : forall t M, (forall x, In x (terms m t) -> Rabs (B2R x) <= M) ->
  Rabs (totR m t - sumR t) <= INR (count m t) * M * g m (count m t).
Proof.
  intros t M H. induction t as [|x|l IHl r IHr].
  - unfold sumR; simpl. rewrite Rminus_0_r, Rabs_R0. lra.
  - unfold sumR, count. cbn [totR terms length map rtotal]. replace (B2R x - (B2R x + 0)) with 0 by ring.
    rewrite Rabs_R0. pose proof (H x (or_introl eq_refl)). pose proof (Rabs_pos (B2R x)).
    apply Rmult_le_pos; [apply Rmult_le_pos; [apply pos_INR | lra] | apply g_pos].
  - assert (Hl : forall x, In x (terms m l) -> Rabs (B2R x) <= M) by (intros; apply H; simpl; apply in_or_app; auto).
    assert (Hr : forall x, In x (terms m r) -> Rabs (B2R x) <= M) by (intros; apply H; simpl; apply in_or_app; auto).
    specialize (IHl Hl). specialize (IHr Hr).
    assert (ES : sumR (Plus l r) = sumR l + sumR r) by (unfold sumR; cbn [terms]; now rewrite map_app, rtotal_app).
    rewrite ES, count_plus. cbn [totR].
    destruct (Nat.eq_dec (count m l) 0) as [Zl|Nl].
    { rewrite (totR_none l Zl), (sumR_none l Zl), !Rplus_0_l, rnd_fmt by apply totR_fmt. rewrite Zl. exact IHr. }
    destruct (Nat.eq_dec (count m r) 0) as [Zr|Nr].
    { rewrite (totR_none r Zr), (sumR_none r Zr), !Rplus_0_r, rnd_fmt by apply totR_fmt. rewrite Zr, Nat.add_0_r. exact IHl. }
    assert (PM : 0 <= M).
    { unfold count in Nl. destruct (terms m l) as [|x q] eqn:T; [simpl in Nl; lia|].
      pose proof (Hl x (or_introl eq_refl)). pose proof (Rabs_pos (B2R x)). lra. }
    destruct (rnd_plus m _ _ (totR_fmt l) (totR_fmt r)) as [e [He Er]]. rewrite Er.
    set (n := (count m l + count m r)%nat).
    assert (Hn : INR n = INR (count m l) + INR (count m r)) by (unfold n; apply plus_INR).
    set (k := (n - 1)%nat). assert (Sk : n = S k) by (unfold k, n; lia).
    pose proof (u_pos m) as Pu. pose proof (g_pos m k) as Pk.
    assert (Gl : g m (count m l) <= g m k) by (apply g_mono; unfold k, n; lia).
    assert (Gr : g m (count m r) <= g m k) by (apply g_mono; unfold k, n; lia).
    pose proof (pos_INR (count m l)) as Il. pose proof (pos_INR (count m r)) as Ir.
    assert (Dl : Rabs (totR m l - sumR l) <= INR (count m l) * M * g m k).
    { eapply Rle_trans; [exact IHl|]. apply Rmult_le_compat_l; [now apply Rmult_le_pos | trivial]. }
    assert (Dr : Rabs (totR m r - sumR r) <= INR (count m r) * M * g m k).
    { eapply Rle_trans; [exact IHr|]. apply Rmult_le_compat_l; [now apply Rmult_le_pos | trivial]. }
    set (T := totR m l + totR m r). set (s := sumR l + sumR r).
    assert (DT : Rabs (T - s) <= INR n * M * g m k).
    { replace (T - s) with ((totR m l - sumR l) + (totR m r - sumR r)) by (unfold T, s; ring).
      rewrite Hn. replace ((INR (count m l) + INR (count m r)) * M * g m k)
        with (INR (count m l) * M * g m k + INR (count m r) * M * g m k) by ring.
      now apply Rabs_plus_le. }
    assert (Ms : Rabs s <= INR n * M).
    { rewrite Hn. replace ((INR (count m l) + INR (count m r)) * M) with (INR (count m l) * M + INR (count m r) * M) by ring.
      apply Rabs_plus_le; now apply sumR_bound. }
    assert (MT : Rabs T <= INR n * M * (1 + g m k)).
    { replace T with (s + (T - s)) by ring.
      replace (INR n * M * (1 + g m k)) with (INR n * M + INR n * M * g m k) by ring.
      now apply Rabs_plus_le. }
    replace (T * (1 + e) - s) with ((T - s) + T * e) by ring.
    replace (g m n) with (g m k + u m * (1 + g m k)) by (rewrite Sk; symmetry; apply g_S).
    replace (INR n * M * (g m k + u m * (1 + g m k)))
      with (INR n * M * g m k + INR n * M * (1 + g m k) * u m) by ring.
    apply Rabs_plus_le; [exact DT|]. now apply Rabs_mult_le.
Qed.
Lemma meanR_error : forall t M, (0 < count m t)%nat -> (forall x, In x (terms m t) -> Rabs (B2R x) <= M) ->
  Rabs (rnd m (totR m t / INR (count m t)) - sumR t / INR (count m t)) <= M * g m (S (count m t)) + p2 (emin m).
Proof.
  intros t M Hc H. pose proof (totR_error t M H) as D. pose proof (sumR_bound t M H) as B. set (n := count m t) in *.
  assert (In : 0 < INR n) by now apply lt_0_INR.
  assert (Iv : 0 < / INR n) by now apply Rinv_0_lt_compat.
  set (q := totR m t / INR n). set (c := sumR t / INR n).
  assert (Q : Rabs (q - c) <= M * g m n).
  { unfold q, c. replace (totR m t / INR n - sumR t / INR n) with ((totR m t - sumR t) * / INR n) by (field; lra).
    rewrite Rabs_mult, (Rabs_pos_eq (/ INR n)) by lra.
    apply Rmult_le_reg_r with (INR n); [trivial|]. rewrite Rmult_assoc, Rinv_l by lra. lra. }
  assert (C : Rabs c <= M).
  { unfold c, Rdiv. rewrite Rabs_mult, (Rabs_pos_eq (/ INR n)) by lra.
    apply Rmult_le_reg_r with (INR n); [trivial|]. rewrite Rmult_assoc, Rinv_l by lra. lra. }
  destruct (rnd_error m q) as [e [h [He [Hh E]]]]. rewrite E.
  assert (Mq : Rabs q <= M * (1 + g m n)).
  { replace q with (c + (q - c)) by ring. replace (M * (1 + g m n)) with (M + M * g m n) by ring. now apply Rabs_plus_le. }
  replace (q * (1 + e) + h - c) with ((q - c) + q * e + h) by ring.
  rewrite g_S. replace (M * (g m n + u m * (1 + g m n))) with (M * g m n + M * (1 + g m n) * u m) by ring.
  pose proof (bpow_gt_0 radix2 (emin m)).
  apply Rabs_plus_le; [apply Rabs_plus_le; [exact Q | now apply Rabs_mult_le] | lra].
Qed.
End Sums.

(** C93.  merge(n_average(models)) for one number, whatever the order of the additions: the exact average up to three
    half units in the last place of a bound on the models. *)
Theorem C93_accuracy : forall A m i o (models : list (num A)) (t : tree m) M,
  holds_all A o -> holds_all o i -> finer m o -> enough m o (length models) ->
  models <> [] -> Forall (fun x => is_finite x = true /\ Rabs (B2R x) <= M) models ->
  Permutation (terms m t) (map (cast A m) models) ->
  Rabs (B2R (narrow m i o (mean m t)) - fold_right Rplus 0 (map (fun x => B2R x) models) / INR (length models))
    <= 3 * p2 (- prec o) * M + 2 * p2 (emin o).
Proof.
  intros A m i o models t M HA Hi Hf Hn Hne Fin P.
  destruct (least (fun x : num A => B2R x) models Hne) as [x [Hx Lx]].
  destruct (least (fun x : num A => - B2R x) models Hne) as [y [Hy Ly]].
  assert (Hom : holds_all o m) by now apply finer_holds.
  assert (Hm : holds_all A m) by (unfold holds_all in *; lia).
  assert (Fo : forall v : num A, fmt o (B2R v)) by (intro v; apply (fmt_holds A); [trivial | apply num_fmt]).
  assert (Bo : forall v : num A, Rabs (B2R v) <= big o)
    by (intro v; eapply Rle_trans; [apply num_big | now apply big_le]).
  assert (Hc : count m t = length models).
  { unfold count. rewrite (Permutation_length P). apply map_length. }
  assert (Hp : (0 < length models)%nat) by (destruct models; [congruence | simpl; lia]).
  assert (T : forall v, In v (terms m t) -> exists w, In w models /\ is_finite v = true /\ B2R v = B2R w /\ Rabs (B2R w) <= M).
  { intros v Hv. apply (Permutation_in v P) in Hv. apply in_map_iff in Hv. destruct Hv as [w [<- Hw]].
    assert (Fw : is_finite w = true /\ Rabs (B2R w) <= M) by (eapply Forall_forall in Fin; eauto).
    destruct (cast_up A m w Hm (proj1 Fw)) as [F [R _]]. exists w. tauto. }
  assert (Sum : fold_right Rplus 0 (map (fun x => B2R x) models) = sumR m t).
  { transitivity (rtotal (map (fun x : num A => B2R x) models)); [clear; induction models; simpl; congruence|].
    unfold sumR. rewrite (rtotal_perm _ _ (Permutation_map _ P)), map_map. f_equal. apply map_ext_in.
    intros w Hw. assert (Fw : is_finite w = true /\ Rabs (B2R w) <= M) by (eapply Forall_forall in Fin; eauto).
    destruct (cast_up A m w Hm (proj1 Fw)) as [_ [R _]]. now rewrite R. }
  rewrite Sum. set (n := length models) in *.
  assert (TM : forall v, In v (terms m t) -> Rabs (B2R v) <= M).
  { intros v Hv. destruct (T v Hv) as [w [_ [_ [-> B]]]]. exact B. }
  destruct (total_R m o Hf n Hn t ltac:(lia)) as [Ft Rt].
  { intros v Hv. destruct (T v Hv) as [w [_ [F [-> _]]]]. auto. }
  destruct (of_nat_R m o Hf n Hn n ltac:(lia)) as [Fn Rn].
  assert (In0 : 0 < INR n) by now apply lt_0_INR.
  assert (Iv : 0 < / INR n) by now apply Rinv_0_lt_compat.
  destruct (totR_between m t (B2R x) (B2R y)) as [L U].
  { intros v Hv. destruct (T v Hv) as [w [Hw [_ [-> _]]]]. specialize (Lx w Hw). specialize (Ly w Hw). simpl in *. lra. }
  set (lo := B2R x) in *. set (hi := B2R y) in *.
  assert (Dl : totC m lo t / INR n <= totR m t / INR n) by (apply Rmult_le_compat_r; lra).
  assert (Du : totR m t / INR n <= totC m hi t / INR n) by (apply Rmult_le_compat_r; lra).
  pose proof (meanC_small m o Hf n Hn lo t (Fo x) Hc Hp) as Sl. pose proof (meanC_small m o Hf n Hn hi t (Fo y) Hc Hp) as Su.
  assert (Em : p2 (emax o) <= p2 (emax m)) by (apply bpow_le; apply Hom).
  destruct (div_R m (total m t) (of_nat m n) Ft) as [Fd Rd].
  { rewrite Rn. lra. }
  { rewrite Rt, Rn.
    pose proof (Rabs_pos (rnd m (totC m lo t / INR n) - lo)). pose proof (Rabs_pos (rnd m (totC m hi t / INR n) - hi)).
    assert (T1 : Rabs (rnd m (totC m lo t / INR n)) < p2 (emax o)) by (apply (big_beyond o lo); [apply Bo | lra]).
    assert (T2 : Rabs (rnd m (totC m hi t / INR n)) < p2 (emax o)) by (apply (big_beyond o hi); [apply Bo | lra]).
    pose proof (rnd_le m _ _ Dl). pose proof (rnd_le m _ _ Du).
    apply Rabs_def2 in T1. apply Rabs_def2 in T2. apply Rabs_def1; lra. }
  rewrite Rt, Rn in Rd.
  assert (Em' : mean m t = div m (total m t) (of_nat m n)) by (unfold mean; fold (count m t); now rewrite Hc).
  rewrite Em'.
  rewrite (narrow_between_value m o i lo hi (rnd m (totC m lo t / INR n)) (rnd m (totC m hi t / INR n))); trivial;
    try apply Fo; try apply Bo.
  2: { rewrite Rd. split; now apply rnd_le. }
  rewrite Rd. change (p2 (- prec o)) with (u o). apply output_error; trivial.
  - unfold Rdiv. rewrite Rabs_mult, (Rabs_pos_eq (/ INR n)) by lra.
    pose proof (sumR_bound m t M TM) as B. rewrite Hc in B.
    apply Rmult_le_reg_r with (INR n); [trivial|]. rewrite Rmult_assoc, Rinv_l by lra. lra.
  - pose proof (meanR_error m t M ltac:(lia) TM) as Q. rewrite Hc in Q. eapply Rle_trans; [exact Q|].
    pose proof (enough_g m o Hf n Hn (S n) (le_n _)) as G. change (p2 (- prec o)) with (u o) in G.
    destruct (finer_u m o Hf) as [_ G2]. pose proof (bpow_gt_0 radix2 (emin o)).
    assert (PM : 0 <= M).
    { destruct models as [|v q]; [congruence|]. inversion Fin as [|? ? [_ V] _]; subst. pose proof (Rabs_pos (B2R v)). lra. }
    pose proof (Rmult_le_compat_l M _ _ PM G). lra.
Qed.

(** ** the output cast *)
Lemma cast_finite : forall d e (x : num d), is_finite x = true -> is_finite (cast d e x) = true -> Rabs (rnd e (B2R x)) < p2 (emax e).
Proof.
  intros d e x F H. destruct (Rlt_or_le (Rabs (rnd e (B2R x))) (p2 (emax e))) as [L|L]; [exact L|]. exfalso.
  destruct x as [s|s| |s mx ex Hx]; try discriminate.
  - simpl in L. rewrite rnd_0, Rabs_R0 in L. pose proof (bpow_gt_0 radix2 (emax e)). lra.
  - pose proof (binary_normalize_correct (prec e) (emax e) (prec_pos e) (prec_lt e) mode_NE (cond_Zopp s (Zpos mx)) ex s) as C.
    cbv zeta in C. rewrite Rlt_bool_false in C by exact L. cbn [cast] in H.
    destruct (binary_normalize _ _ _ _ _ _ _ _); try discriminate; unfold binary_overflow in C; simpl in C; discriminate.
Qed.

(** C95.  A number of a model that only passes through merge becomes the nearest number of the output dtype, and stays
    finite if the output dtype has larger numbers. *)
Theorem C95_nearest : forall A m i o (x : num A), holds_all A m -> holds_all A i -> is_finite x = true ->
  let z := narrow m i o (cast A m x) in
  (is_finite z = true -> forall y : num o, Rabs (B2R z - B2R x) <= Rabs (B2R y - B2R x)) /\
  ((exists y : num o, Rabs (B2R x) <= Rabs (B2R y)) -> is_finite z = true).
Proof.
  intros A m i o x Hm Hi Fx z.
  destruct (cast_up A m x Hm Fx) as [F1 [R1 _]].
  assert (Fi : fmt i (B2R x)) by (apply (fmt_holds A); [trivial | apply num_fmt]).
  destruct (cast_R m i (cast A m x) F1) as [F2 [R2 _]]; rewrite R1, (rnd_fmt i) in * by trivial.
  { apply big_lt. eapply Rle_trans; [apply num_big | now apply big_le]. }
  split.
  - intros Fz y. unfold z, narrow in Fz. pose proof (cast_finite i o _ F2 Fz) as L.
    destruct (cast_R i o _ F2 L) as [_ [R3 _]]. unfold z, narrow. rewrite R3, R2. apply rnd_nearest, num_fmt.
  - intros [y Hy]. unfold z, narrow. apply cast_R; [exact F2|]. rewrite R2, <- rnd_abs.
    eapply Rle_lt_trans; [apply rnd_le; exact Hy|].
    rewrite rnd_fmt by (apply generic_format_abs, num_fmt). apply big_lt, num_big.
Qed.

(** alpha 0.3 and models 1 and 2: within the bound, and not exact *)
Example C92_accuracy_case :
  let z := narrow float64 float32 float16 (weighted_sum_impl float64 (val float64 10066330 (-25))
             (cast float16 float64 (val float16 1 0)) (cast float16 float64 (val float16 2 0))) in
  B2SF z = SpecFloat.S754_finite false 1331 (-10).
Proof. vm_compute. reflexivity. Qed.
(** the average of 1, 1 and 2 *)
Example C93_accuracy_case :
  let x := Term (cast float16 float64 (val float16 1 0)) in let y := Term (cast float16 float64 (val float16 2 0)) in
  B2SF (narrow float64 float32 float16 (mean float64 (Plus x (Plus x y)))) = SpecFloat.S754_finite false 1365 (-10).
Proof. vm_compute. reflexivity. Qed.

Print Assumptions C92_accuracy.
Print Assumptions C93_accuracy.
Print Assumptions C95_nearest.
