(** C92-C95: what rounding does to the results of merge (dtypes of models, merge_dtype, output_dtype). *)
From Coq Require Import ZArith Reals List Lia Lra Psatz Bool Permutation.
From Flocq Require Import Core BinarySingleNaN.
From Verif Require Import ModelRound SpecRound RoundProofs.
Import ListNotations.
Open Scope R_scope.

(** ** C92: weighted_sum *)

Lemma rnd_contract : forall m p x, 0 <= p <= 1 -> fmt m x -> Rabs (rnd m (p * x)) <= Rabs x.
Proof.
  intros m p x Hp Fx.
  assert (F : fmt m (Rabs x)) by (apply generic_format_abs; exact Fx).
  assert (A : Rabs (p * x) <= Rabs x).
  { rewrite Rabs_mult, (Rabs_pos_eq p) by lra. pose proof (Rabs_pos x). nra. }
  assert (B : - Rabs x <= p * x <= Rabs x).
  { destruct (Rcase_abs (p * x)); [rewrite (Rabs_left (p * x)) in A by lra | rewrite (Rabs_pos_eq (p * x)) in A by lra]; pose proof (Rabs_pos x); lra. }
  pose proof (rnd_le m _ _ (proj1 B)) as L. pose proof (rnd_le m _ _ (proj2 B)) as U.
  rewrite rnd_opp, (rnd_fmt m _ F) in L. rewrite (rnd_fmt m _ F) in U.
  now apply Rabs_le.
Qed.

Section Weighted.
Variables m o : dtype.
Hypothesis Hf : finer m o.
Variable alpha : num m.
Hypothesis Fal : is_finite alpha = true.
Hypothesis Hal : 0 <= B2R alpha <= 1.

Lemma small_ws : forall x, fmt o x -> Rabs (ws m (B2R alpha) x x - x) < ulp radix2 (fx o) x / 8.
Proof.
  intros x Fx. apply small_error with m; [exact Hf|].
  apply ws_self with o; trivial. apply num_fmt.
Qed.

Lemma ws_impl_R : forall a b : num m, is_finite a = true -> is_finite b = true ->
  fmt o (B2R a) -> fmt o (B2R b) -> Rabs (B2R a) <= big o -> Rabs (B2R b) <= big o ->
  is_finite (weighted_sum_impl m alpha a b) = true /\
  B2R (weighted_sum_impl m alpha a b) = ws m (B2R alpha) (B2R a) (B2R b).
Proof.
  intros a b Fa Fb Oa Ob Ba Bb.
  destruct (one_R m) as [F1 R1].
  assert (Hm : holds_all o m) by now apply finer_holds.
  assert (Em : p2 (emax o) <= p2 (emax m)) by (apply bpow_le; apply Hm).
  assert (P1 : 1 < p2 (emax m)).
  { change 1 with (p2 0). apply bpow_lt. pose proof (prec_lt' m). pose proof (prec_pos' m). lia. }
  assert (C : 0 <= comp m (B2R alpha) <= 1) by (apply comp_range; exact Hal).
  destruct (sub_R m (one m) alpha F1 Fal) as [Fp Rp].
  { rewrite R1. fold (comp m (B2R alpha)). rewrite Rabs_pos_eq; lra. }
  rewrite R1 in Rp. fold (comp m (B2R alpha)) in Rp.
  destruct (mul_R m (sub m (one m) alpha) a Fp Fa) as [Ft1 Rt1].
  { rewrite Rp. eapply Rle_lt_trans; [apply rnd_contract; [exact C | apply num_fmt]|].
    apply big_lt in Ba. lra. }
  rewrite Rp in Rt1.
  destruct (mul_R m alpha b Fal Fb) as [Ft2 Rt2].
  { eapply Rle_lt_trans; [apply rnd_contract; [exact Hal | apply num_fmt]|].
    apply big_lt in Bb. lra. }
  destruct (add_R m _ _ Ft1 Ft2) as [Fs Rs].
  - rewrite Rt1, Rt2. fold (ws m (B2R alpha) (B2R a) (B2R b)).
    set (lo := Rmin (B2R a) (B2R b)). set (hi := Rmax (B2R a) (B2R b)).
    assert (Flo : fmt o lo) by (unfold lo, Rmin; destruct Rle_dec; trivial).
    assert (Fhi : fmt o hi) by (unfold hi, Rmax; destruct Rle_dec; trivial).
    assert (Blo : Rabs lo <= big o) by (unfold lo, Rmin; destruct Rle_dec; trivial).
    assert (Bhi : Rabs hi <= big o) by (unfold hi, Rmax; destruct Rle_dec; trivial).
    assert (L : ws m (B2R alpha) lo lo <= ws m (B2R alpha) (B2R a) (B2R b))
      by (apply ws_mono; trivial; [apply Rmin_l | apply Rmin_r]).
    assert (U : ws m (B2R alpha) (B2R a) (B2R b) <= ws m (B2R alpha) hi hi)
      by (apply ws_mono; trivial; [apply Rmax_l | apply Rmax_r]).
    pose proof (small_ws lo Flo) as Slo. pose proof (small_ws hi Fhi) as Shi.
    pose proof (Rabs_pos (ws m (B2R alpha) lo lo - lo)). pose proof (Rabs_pos (ws m (B2R alpha) hi hi - hi)).
    pose proof (big_beyond o lo _ Blo ltac:(instantiate (1 := ws m (B2R alpha) lo lo); lra)) as T1.
    pose proof (big_beyond o hi _ Bhi ltac:(instantiate (1 := ws m (B2R alpha) hi hi); lra)) as T2.
    apply Rabs_def2 in T1. apply Rabs_def2 in T2. apply Rabs_def1; lra.
  - unfold weighted_sum_impl. split; [exact Fs|]. rewrite Rs, Rt1, Rt2. reflexivity.
Qed.
End Weighted.

(** The value of one number of merge(weighted_sum(a, b, alpha)). *)
Lemma ws_between : forall A B m i o (a : num A) (b : num B) (alpha : num m),
  holds_all A o -> holds_all B o -> holds_all o i -> finer m o ->
  is_finite a = true -> is_finite b = true -> is_finite alpha = true -> 0 <= B2R alpha <= 1 ->
  let z := narrow m i o (weighted_sum_impl m alpha (cast A m a) (cast B m b)) in
  is_finite z = true /\ Rmin (B2R a) (B2R b) <= B2R z <= Rmax (B2R a) (B2R b).
Proof.
  intros A B m i o a b alpha HA HB Hi Hf Fa Fb Fal Hal z.
  assert (Hm : holds_all o m) by now apply finer_holds.
  assert (HAm : holds_all A m) by (unfold holds_all in *; lia).
  assert (HBm : holds_all B m) by (unfold holds_all in *; lia).
  destruct (cast_up A m a HAm Fa) as [Fa' [Ra _]].
  destruct (cast_up B m b HBm Fb) as [Fb' [Rb _]].
  assert (Oa : fmt o (B2R a)) by (apply (fmt_holds A); [trivial | apply num_fmt]).
  assert (Ob : fmt o (B2R b)) by (apply (fmt_holds B); [trivial | apply num_fmt]).
  assert (Ba : Rabs (B2R a) <= big o) by (eapply Rle_trans; [apply num_big | now apply big_le]).
  assert (Bb : Rabs (B2R b) <= big o) by (eapply Rle_trans; [apply num_big | now apply big_le]).
  destruct (ws_impl_R m o Hf alpha Fal Hal (cast A m a) (cast B m b)) as [Fs Rs];
    rewrite ?Ra, ?Rb in *; trivial.
  set (lo := Rmin (B2R a) (B2R b)). set (hi := Rmax (B2R a) (B2R b)).
  assert (Flo : fmt o lo) by (unfold lo, Rmin; destruct Rle_dec; trivial).
  assert (Fhi : fmt o hi) by (unfold hi, Rmax; destruct Rle_dec; trivial).
  assert (Blo : Rabs lo <= big o) by (unfold lo, Rmin; destruct Rle_dec; trivial).
  assert (Bhi : Rabs hi <= big o) by (unfold hi, Rmax; destruct Rle_dec; trivial).
  apply narrow_between with (v := ws m (B2R alpha) lo lo) (w := ws m (B2R alpha) hi hi); trivial.
  - rewrite Rs. split; apply ws_mono; trivial; try apply Rmin_l; try apply Rmin_r; try apply Rmax_l; apply Rmax_r.
  - now apply small_ws.
  - now apply small_ws.
Qed.

Lemma map3_nth : forall {A B C D} (f : A -> B -> C -> D) l l' l'' i x y z,
  nth_error l i = Some x -> nth_error l' i = Some y -> nth_error l'' i = Some z ->
  nth_error (map3 f l l' l'') i = Some (f x y z).
Proof.
  induction l as [|a l IH]; intros [|b l'] [|c l''] [|i] x y z; simpl; try discriminate.
  - congruence.
  - apply IH.
Qed.

Lemma narrow_up : forall A m i o (a : num A), holds_all A o -> holds_all A m -> holds_all o i -> is_finite a = true ->
  is_finite (narrow m i o (cast A m a)) = true /\ B2R (narrow m i o (cast A m a)) = B2R a /\
  Bsign (narrow m i o (cast A m a)) = Bsign a.
Proof.
  intros A m i o a Ho Hm Hi Fa.
  destruct (cast_up A m a Hm Fa) as [F1 [R1 S1]].
  assert (Oa : fmt o (B2R a)) by (apply (fmt_holds A); [trivial | apply num_fmt]).
  assert (Ia : fmt i (B2R a)) by (now apply (fmt_holds o)).
  assert (Ba : Rabs (B2R a) <= big o) by (eapply Rle_trans; [apply num_big | now apply big_le]).
  destruct (cast_R m i (cast A m a) F1) as [F2 [R2 S2]].
  { rewrite R1, rnd_fmt by trivial. apply big_lt. eapply Rle_trans; [exact Ba | now apply big_le]. }
  rewrite R1, rnd_fmt in R2 by trivial.
  destruct (cast_R i o (cast m i (cast A m a)) F2) as [F3 [R3 S3]].
  { rewrite R2, rnd_fmt by trivial. now apply big_lt. }
  unfold narrow. rewrite R3, R2, rnd_fmt by trivial. rewrite S3, S2, S1. auto.
Qed.

(** C92.  merge(weighted_sum(a, b, alpha)) on one key, models stored in dtypes [A] and [B], alpha (a number for each
    place, between 0 and 1), merge_dtype [m], output_dtype [o]: every number of the result is finite and lies
    between those of [a] and [b], whatever the rounding. *)
Theorem C92_weighted_sum_range : forall A B m i o close (a : list (num A)) (b : list (num B)) (alpha : list (num m)),
  holds_all A o -> holds_all B o -> holds_all o i -> finer m o ->
  length a = length alpha -> length b = length alpha ->
  Forall (fun x => is_finite x = true) a -> Forall (fun x => is_finite x = true) b ->
  Forall (fun t => is_finite t = true /\ 0 <= B2R t <= 1) alpha ->
  let r := map (narrow m i o) (weighted_sum m close (map (cast A m) a) (map (cast B m) b) alpha) in
  length r = length alpha /\
  forall k x y, nth_error a k = Some x -> nth_error b k = Some y ->
  exists z, nth_error r k = Some z /\ is_finite z = true /\
            Rmin (B2R x) (B2R y) <= B2R z <= Rmax (B2R x) (B2R y).
Proof.
  intros A B m i o close a b alpha HA HB Hi Hf La Lb Fa Fb Hal r.
  assert (Hm : holds_all o m) by now apply finer_holds.
  assert (HAm : holds_all A m) by (unfold holds_all in *; lia).
  assert (HBm : holds_all B m) by (unfold holds_all in *; lia).
  split.
  { unfold r, weighted_sum.
    destruct (forallb _ alpha); [now rewrite !map_length|].
    destruct (forallb _ alpha); [now rewrite !map_length|].
    rewrite map_length. clear -La Lb. revert a b La Lb.
    induction alpha as [|t alpha IH]; intros [|x a] [|y b] La Lb; simpl in *; try lia. now rewrite IH by lia. }
  intros k x y Hx Hy.
  assert (Fx : is_finite x = true) by (eapply Forall_forall in Fa; [exact Fa | eapply nth_error_In; eauto]).
  assert (Fy : is_finite y = true) by (eapply Forall_forall in Fb; [exact Fb | eapply nth_error_In; eauto]).
  unfold r, weighted_sum.
  destruct (forallb _ alpha); [|destruct (forallb _ alpha)].
  - exists (narrow m i o (cast A m x)). rewrite nth_error_map, nth_error_map, Hx.
    destruct (narrow_up A m i o x) as [F [R _]]; trivial.
    rewrite R. repeat split; trivial; [apply Rmin_l | apply Rmax_l].
  - exists (narrow m i o (cast B m y)). rewrite nth_error_map, nth_error_map, Hy.
    destruct (narrow_up B m i o y) as [F [R _]]; trivial.
    rewrite R. repeat split; trivial; [apply Rmin_r | apply Rmax_r].
  - assert (Hk : exists t, nth_error alpha k = Some t).
    { destruct (nth_error alpha k) eqn:E; [eauto|]. apply nth_error_None in E.
      assert (k < length a)%nat by (apply nth_error_Some; congruence). lia. }
    destruct Hk as [t Ht].
    assert (Pt : is_finite t = true /\ 0 <= B2R t <= 1)
      by (eapply Forall_forall in Hal; [exact Hal | eapply nth_error_In; eauto]).
    exists (narrow m i o (weighted_sum_impl m t (cast A m x) (cast B m y))).
    split.
    + rewrite nth_error_map. erewrite map3_nth; [reflexivity | exact Ht | |];
        rewrite nth_error_map; [rewrite Hx | rewrite Hy]; reflexivity.
    + apply ws_between; tauto.
Qed.

Lemma nonzero_strict : forall d (x : num d), B2R x <> 0 -> is_finite_strict x = true.
Proof. intros d [s|s| |s mx ex Hx] H; simpl in *; trivial; lra. Qed.

(** ** the casts *)
Lemma back_same : forall o (x z : num o), is_finite x = true -> is_finite z = true -> B2R z = B2R x -> Bsign z = Bsign x ->
  z = x.
Proof. intros. now apply B2R_Bsign_inj. Qed.

Lemma ws_impl_zero : forall m (alpha : num m) s, is_finite alpha = true -> 0 <= B2R alpha <= 1 -> Bsign alpha = false ->
  weighted_sum_impl m alpha (B754_zero s) (B754_zero s) = B754_zero s.
Proof.
  intros m alpha s Fal Hal Sal. unfold weighted_sum_impl.
  assert (E2 : mul m alpha (B754_zero s) = B754_zero s).
  { destruct alpha as [q|q| |q mx ex Hx]; try discriminate; simpl in *; subst q; unfold mul; simpl; now destruct s. }
  assert (E1 : mul m (sub m (one m) alpha) (B754_zero s) = B754_zero s).
  { destruct (one_R m) as [F1 R1].
    assert (C : 0 <= comp m (B2R alpha) <= 1) by (apply comp_range; exact Hal).
    assert (P1 : 1 < p2 (emax m)).
    { change 1 with (p2 0). apply bpow_lt. pose proof (prec_lt' m). pose proof (prec_pos' m). lia. }
    pose proof (Bminus_correct (prec m) (emax m) _ _ mode_NE (one m) alpha F1 Fal) as K.
    rewrite Rlt_bool_true in K.
    2:{ rewrite R1. change (Rabs (comp m (B2R alpha)) < p2 (emax m)). rewrite Rabs_pos_eq; lra. }
    destruct K as [_ [K2 K3]].
    assert (K4 : Bsign (sub m (one m) alpha) = false).
    { etransitivity; [exact K3|]. rewrite R1.
      destruct (Rcompare_spec (1 - B2R alpha) 0); [lra | | trivial].
      replace (Bsign (one m)) with false; [trivial|]. symmetry. apply Bsign_Bone. }
    unfold sub in *. destruct (Bminus mode_NE (one m) alpha) as [q|q| |q mx ex Hx]; try discriminate;
      simpl in K4; subst q; unfold mul; simpl; now destruct s. }
  rewrite E1, E2. unfold add. simpl. now rewrite Bool.eqb_reflx.
Qed.

(** C92.  Merging a model with itself gives back the model, bit for bit. *)
Theorem C92_self_merge : forall o m i close (a : list (num o)) (alpha : list (num m)),
  holds_all o i -> finer m o -> length a = length alpha ->
  Forall (fun x => is_finite x = true) a ->
  Forall (fun t => is_finite t = true /\ 0 <= B2R t <= 1 /\ Bsign t = false) alpha ->
  map (narrow m i o) (weighted_sum m close (map (cast o m) a) (map (cast o m) a) alpha) = a.
Proof.
  intros o m i close a alpha Hi Hf La Fa Hal.
  assert (Ho : holds_all o o) by (unfold holds_all; lia).
  assert (Hm : holds_all o m) by now apply finer_holds.
  assert (Id : map (narrow m i o) (map (cast o m) a) = a).
  { rewrite map_map. clear La Hal. induction Fa as [|x a Fx Fa IH]; [trivial|]. simpl. rewrite IH. f_equal.
    destruct (narrow_up o m i o x) as [F [R S]]; trivial. now apply back_same. }
  unfold weighted_sum. destruct (forallb _ alpha); [exact Id|]. destruct (forallb _ alpha); [exact Id|].
  clear Id. revert a La Fa. induction Hal as [|t alpha Pt Hal IH]; intros [|x a] La Fa; simpl in La; try discriminate; [trivial|].
  inversion Fa as [|? ? Fx Fa']; subst. simpl. rewrite (IH a) by (trivial; lia). f_equal.
  destruct Pt as [Ft [Rt St]].
  destruct (ws_between o o m i o x x t) as [Fz Rz]; trivial.
  rewrite Rmin_left, Rmax_left in Rz by lra.
  destruct (Req_dec (B2R x) 0) as [Z|Z].
  - destruct x as [s|s| |s mx ex Hx]; try discriminate.
    + cbn [cast]. rewrite ws_impl_zero by trivial. reflexivity.
    + exfalso. simpl in Z. destruct s; [pose proof (F2R_lt_0 radix2 (Float radix2 (cond_Zopp true (Zpos mx)) ex) eq_refl) | pose proof (F2R_gt_0 radix2 (Float radix2 (cond_Zopp false (Zpos mx)) ex) eq_refl)]; lra.
  - apply B2R_inj; [apply nonzero_strict; lra | now apply nonzero_strict | lra].
Qed.

(** ** C93: n_average *)

Lemma fmt_big : forall o, fmt o (big o).
Proof.
  intro o. pose proof (prec_lt' o). pose proof (prec_pos' o).
  assert (F : fmt o (p2 (emax o))) by (apply generic_format_bpow; unfold fx, FLT_exp, emin; lia).
  assert (E : big o = pred radix2 (fx o) (p2 (emax o))).
  { rewrite pred_bpow. unfold big. do 2 f_equal. unfold fx, FLT_exp, emin. lia. }
  rewrite E. apply generic_format_pred; auto with typeclass_instances.
Qed.
Lemma big_pos : forall o, 0 <= big o.
Proof. intro o. unfold big. pose proof (prec_pos' o). assert (p2 (emax o - prec o) <= p2 (emax o)) by (apply bpow_le; lia). lra. Qed.

Section Average.
Variables m o : dtype.
Hypothesis Hf : finer m o.
Variable n : nat.
Hypothesis Hn : enough m o n.

Lemma enough_u : (INR n + 1) * u m <= p2 (- prec o) / 32.
Proof.
  destruct Hn as [H _]. destruct Hf as [H1 _].
  apply IZR_le in H. rewrite plus_IZR, <- INR_IZR_INZ in H.
  change 2%Z with (radix_val radix2) in H. rewrite IZR_Zpower in H by lia.
  replace (p2 (- prec o) / 32) with (p2 (prec m - prec o - 5) * u m).
  - apply Rmult_le_compat_r; [apply Rlt_le, u_pos | exact H].
  - unfold u. rewrite <- bpow_plus.
    replace (prec m - prec o - 5 + - prec m)%Z with (- prec o + - 5)%Z by lia.
    rewrite bpow_plus. change (p2 (-5)) with (/ 32). lra.
Qed.
Lemma p2_o_1 : p2 (- prec o) <= 1.
Proof. change 1 with (p2 0). apply bpow_le. pose proof (prec_pos' o). lia. Qed.
Lemma enough_g : forall k, (k <= S n)%nat -> g m k <= p2 (- prec o) / 16.
Proof.
  intros k Hk. pose proof enough_u as U. pose proof p2_o_1.
  eapply Rle_trans; [apply g_mono, Hk|]. pose proof (u_pos m).
  assert (E : INR (S n) = INR n + 1) by apply S_INR.
  eapply Rle_trans; [apply g_lin; rewrite E; lra|]. rewrite E. lra.
Qed.
Lemma enough_max : 2 * INR n * p2 (emax o) <= p2 (emax m).
Proof.
  destruct Hn as [_ H]. destruct Hf as [_ [H1 _]].
  apply IZR_le in H. rewrite mult_IZR, <- INR_IZR_INZ in H.
  change (2 ^ (emax m - emax o))%Z with (radix2 ^ (emax m - emax o))%Z in H. rewrite IZR_Zpower in H by lia.
  replace (p2 (emax m)) with (p2 (emax m - emax o) * p2 (emax o)) by (rewrite <- bpow_plus; f_equal; lia).
  apply Rmult_le_compat_r; [apply bpow_ge_0 | exact H].
Qed.

Lemma totC_bound : forall c t, fmt m c -> Rabs c <= big o -> (count m t <= n)%nat ->
  Rabs (totC m c t) < p2 (emax m).
Proof.
  intros c t Fc Bc Hk.
  pose proof (totC_error m c t Fc) as D. pose proof (enough_g (count m t) ltac:(lia)) as G. pose proof p2_o_1.
  pose proof (Rabs_pos c). pose proof (g_pos m (count m t)). pose proof (pos_INR (count m t)) as P.
  set (k := INR (count m t)) in *.
  assert (M : Rabs (totC m c t) <= k * Rabs c + k * Rabs c * g m (count m t)).
  { replace (totC m c t) with (k * c + (totC m c t - k * c)) by ring.
    apply Rabs_plus_le; [|exact D]. rewrite Rabs_mult, (Rabs_pos_eq k) by trivial. lra. }
  assert (Kc : 0 <= k * Rabs c) by now apply Rmult_le_pos.
  assert (M2 : k * Rabs c * g m (count m t) <= k * Rabs c * / 16) by (apply Rmult_le_compat_l; lra).
  assert (Kn : k <= INR n) by (apply le_INR; exact Hk).
  apply big_lt in Bc.
  pose proof enough_max as E. pose proof (bpow_gt_0 radix2 (emax o)).
  pose proof (bpow_gt_0 radix2 (emax m)).
  destruct (Req_dec k 0) as [Z|Z].
  - rewrite Z in *. lra.
  - assert (k * Rabs c < k * p2 (emax o)) by (apply Rmult_lt_compat_l; lra).
    assert (k * p2 (emax o) <= INR n * p2 (emax o)) by (apply Rmult_le_compat_r; lra).
    lra.
Qed.

Lemma total_R : forall t : tree m, (count m t <= n)%nat ->
  (forall x, In x (terms m t) -> is_finite x = true /\ Rabs (B2R x) <= big o) ->
  is_finite (total m t) = true /\ B2R (total m t) = totR m t.
Proof.
  assert (Fb : fmt m (big o)) by (apply (fmt_holds o); [now apply finer_holds | apply fmt_big]).
  pose proof (big_pos o) as Pb.
  induction t as [|x|l IHl r IHr]; intros Hk H.
  - now split.
  - split; [|trivial]. apply H. simpl. auto.
  - rewrite count_plus in Hk.
    destruct (IHl ltac:(lia) ltac:(intros; apply H; simpl; apply in_or_app; auto)) as [Fl Rl].
    destruct (IHr ltac:(lia) ltac:(intros; apply H; simpl; apply in_or_app; auto)) as [Fr Rr].
    cbn [total totR]. rewrite <- Rl, <- Rr. apply add_R; trivial.
    rewrite Rl, Rr. change (Rabs (totR m (Plus l r)) < p2 (emax m)).
    destruct (totR_between m (Plus l r) (- big o) (big o)) as [L U].
    { intros x Hx. destruct (H x Hx) as [_ B]. apply Rabs_def2b in B || (split; [|]); try lra.
      all: destruct (Rcase_abs (B2R x)); [rewrite (Rabs_left (B2R x)) in B by lra | rewrite (Rabs_pos_eq (B2R x)) in B by lra]; lra. }
    assert (B1 : Rabs (totC m (- big o) (Plus l r)) < p2 (emax m)).
    { apply totC_bound; [now apply fmt_opp | rewrite Rabs_Ropp, Rabs_pos_eq; lra | rewrite count_plus; lia]. }
    assert (B2 : Rabs (totC m (big o) (Plus l r)) < p2 (emax m)).
    { apply totC_bound; [trivial | rewrite Rabs_pos_eq; lra | rewrite count_plus; lia]. }
    apply Rabs_def2 in B1. apply Rabs_def2 in B2. apply Rabs_def1; lra.
Qed.

Lemma of_nat_R : forall k, (k <= n)%nat -> is_finite (of_nat m k) = true /\ B2R (of_nat m k) = INR k.
Proof.
  intros k Hk.
  destruct Hn as [H _]. destruct Hf as [H1 _]. pose proof (prec_pos' o). pose proof (prec_pos' m). pose proof (prec_lt' m).
  assert (Hz : (Z.of_nat k < 2 ^ prec m)%Z).
  { apply Z.lt_le_trans with (2 ^ (prec m - prec o - 5))%Z; [lia|]. apply Z.pow_le_mono_r; lia. }
  pose proof (binary_normalize_correct (prec m) (emax m) (prec_pos m) (prec_lt m) mode_NE (Z.of_nat k) 0 false) as C.
  cbv zeta in C.
  assert (E : F2R (Float radix2 (Z.of_nat k) 0) = INR k) by (unfold F2R; simpl; rewrite Rmult_1_r, <- INR_IZR_INZ; trivial).
  assert (F : fmt m (INR k)).
  { apply generic_format_FLT. exists (Float radix2 (Z.of_nat k) 0); simpl.
    - now rewrite E.
    - rewrite Z.abs_eq by lia. exact Hz.
    - unfold emin. lia. }
  rewrite E in C. change (round radix2 (SpecFloat.fexp (prec m) (emax m)) (round_mode mode_NE) (INR k)) with (rnd m (INR k)) in C.
  rewrite rnd_fmt in C by trivial. rewrite Rlt_bool_true in C.
  - destruct C as [C1 [C2 _]]. now split.
  - rewrite Rabs_pos_eq by apply pos_INR. apply IZR_lt in Hz. rewrite <- INR_IZR_INZ in Hz.
    change (2 ^ prec m)%Z with (radix2 ^ prec m)%Z in Hz. rewrite IZR_Zpower in Hz by lia.
    eapply Rlt_trans; [exact Hz|]. apply bpow_lt. lia.
Qed.

Lemma meanC_small : forall c t, fmt o c -> count m t = n -> (0 < n)%nat ->
  Rabs (rnd m (totC m c t / INR n) - c) < ulp radix2 (fx o) c / 8.
Proof.
  intros c t Fc Hk Hp.
  assert (Fm : fmt m c) by (apply (fmt_holds o); [now apply finer_holds | trivial]).
  pose proof (meanC_error m c t Fm ltac:(lia)) as E. rewrite Hk in E.
  pose proof (enough_g (S n) (le_n _)) as G.
  pose proof (ulp_rel o c). pose proof (ulp_big o c). pose proof (Rabs_pos c).
  assert (B : 4 * p2 (emin m) <= p2 (emin o) / 16).
  { replace (4 * p2 (emin m)) with (p2 (emin m + 2)) by (rewrite bpow_plus; simpl; lra).
    apply p2_le_quot. destruct Hf as [_ [_ H3]]. lia. }
  pose proof (bpow_gt_0 radix2 (emin m)).
  assert (Rabs c * g m (S n) <= Rabs c * (p2 (- prec o) / 16)) by (apply Rmult_le_compat_l; lra).
  lra.
Qed.

Lemma mean_between : forall i (t : tree m) lo hi, holds_all o i -> count m t = n -> (0 < n)%nat ->
  fmt o lo -> fmt o hi -> Rabs lo <= big o -> Rabs hi <= big o ->
  (forall x, In x (terms m t) -> is_finite x = true /\ lo <= B2R x <= hi) ->
  is_finite (narrow m i o (mean m t)) = true /\ lo <= B2R (narrow m i o (mean m t)) <= hi.
Proof.
  intros i t lo hi Hi Hk Hp Flo Fhi Blo Bhi H.
  assert (Hm : holds_all o m) by now apply finer_holds.
  assert (Ab : forall x, In x (terms m t) -> Rabs (B2R x) <= big o).
  { intros x Hx. destruct (H x Hx) as [_ [L U]].
    apply Rabs_le. split.
    - pose proof (Rle_abs (- lo)). rewrite Rabs_Ropp in H0. lra.
    - pose proof (Rle_abs hi). lra. }
  destruct (total_R t ltac:(lia)) as [Ft Rt].
  { intros x Hx. split; [apply (H x Hx) | now apply Ab]. }
  destruct (totR_between m t lo hi) as [L U].
  { intros x Hx. apply (H x Hx). }
  destruct (of_nat_R n ltac:(lia)) as [Fn Rn].
  assert (In : 0 < INR n) by now apply lt_0_INR.
  assert (Iv : 0 < / INR n) by now apply Rinv_0_lt_compat.
  assert (Dl : totC m lo t / INR n <= totR m t / INR n) by (apply Rmult_le_compat_r; lra).
  assert (Du : totR m t / INR n <= totC m hi t / INR n) by (apply Rmult_le_compat_r; lra).
  pose proof (meanC_small lo t Flo Hk Hp) as Sl. pose proof (meanC_small hi t Fhi Hk Hp) as Su.
  unfold mean. fold (count m t). rewrite Hk.
  assert (Em : p2 (emax o) <= p2 (emax m)) by (apply bpow_le; apply Hm).
  destruct (div_R m (total m t) (of_nat m n) Ft) as [Fd Rd].
  { rewrite Rn. lra. }
  { rewrite Rt, Rn.
    pose proof (Rabs_pos (rnd m (totC m lo t / INR n) - lo)). pose proof (Rabs_pos (rnd m (totC m hi t / INR n) - hi)).
    assert (T1 : Rabs (rnd m (totC m lo t / INR n)) < p2 (emax o)) by (apply (big_beyond o lo); [trivial | lra]).
    assert (T2 : Rabs (rnd m (totC m hi t / INR n)) < p2 (emax o)) by (apply (big_beyond o hi); [trivial | lra]).
    pose proof (rnd_le m _ _ Dl). pose proof (rnd_le m _ _ Du).
    apply Rabs_def2 in T1. apply Rabs_def2 in T2. apply Rabs_def1; lra. }
  rewrite Rt, Rn in Rd.
  apply narrow_between with (v := rnd m (totC m lo t / INR n)) (w := rnd m (totC m hi t / INR n)); trivial.
  rewrite Rd. split; now apply rnd_le.
Qed.
End Average.

Lemma least : forall {X} (f : X -> R) l, l <> [] -> exists x, In x l /\ forall y, In y l -> f x <= f y.
Proof.
  intros X f. induction l as [|a l IH]; intro H; [congruence|].
  destruct l as [|b l].
  - exists a. split; [simpl; auto|]. intros y [->|[]]. lra.
  - destruct (IH ltac:(discriminate)) as [x [Hx Hmin]].
    destruct (Rle_or_lt (f a) (f x)) as [L|L].
    + exists a. split; [simpl; auto|]. intros y [->|Hy]; [lra|]. specialize (Hmin y Hy). lra.
    + exists x. split; [simpl in *; tauto|]. intros y [->|Hy]; [lra | now apply Hmin].
Qed.

(** C93.  merge(n_average(models)) for one number, whatever the order in which torch adds: finite, and between two
    of the models. *)
Theorem C93_average_range : forall A m i o (models : list (num A)) (t : tree m),
  holds_all A o -> holds_all o i -> finer m o -> enough m o (length models) ->
  models <> [] -> Forall (fun x => is_finite x = true) models ->
  Permutation (terms m t) (map (cast A m) models) ->
  let z := narrow m i o (mean m t) in
  is_finite z = true /\
  exists x y, In x models /\ In y models /\ B2R x <= B2R z <= B2R y.
Proof.
  intros A m i o models t HA Hi Hf Hn Hne Fin P z.
  destruct (least (fun x : num A => B2R x) models Hne) as [x [Hx Lx]].
  destruct (least (fun x : num A => - B2R x) models Hne) as [y [Hy Ly]].
  assert (Hm : holds_all A m) by (pose proof (finer_holds m o Hf); unfold holds_all in *; lia).
  assert (Fo : forall v : num A, fmt o (B2R v)) by (intro v; apply (fmt_holds A); [trivial | apply num_fmt]).
  assert (Bo : forall v : num A, Rabs (B2R v) <= big o)
    by (intro v; eapply Rle_trans; [apply num_big | now apply big_le]).
  assert (Hc : count m t = length models).
  { unfold count. rewrite (Permutation_length P). apply map_length. }
  assert (Hp : (0 < length models)%nat) by (destruct models; [congruence | simpl; lia]).
  destruct (mean_between m o Hf (length models) Hn i t (B2R x) (B2R y)) as [F R]; trivial.
  - intros v Hv. apply (Permutation_in v P) in Hv. apply in_map_iff in Hv. destruct Hv as [w [<- Hw]].
    assert (Fw : is_finite w = true) by (eapply Forall_forall in Fin; eauto).
    destruct (cast_up A m w Hm Fw) as [F [R _]]. split; [trivial|]. rewrite R.
    specialize (Lx w Hw). specialize (Ly w Hw). simpl in *. lra.
  - split; [exact F|]. exists x, y. auto.
Qed.

(** C93.  The average of copies of a model is the model: same values, same bits except for the sign of zero. *)
Theorem C93_average_of_copies : forall o m i (x : num o) n (t : tree m),
  holds_all o i -> finer m o -> enough m o n -> (0 < n)%nat -> is_finite x = true ->
  Permutation (terms m t) (repeat (cast o m x) n) ->
  let z := narrow m i o (mean m t) in
  is_finite z = true /\ B2R z = B2R x /\ (B2R x <> 0 -> z = x).
Proof.
  intros o m i x n t Hi Hf Hn Hp Fx P z.
  assert (E : repeat (cast o m x) n = map (cast o m) (repeat x n)).
  { clear. induction n; simpl; congruence. }
  rewrite E in P.
  assert (L : length (repeat x n) = n) by apply repeat_length.
  destruct (C93_average_range o m i o (repeat x n) t) as [F [a [b [Ha [Hb R]]]]]; trivial.
  - unfold holds_all; lia.
  - now rewrite L.
  - destruct n; [lia | discriminate].
  - apply Forall_forall. intros y Hy. apply repeat_spec in Hy. now subst.
  - apply repeat_spec in Ha. apply repeat_spec in Hb. subst a b.
    assert (Eq : B2R z = B2R x) by (unfold z; lra).
    split; [exact F|]. split; [exact Eq|]. intro Nz.
    apply B2R_inj; [apply nonzero_strict; lra | now apply nonzero_strict | exact Eq].
Qed.

(** ** C94: add_difference and subtract *)

(** Numbers of a dtype are multiples of its smallest. *)
Lemma multiple : forall d (x : num d), exists k, B2R x = IZR k * p2 (emin d) /\ (Z.abs k < 2 ^ (emax d - emin d))%Z.
Proof.
  intros d x. pose proof (prec_lt' d). pose proof (prec_pos' d).
  destruct (FLT_format_generic radix2 (emin d) (prec d) (B2R x) (num_fmt d x)) as [[mx ex] E1 E2 E3].
  simpl in *.
  exists (mx * 2 ^ (ex - emin d))%Z.
  assert (E : B2R x = IZR (mx * 2 ^ (ex - emin d)) * p2 (emin d)).
  { rewrite E1. unfold F2R. cbn [Fnum Fexp]. rewrite mult_IZR.
    change (2 ^ (ex - emin d))%Z with (radix2 ^ (ex - emin d))%Z. rewrite IZR_Zpower by lia.
    rewrite Rmult_assoc, <- bpow_plus. do 2 f_equal. lia. }
  split; [exact E|].
  pose proof (big_lt d _ (num_big d x)) as B. rewrite E, Rabs_mult, (Rabs_pos_eq (p2 _)) in B by apply bpow_ge_0.
  apply lt_IZR. rewrite abs_IZR. change (2 ^ (emax d - emin d))%Z with (radix2 ^ (emax d - emin d))%Z.
  rewrite IZR_Zpower by (unfold emin; lia).
  apply Rmult_lt_reg_r with (p2 (emin d)); [apply bpow_gt_0|]. rewrite <- bpow_plus.
  replace (emax d - emin d + emin d)%Z with (emax d) by lia. exact B.
Qed.
Lemma fmt_multiple : forall m S k, wide m S -> (Z.abs k < 2 ^ (emax S - emin S + 2))%Z ->
  fmt m (IZR k * p2 (emin S)) /\ Rabs (IZR k * p2 (emin S)) < p2 (emax m).
Proof.
  intros m S k [H1 [H2 H3]] Hk. pose proof (prec_lt' S). pose proof (prec_pos' S). split.
  - apply generic_format_FLT. exists (Float radix2 k (emin S)); simpl.
    + reflexivity.
    + eapply Z.lt_le_trans; [exact Hk|]. apply Z.pow_le_mono_r; [lia|]. unfold emin. lia.
    + exact H3.
  - apply IZR_lt in Hk. rewrite abs_IZR in Hk.
    change (2 ^ (emax S - emin S + 2))%Z with (radix2 ^ (emax S - emin S + 2))%Z in Hk.
    rewrite IZR_Zpower in Hk by (unfold emin; lia).
    rewrite Rabs_mult, (Rabs_pos_eq (p2 _)) by apply bpow_ge_0.
    apply Rlt_le_trans with (p2 (emax S - emin S + 2) * p2 (emin S)).
    + apply Rmult_lt_compat_r; [apply bpow_gt_0 | exact Hk].
    + rewrite <- bpow_plus. apply bpow_le. lia.
Qed.

(** C94.  a + (b - c) with alpha 1: no rounding at all before the output cast. *)
Theorem C94_add_difference_exact : forall S m (a b c : num S), wide m S ->
  is_finite a = true -> is_finite b = true -> is_finite c = true ->
  let d := add_difference m (cast S m a) (subtract m (cast S m b) (cast S m c)) (one m) in
  is_finite d = true /\ B2R d = B2R a + (B2R b - B2R c).
Proof.
  intros S m a b c W Fa Fb Fc d.
  assert (Hm : holds_all S m).
  { destruct W as [H1 [H2 H3]]. pose proof (prec_lt' S). pose proof (prec_pos' S). unfold holds_all. lia. }
  destruct (cast_up S m a Hm Fa) as [Fa' [Ra _]]. destruct (cast_up S m b Hm Fb) as [Fb' [Rb _]].
  destruct (cast_up S m c Hm Fc) as [Fc' [Rc _]].
  destruct (multiple S a) as [ka [Ea Ka]]. destruct (multiple S b) as [kb [Eb Kb]]. destruct (multiple S c) as [kc [Ec Kc]].
  pose proof (prec_lt' S). pose proof (prec_pos' S).
  assert (P : (2 ^ (emax S - emin S + 2) = 4 * 2 ^ (emax S - emin S))%Z)
    by (rewrite Z.pow_add_r by (unfold emin; lia); lia).
  destruct (fmt_multiple m S (kb - kc) W ltac:(lia)) as [F1 B1].
  destruct (fmt_multiple m S (ka + (kb - kc)) W ltac:(lia)) as [F2 B2].
  rewrite minus_IZR in F1, B1. rewrite plus_IZR, minus_IZR in F2, B2.
  replace ((IZR kb - IZR kc) * p2 (emin S)) with (B2R b - B2R c) in F1, B1 by (rewrite Eb, Ec; ring).
  replace ((IZR ka + (IZR kb - IZR kc)) * p2 (emin S)) with (B2R a + (B2R b - B2R c)) in F2, B2
    by (rewrite Ea, Eb, Ec; ring).
  unfold subtract in *.
  destruct (sub_R m (cast S m b) (cast S m c) Fb' Fc') as [Fs Rs]; rewrite Rb, Rc in *.
  { now rewrite rnd_fmt. }
  rewrite rnd_fmt in Rs by trivial.
  destruct (one_R m) as [F1' R1].
  destruct (mul_R m (sub m (cast S m b) (cast S m c)) (one m) Fs F1') as [Fm Rm]; rewrite Rs, R1, Rmult_1_r in *.
  { now rewrite rnd_fmt. }
  rewrite rnd_fmt in Rm by trivial.
  destruct (add_R m (cast S m a) _ Fa' Fm) as [Fd Rd]; rewrite Ra, Rm in *.
  { now rewrite rnd_fmt. }
  rewrite rnd_fmt in Rd by trivial. now split.
Qed.

(** C94.  Adding b - a to a gives b in the output, same bits (but for the sign of zero). *)
Theorem C94_difference_undone : forall S m i (a b : num S), wide m S -> holds_all S i ->
  is_finite a = true -> is_finite b = true ->
  let z := narrow m i S (add_difference m (cast S m a) (subtract m (cast S m b) (cast S m a)) (one m)) in
  is_finite z = true /\ B2R z = B2R b /\ (B2R b <> 0 -> z = b).
Proof.
  intros S m i a b W Hi Fa Fb z.
  destruct (C94_add_difference_exact S m a b a W Fa Fb Fa) as [F R].
  set (d := add_difference _ _ _ _) in *.
  assert (Rd : B2R d = B2R b) by lra.
  destruct (cast_R m i d F) as [F2 [R2 _]]; rewrite Rd, (rnd_fmt i) in * by (apply (fmt_holds S); [trivial | apply num_fmt]).
  { apply big_lt. eapply Rle_trans; [apply num_big | now apply big_le]. }
  destruct (cast_R i S (cast m i d) F2) as [F3 [R3 _]]; rewrite R2, (rnd_fmt S) in * by apply num_fmt.
  { apply big_lt, num_big. }
  split; [exact F3|]. split; [exact R3|]. intro Nz.
  apply B2R_inj; [apply nonzero_strict; unfold z, narrow; rewrite R3 | now apply nonzero_strict | exact R3]. exact Nz.
Qed.

(** ** C95: the casts *)

(** C95.  A model that only passes through merge keeps all its bits, infinities and NaN included, when the output
    dtype is that of the model and the other dtypes hold it. *)
Theorem C95_cast_back : forall o m i (a : list (num o)), holds_all o m -> holds_all o i ->
  map (narrow m i o) (map (cast o m) a) = a.
Proof.
  intros o m i a Hm Hi. rewrite map_map. induction a as [|x a IH]; [trivial|]. simpl. rewrite IH. f_equal.
  destruct (is_finite x) eqn:F.
  - destruct (narrow_up o m i o x) as [F' [R S]]; trivial; [unfold holds_all; lia|]. now apply back_same.
  - destruct x; try discriminate; reflexivity.
Qed.

Definition val (d : dtype) (k e : Z) : num d :=
  binary_normalize (prec d) (emax d) (prec_pos d) (prec_lt d) mode_NE k e false.

Lemma half_overflow : p2 16 <= rnd float16 65520.
Proof.
  destruct (Rlt_or_le (rnd float16 65520) (p2 16)) as [L|L]; [|exact L]. exfalso.
  assert (E : B2R (val float64 65520 0) = 65520).
  { assert (X : val float64 65520 0 = @B754_finite 53 1024 false 9005000231485440 (-37) eq_refl)
      by (apply B2SF_inj; vm_compute; reflexivity).
    rewrite X. unfold B2R, F2R. simpl. lra. }
  destruct (cast_R float64 float16 (val float64 65520 0)) as [F _].
  - now vm_compute.
  - rewrite E. rewrite Rabs_pos_eq; [exact L|]. rewrite <- (rnd_0 float16). apply rnd_le. lra.
  - vm_compute in F. discriminate.
Qed.

Lemma half_underflow : rnd float16 (p2 (-25)) = 0.
Proof.
  assert (E : B2R (val float64 1 (-25)) = p2 (-25)).
  { assert (X : val float64 1 (-25) = @B754_finite 53 1024 false 4503599627370496 (-77) eq_refl)
      by (apply B2SF_inj; vm_compute; reflexivity).
    rewrite X. unfold B2R, F2R. simpl. lra. }
  destruct (cast_R float64 float16 (val float64 1 (-25))) as [_ [F _]].
  - now vm_compute.
  - rewrite E.
    assert (R : 0 <= rnd float16 (p2 (-25)) <= 1).
    { split; [rewrite <- (rnd_0 float16) | rewrite <- (rnd_fmt float16 1 (fmt_1 _))]; apply rnd_le; simpl; lra. }
    rewrite Rabs_pos_eq by lra. change (p2 (emax float16)) with 65536. lra.
  - rewrite E in F. rewrite <- F.
    assert (X : cast float64 float16 (val float64 1 (-25)) = B754_zero false) by (apply B2SF_inj; vm_compute; reflexivity).
    rewrite X. reflexivity.
Qed.
Lemma rnd_abs : forall d x, rnd d (Rabs x) = Rabs (rnd d x).
Proof.
  intros d x. unfold Rabs at 1. destruct (Rcase_abs x).
  - rewrite rnd_opp. rewrite Rabs_left1; [trivial|]. rewrite <- (rnd_0 d). apply rnd_le. lra.
  - rewrite Rabs_pos_eq; [trivial|]. rewrite <- (rnd_0 d). apply rnd_le. lra.
Qed.

(** C95.  The default output_dtype float16: a finite weight becomes an infinity exactly when it is at least 65520 in
    absolute value, and zero exactly when it is at most 2^-25. *)
Theorem C95_float16_range : forall A m i (x : num A), holds_all A m -> holds_all A i -> is_finite x = true ->
  let z := narrow m i float16 (cast A m x) in
  is_nan z = false /\
  (is_finite z = false <-> 65520 <= Rabs (B2R x)) /\
  (is_finite z = false -> Bsign z = Bsign x) /\
  (is_finite z = true -> (B2R z = 0 <-> Rabs (B2R x) <= / 33554432)).
Proof.
  intros A m i x Hm Hi Fx z.
  destruct (cast_up A m x Hm Fx) as [F1 [R1 S1]].
  assert (Fi : fmt i (B2R x)) by (apply (fmt_holds A); [trivial | apply num_fmt]).
  destruct (cast_R m i (cast A m x) F1) as [F2 [R2 S2]]; rewrite R1, (rnd_fmt i) in * by trivial.
  { apply big_lt. eapply Rle_trans; [apply num_big | now apply big_le]. }
  set (y := cast m i (cast A m x)) in *.
  assert (Hov : 65520 <= Rabs (B2R x) -> p2 16 <= Rabs (rnd float16 (B2R x))).
  { intro H. rewrite <- rnd_abs. eapply Rle_trans; [apply half_overflow|]. now apply rnd_le. }
  assert (Hno : Rabs (B2R x) < 65520 -> Rabs (rnd float16 (B2R x)) < p2 16).
  { intro H. rewrite <- rnd_abs. destruct (Rlt_or_le (rnd float16 (Rabs (B2R x))) (p2 16)) as [L|L]; [exact L|]. exfalso.
    pose proof (rnd_nearest float16 (Rabs (B2R x)) 65504) as N.
    assert (F : fmt float16 65504).
    { replace 65504 with (big float16); [apply fmt_big|]. unfold big. simpl. lra. }
    specialize (N F). change (p2 16) with 65536 in L. rewrite (Rabs_pos_eq (rnd _ _ - _)) in N by lra.
    destruct (Rle_or_lt (Rabs (B2R x)) 65504); [rewrite (Rabs_pos_eq (65504 - _)) in N by lra | rewrite (Rabs_left (65504 - _)) in N by lra]; lra. }
  assert (Z : (z : num float16) = cast i float16 y) by reflexivity.
  clearbody z y.
  destruct (Rlt_or_le (Rabs (B2R x)) 65520) as [L|L].
  - destruct (cast_R i float16 y F2) as [F3 [R3 S3]]; rewrite R2 in *.
    { now apply Hno. }
    rewrite <- Z in *.
    split; [destruct z; trivial; discriminate|].
    split; [split; [congruence | intro; lra]|].
    split; [congruence|]. intros _. rewrite R3. split.
    + intro E. destruct (Rle_or_lt (Rabs (B2R x)) (/ 33554432)) as [Q|Q]; [exact Q|]. exfalso.
      pose proof (rnd_nearest float16 (Rabs (B2R x)) (/ 16777216)) as N.
      assert (F : fmt float16 (/ 16777216)).
      { change (/ 16777216) with (p2 (-24)). apply generic_format_bpow. vm_compute. discriminate. }
      specialize (N F). rewrite rnd_abs, E, Rabs_R0 in N.
      rewrite Rminus_0_l, Rabs_Ropp, (Rabs_pos_eq (Rabs (B2R x))) in N by apply Rabs_pos.
      destruct (Rle_or_lt (Rabs (B2R x)) (/ 16777216)); [rewrite (Rabs_pos_eq (_ - _)) in N by lra | rewrite (Rabs_left (_ - _)) in N by lra]; lra.
    + intro Q.
      assert (E : rnd float16 (Rabs (B2R x)) <= 0).
      { rewrite <- half_underflow. apply rnd_le. exact Q. }
      rewrite rnd_abs in E. pose proof (Rabs_pos (rnd float16 (B2R x))).
      destruct (Req_dec (rnd float16 (B2R x)) 0) as [|N]; [trivial|]. apply Rabs_pos_lt in N. lra.
  - destruct y as [s|s| |s mx ex Hx]; try discriminate.
    { exfalso. simpl in R2. rewrite <- R2, Rabs_R0 in L. lra. }
    pose proof (binary_normalize_correct (prec float16) (emax float16) (prec_pos float16) (prec_lt float16) mode_NE (cond_Zopp s (Zpos mx)) ex s) as C.
    cbv zeta in C. rewrite Rlt_bool_false in C.
    2:{ change (p2 16 <= Rabs (rnd float16 (F2R (Float radix2 (cond_Zopp s (Zpos mx)) ex)))).
        change (F2R (Float radix2 (cond_Zopp s (Zpos mx)) ex)) with (B2R (B754_finite s mx ex Hx : num i)).
        rewrite R2. now apply Hov. }
    cbn [cast] in Z. rewrite <- Z in C.
    assert (Sg : Rlt_bool (F2R (Float radix2 (cond_Zopp s (Zpos mx)) ex)) 0 = s).
    { destruct s; [apply Rlt_bool_true; now apply F2R_lt_0 | apply Rlt_bool_false; apply Rlt_le; now apply F2R_gt_0]. }
    rewrite Sg in C. unfold binary_overflow in C. simpl in C.
    simpl in S2. rewrite S1 in S2.
    clear Z. destruct z as [q|q| |q mz ez Hz]; try discriminate.
    simpl in C. injection C as ->.
    split; [trivial|]. split; [split; [intros _; exact L | trivial]|]. split; [intros _; exact S2 | discriminate].
Qed.

(** ** cases *)

(** The default dtypes, and others. *)
Lemma defaults_finer : finer float64 float16. Proof. vm_compute; repeat split; discriminate. Qed.
Lemma half_in_single : holds_all float16 float32. Proof. vm_compute; repeat split; discriminate. Qed.
Lemma brain_finer : finer float32 bfloat16. Proof. vm_compute; repeat split; discriminate. Qed.
Lemma single_finer : finer float64 float32. Proof. vm_compute; repeat split; discriminate. Qed.

Definition never {m} (_ _ : num m) : bool := false.

(** alpha 0.3 (a float32 in float64), models in float16: 1033/1024 and -5/2, 2^-24 and 65504. *)
Example C92_case :
  let a := [val float16 1033 (-10); val float16 1 (-24)] in
  let b := [val float16 (-5) (-1); val float16 65504 0] in
  let alpha := [val float64 10066330 (-25); val float64 10066330 (-25)] in
  let merged x y := map (narrow float64 float32 float16)
    (weighted_sum float64 never (map (cast float16 float64) x) (map (cast float16 float64) y) alpha) in
  map B2SF (merged a b) = [SpecFloat.S754_finite true 1437 (-15); SpecFloat.S754_finite false 1228 4] /\
  merged a a = a /\ merged b b = b.
Proof.
  split; [vm_compute; reflexivity|].
  assert (P : forall x : num float64, In x [val float64 10066330 (-25); val float64 10066330 (-25)] ->
            is_finite x = true /\ 0 <= B2R x <= 1 /\ Bsign x = false).
  { assert (X : val float64 10066330 (-25) = @B754_finite 53 1024 false 5404319767592960 (-54) eq_refl)
      by (apply B2SF_inj; vm_compute; reflexivity).
    intros x Hx. rewrite X in Hx. simpl in Hx. destruct Hx as [<-|[<-|[]]];
      (split; [reflexivity|]; split; [|reflexivity]; unfold B2R, F2R; simpl; lra). }
  split; apply C92_self_merge; try exact half_in_single; try exact defaults_finer; try reflexivity;
    apply Forall_forall; try exact P; intros x [<-|[<-|[]]]; reflexivity.
Qed.

(** Merging in float16: a weight merged with itself grows. *)
Theorem C92_merge_in_half_refuted : exists (x alpha : num float16),
  is_finite x = true /\ Bleb (B754_zero false) alpha = true /\ Bleb alpha (one float16) = true /\
  is_finite (weighted_sum_impl float16 alpha x x) = true /\
  Bltb x (weighted_sum_impl float16 alpha x x) = true.
Proof. exists (val float16 1033 (-10)), (val float16 1229 (-12)). vm_compute. repeat split. Qed.

(** Three models and an order of addition. *)
Example C93_case :
  let models := [val bfloat16 255 120; val bfloat16 3 0; val bfloat16 (-255) 120] in
  let t := Plus (Plus Zero (Term (cast bfloat16 float64 (val bfloat16 255 120))))
                (Plus (Term (cast bfloat16 float64 (val bfloat16 (-255) 120))) (Term (cast bfloat16 float64 (val bfloat16 3 0)))) in
  B2SF (narrow float64 float32 bfloat16 (mean float64 t)) = SpecFloat.S754_zero false /\
  exists x y, In x models /\ In y models /\
    B2R x <= B2R (narrow float64 float32 bfloat16 (mean float64 t)) <= B2R y.
Proof.
  intros models t. split; [vm_compute; reflexivity|].
  destruct (C93_average_range bfloat16 float64 float32 bfloat16 models t) as [_ H].
  - vm_compute; repeat split; discriminate.
  - vm_compute; repeat split; discriminate.
  - vm_compute; repeat split; discriminate.
  - vm_compute; repeat split; discriminate.
  - discriminate.
  - apply Forall_forall. intros x [<-|[<-|[<-|[]]]]; reflexivity.
  - unfold t, models. simpl. apply perm_skip, perm_swap.
  - exact H.
Qed.

(** Merging in float32: the average of a bfloat16 model with itself can be infinite. *)
Theorem C93_overflow_refuted : exists (x : num bfloat16),
  is_finite x = true /\
  let y := Term (cast bfloat16 float32 x) in
  is_finite (narrow float32 float32 bfloat16 (mean float32 (Plus y y))) = false.
Proof. exists (val bfloat16 255 120). vm_compute. split; reflexivity. Qed.

(** 65504 + (2^-24 - 65504) is 2^-24. *)
Example C94_case :
  let a := val float16 65504 0 in let b := val float16 1 (-24) in
  wide float64 float16 /\
  narrow float64 float32 float16
    (add_difference float64 (cast float16 float64 a)
      (subtract float64 (cast float16 float64 b) (cast float16 float64 a)) (one float64)) = b.
Proof. split; [vm_compute; repeat split; discriminate | apply B2SF_inj; vm_compute; reflexivity]. Qed.

(** bfloat16 (or float32) models in float64, and float16 models in float32: the small model is lost. *)
Theorem C94_undone_refuted :
  (exists a b : num bfloat16, is_finite a = true /\ is_finite b = true /\ B2R b <> 0 /\
    B2R (narrow float64 float32 bfloat16 (add_difference float64 (cast bfloat16 float64 a)
      (subtract float64 (cast bfloat16 float64 b) (cast bfloat16 float64 a)) (one float64))) = 0) /\
  (exists a b : num float16, is_finite a = true /\ is_finite b = true /\ B2R b <> 0 /\
    B2R (narrow float32 float32 float16 (add_difference float32 (cast float16 float32 a)
      (subtract float32 (cast float16 float32 b) (cast float16 float32 a)) (one float32))) = 0).
Proof.
  split.
  - exists (val bfloat16 1 0), (val bfloat16 1 (-100)). split; [reflexivity|]. split; [reflexivity|]. split.
    + assert (X : val bfloat16 1 (-100) = @B754_finite 8 128 false 128 (-107) eq_refl) by (apply B2SF_inj; vm_compute; reflexivity).
      rewrite X. apply Rgt_not_eq. apply F2R_gt_0. reflexivity.
    + match goal with |- B2R ?n = 0 => assert (X : n = B754_zero false) by (apply B2SF_inj; vm_compute; reflexivity); rewrite X end.
      reflexivity.
  - exists (val float16 32768 0), (val float16 1 (-24)). split; [reflexivity|]. split; [reflexivity|]. split.
    + assert (X : val float16 1 (-24) = @B754_finite 11 16 false 1 (-24) eq_refl) by (apply B2SF_inj; vm_compute; reflexivity).
      rewrite X. apply Rgt_not_eq. apply F2R_gt_0. reflexivity.
    + match goal with |- B2R ?n = 0 => assert (X : n = B754_zero false) by (apply B2SF_inj; vm_compute; reflexivity); rewrite X end.
      reflexivity.
Qed.

(** A bfloat16 model through the default dtypes: 10^5 becomes infinite, 2^-30 zero, and -3 stays. *)
Example C95_case :
  map (fun x => B2SF (narrow float64 float32 float16 (cast bfloat16 float64 x)))
      [val bfloat16 100000 0; val bfloat16 1 (-30); val bfloat16 (-3) 0] =
    [SpecFloat.S754_infinity false; SpecFloat.S754_zero false; SpecFloat.S754_finite true 1536 (-9)] /\
  map (narrow float64 float32 bfloat16) (map (cast bfloat16 float64) [val bfloat16 100000 0; B754_nan; B754_infinity true]) =
    [val bfloat16 100000 0; B754_nan; B754_infinity true].
Proof.
  split; [vm_compute; reflexivity|]. apply C95_cast_back; vm_compute; repeat split; discriminate.
Qed.

Print Assumptions C92_weighted_sum_range.
Print Assumptions C92_self_merge.
Print Assumptions C92_merge_in_half_refuted.
Print Assumptions C93_average_range.
Print Assumptions C93_average_of_copies.
Print Assumptions C93_overflow_refuted.
Print Assumptions C94_add_difference_exact.
Print Assumptions C94_difference_undone.
Print Assumptions C94_undone_refuted.
Print Assumptions C95_cast_back.
Print Assumptions C95_float16_range.
