(** Rounding lemmas for ModelRound: what a number that comes close to one of a coarser dtype becomes there. *)
From Coq Require Import ZArith Reals List Lia Lra Psatz Bool.
From Flocq Require Import Core Plus_error Relative BinarySingleNaN.
From Verif Require Import ModelRound SpecRound.
Import ListNotations.
Open Scope R_scope.

Definition fx (d : dtype) : Z -> Z := FLT_exp (emin d) (prec d).
Definition rnd (d : dtype) (x : R) : R := round radix2 (fx d) ZnearestE x.
Definition fmt (d : dtype) (x : R) : Prop := generic_format radix2 (fx d) x.
Notation p2 := (bpow radix2).

Lemma fx_fexp : forall d, fx d = SpecFloat.fexp (prec d) (emax d).
Proof. reflexivity. Qed.

Global Instance fx_valid d : Valid_exp (fx d).
Proof. unfold fx. apply FLT_exp_valid, prec_pos. Qed.
Global Instance fx_mono d : Monotone_exp (fx d).
Proof. unfold fx. apply FLT_exp_monotone. Qed.

Lemma prec_pos' : forall d, (0 < prec d)%Z.
Proof. intro d; exact (prec_pos d). Qed.
Lemma prec_lt' : forall d, (prec d < emax d)%Z.
Proof. intro d; exact (prec_lt d). Qed.

Lemma rnd_le : forall d x y, x <= y -> rnd d x <= rnd d y.
Proof. intros. apply round_le; auto with typeclass_instances. Qed.
Lemma rnd_fmt : forall d x, fmt d x -> rnd d x = x.
Proof. intros. apply round_generic; auto with typeclass_instances. Qed.
Lemma fmt_rnd : forall d x, fmt d (rnd d x).
Proof. intros. apply generic_format_round; auto with typeclass_instances. Qed.
Lemma fmt_0 : forall d, fmt d 0.
Proof. intros. apply generic_format_0. Qed.
Lemma fmt_opp : forall d x, fmt d x -> fmt d (- x).
Proof. intros. now apply generic_format_opp. Qed.
Lemma rnd_0 : forall d, rnd d 0 = 0.
Proof. intros. apply rnd_fmt, fmt_0. Qed.
Lemma rnd_opp : forall d x, rnd d (- x) = - rnd d x.
Proof. intros. apply round_NE_opp. Qed.

(** Two different numbers of a dtype are at least half a unit in the last place apart. *)
Lemma gap : forall d x y, fmt d x -> fmt d y -> y <> x -> ulp radix2 (fx d) x / 2 <= Rabs (y - x).
Proof.
  intros d.
  assert (Hpos : forall x y, 0 < x -> fmt d x -> fmt d y -> y <> x -> ulp radix2 (fx d) x / 2 <= Rabs (y - x)).
  { intros x y Hx Fx Fy Hne.
    assert (U : ulp radix2 (fx d) x = p2 (cexp radix2 (fx d) x)) by (apply ulp_neq_0; lra).
    pose proof (bpow_gt_0 radix2 (cexp radix2 (fx d) x)).
    destruct (Rlt_or_le x y) as [Hlt|Hle].
    - pose proof (succ_le_lt radix2 (fx d) x y Fx Fy Hlt) as Hs.
      rewrite succ_eq_pos in Hs by lra. rewrite Rabs_pos_eq by lra. lra.
    - assert (Hlt : y < x) by lra.
      pose proof (pred_ge_gt radix2 (fx d) y x Fy Fx Hlt) as Hs.
      rewrite Rabs_left by lra.
      rewrite pred_eq_pos in Hs by lra. unfold pred_pos in Hs.
      destruct (Req_bool_spec x (p2 (mag radix2 x - 1))) as [E|E].
      + assert (Hp : p2 (cexp radix2 (fx d) x) / 2 <= p2 (fx d (mag radix2 x - 1))).
        { replace (p2 (cexp radix2 (fx d) x) / 2) with (p2 (cexp radix2 (fx d) x - 1)).
          2:{ unfold Zminus. rewrite bpow_plus. simpl. lra. }
          apply bpow_le. unfold cexp, fx, FLT_exp. lia. }
        lra.
      + lra. }
  intros x y Fx Fy Hne.
  destruct (Rtotal_order x 0) as [Hx|[Hx|Hx]].
  - replace (ulp radix2 (fx d) x) with (ulp radix2 (fx d) (- x)) by apply ulp_opp.
    replace (Rabs (y - x)) with (Rabs (- y - - x)) by (rewrite <- Rabs_Ropp; f_equal; ring).
    apply Hpos; try lra; now apply fmt_opp.
  - subst x.
    assert (U : ulp radix2 (fx d) 0 = p2 (emin d)) by (apply ulp_FLT_0, prec_pos).
    rewrite U. rewrite Rminus_0_r.
    assert (p2 (emin d) <= Rabs y).
    { rewrite <- U.
      destruct (Rtotal_order y 0) as [Hy|[Hy|Hy]]; [ | lra | ].
      - assert (F : fmt d (- y)) by now apply fmt_opp.
        rewrite <- Rabs_Ropp.
        pose proof (succ_le_lt radix2 (fx d) 0 (- y) (fmt_0 d) F ltac:(lra)) as Hs.
        rewrite succ_eq_pos in Hs by lra. rewrite (Rabs_pos_eq (- y)) by lra. lra.
      - pose proof (succ_le_lt radix2 (fx d) 0 y (fmt_0 d) Fy Hy) as Hs.
        rewrite succ_eq_pos in Hs by lra. rewrite (Rabs_pos_eq y) by lra. lra. }
    pose proof (bpow_gt_0 radix2 (emin d)). lra.
  - now apply Hpos.
Qed.

(** The nearest number is at most as far as any other. *)
Lemma rnd_nearest : forall d v x, fmt d x -> Rabs (rnd d v - v) <= Rabs (x - v).
Proof.
  intros d v x Fx.
  destruct (round_N_pt radix2 (fx d) (fun z => negb (Z.even z)) v) as [_ H]. now apply H.
Qed.
Lemma rnd_close : forall d v x, fmt d x -> Rabs (rnd d v - x) <= 2 * Rabs (v - x).
Proof.
  intros d v x Fx. pose proof (rnd_nearest d v x Fx).
  replace (rnd d v - x) with ((rnd d v - v) + (v - x)) by ring.
  eapply Rle_trans; [apply Rabs_triang|]. rewrite (Rabs_minus_sym x v) in H. lra.
Qed.
Lemma rnd_back : forall d v x, fmt d x -> Rabs (v - x) < ulp radix2 (fx d) x / 4 -> rnd d v = x.
Proof.
  intros d v x Fx H.
  destruct (Req_dec (rnd d v) x) as [|Hne]; [trivial|].
  pose proof (gap d x (rnd d v) Fx (fmt_rnd d v) Hne).
  pose proof (rnd_close d v x Fx). lra.
Qed.

Lemma finer_holds : forall m o, finer m o -> holds_all o m.
Proof. unfold finer, holds_all; intros; lia. Qed.

Lemma fmt_holds : forall d e x, holds_all d e -> fmt d x -> fmt e x.
Proof.
  intros d e x [H1 [H2 H3]]. unfold fmt, fx. apply generic_inclusion_mag. intros _. unfold FLT_exp. lia.
Qed.

Definition u (m : dtype) : R := p2 (- prec m).
Lemma u_half : forall m, / 2 * p2 (- prec m + 1) = u m.
Proof. intro m. unfold u. rewrite bpow_plus. simpl. lra. Qed.
Lemma u_pos : forall m, 0 < u m.
Proof. intro; apply bpow_gt_0. Qed.

Lemma rnd_error : forall m x, exists e n, Rabs e <= u m /\ Rabs n <= p2 (emin m) / 2 /\ rnd m x = x * (1 + e) + n.
Proof.
  intros m x.
  destruct (error_N_FLT radix2 (emin m) (prec m) (prec_pos m) (fun z => negb (Z.even z)) x) as [e [n [H1 [H2 [_ H3]]]]].
  exists e, n. rewrite u_half in H1. split; [trivial|]. split; [lra|]. exact H3.
Qed.
Lemma rnd_plus : forall m x y, fmt m x -> fmt m y -> exists e, Rabs e <= u m /\ rnd m (x + y) = (x + y) * (1 + e).
Proof.
  intros m x y Fx Fy.
  destruct (FLT_plus_error_N_ex radix2 (emin m) (prec m) (fun z => negb (Z.even z)) x y Fx Fy) as [e [H1 H2]].
  exists e. split; [|exact H2].
  unfold u_ro in H1. rewrite u_half in H1. eapply Rle_trans; [exact H1|].
  pose proof (u_pos m). apply Rmult_le_reg_r with (1 + u m); [lra|]. unfold Rdiv.
  rewrite Rmult_assoc, Rinv_l by lra. nra.
Qed.

Lemma p2_le_quot : forall a b, (a + 4 <= b)%Z -> p2 a <= p2 b / 16.
Proof.
  intros. replace (p2 b / 16) with (p2 (b - 4)).
  - apply bpow_le. lia.
  - unfold Zminus. rewrite bpow_plus. simpl. lra.
Qed.

Lemma ulp_big : forall o x, p2 (emin o) <= ulp radix2 (fx o) x.
Proof.
  intros. destruct (Req_dec x 0) as [->|Hx].
  - rewrite <- (ulp_FLT_0 radix2 (emin o) (prec o)). apply Rle_refl.
  - rewrite ulp_neq_0 by trivial. apply bpow_le. unfold cexp, fx, FLT_exp. lia.
Qed.
Lemma ulp_rel : forall o x, Rabs x * p2 (- prec o) <= ulp radix2 (fx o) x.
Proof.
  intros. destruct (Req_dec x 0) as [->|Hx].
  - rewrite Rabs_R0, Rmult_0_l. apply ulp_ge_0.
  - rewrite ulp_neq_0 by trivial.
    eapply Rle_trans with (p2 (mag radix2 x) * p2 (- prec o)).
    + apply Rmult_le_compat_r; [apply bpow_ge_0|]. apply Rlt_le, bpow_mag_gt.
    + rewrite <- bpow_plus. apply bpow_le. unfold cexp, fx, FLT_exp. lia.
Qed.

(** An error of [4u|x|] and twice the smallest number is below an eighth of a unit in the last place. *)
Lemma small_error : forall m o x v, finer m o ->
  Rabs (v - x) <= 4 * u m * Rabs x + 2 * p2 (emin m) -> Rabs (v - x) < ulp radix2 (fx o) x / 8.
Proof.
  intros m o x v [H1 [H2 H3]] H.
  pose proof (ulp_rel o x). pose proof (ulp_big o x).
  assert (A : 4 * u m <= p2 (- prec o) / 16).
  { replace (4 * u m) with (p2 (- prec m + 2)) by (unfold u; rewrite bpow_plus; simpl; lra).
    apply p2_le_quot. lia. }
  assert (B : 4 * p2 (emin m) <= p2 (emin o) / 16).
  { replace (4 * p2 (emin m)) with (p2 (emin m + 2)) by (rewrite bpow_plus; simpl; lra).
    apply p2_le_quot. lia. }
  pose proof (bpow_gt_0 radix2 (emin m)).
  pose proof (Rabs_pos x).
  assert (4 * u m * Rabs x <= p2 (- prec o) / 16 * Rabs x) by (apply Rmult_le_compat_r; lra).
  lra.
Qed.

(** The largest number, and what lies an eighth of a unit beyond. *)
Definition big (d : dtype) : R := p2 (emax d) - p2 (emax d - prec d).
Lemma ulp_top : forall o x, x <> 0 -> Rabs x <= big o -> ulp radix2 (fx o) x <= p2 (emax o - prec o).
Proof.
  intros o x Hx H.
  rewrite ulp_neq_0 by trivial. apply bpow_le. unfold cexp, fx, FLT_exp.
  assert (mag radix2 x <= emax o)%Z.
  { apply mag_le_bpow; [trivial|]. unfold big in H. pose proof (bpow_gt_0 radix2 (emax o - prec o)). lra. }
  pose proof (prec_lt' o). pose proof (prec_pos' o). unfold emin. lia.
Qed.
Lemma big_beyond : forall o x v, Rabs x <= big o -> Rabs (v - x) < ulp radix2 (fx o) x ->
  Rabs v < p2 (emax o).
Proof.
  intros o x v H1 H2.
  assert (Rabs v <= Rabs x + Rabs (v - x)).
  { replace v with (x + (v - x)) at 1 by ring. apply Rabs_triang. }
  destruct (Req_dec x 0) as [->|Hx].
  - rewrite Rabs_R0 in *.
    assert (U : ulp radix2 (fx o) 0 = p2 (emin o)) by (apply ulp_FLT_0, prec_pos).
    rewrite U in H2.
    assert (p2 (emin o) <= p2 (emax o)).
    { apply bpow_le. pose proof (prec_lt' o). pose proof (prec_pos' o). unfold emin. lia. }
    lra.
  - pose proof (ulp_top o x Hx H1). unfold big in H1. lra.
Qed.
Lemma big_lt : forall o x, Rabs x <= big o -> Rabs x < p2 (emax o).
Proof. intros o x H. unfold big in H. pose proof (bpow_gt_0 radix2 (emax o - prec o)). lra. Qed.

(** ** from IEEE numbers to reals *)
Section Num.
Variable m : dtype.

Lemma num_fmt : forall x : num m, fmt m (B2R x).
Proof. intro x. apply generic_format_B2R. Qed.
Lemma num_big : forall x : num m, Rabs (B2R x) <= big m.
Proof. intro x. apply abs_B2R_le_emax_minus_prec, prec_pos. Qed.

Lemma add_R : forall x y : num m, is_finite x = true -> is_finite y = true ->
  Rabs (rnd m (B2R x + B2R y)) < p2 (emax m) ->
  is_finite (add m x y) = true /\ B2R (add m x y) = rnd m (B2R x + B2R y).
Proof.
  intros x y Fx Fy H.
  pose proof (Bplus_correct (prec m) (emax m) _ _ mode_NE x y Fx Fy) as C.
  rewrite Rlt_bool_true in C by exact H. destruct C as [C1 [C2 _]]. now split.
Qed.
Lemma sub_R : forall x y : num m, is_finite x = true -> is_finite y = true ->
  Rabs (rnd m (B2R x - B2R y)) < p2 (emax m) ->
  is_finite (sub m x y) = true /\ B2R (sub m x y) = rnd m (B2R x - B2R y).
Proof.
  intros x y Fx Fy H.
  pose proof (Bminus_correct (prec m) (emax m) _ _ mode_NE x y Fx Fy) as C.
  rewrite Rlt_bool_true in C by exact H. destruct C as [C1 [C2 _]]. now split.
Qed.
Lemma mul_R : forall x y : num m, is_finite x = true -> is_finite y = true ->
  Rabs (rnd m (B2R x * B2R y)) < p2 (emax m) ->
  is_finite (mul m x y) = true /\ B2R (mul m x y) = rnd m (B2R x * B2R y).
Proof.
  intros x y Fx Fy H.
  pose proof (Bmult_correct (prec m) (emax m) _ _ mode_NE x y) as C.
  rewrite Rlt_bool_true in C by exact H. destruct C as [C1 [C2 _]].
  rewrite Fx, Fy in C2. now split.
Qed.
Lemma div_R : forall x y : num m, is_finite x = true -> B2R y <> 0 ->
  Rabs (rnd m (B2R x / B2R y)) < p2 (emax m) ->
  is_finite (div m x y) = true /\ B2R (div m x y) = rnd m (B2R x / B2R y).
Proof.
  intros x y Fx Hy H.
  pose proof (Bdiv_correct (prec m) (emax m) _ _ mode_NE x y Hy) as C.
  rewrite Rlt_bool_true in C by exact H. destruct C as [C1 [C2 _]]. rewrite Fx in C2. now split.
Qed.
Lemma one_R : is_finite (one m) = true /\ B2R (one m) = 1.
Proof. split; [apply is_finite_Bone | apply Bone_correct]. Qed.
End Num.

Lemma cast_R : forall d e (x : num d), is_finite x = true -> Rabs (rnd e (B2R x)) < p2 (emax e) ->
  is_finite (cast d e x) = true /\ B2R (cast d e x) = rnd e (B2R x) /\ Bsign (cast d e x) = Bsign x.
Proof.
  intros d e x F H. destruct x as [s|s| |s mx ex Hx]; try discriminate.
  - simpl. now rewrite rnd_0.
  - pose proof (binary_normalize_correct (prec e) (emax e) _ _ mode_NE (cond_Zopp s (Zpos mx)) ex s) as C.
    cbv zeta in C. rewrite Rlt_bool_true in C by exact H. destruct C as [C1 [C2 C3]].
    simpl. split; [exact C2|]. split; [exact C1|].
    etransitivity; [exact C3|]. destruct s.
    + rewrite Rcompare_Lt; [trivial|]. now apply F2R_lt_0.
    + rewrite Rcompare_Gt; [trivial|]. now apply F2R_gt_0.
Qed.

Lemma big_le : forall d e, holds_all d e -> big d <= big e.
Proof.
  intros d e [H1 [H2 H3]]. unfold big.
  assert (A : forall k p, p2 k - p2 (k - p) = p2 k * (1 - p2 (- p))).
  { intros. unfold Zminus. rewrite bpow_plus. ring. }
  rewrite !A.
  assert (p2 (emax d) <= p2 (emax e)) by now apply bpow_le.
  assert (p2 (- prec e) <= p2 (- prec d)) by (apply bpow_le; lia).
  assert (p2 (- prec d) <= 1).
  { change 1 with (p2 0). apply bpow_le. pose proof (prec_pos' d). lia. }
  apply Rmult_le_compat; try lra. apply bpow_ge_0.
Qed.

(** A number of [d] in a dtype that holds it: same value, same sign. *)
Lemma cast_up : forall d e (x : num d), holds_all d e -> is_finite x = true ->
  is_finite (cast d e x) = true /\ B2R (cast d e x) = B2R x /\ Bsign (cast d e x) = Bsign x.
Proof.
  intros d e x H F.
  assert (E : rnd e (B2R x) = B2R x) by (apply rnd_fmt, (fmt_holds d); [trivial | apply num_fmt]).
  destruct (cast_R d e x F) as [A [B C]].
  - rewrite E. apply big_lt. eapply Rle_trans; [apply num_big | now apply big_le].
  - now rewrite B, E.
Qed.

Lemma fmt_1 : forall m, fmt m 1.
Proof. intro m. rewrite <- (proj2 (one_R m)). apply num_fmt. Qed.
Lemma u_small : forall m o, finer m o -> u m <= / 64.
Proof.
  intros m o [H _]. unfold u. pose proof (prec_pos' o).
  replace (/ 64) with (p2 (- 6)) by (simpl; lra). apply bpow_le. lia.
Qed.

Lemma Rabs_mult_le : forall x y a b, Rabs x <= a -> Rabs y <= b -> Rabs (x * y) <= a * b.
Proof. intros. rewrite Rabs_mult. apply Rmult_le_compat; trivial; apply Rabs_pos. Qed.
Lemma Rabs_plus_le : forall x y a b, Rabs x <= a -> Rabs y <= b -> Rabs (x + y) <= a + b.
Proof. intros. eapply Rle_trans; [apply Rabs_triang | lra]. Qed.

(** ** weighted_sum over the reals, with its roundings *)
Section Weighted.
Variables m o i : dtype.
Hypothesis Hf : finer m o.
Hypothesis Hi : holds_all o i.
Variable al : R.
Hypothesis Hal : 0 <= al <= 1.
Hypothesis Fal : fmt m al.

Definition comp : R := rnd m (1 - al).
Definition ws (x y : R) : R := rnd m (rnd m (comp * x) + rnd m (al * y)).

Lemma comp_range : 0 <= comp <= 1.
Proof.
  unfold comp. split.
  - rewrite <- (rnd_0 m). apply rnd_le. lra.
  - rewrite <- (rnd_fmt m 1 (fmt_1 m)) at 2. apply rnd_le. lra.
Qed.

Lemma ws_mono : forall x x' y y', x <= x' -> y <= y' -> ws x y <= ws x' y'.
Proof.
  intros. pose proof comp_range. unfold ws. apply rnd_le.
  apply Rplus_le_compat; apply rnd_le; nra.
Qed.

Lemma ws_self : forall x, Rabs (ws x x - x) <= 4 * u m * Rabs x + 2 * p2 (emin m).
Proof.
  intro x. unfold ws.
  assert (E1 : exists e, Rabs e <= u m /\ comp = (1 - al) * (1 + e)).
  { unfold comp. destruct (rnd_plus m 1 (- al) (fmt_1 m) (fmt_opp m _ Fal)) as [e [A B]].
    exists e. split; [trivial|]. unfold Rminus. exact B. }
  destruct E1 as [e1 [A1 B1]].
  destruct (rnd_error m (comp * x)) as [e2 [n2 [A2 [N2 B2]]]].
  destruct (rnd_error m (al * x)) as [e3 [n3 [A3 [N3 B3]]]].
  destruct (rnd_plus m (rnd m (comp * x)) (rnd m (al * x)) (fmt_rnd _ _) (fmt_rnd _ _)) as [e4 [A4 B4]].
  rewrite B4, B2, B3, B1.
  pose proof (u_pos m) as U0. pose proof (u_small m o Hf) as U1.
  pose proof (bpow_gt_0 radix2 (emin m)) as P.
  set (k := 2 * u m + u m * u m).
  assert (K : Rabs (e1 + e2 + e1 * e2) <= k).
  { unfold k. replace (2 * u m) with (u m + u m) by ring.
    apply Rabs_plus_le; [now apply Rabs_plus_le | now apply Rabs_mult_le]. }
  assert (K3 : Rabs e3 <= k) by (unfold k; nra).
  set (D := (1 - al) * (e1 + e2 + e1 * e2) + al * e3).
  assert (KD : Rabs D <= k).
  { unfold D. replace k with ((1 - al) * k + al * k) by ring.
    apply Rabs_plus_le; apply Rabs_mult_le; trivial; rewrite Rabs_pos_eq; lra. }
  assert (KE : Rabs (D + e4 + D * e4) <= 4 * u m).
  { eapply Rle_trans.
    - apply Rabs_plus_le; [apply Rabs_plus_le; [exact KD | exact A4] | apply Rabs_mult_le; [exact KD | exact A4]].
    - unfold k. nra. }
  assert (KN : Rabs ((n2 + n3) * (1 + e4)) <= 2 * p2 (emin m)).
  { eapply Rle_trans.
    - apply Rabs_mult_le; [apply Rabs_plus_le; [exact N2 | exact N3]|].
      apply Rabs_plus_le; [rewrite Rabs_R1; apply Rle_refl | exact A4].
    - nra. }
  replace (((1 - al) * (1 + e1) * x * (1 + e2) + n2 + (al * x * (1 + e3) + n3)) * (1 + e4) - x)
    with ((D + e4 + D * e4) * x + (n2 + n3) * (1 + e4)) by (unfold D; ring).
  apply Rabs_plus_le; [|exact KN].
  apply Rabs_mult_le; [exact KE | apply Rle_refl].
Qed.
End Weighted.

(** ** a value close to a number of the output dtype *)

(** Both roundings of the output cast bring a value that is close enough back to the number. *)
Lemma narrow_back : forall o i x v, holds_all o i -> fmt o x -> Rabs (v - x) < ulp radix2 (fx o) x / 8 ->
  rnd o (rnd i v) = x /\ Rabs (rnd i v - x) < ulp radix2 (fx o) x.
Proof.
  intros o i x v Hi Fx H.
  pose proof (rnd_close i v x (fmt_holds o i x Hi Fx)) as C.
  pose proof (Rabs_pos (v - x)).
  split; [apply rnd_back; [trivial|] | ]; lra.
Qed.

(** A value between two close ones: the cast does not overflow, and lands between the two numbers. *)
Lemma narrow_between : forall m o i (lo hi v w : R) (z : num m), holds_all o i -> holds_all o m ->
  is_finite z = true -> v <= B2R z <= w ->
  fmt o lo -> fmt o hi -> Rabs lo <= big o -> Rabs hi <= big o ->
  Rabs (v - lo) < ulp radix2 (fx o) lo / 8 -> Rabs (w - hi) < ulp radix2 (fx o) hi / 8 ->
  is_finite (narrow m i o z) = true /\ lo <= B2R (narrow m i o z) <= hi.
Proof.
  intros m o i lo hi v w z Hi Hm Fz Hz Flo Fhi Blo Bhi Cv Cw.
  destruct (narrow_back o i lo v Hi Flo Cv) as [V1 V2].
  destruct (narrow_back o i hi w Hi Fhi Cw) as [W1 W2].
  pose proof (rnd_le i v (B2R z) ltac:(lra)) as L1.
  pose proof (rnd_le i (B2R z) w ltac:(lra)) as L2.
  pose proof (big_beyond o lo (rnd i v) Blo V2) as T1.
  pose proof (big_beyond o hi (rnd i w) Bhi W2) as T2.
  assert (Ei : p2 (emax o) <= p2 (emax i)) by (apply bpow_le; apply Hi).
  destruct (cast_R m i z Fz) as [A1 [A2 _]].
  { apply Rabs_def2 in T1. apply Rabs_def2 in T2. apply Rabs_def1; lra. }
  pose proof (rnd_le o _ _ L1) as M1. pose proof (rnd_le o _ _ L2) as M2.
  rewrite V1 in M1. rewrite W1 in M2.
  pose proof (big_lt o lo Blo) as S1. pose proof (big_lt o hi Bhi) as S2.
  destruct (cast_R i o (cast m i z) A1) as [C1 [C2 _]].
  { rewrite A2. apply Rabs_def2 in S1. apply Rabs_def2 in S2. apply Rabs_def1; lra. }
  unfold narrow. rewrite C2, A2. split; [exact C1 | lra].
Qed.

(** ** sums in any order *)
Section Sums.
Variable m : dtype.
Implicit Type t : tree m.

(** The sum over the reals with its roundings, and the same with [c] for every term. *)
Fixpoint totR t : R :=
  match t with Zero => 0 | Term x => B2R x | Plus l r => rnd m (totR l + totR r) end.
Fixpoint totC (c : R) t : R :=
  match t with Zero => 0 | Term _ => c | Plus l r => rnd m (totC c l + totC c r) end.
Definition count t : nat := length (terms m t).
Lemma count_plus : forall l r, count (Plus l r) = (count l + count r)%nat.
Proof. intros. unfold count. simpl. apply app_length. Qed.

Lemma totR_between : forall t lo hi, (forall x, In x (terms m t) -> lo <= B2R x <= hi) ->
  totC lo t <= totR t <= totC hi t.
Proof.
  induction t as [|x|l IHl r IHr]; intros lo hi H; simpl.
  - lra.
  - apply H. simpl. auto.
  - assert (L := IHl lo hi ltac:(intros; apply H; simpl; apply in_or_app; auto)).
    assert (R := IHr lo hi ltac:(intros; apply H; simpl; apply in_or_app; auto)).
    split; apply rnd_le; lra.
Qed.

Lemma totC_fmt : forall c t, fmt m c -> fmt m (totC c t).
Proof. intros c [|x|l r] F; simpl; [apply fmt_0 | exact F | apply fmt_rnd]. Qed.
Lemma totC_none : forall c t, count t = 0%nat -> totC c t = 0.
Proof.
  intros c. induction t as [|x|l IHl r IHr]; intro H; trivial; [discriminate|].
  rewrite count_plus in H. simpl. rewrite IHl, IHr by lia. rewrite Rplus_0_r. apply rnd_0.
Qed.

Definition g (n : nat) : R := (1 + u m) ^ n - 1.
Lemma g_S : forall n, g (S n) = g n + u m * (1 + g n).
Proof. intro n. unfold g. simpl. ring. Qed.
Lemma g_pos : forall n, 0 <= g n.
Proof.
  induction n; [unfold g; simpl; lra|]. rewrite g_S. pose proof (u_pos m). nra.
Qed.
Lemma g_mono : forall n k, (n <= k)%nat -> g n <= g k.
Proof.
  intros n k H. induction H; [lra|]. rewrite g_S. pose proof (u_pos m). pose proof (g_pos m0). nra.
Qed.
Lemma g_lin : forall n, INR n * u m <= / 2 -> g n <= 2 * INR n * u m.
Proof.
  induction n; intro H; [unfold g; simpl; lra|].
  rewrite S_INR in *. pose proof (u_pos m). rewrite g_S.
  assert (INR n * u m <= / 2) by nra. specialize (IHn H1).
  assert (u m * (1 + g n) <= u m * 2) by (apply Rmult_le_compat_l; lra). lra.
Qed.

Lemma totC_error : forall c t, fmt m c ->
  Rabs (totC c t - INR (count t) * c) <= INR (count t) * Rabs c * g (count t).
Proof.
  intros c t Fc. induction t as [|x|l IHl r IHr].
  - simpl. rewrite Rmult_0_l, Rminus_0_r, Rabs_R0. simpl. lra.
  - unfold count. cbn [totC terms length]. replace (c - INR 1 * c) with 0 by (simpl; ring).
    rewrite Rabs_R0. apply Rmult_le_pos; [apply Rmult_le_pos; [apply pos_INR | apply Rabs_pos] | apply g_pos].
  - cbn [totC]. rewrite count_plus.
    destruct (Nat.eq_dec (count l) 0) as [Zl|Nl].
    { rewrite (totC_none c l Zl), Rplus_0_l, rnd_fmt by now apply totC_fmt. rewrite Zl. exact IHr. }
    destruct (Nat.eq_dec (count r) 0) as [Zr|Nr].
    { rewrite (totC_none c r Zr), Rplus_0_r, rnd_fmt by now apply totC_fmt. rewrite Zr, Nat.add_0_r. exact IHl. }
    destruct (rnd_plus m _ _ (totC_fmt c l Fc) (totC_fmt c r Fc)) as [e [He Er]]. rewrite Er.
    set (n := (count l + count r)%nat).
    assert (Hn : INR n = INR (count l) + INR (count r)) by (unfold n; apply plus_INR).
    set (k := (n - 1)%nat). assert (Sk : n = S k) by (unfold k, n; lia).
    pose proof (Rabs_pos c) as Pc. pose proof (u_pos m) as Pu. pose proof (g_pos k) as Pk.
    assert (Gl : g (count l) <= g k) by (apply g_mono; unfold k, n; lia).
    assert (Gr : g (count r) <= g k) by (apply g_mono; unfold k, n; lia).
    pose proof (pos_INR (count l)) as Il. pose proof (pos_INR (count r)) as Ir.
    assert (Dl : Rabs (totC c l - INR (count l) * c) <= INR (count l) * Rabs c * g k).
    { eapply Rle_trans; [exact IHl|]. apply Rmult_le_compat_l; [now apply Rmult_le_pos | trivial]. }
    assert (Dr : Rabs (totC c r - INR (count r) * c) <= INR (count r) * Rabs c * g k).
    { eapply Rle_trans; [exact IHr|]. apply Rmult_le_compat_l; [now apply Rmult_le_pos | trivial]. }
    set (T := totC c l + totC c r).
    assert (DT : Rabs (T - INR n * c) <= INR n * Rabs c * g k).
    { replace (T - INR n * c) with ((totC c l - INR (count l) * c) + (totC c r - INR (count r) * c))
        by (unfold T; rewrite Hn; ring).
      rewrite Hn. replace ((INR (count l) + INR (count r)) * Rabs c * g k)
        with (INR (count l) * Rabs c * g k + INR (count r) * Rabs c * g k) by ring.
      now apply Rabs_plus_le. }
    assert (MT : Rabs T <= INR n * Rabs c * (1 + g k)).
    { replace T with (INR n * c + (T - INR n * c)) by ring.
      replace (INR n * Rabs c * (1 + g k)) with (INR n * Rabs c + INR n * Rabs c * g k) by ring.
      apply Rabs_plus_le; [|exact DT]. rewrite Rabs_mult, (Rabs_pos_eq (INR n)) by apply pos_INR. lra. }
    replace (T * (1 + e) - INR n * c) with ((T - INR n * c) + T * e) by ring.
    rewrite Sk at 3. rewrite g_S.
    replace (INR n * Rabs c * (g k + u m * (1 + g k)))
      with (INR n * Rabs c * g k + INR n * Rabs c * (1 + g k) * u m) by ring.
    apply Rabs_plus_le; [exact DT|]. now apply Rabs_mult_le.
Qed.

(** The mean of copies of [c]. *)
Lemma meanC_error : forall c t, fmt m c -> (0 < count t)%nat ->
  Rabs (rnd m (totC c t / INR (count t)) - c) <= Rabs c * g (S (count t)) + p2 (emin m).
Proof.
  intros c t Fc Hn. set (n := count t) in *.
  assert (In : 0 < INR n) by now apply lt_0_INR.
  pose proof (totC_error c t Fc) as D. fold n in D.
  assert (Q : Rabs (totC c t / INR n - c) <= Rabs c * g n).
  { replace (totC c t / INR n - c) with ((totC c t - INR n * c) * / INR n) by (field; lra).
    rewrite Rabs_mult, (Rabs_pos_eq (/ INR n)) by (apply Rlt_le, Rinv_0_lt_compat; trivial).
    apply Rmult_le_reg_r with (INR n); [trivial|]. rewrite Rmult_assoc, Rinv_l by lra. lra. }
  destruct (rnd_error m (totC c t / INR n)) as [e [h [He [Hh E]]]]. rewrite E.
  set (q := totC c t / INR n) in *.
  assert (Mq : Rabs q <= Rabs c * (1 + g n)).
  { replace q with (c + (q - c)) by ring. replace (Rabs c * (1 + g n)) with (Rabs c + Rabs c * g n) by ring.
    apply Rabs_plus_le; [lra | exact Q]. }
  replace (q * (1 + e) + h - c) with ((q - c) + q * e + h) by ring.
  rewrite g_S. replace (Rabs c * (g n + u m * (1 + g n))) with (Rabs c * g n + Rabs c * (1 + g n) * u m) by ring.
  pose proof (bpow_gt_0 radix2 (emin m)).
  apply Rabs_plus_le; [apply Rabs_plus_le; [exact Q | now apply Rabs_mult_le] | lra].
Qed.
End Sums.
