(** C111: the masks, rounding included. *)
From Coq Require Import ZArith Reals List Lia Lra Psatz Bool.
From Flocq Require Import Core Mult_error BinarySingleNaN.
From Verif Require Import ModelRound SpecRound RoundProofs PropsRound ModelTiesRound PropsTiesRound ModelClampRound PropsClampRound ModelMaskRound.
Open Scope R_scope.

Section Ops.
Variable m : dtype.

(** what an operation gives: the rounded number, or an infinity if that is too large *)
Definition gives (z : num m) (r : R) (s : bool) : Prop :=
  (is_finite z = true /\ B2R z = rnd m r /\ Rabs (rnd m r) < p2 (emax m)) \/ (z = B754_infinity s /\ p2 (emax m) <= Rabs (rnd m r)).

Lemma overflow_inf : forall (z : num m) s, B2SF z = binary_overflow (prec m) (emax m) mode_NE s -> z = B754_infinity s.
Proof. intros z s H. destruct z; simpl in H; try discriminate. inversion H. auto. Qed.

Lemma add_gives : forall x y : num m, is_finite x = true -> is_finite y = true -> exists s, gives (add m x y) (B2R x + B2R y) s.
Proof.
  intros x y Fx Fy. pose proof (Bplus_correct (prec m) (emax m) _ _ mode_NE x y Fx Fy) as C.
  destruct (Rlt_bool_spec (Rabs (rnd m (B2R x + B2R y))) (p2 (emax m))) as [L|L].
  - rewrite Rlt_bool_true in C by exact L. destruct C as (C1 & C2 & _). exists false. left. auto.
  - rewrite Rlt_bool_false in C by exact L. destruct C as (C1 & _). exists (Bsign x). right. split; auto. apply overflow_inf; auto.
Qed.
Lemma sub_gives : forall x y : num m, is_finite x = true -> is_finite y = true -> exists s, gives (sub m x y) (B2R x - B2R y) s.
Proof.
  intros x y Fx Fy. pose proof (Bminus_correct (prec m) (emax m) _ _ mode_NE x y Fx Fy) as C.
  destruct (Rlt_bool_spec (Rabs (rnd m (B2R x - B2R y))) (p2 (emax m))) as [L|L].
  - rewrite Rlt_bool_true in C by exact L. destruct C as (C1 & C2 & _). exists false. left. auto.
  - rewrite Rlt_bool_false in C by exact L. destruct C as (C1 & _). exists (Bsign x). right. split; auto. apply overflow_inf; auto.
Qed.
Lemma mul_gives : forall x y : num m, is_finite x = true -> is_finite y = true -> exists s, gives (mul m x y) (B2R x * B2R y) s.
Proof.
  intros x y Fx Fy. pose proof (Bmult_correct (prec m) (emax m) _ _ mode_NE x y) as C.
  destruct (Rlt_bool_spec (Rabs (rnd m (B2R x * B2R y))) (p2 (emax m))) as [L|L].
  - rewrite Rlt_bool_true in C by exact L. destruct C as (C1 & C2 & _). rewrite Fx, Fy in C2. exists false. left. auto.
  - rewrite Rlt_bool_false in C by exact L. exists (xorb (Bsign x) (Bsign y)). right. split; auto. apply overflow_inf; auto.
Qed.

Lemma abs_R : forall x : num m, is_finite (abs m x) = is_finite x /\ B2R (abs m x) = Rabs (B2R x).
Proof. intros x. split; [apply is_finite_Babs | apply B2R_Babs]. Qed.

Lemma zero_R : forall x : num m, is_finite x = true -> B2R x = 0 -> exists s, x = B754_zero s.
Proof. intros x F R. apply is_zero_R in R; auto. destruct x; try discriminate; eauto. Qed.

Lemma rnd_small : forall x y, fmt m y -> Rabs x <= y -> Rabs (rnd m x) <= y.
Proof.
  intros x y F H. rewrite <- rnd_abs. rewrite <- (rnd_fmt m y F). apply rnd_le. auto.
Qed.
Lemma one_lt : 1 < p2 (emax m).
Proof. change 1 with (p2 0). apply bpow_lt. pose proof (prec_lt' m). pose proof (prec_pos' m). lia. Qed.

(** a quotient of numbers at most 1 in size *)
Lemma div_small : forall x y : num m, is_finite x = true -> is_finite y = true -> B2R y <> 0 -> Rabs (B2R x) <= B2R y ->
  is_finite (div m x y) = true /\ B2R (div m x y) = rnd m (B2R x / B2R y) /\ Rabs (B2R (div m x y)) <= 1.
Proof.
  intros x y Fx Fy N L.
  assert (Rabs (B2R x / B2R y) <= 1) as Q.
  { pose proof (Rabs_pos (B2R x)). unfold Rdiv. rewrite Rabs_mult, Rabs_inv by auto. rewrite (Rabs_pos_eq (B2R y)) by lra.
    apply Rmult_le_reg_r with (B2R y); [lra|]. rewrite Rmult_assoc, Rinv_l, Rmult_1_r, Rmult_1_l by auto. exact L. }
  pose proof (rnd_small _ _ (fmt_1 m) Q) as B. pose proof one_lt.
  destruct (div_R m x y Fx N) as [F R]; [lra|]. split; [auto|]. split; [auto|]. rewrite R. auto.
Qed.

(** the quotient of [train_difference_mask] and [add_opposite_mask] *)
Lemma share : forall u v : num m, let w := nan_to_num m (div m (abs m u) (add m (abs m u) (abs m v))) in
  is_finite w = true /\ 0 <= B2R w <= 1.
Proof.
  intros u v w. unfold w. clear w.
  assert (Z : is_finite (B754_zero false : num m) = true /\ 0 <= B2R (B754_zero false : num m) <= 1) by (simpl; split; [auto|lra]).
  destruct (is_finite u) eqn:Fu.
  2:{ destruct u as [s|s| |s mx ex Hx]; try discriminate; simpl; [|exact Z]. destruct v as [s'|s'| |s' mx ex Hx]; exact Z. }
  destruct (is_finite v) eqn:Fv.
  2:{ destruct v as [s|s| |s mx ex Hx]; try discriminate; destruct u as [s'|s'| |s' mx ex Hx]; try discriminate; simpl; try exact Z; split; auto; simpl; lra. }
  destruct (abs_R u) as [Fu' Ru]. destruct (abs_R v) as [Fv' Rv]. rewrite Fu in Fu'. rewrite Fv in Fv'.
  pose proof (Rabs_pos (B2R u)) as Pu. pose proof (Rabs_pos (B2R v)) as Pv.
  destruct (add_gives (abs m u) (abs m v) Fu' Fv') as (s & [(Fs & Rs & _)|(E & _)]).
  - rewrite Ru, Rv in Rs. set (t := add m (abs m u) (abs m v)) in *.
    assert (Rabs (B2R u) <= B2R t) as L.
    { rewrite Rs. rewrite <- (rnd_fmt m (Rabs (B2R u))) at 1; [apply rnd_le; lra|rewrite <- Ru; apply num_fmt]. }
    destruct (Req_dec (B2R t) 0) as [T|T].
    + destruct (zero_R t Fs T) as (st & ->). destruct (zero_R (abs m u) Fu') as (su & ->); [rewrite Ru; rewrite T in L; lra|]. exact Z.
    + destruct (div_small (abs m u) t Fu' Fs T) as (F & R & B).
      { rewrite Ru, Rabs_Rabsolu. auto. }
      rewrite finite_same by auto. split; [auto|]. split; [|apply Rle_trans with (2 := B), RRle_abs].
      rewrite R, Ru. rewrite <- (rnd_0 m). apply rnd_le. apply Rmult_le_pos; auto. apply Rlt_le, Rinv_0_lt_compat. lra.
  - rewrite E. destruct (abs m u) as [s'|s'| |s' mx ex Hx]; try discriminate; simpl; split; auto; simpl; lra.
Qed.

Lemma abs_sub_sym : forall x y : num m, abs m (sub m x y) = abs m (sub m y x).
Proof.
  intros x y. destruct (is_finite x) eqn:Fx; [destruct (is_finite y) eqn:Fy|].
  - destruct (sub_gives x y Fx Fy) as (s & [(F & R & L)|(E & L)]); destruct (sub_gives y x Fy Fx) as (s' & [(F' & R' & L')|(E' & L')]);
      replace (B2R y - B2R x) with (- (B2R x - B2R y)) in * by lra; rewrite ?rnd_opp, ?Rabs_Ropp in *; try lra.
    + apply B2R_Bsign_inj; try (rewrite (proj1 (abs_R _)); auto).
      * rewrite (proj2 (abs_R _)), (proj2 (abs_R _)), R, R', Rabs_Ropp. auto.
      * unfold abs. rewrite !Bsign_Babs; auto; destruct (sub m _ _); auto; discriminate.
    + rewrite E, E'. reflexivity.
  - destruct x as [s|s| |s mx ex Hx]; try discriminate; destruct y as [s'|s'| |s' my ey Hy]; try discriminate; try reflexivity.
  - destruct x as [s|s| |s mx ex Hx]; try discriminate; destruct y as [s'|s'| |s' my ey Hy]; try discriminate; try reflexivity.
    destruct s, s'; reflexivity.
Qed.

Lemma nonfinite_quotient : forall p q : num m, is_finite p = false -> is_finite q = false -> nan_to_num m (div m p q) = B754_zero false.
Proof. intros p q Fp Fq. destruct p; try discriminate; destruct q; try discriminate; reflexivity. Qed.
Lemma nonfinite_mul : forall x y : num m, is_finite x = false -> is_finite (mul m x y) = false.
Proof. intros x y F. destruct x; try discriminate; destruct y; reflexivity. Qed.
Lemma nonfinite_mul' : forall x y : num m, is_finite y = false -> is_finite (mul m x y) = false.
Proof. intros x y F. destruct y; try discriminate; destruct x; reflexivity. Qed.
Lemma nonfinite_max : forall x y : num m, is_finite (abs m x) = false \/ is_finite (abs m y) = false -> is_finite (maximum m (abs m x) (abs m y)) = false.
Proof. intros x y F. destruct x, y; destruct F; try discriminate; try reflexivity. Qed.

(** the quotient of [add_strict_opposite_mask] *)
Lemma opposition : forall a b c : num m,
  let t := maximum m (abs m (sub m a c)) (abs m (sub m b c)) in
  let w := nan_to_num m (div m (mul m (sub m c a) (sub m b c)) (mul m t t)) in is_finite w = true /\ Rabs (B2R w) <= 1.
Proof.
  intros a b c t w. unfold w, t. rewrite (abs_sub_sym a c). clear w t. set (u := sub m c a). set (v := sub m b c).
  assert (Z : is_finite (B754_zero false : num m) = true /\ Rabs (B2R (B754_zero false : num m)) <= 1) by (simpl; rewrite Rabs_R0; split; [auto|lra]).
  set (t := maximum m (abs m u) (abs m v)).
  destruct (is_finite u && is_finite v)%bool eqn:F.
  2:{ rewrite nonfinite_quotient; [exact Z| |].
      - apply andb_false_iff in F as [F|F]; [apply nonfinite_mul|apply nonfinite_mul']; auto.
      - apply nonfinite_mul. apply nonfinite_max. rewrite !(proj1 (abs_R _)). apply andb_false_iff; auto. }
  apply andb_true_iff in F as [Fu Fv]. destruct (abs_R u) as [Fu' Ru]. destruct (abs_R v) as [Fv' Rv]. rewrite Fu in Fu'. rewrite Fv in Fv'.
  destruct (maximum_R m _ _ Fu' Fv') as [E R]. rewrite Ru, Rv in R. fold t in E, R.
  assert (is_finite t = true) as Ft by (destruct E as [-> | ->]; auto).
  assert (Rabs (B2R u * B2R v) <= B2R t * B2R t) as L.
  { rewrite Rabs_mult, R. pose proof (Rabs_pos (B2R u)). pose proof (Rabs_pos (B2R v)). apply Rmult_le_compat; auto; [apply Rmax_l|apply Rmax_r]. }
  destruct (mul_gives t t Ft Ft) as (s & [(Fs & Rs & Ls)|(Es & _)]).
  - assert (Rabs (rnd m (B2R u * B2R v)) <= rnd m (B2R t * B2R t)) as L'.
    { rewrite <- rnd_abs. apply rnd_le. exact L. }
    assert (Rabs (rnd m (B2R u * B2R v)) < p2 (emax m)) as L2 by (apply Rle_lt_trans with (1 := L'), Rle_lt_trans with (2 := Ls), RRle_abs).
    destruct (mul_R m u v Fu Fv L2) as [Fp Rp]. set (p := mul m u v) in *. set (q := mul m t t) in *.
    destruct (Req_dec (B2R q) 0) as [Q|Q].
    + destruct (zero_R q Fs Q) as (sq & ->). destruct (zero_R p Fp) as (sp & ->); [|exact Z].
      rewrite Rp. rewrite Q in Rs. rewrite <- Rs in L'. destruct (Req_dec (rnd m (B2R u * B2R v)) 0) as [H|H]; auto.
      apply Rabs_pos_lt in H. lra.
    + destruct (div_small p q Fp Fs Q) as (F & _ & B); [rewrite Rp, Rs; exact L'|]. rewrite finite_same by auto. auto.
  - rewrite Es. destruct (mul_gives u v Fu Fv) as (s' & [(Fp & _)|(Ep & _)]).
    + destruct (mul m u v) as [s''|s''| |s'' mx ex Hx]; try discriminate; simpl; rewrite Rabs_R0; split; auto; lra.
    + rewrite Ep. exact Z.
Qed.

(** ** scaling *)
Lemma mul_share : forall k w : num m, is_finite k = true -> 0 <= B2R k -> is_finite w = true -> 0 <= B2R w <= 1 ->
  is_finite (mul m k w) = true /\ 0 <= B2R (mul m k w) <= B2R k.
Proof.
  intros k w Fk Pk Fw Bw. pose proof (rnd_contract m (B2R w) (B2R k) Bw (num_fmt m k)) as C. rewrite (Rabs_pos_eq (B2R k)), Rmult_comm in C by auto.
  destruct (mul_R m k w Fk Fw) as [F R].
  { apply Rle_lt_trans with (1 := C). rewrite <- (Rabs_pos_eq (B2R k)) by auto. apply big_lt, num_big. }
  split; auto. rewrite R. split; [|apply Rle_trans with (2 := C), RRle_abs].
  rewrite <- (rnd_0 m). apply rnd_le. apply Rmult_le_pos; lra.
Qed.
Lemma mul_nonneg : forall x y : num m, is_finite x = true -> is_finite y = true -> 0 <= B2R x -> 0 <= B2R y -> 0 <= B2R (mul m x y).
Proof.
  intros x y Fx Fy Px Py. destruct (mul_gives x y Fx Fy) as (s & [(_ & R & _)|(E & _)]).
  - rewrite R, <- (rnd_0 m). apply rnd_le, Rmult_le_pos; auto.
  - rewrite E. simpl. lra.
Qed.
Lemma mul_mono : forall x y z : num m, is_finite x = true -> is_finite y = true -> is_finite z = true -> 0 <= B2R x <= B2R y -> 0 <= B2R z ->
  is_finite (mul m y z) = true -> is_finite (mul m x z) = true /\ 0 <= B2R (mul m x z) <= B2R (mul m y z).
Proof.
  intros x y z Fx Fy Fz B Pz F. destruct (mul_gives y z Fy Fz) as (s & [(_ & R & L)|(E & _)]); [|rewrite E in F; discriminate].
  assert (0 <= B2R x * B2R z <= B2R y * B2R z) as [P1 P2] by (split; [apply Rmult_le_pos|apply Rmult_le_compat_r]; lra).
  pose proof (rnd_le m _ _ P1) as Q1. pose proof (rnd_le m _ _ P2) as Q2. rewrite rnd_0 in Q1.
  destruct (mul_R m x z Fx Fz) as [Fm Rm].
  { rewrite Rabs_pos_eq in * by lra. lra. }
  split; auto. rewrite Rm, R. auto.
Qed.
End Ops.

Lemma cast_gives : forall d e (x : num d), is_finite x = true ->
  (is_finite (cast d e x) = true /\ B2R (cast d e x) = rnd e (B2R x) /\ Rabs (rnd e (B2R x)) < p2 (emax e)) \/ is_finite (cast d e x) = false.
Proof.
  intros d e x F. destruct (Rlt_dec (Rabs (rnd e (B2R x))) (p2 (emax e))) as [L|L].
  - left. destruct (cast_R d e x F L) as (A & B & _). auto.
  - right. destruct (is_finite (cast d e x)) eqn:C; auto. exfalso. apply L.
    destruct x as [s|s| |s mx ex Hx]; try discriminate.
    + simpl. rewrite rnd_0, Rabs_R0. apply bpow_gt_0.
    + pose proof (binary_normalize_correct (prec e) (emax e) _ _ mode_NE (cond_Zopp s (Zpos mx)) ex s) as K.
      cbv zeta in K. rewrite Rlt_bool_false in K; [|apply Rnot_lt_le in L; exact L].
      apply overflow_inf in K. simpl in C. rewrite K in C. discriminate.
Qed.
Lemma cast_mono : forall d e (x y : num d), is_finite x = true -> is_finite y = true -> 0 <= B2R x <= B2R y -> is_finite (cast d e y) = true ->
  is_finite (cast d e x) = true /\ 0 <= B2R (cast d e x) <= B2R (cast d e y).
Proof.
  intros d e x y Fx Fy B F. destruct (cast_gives d e y Fy) as [(_ & R & L)|H]; [|congruence].
  pose proof (rnd_le e _ _ (proj1 B)) as Q1. pose proof (rnd_le e _ _ (proj2 B)) as Q2. rewrite rnd_0 in Q1.
  destruct (cast_R d e x Fx) as (G & S & _).
  { rewrite Rabs_pos_eq in * by lra. lra. }
  split; auto. rewrite R, S. auto.
Qed.
Lemma cast_finite : forall d e (x : num d), is_finite (cast d e x) = true -> is_finite x = true.
Proof. intros d e x F. destruct x; auto; discriminate. Qed.
Lemma narrow_mono : forall d i e (x y : num d), is_finite x = true -> 0 <= B2R x <= B2R y -> is_finite (narrow d i e y) = true ->
  is_finite (narrow d i e x) = true /\ 0 <= B2R (narrow d i e x) <= B2R (narrow d i e y).
Proof.
  intros d i e x y Fx B F. unfold narrow in *. pose proof (cast_finite _ _ _ F) as F'. pose proof (cast_finite _ _ _ F') as Fy.
  destruct (cast_mono d i x y Fx Fy B F') as [G S]. apply cast_mono; auto.
Qed.

(** ** the constants *)
Lemma two_R : forall m, is_finite (two m) = true /\ B2R (two m) = 2.
Proof.
  intros m. pose proof (prec_pos' m). pose proof (prec_lt' m).
  pose proof (binary_normalize_correct (prec m) (emax m) _ _ mode_NE (Z.of_nat 2) 0 false) as C. cbv zeta in C.
  assert (F2R (Float radix2 (Z.of_nat 2) 0) = 2) as E by (unfold F2R; simpl; lra). rewrite E in C.
  assert (fmt m 2) as F.
  { change 2 with (p2 1). apply generic_format_bpow. unfold fx, FLT_exp, emin. lia. }
  pose proof (rnd_fmt m 2 F) as Rf. unfold rnd in Rf. rewrite fx_fexp in Rf.
  assert (2 < p2 (emax m)) as L by (change 2 with (p2 1); apply bpow_lt; lia).
  change (round_mode mode_NE) with ZnearestE in C. rewrite Rf in C. rewrite Rabs_pos_eq in C by lra.
  rewrite Rlt_bool_true in C by exact L. destruct C as (C1 & C2 & _). split; auto.
Qed.
Lemma mul_two : forall m (x : num m), is_finite x = true -> Rabs (B2R x) < p2 (emax m - 1) ->
  is_finite (mul m x (two m)) = true /\ B2R (mul m x (two m)) = B2R x * 2.
Proof.
  intros m x F L. destruct (two_R m) as [F2 R2].
  assert (fmt m (B2R x * 2)) as E.
  { change 2 with (p2 1). apply mult_bpow_pos_exact_FLT; [apply num_fmt|lia]. }
  destruct (mul_R m x (two m) F F2) as [Fm Rm]; rewrite R2, (rnd_fmt m _ E) in *; auto.
  assert (p2 (emax m) = p2 (emax m - 1) * 2) as P by (replace 2 with (p2 1) by reflexivity; rewrite <- bpow_plus; f_equal; lia).
  rewrite Rabs_mult, (Rabs_pos_eq 2), P by lra. lra.
Qed.
Lemma eighteen_R : forall m, 0 <= B2R (eighteen m).
Proof.
  intros m. unfold eighteen.
  assert (forall k, Bsign (of_nat m k) = false) as S.
  { intros k. pose proof (binary_normalize_correct (prec m) (emax m) _ _ mode_NE (Z.of_nat k) 0 false) as C. cbv zeta in C.
    destruct (Rlt_bool _ _).
    - destruct C as (_ & _ & C). unfold of_nat. rewrite C. destruct (Rcompare_spec (F2R (Float radix2 (Z.of_nat k) 0)) 0) as [L| |]; auto.
      assert (0 <= F2R (Float radix2 (Z.of_nat k) 0)) by (apply F2R_ge_0; simpl; lia). lra.
    - apply overflow_inf in C. unfold of_nat. rewrite C. simpl.
      apply Rlt_bool_false. apply F2R_ge_0. simpl. lia. }
  assert (forall x : num m, Bsign x = false -> 0 <= B2R x) as P.
  { intros x H. destruct x as [s|s| |s mx ex Hx]; simpl in *; try lra. subst. apply F2R_ge_0. simpl. lia. }
  pose proof (P _ (S 9%nat)) as P9. pose proof (P _ (S 5%nat)) as P5.
  destruct (Req_dec (B2R (of_nat m 5)) 0) as [E|N].
  - destruct (of_nat m 5) as [s|s| |s mx ex Hx]; destruct (of_nat m 9) as [s'|s'| |s' mx' ex' Hx']; simpl; try lra.
    all: exfalso; apply eq_0_F2R in E; simpl in E; destruct s; discriminate.
  - pose proof (Bdiv_correct (prec m) (emax m) _ _ mode_NE (of_nat m 9) (of_nat m 5) N) as C.
    destruct (Rlt_bool _ _).
    + destruct C as (C & _). unfold div. rewrite C, <- (rnd_0 m). apply rnd_le. apply Rmult_le_pos; auto. apply Rlt_le, Rinv_0_lt_compat. lra.
    + apply overflow_inf in C. unfold div. rewrite C. simpl. lra.
Qed.
Lemma nonneg_finite_mul : forall m (x y : num m), is_finite (mul m x y) = true -> is_finite x = true /\ is_finite y = true.
Proof.
  intros m x y F. split.
  - destruct (is_finite x) eqn:E; auto. rewrite (nonfinite_mul m x y E) in F. discriminate.
  - destruct (is_finite y) eqn:E; auto. rewrite (nonfinite_mul' m x y E) in F. discriminate.
Qed.

(** C111.  Whatever the models hold, NaN and infinities included, the merged mask is finite and between 0 and what alpha allows:
    1.8 alpha, 2 alpha and 2 alpha, in the dtypes of the merge. *)
Theorem C111_train_range : forall m i o (a b c alpha : num m), 0 <= B2R alpha ->
  let most := narrow m i o (mul m alpha (eighteen m)) in is_finite most = true ->
  let z := narrow m i o (train_difference_mask m a b c alpha) in is_finite z = true /\ 0 <= B2R z <= B2R most.
Proof.
  intros m i o a b c alpha Pa most Fm z. unfold z, most, train_difference_mask in *.
  pose proof (finite_narrow _ _ _ _ Fm) as Fk. destruct (nonneg_finite_mul _ _ _ Fk) as [Fa F18].
  destruct (share m (sub m b a) (sub m b c)) as [Fw Bw].
  destruct (mul_share m _ _ Fk (mul_nonneg m _ _ Fa F18 Pa (eighteen_R m)) Fw Bw) as [F B].
  apply narrow_mono; auto.
Qed.
Theorem C111_opposite_range : forall m i o (a b c alpha : num m), 0 <= B2R alpha ->
  let most := narrow m i o (mul m alpha (two m)) in is_finite most = true ->
  let z := narrow m i o (add_opposite_mask m a b c alpha) in is_finite z = true /\ 0 <= B2R z <= B2R most.
Proof.
  intros m i o a b c alpha Pa most Fm z. unfold z, most, add_opposite_mask in *.
  pose proof (finite_narrow _ _ _ _ Fm) as Fk. destruct (nonneg_finite_mul _ _ _ Fk) as [Fa _].
  destruct (two_R m) as [F2 R2].
  destruct (share m (sub m a b) (sub m (add m a b) (mul m (two m) c))) as [Fw Bw].
  assert (0 <= B2R (mul m alpha (two m))) as Pk by (apply mul_nonneg; auto; rewrite R2; lra).
  destruct (mul_share m _ _ Fk Pk Fw Bw) as [F B].
  apply narrow_mono; auto.
Qed.
Theorem C111_strict_range : forall m i o (a b c alpha : num m), 0 <= B2R alpha ->
  let most := narrow m i o (mul m alpha (two m)) in is_finite most = true ->
  let z := narrow m i o (add_strict_opposite_mask m a b c alpha) in is_finite z = true /\ 0 <= B2R z <= B2R most.
Proof.
  intros m i o a b c alpha Pa most Fm z. unfold z, most, add_strict_opposite_mask in *.
  pose proof (finite_narrow _ _ _ _ Fm) as Fk. destruct (nonneg_finite_mul _ _ _ Fk) as [Fa _].
  destruct (two_R m) as [F2 R2].
  destruct (opposition m a b c) as [Fw Bw]. set (w := nan_to_num m _) in *.
  destruct (maximum_R m w (B754_zero false) Fw eq_refl) as [E R].
  assert (is_finite (maximum m w (B754_zero false)) = true) as Fx by (destruct E as [-> | ->]; auto).
  simpl (B2R (B754_zero false)) in R.
  assert (0 <= B2R (maximum m w (B754_zero false)) <= 1) as Bx.
  { rewrite R. split; [apply Rmax_r|]. apply Rmax_lub; [|lra]. apply Rle_trans with (2 := Bw), RRle_abs. }
  destruct (mul_share m alpha _ Fa Pa Fx Bx) as [F B].
  destruct (mul_mono m _ alpha (two m) F Fa F2 B) as [F' B']; auto; [lra|].
  apply narrow_mono; auto.
Qed.

(** ** where the masks are empty and full *)
Lemma sub_sign : forall m (x y : num m), is_finite x = true -> is_finite y = true -> is_finite (sub m x y) = true ->
  (B2R x <= B2R y -> B2R (sub m x y) <= 0) /\ (B2R y <= B2R x -> 0 <= B2R (sub m x y)) /\ (B2R x <> B2R y -> B2R (sub m x y) <> 0).
Proof.
  intros m x y Fx Fy F. destruct (sub_gives m x y Fx Fy) as (s & [(_ & R & _)|(E & _)]); [|rewrite E in F; discriminate].
  rewrite R. repeat split; intros H.
  - rewrite <- (rnd_0 m). apply rnd_le. lra.
  - rewrite <- (rnd_0 m). apply rnd_le. lra.
  - intros Z. apply H. assert (B2R x + - B2R y = 0); [|lra].
    destruct (rnd_plus m (B2R x) (- B2R y) (num_fmt m x) (fmt_opp _ _ (num_fmt m y))) as (e & He & Re).
    unfold Rminus in Z. rewrite Z in Re. symmetry in Re. apply Rmult_integral in Re as [Re|Re]; auto.
    assert (u m <= / 2) as U. { unfold u. change (/ 2) with (p2 (-1)). apply bpow_le. pose proof (prec_pos' m). lia. }
    apply Rabs_le_inv in He. lra.
Qed.

Lemma sub_finite : forall m (x y : num m), is_finite (sub m x y) = true -> is_finite x = true /\ is_finite y = true.
Proof.
  intros m x y F. destruct x as [s|s| |s mx ex Hx], y as [s'|s'| |s' my ey Hy]; try discriminate; auto; destruct s, s'; discriminate.
Qed.
Lemma quotient_sign : forall m (u v : num m), is_finite u = true -> is_finite v = true -> B2R u * B2R v <= 0 ->
  let t := maximum m (abs m u) (abs m v) in B2R (nan_to_num m (div m (mul m u v) (mul m t t))) <= 0.
Proof.
  intros m u v Fu Fv Q t. destruct (abs_R m u) as [Fu' Ru]. destruct (abs_R m v) as [Fv' Rv]. rewrite Fu in Fu'. rewrite Fv in Fv'.
  destruct (maximum_R m _ _ Fu' Fv') as [E R]. rewrite Ru, Rv in R. fold t in E, R.
  assert (is_finite t = true) as Ft by (destruct E as [-> | ->]; auto).
  assert (Rabs (B2R u * B2R v) <= B2R t * B2R t) as L.
  { rewrite Rabs_mult, R. pose proof (Rabs_pos (B2R u)). pose proof (Rabs_pos (B2R v)). apply Rmult_le_compat; auto; [apply Rmax_l|apply Rmax_r]. }
  destruct (mul_gives m t t Ft Ft) as (s & [(Fs & Rs & Ls)|(Es & _)]).
  - assert (Rabs (rnd m (B2R u * B2R v)) <= rnd m (B2R t * B2R t)) as L'.
    { rewrite <- rnd_abs. apply rnd_le. exact L. }
    assert (Rabs (rnd m (B2R u * B2R v)) < p2 (emax m)) as L2 by (apply Rle_lt_trans with (1 := L'), Rle_lt_trans with (2 := Ls), RRle_abs).
    destruct (mul_R m u v Fu Fv L2) as [Fp Rp]. set (p := mul m u v) in *. set (q := mul m t t) in *.
    assert (B2R p <= 0) as Pp by (rewrite Rp, <- (rnd_0 m); apply rnd_le; exact Q).
    destruct (Req_dec (B2R q) 0) as [Z|Z].
    + destruct (zero_R m q Fs Z) as (sq & ->). destruct (zero_R m p Fp) as (sp & ->); [|simpl; lra].
      rewrite Rp. rewrite Z in Rs. rewrite <- Rs in L'. destruct (Req_dec (rnd m (B2R u * B2R v)) 0) as [H|H]; auto.
      apply Rabs_pos_lt in H. lra.
    + destruct (div_small m p q Fp Fs Z) as (F & D & _); [rewrite Rp, Rs; exact L'|]. rewrite finite_same by auto.
      rewrite D, <- (rnd_0 m). apply rnd_le. pose proof (Rabs_pos (rnd m (B2R u * B2R v))). rewrite <- Rs in L'.
      assert (0 < / B2R q) by (apply Rinv_0_lt_compat; lra). unfold Rdiv. nra.
  - rewrite Es. destruct (mul_gives m u v Fu Fv) as (s' & [(Fp & _)|(Ep & _)]).
    + destruct (mul m u v) as [s''|s''| |s'' mx ex Hx]; try discriminate; simpl; lra.
    + rewrite Ep. simpl. lra.
Qed.
Lemma opposition_sign : forall m (a b c : num m), is_finite a = false \/ is_finite b = false \/ is_finite c = false \/ 0 <= (B2R a - B2R c) * (B2R b - B2R c) ->
  let t := maximum m (abs m (sub m a c)) (abs m (sub m b c)) in
  B2R (nan_to_num m (div m (mul m (sub m c a) (sub m b c)) (mul m t t))) <= 0.
Proof.
  intros m a b c H t. unfold t. clear t. rewrite (abs_sub_sym m a c) in *.
  destruct (is_finite (sub m c a) && is_finite (sub m b c))%bool eqn:F.
  2:{ rewrite nonfinite_quotient; [simpl; lra| |].
      - apply andb_false_iff in F as [F|F]; [apply nonfinite_mul|apply nonfinite_mul']; auto.
      - apply nonfinite_mul. apply nonfinite_max. rewrite !(proj1 (abs_R _ _)). apply andb_false_iff; auto. }
  apply andb_true_iff in F as [Fu Fv]. destruct (sub_finite _ _ _ Fu) as [Fc Fa]. destruct (sub_finite _ _ _ Fv) as [Fb _].
  assert (0 <= (B2R a - B2R c) * (B2R b - B2R c)) as P by (destruct H as [H|[H|[H|H]]]; auto; congruence).
  apply quotient_sign; auto.
  destruct (sub_sign m c a Fc Fa Fu) as (U1 & U2 & _). destruct (sub_sign m b c Fb Fc Fv) as (V1 & V2 & _).
  set (u := sub m c a) in *. set (v := sub m b c) in *.
  destruct (Rle_dec (B2R a) (B2R c)) as [A|A]; destruct (Rle_dec (B2R b) (B2R c)) as [B|B].
  - specialize (U2 A). specialize (V1 B). nra.
  - assert (B2R a = B2R c) as E by nra. assert (B2R c <= B2R a) as E' by lra. specialize (U2 A). specialize (U1 E'). assert (B2R u = 0) as -> by lra. lra.
  - assert (B2R b = B2R c) as E by nra. assert (B2R c <= B2R b) as E' by lra. specialize (V2 E'). specialize (V1 B). assert (B2R v = 0) as -> by lra. lra.
  - assert (B2R c <= B2R a) as E by lra. assert (B2R c <= B2R b) as E' by lra. specialize (U1 E). specialize (V2 E'). nra.
Qed.
Lemma mul_by_zero : forall m (x y : num m), is_finite x = true -> is_finite y = true -> B2R y = 0 -> is_finite (mul m x y) = true /\ B2R (mul m x y) = 0.
Proof.
  intros m x y Fx Fy Z. destruct (mul_R m x y Fx Fy) as [F R]; rewrite Z, Rmult_0_r, rnd_0 in *; auto. rewrite Rabs_R0. apply bpow_gt_0.
Qed.

(** C111.  add_strict_opposite_mask is zero wherever c is not strictly between a and b, or one of the three is not a number. *)
Theorem C111_strict_sides : forall m i o (a b c alpha : num m), is_finite alpha = true ->
  is_finite a && is_finite b && is_finite c = false \/ ~ (B2R a < B2R c < B2R b \/ B2R b < B2R c < B2R a) ->
  let z := narrow m i o (add_strict_opposite_mask m a b c alpha) in is_finite z = true /\ B2R z = 0.
Proof.
  intros m i o a b c alpha Fal N z.
  assert (is_finite a = false \/ is_finite b = false \/ is_finite c = false \/ 0 <= (B2R a - B2R c) * (B2R b - B2R c)) as H.
  { destruct N as [N|N].
    - apply andb_false_iff in N as [N|N]; auto. apply andb_false_iff in N as [N|N]; auto.
    - right; right; right. destruct (Rle_dec 0 ((B2R a - B2R c) * (B2R b - B2R c))) as [|L]; auto. exfalso. apply Rnot_le_lt in L. apply N.
      destruct (Rtotal_order (B2R a) (B2R c)) as [A|[A|A]]; destruct (Rtotal_order (B2R b) (B2R c)) as [B|[B|B]]; try lra; exfalso;
        try (rewrite A in L; lra); try (rewrite B in L; lra); nra. }
  pose proof (opposition_sign m a b c H) as S. cbv zeta in S. destruct (opposition m a b c) as [Fw _].
  unfold z, add_strict_opposite_mask. set (w := nan_to_num m _) in *.
  destruct (maximum_R m w (B754_zero false) Fw eq_refl) as [E R].
  assert (is_finite (maximum m w (B754_zero false)) = true) as Fx by (destruct E as [-> | ->]; auto).
  simpl (B2R (B754_zero false)) in R. rewrite Rmax_right in R by exact S.
  destruct (mul_by_zero m alpha _ Fal Fx R) as [F1 R1]. destruct (two_R m) as [F2 R2].
  apply narrow_zero.
  - destruct (mul_R m _ (two m) F1 F2) as [F _]; auto. rewrite R1, Rmult_0_l, rnd_0, Rabs_R0. apply bpow_gt_0.
  - destruct (mul_R m _ (two m) F1 F2) as [_ F]; rewrite R1, Rmult_0_l, rnd_0 in *; auto. rewrite Rabs_R0. apply bpow_gt_0.
Qed.

Lemma one_only : forall m (w : num m), is_finite w = true -> B2R w = 1 -> w = one m.
Proof.
  intros m w F R. destruct (one_R m) as [F1 R1]. apply B2R_inj.
  - apply nonzero_strict. lra.
  - apply nonzero_strict. lra.
  - rewrite R, R1. auto.
Qed.
Lemma mul_one_same : forall m (x : num m), is_finite x = true -> mul m x (one m) = x.
Proof.
  intros m x F. destruct (mul_one m x F) as [Fm Rm]. apply B2R_Bsign_inj; auto.
  destruct (one_R m) as [F1 R1].
  pose proof (Bmult_correct (prec m) (emax m) _ _ mode_NE x (one m)) as C. rewrite Rlt_bool_true in C.
  - destruct C as (_ & _ & C). unfold mul in *. rewrite C by (destruct (Bmult mode_NE x (one m)); auto; discriminate).
    unfold one. rewrite Bsign_Bone. apply xorb_false_r.
  - rewrite R1, Rmult_1_r. fold (rnd m (B2R x)). change (Rabs (rnd m (B2R x)) < p2 (emax m)). rewrite rnd_fmt by apply num_fmt. apply big_lt, num_big.
Qed.
Lemma add_zero_R : forall m (x y : num m), is_finite x = true -> is_finite y = true -> B2R y = 0 -> is_finite (add m x y) = true /\ B2R (add m x y) = B2R x.
Proof.
  intros m x y Fx Fy Z. destruct (add_R m x y Fx Fy) as [F R]; rewrite Z, Rplus_0_r, rnd_fmt in * by apply num_fmt; auto. apply big_lt, num_big.
Qed.
Lemma share_full : forall m (u v : num m), is_finite u = true -> is_finite v = true -> B2R u <> 0 -> B2R v = 0 ->
  nan_to_num m (div m (abs m u) (add m (abs m u) (abs m v))) = one m.
Proof.
  intros m u v Fu Fv N Z. destruct (abs_R m u) as [Fu' Ru]. destruct (abs_R m v) as [Fv' Rv]. rewrite Fu in Fu'. rewrite Fv in Fv'.
  rewrite Z, Rabs_R0 in Rv. destruct (add_zero_R m _ _ Fu' Fv' Rv) as [Fs Rs]. rewrite Ru in Rs.
  pose proof (Rabs_pos_lt _ N). destruct (div_small m (abs m u) (add m (abs m u) (abs m v)) Fu' Fs) as (F & R & _).
  - lra.
  - rewrite Ru, Rs, Rabs_Rabsolu. lra.
  - rewrite finite_same by auto. apply one_only; auto. rewrite R, Rs, Ru. unfold Rdiv. rewrite Rinv_r by lra. apply rnd_fmt, fmt_1.
Qed.
Lemma share_empty : forall m (u v : num m), is_finite u = true -> B2R u = 0 ->
  let w := nan_to_num m (div m (abs m u) (add m (abs m u) (abs m v))) in is_finite w = true /\ B2R w = 0.
Proof.
  intros m u v Fu Z w. destruct (share m u v) as [Fw _]. fold w in Fw. split; auto. destruct (zero_R m u Fu Z) as (s & ->).
  unfold w. destruct v as [s'|s'| |s' mx ex Hx]; simpl; auto.
Qed.
Lemma sub_same : forall m (x y : num m), is_finite x = true -> is_finite y = true -> B2R x = B2R y -> is_finite (sub m x y) = true /\ B2R (sub m x y) = 0.
Proof.
  intros m x y Fx Fy E. destruct (sub_R m x y Fx Fy) as [F R]; rewrite E in *; unfold Rminus in *; rewrite Rplus_opp_r, rnd_0 in *; auto.
  rewrite Rabs_R0. apply bpow_gt_0.
Qed.

(** C111.  Where a equals b the first two masks are zero. *)
Theorem C111_empty : forall m i o (a b c alpha : num m), is_finite a = true -> is_finite b = true -> B2R a = B2R b ->
  (is_finite (mul m alpha (eighteen m)) = true ->
   let z := narrow m i o (train_difference_mask m a b c alpha) in is_finite z = true /\ B2R z = 0) /\
  (is_finite (mul m alpha (two m)) = true ->
   let z := narrow m i o (add_opposite_mask m a b c alpha) in is_finite z = true /\ B2R z = 0).
Proof.
  intros m i o a b c alpha Fa Fb E. split; intros Fk z.
  - destruct (sub_same m b a Fb Fa (eq_sym E)) as [Fu Ru]. destruct (share_empty m _ (sub m b c) Fu Ru) as [Fw Rw].
    destruct (mul_by_zero m _ _ Fk Fw Rw). apply narrow_zero; auto.
  - destruct (sub_same m a b Fa Fb E) as [Fu Ru]. destruct (share_empty m _ (sub m (add m a b) (mul m (two m) c)) Fu Ru) as [Fw Rw].
    destruct (mul_by_zero m _ _ Fk Fw Rw). apply narrow_zero; auto.
Qed.

(** C111.  The masks are full, not just nearly: train_difference_mask where b equals c and differs from a, add_opposite_mask where c is
    the middle of a and b. *)
Theorem C111_train_full : forall m (a b c alpha : num m), is_finite c = true ->
  is_finite (sub m b a) = true -> B2R b = B2R c -> B2R a <> B2R b -> is_finite (mul m alpha (eighteen m)) = true ->
  train_difference_mask m a b c alpha = mul m alpha (eighteen m).
Proof.
  intros m a b c alpha Fc Fu E N Fk. destruct (sub_finite _ _ _ Fu) as [Fb Fa].
  destruct (sub_same m b c Fb Fc E) as [Fv Rv]. destruct (sub_sign m b a Fb Fa Fu) as (_ & _ & U).
  unfold train_difference_mask. rewrite share_full by auto. apply mul_one_same; auto.
Qed.
Theorem C111_opposite_full : forall m (a b c alpha : num m), is_finite c = true ->
  is_finite (sub m a b) = true -> is_finite (add m a b) = true -> B2R a + B2R b = 2 * B2R c -> B2R a <> B2R b -> is_finite (mul m alpha (two m)) = true ->
  add_opposite_mask m a b c alpha = mul m alpha (two m).
Proof.
  intros m a b c alpha Fc Fu Fs E N Fk. destruct (sub_finite _ _ _ Fu) as [Fa Fb].
  destruct (sub_sign m a b Fa Fb Fu) as (_ & _ & U). destruct (two_R m) as [F2 R2].
  assert (fmt m (2 * B2R c)) as D.
  { rewrite Rmult_comm. change 2 with (p2 1). apply mult_bpow_pos_exact_FLT; [apply num_fmt|lia]. }
  destruct (add_gives m a b Fa Fb) as (s & [(_ & Rs & Ls)|(X & _)]); [|rewrite X in Fs; discriminate].
  rewrite E, (rnd_fmt m _ D) in Rs, Ls.
  destruct (mul_R m (two m) c F2 Fc) as [Fd Rd]; rewrite R2, (rnd_fmt m _ D) in *; auto.
  destruct (sub_same m _ _ Fs Fd) as [Fv Rv]; [congruence|].
  unfold add_opposite_mask. rewrite share_full by auto. apply mul_one_same; auto.
Qed.

(** [m] can square differences of numbers of [A] *)
Definition squares (m A : dtype) : Prop := holds_all A m /\ (emin m <= 2 * emin A)%Z /\ (2 * emax A + 3 <= emax m)%Z.

Lemma fmt_p2 : forall m e, (emin m <= e)%Z -> fmt m (p2 e).
Proof. intros m e H. apply generic_format_bpow. unfold fx, FLT_exp. pose proof (prec_pos' m). lia. Qed.

(** C111.  Where c is the middle of a and b, add_strict_opposite_mask is full, if the merge dtype can hold the squares of the differences:
    float64 for float32, float16 and bfloat16 models, float32 for float16 models. *)
Theorem C111_strict_full : forall A m (a b c : num A) (alpha : num m), squares m A ->
  is_finite a = true -> is_finite b = true -> is_finite c = true -> B2R a + B2R b = 2 * B2R c -> B2R a <> B2R b -> is_finite alpha = true ->
  add_strict_opposite_mask m (cast A m a) (cast A m b) (cast A m c) alpha = mul m alpha (two m).
Proof.
  intros A m a b c alpha (HA & He & Hx) Fa Fb Fc E N Fal.
  destruct (cast_up A m a HA Fa) as (Fa' & Ra & _). destruct (cast_up A m b HA Fb) as (Fb' & Rb & _). destruct (cast_up A m c HA Fc) as (Fc' & Rc & _).
  set (x := rnd m (B2R c - B2R a)).
  assert (p2 (emin A) <= Rabs (B2R c - B2R a)) as Lo.
  { destruct (multiple A c) as (k & K & _). destruct (multiple A a) as (l & L & _). rewrite K, L.
    replace (IZR k * p2 (emin A) - IZR l * p2 (emin A)) with (IZR (k - l) * p2 (emin A)) by (rewrite minus_IZR; ring).
    rewrite Rabs_mult, (Rabs_pos_eq (p2 _)) by apply bpow_ge_0.
    assert (k - l <> 0)%Z as D. { intros D. apply N. assert (k = l) by lia. subst. lra. }
    assert (1 <= Rabs (IZR (k - l))). { rewrite <- abs_IZR. apply IZR_le. lia. }
    pose proof (bpow_gt_0 radix2 (emin A)). nra. }
  assert (Rabs (B2R c - B2R a) <= p2 (emax A + 1)) as Hi.
  { pose proof (big_lt A _ (num_big A a)). pose proof (big_lt A _ (num_big A c)).
    rewrite bpow_plus. change (p2 1) with 2. pose proof (Rabs_triang (B2R c) (- B2R a)). rewrite Rabs_Ropp in *. unfold Rminus. lra. }
  assert (emin m <= emin A)%Z as Em by (unfold holds_all in HA; lia).
  assert (p2 (emin A) <= Rabs x <= p2 (emax A + 1)) as Bx.
  { unfold x. rewrite <- rnd_abs. split.
    - rewrite <- (rnd_fmt m (p2 (emin A))) by (apply fmt_p2; auto). apply rnd_le; auto.
    - rewrite <- (rnd_fmt m (p2 (emax A + 1))); [apply rnd_le; auto|]. apply fmt_p2. pose proof (prec_lt' A). pose proof (prec_pos' A).
      unfold emin in *. lia. }
  assert (p2 (emax A + 1) < p2 (emax m)) as Pm by (apply bpow_lt; pose proof (prec_lt' A); pose proof (prec_pos' A); lia).
  destruct (sub_R m (cast A m c) (cast A m a) Fc' Fa') as [Fu Ru]; [rewrite Rc, Ra; fold x; lra|]. rewrite Rc, Ra in Ru. fold x in Ru.
  assert (B2R b - B2R c = B2R c - B2R a) as Eb by lra.
  destruct (sub_R m (cast A m b) (cast A m c) Fb' Fc') as [Fv Rv]; [rewrite Rb, Rc, Eb; fold x; lra|]. rewrite Rb, Rc, Eb in Rv. fold x in Rv.
  unfold add_strict_opposite_mask. rewrite (abs_sub_sym m (cast A m a) (cast A m c)).
  set (u := sub m (cast A m c) (cast A m a)) in *. set (v := sub m (cast A m b) (cast A m c)) in *.
  destruct (abs_R m u) as [Fu' Ru']. destruct (abs_R m v) as [Fv' Rv']. rewrite Fu in Fu'. rewrite Fv in Fv'. rewrite Ru in Ru'. rewrite Rv in Rv'.
  destruct (maximum_R m _ _ Fu' Fv') as [Et Rt]. rewrite Ru', Rv', Rmax_left in Rt by lra. set (t := maximum m (abs m u) (abs m v)) in *.
  assert (is_finite t = true) as Ft by (destruct Et as [-> | ->]; auto).
  assert (0 < p2 (emin A)) as Pe by apply bpow_gt_0.
  assert (Rabs x * Rabs x = x * x) as Sq by (rewrite <- Rabs_mult; apply Rabs_pos_eq; nra).
  assert (p2 (2 * emin A) <= x * x <= p2 (2 * emax A + 2)) as B2.
  { replace (2 * emin A)%Z with (emin A + emin A)%Z by lia. replace (2 * emax A + 2)%Z with ((emax A + 1) + (emax A + 1))%Z by lia.
    rewrite (bpow_plus radix2 (emin A) (emin A)), (bpow_plus radix2 (emax A + 1) (emax A + 1)), <- Sq. split; apply Rmult_le_compat; lra. }
  assert (p2 (2 * emin A) <= rnd m (x * x) <= p2 (2 * emax A + 2)) as B3.
  { split.
    - rewrite <- (rnd_fmt m (p2 (2 * emin A))) by (apply fmt_p2; auto). apply rnd_le. lra.
    - rewrite <- (rnd_fmt m (p2 (2 * emax A + 2))); [apply rnd_le; lra|]. apply fmt_p2. pose proof (prec_lt' A). pose proof (prec_pos' A).
      unfold emin in *. lia. }
  assert (p2 (2 * emax A + 2) < p2 (emax m)) as P2 by (apply bpow_lt; lia).
  assert (0 < p2 (2 * emin A)) as P3 by apply bpow_gt_0.
  destruct (mul_R m u v Fu Fv) as [Fp Rp]; [rewrite Ru, Rv, Rabs_pos_eq; lra|]. rewrite Ru, Rv in Rp.
  destruct (mul_R m t t Ft Ft) as [Fq Rq]; [rewrite Rt, Sq, Rabs_pos_eq; lra|]. rewrite Rt, Sq in Rq.
  destruct (div_small m _ _ Fp Fq) as (Fd & Rd & _); [rewrite Rq; lra|rewrite Rp, Rq, Rabs_pos_eq; lra|].
  rewrite Rp, Rq in Rd. unfold Rdiv in Rd. rewrite Rinv_r, (rnd_fmt m 1 (fmt_1 m)) in Rd by lra.
  rewrite finite_same by exact Fd. rewrite (one_only m _ Fd Rd).
  destruct (one_R m) as [F1 R1].
  assert (maximum m (one m) (B754_zero false) = one m) as ->.
  { unfold maximum. rewrite Bcompare_correct by auto. rewrite R1. simpl (B2R (B754_zero false)). rewrite Rcompare_Gt by lra. auto. }
  rewrite mul_one_same by auto. auto.
Qed.
Lemma squares_half : squares float32 float16. Proof. vm_compute; repeat split; discriminate. Qed.
Lemma squares_single : squares float64 float32. Proof. vm_compute; repeat split; discriminate. Qed.
Lemma squares_brain : squares float64 bfloat16. Proof. vm_compute; repeat split; discriminate. Qed.

(** C111, violated without that: in a merge in float16 the squares vanish, so that the mask of two models at distance 2^-13 on opposite
    sides of c is 0 and not 2. *)
Theorem C111_strict_refuted : exists a b c : num float16,
  is_finite a = true /\ is_finite b = true /\ is_finite c = true /\ B2R a + B2R b = 2 * B2R c /\ B2R a < B2R c < B2R b /\
  B2SF (add_strict_opposite_mask float16 a b c (one float16)) = B2SF (B754_zero false : num float16).
Proof.
  exists (B754_zero false), (val float16 1 (-12)), (val float16 1 (-13)).
  assert (forall e, (emin float16 <= e)%Z -> (e < 16)%Z -> is_finite (val float16 1 e) = true /\ B2R (val float16 1 e) = p2 e) as V.
  { intros e L H. pose proof (binary_normalize_correct (prec float16) (emax float16) _ _ mode_NE 1 e false) as C. cbv zeta in C.
    assert (F2R (Float radix2 1 e) = p2 e) as E by (unfold F2R; simpl; lra). rewrite E in C.
    pose proof (rnd_fmt float16 (p2 e) (fmt_p2 _ _ L)) as Rf. unfold rnd in Rf. rewrite fx_fexp in Rf.
    change (round_mode mode_NE) with ZnearestE in C. rewrite Rf in C. rewrite Rabs_pos_eq in C by apply bpow_ge_0.
    rewrite Rlt_bool_true in C; [|apply bpow_lt; exact H]. destruct C as (C1 & C2 & _). split; auto. }
  destruct (V (-12)%Z) as [F1 R1]; [vm_compute; discriminate|reflexivity|].
  destruct (V (-13)%Z) as [F2 R2]; [vm_compute; discriminate|reflexivity|].
  split; [reflexivity|]. split; [auto|]. split; [auto|]. rewrite R1, R2. change (p2 (-12)) with (p2 (1 + -13)). rewrite bpow_plus. change (p2 1) with 2.
  pose proof (bpow_gt_0 radix2 (-13)). split; [simpl (B2R (B754_zero false)); lra|]. split; [simpl (B2R (B754_zero false)); lra|].
  vm_compute. reflexivity.
Qed.

(** Concretely: entries 3, 1, 2 of float16 models, merged in float32; then with an infinite entry. *)
Example C111_case :
  let n z := cast float16 float32 (val float16 z 0) in
  let inf := B754_infinity false : num float32 in
  let out x := B2SF (narrow float32 float32 float16 x) in
  out (add_opposite_mask float32 (n 3%Z) (n 1%Z) (n 2%Z) (one float32)) = B2SF (val float16 2 0) /\
  out (add_strict_opposite_mask float32 (n 3%Z) (n 1%Z) (n 2%Z) (one float32)) = B2SF (val float16 2 0) /\
  out (add_strict_opposite_mask float32 (n 4%Z) (n 1%Z) (n 2%Z) (one float32)) = B2SF (val float16 1 0) /\
  out (add_strict_opposite_mask float32 (n 4%Z) (n 3%Z) (n 2%Z) (one float32)) = B2SF (val float16 0 0) /\
  out (train_difference_mask float32 (n 3%Z) (n 2%Z) (n 2%Z) (one float32)) = B2SF (val float16 1843 (-10)) /\
  out (train_difference_mask float32 (n 3%Z) (n 2%Z) (n 1%Z) (one float32)) = B2SF (val float16 1843 (-11)) /\
  out (train_difference_mask float32 inf (n 2%Z) (n 1%Z) (one float32)) = B2SF (val float16 0 0) /\
  out (add_strict_opposite_mask float32 inf (n 1%Z) (n 2%Z) (one float32)) = B2SF (val float16 0 0).
Proof. vm_compute. repeat split. Qed.

Print Assumptions C111_train_range.
Print Assumptions C111_opposite_range.
Print Assumptions C111_strict_range.
Print Assumptions C111_strict_sides.
Print Assumptions C111_empty.
Print Assumptions C111_train_full.
Print Assumptions C111_opposite_full.
Print Assumptions C111_strict_full.
Print Assumptions C111_strict_refuted.
