(** C117: the numbers given to a merge method.  Read with ModelParam.v. *)
From Coq Require Import ZArith Reals List Lia Lra Psatz Bool.
From Flocq Require Import Core BinarySingleNaN.
From Verif Require Import ModelRound SpecRound RoundProofs PropsRound PropsRoundErr ModelParam.
Import ListNotations.
Open Scope R_scope.

(** [x] is a float32 number *)
Definition in_single (x : num float64) : Prop := exists y : num float32, is_finite y = true /\ B2R y = B2R x.

Lemma literal_R : forall x, is_finite x = true -> Rabs (B2R x) <= big float32 ->
  is_finite (literal x) = true /\ B2R (literal x) = rnd float32 (B2R x) /\ Bsign (literal x) = Bsign x.
Proof.
  intros x F B. apply cast_R; auto. rewrite <- rnd_abs. eapply Rle_lt_trans; [apply rnd_le; exact B|].
  rewrite rnd_fmt by (apply fmt_big). unfold big. pose proof (bpow_gt_0 radix2 (emax float32 - prec float32)). lra.
Qed.
Lemma cast_keeps_infinite : forall d e (x : num d), is_finite x = false -> is_finite (cast d e x) = false.
Proof. intros d e [s|s| |s mx ex Hx] H; try discriminate; reflexivity. Qed.
Lemma tensor_up : forall m x, holds_all float32 (work m) -> is_finite (literal x) = true ->
  is_finite (handed_tensor m x) = true /\ B2R (handed_tensor m x) = B2R (literal x) /\ Bsign (handed_tensor m x) = Bsign (literal x).
Proof. intros [m|] x H F; [apply cast_up; auto|auto]. Qed.
Lemma tensor_infinite : forall m x, is_finite (literal x) = false -> is_finite (handed_tensor m x) = false.
Proof. intros [m|] x F; [apply cast_keeps_infinite; auto|auto]. Qed.
Lemma single_up : holds_all float32 float64. Proof. vm_compute; repeat split; discriminate. Qed.

(** A float given to a float parameter arrives as it is exactly if it is a float32 number, in every merge dtype that
    holds the float32 numbers, the default one among them, and also if only merge_device is given. *)
Theorem C117_float_iff : forall m x, holds_all float32 (work m) -> holds_all (work m) float64 -> is_finite x = true ->
  (handed_float true m x = x <-> in_single x).
Proof.
  intros m x H1 H2 F. unfold handed_float. split.
  - intros E. destruct (is_finite (literal x)) eqn:L.
    + destruct (tensor_up m x H1 L) as (Ft & Rt & _). destruct (cast_up (work m) float64 _ H2 Ft) as (_ & R & _). exists (literal x). split; auto. congruence.
    + exfalso. pose proof (cast_keeps_infinite (work m) float64 _ (tensor_infinite m x L)). congruence.
  - intros (y & Fy & E). assert (B : Rabs (B2R x) <= big float32) by (rewrite <- E; apply num_big).
    destruct (literal_R x F B) as (L & R & S). rewrite rnd_fmt in R by (rewrite <- E; apply num_fmt).
    destruct (tensor_up m x H1 L) as (Ft & Rt & St). destruct (cast_up (work m) float64 _ H2 Ft) as (Fc & Rc & Sc).
    apply B2R_Bsign_inj; auto; congruence.
Qed.

(** It is off by one part in 2^24 at most, and by the smallest number of float32. *)
Theorem C117_accuracy : forall m x, holds_all float32 (work m) -> is_finite x = true -> Rabs (B2R x) <= big float32 ->
  is_finite (handed_tensor m x) = true /\
  Rabs (B2R (handed_tensor m x) - B2R x) <= bpow radix2 (-24) * Rabs (B2R x) + bpow radix2 (-150).
Proof.
  intros m x H F B. destruct (literal_R x F B) as (L & R & _). destruct (tensor_up m x H L) as (Ft & Rt & _). split; auto.
  rewrite Rt, R. destruct (rnd_error float32 (B2R x)) as (e & n & He & Hn & ->).
  replace (B2R x * (1 + e) + n - B2R x) with (B2R x * e + n) by ring. eapply Rle_trans; [apply Rabs_triang|]. rewrite Rabs_mult.
  assert (U : u float32 = bpow radix2 (-24)) by reflexivity. assert (P : p2 (emin float32) / 2 = bpow radix2 (-150)).
  { change (emin float32) with (-149)%Z. change (-150)%Z with (-149 + -1)%Z. rewrite bpow_plus. change (bpow radix2 (-1)) with (/ 2). unfold Rdiv. reflexivity. }
  rewrite U in He. rewrite P in Hn. rewrite (Rmult_comm (bpow radix2 (-24))). apply Rplus_le_compat; auto. apply Rmult_le_compat_l; auto. apply Rabs_pos.
Qed.

(** Bounds that float32 and the merge dtype hold are kept, in every merge dtype. *)
Theorem C117_bounds : forall m x (lo hi : num float32) (lo' hi' : num (work m)), is_finite x = true ->
  B2R lo' = B2R lo -> B2R hi' = B2R hi -> B2R lo <= B2R x <= B2R hi ->
  is_finite (handed_tensor m x) = true /\ B2R lo <= B2R (handed_tensor m x) <= B2R hi.
Proof.
  intros m x lo hi lo' hi' F E1 E2 (H1 & H2).
  assert (BD : forall d (l h : num d) v, B2R l <= v <= B2R h -> Rabs v < p2 (emax d)).
  { intros d l h v (A & C). pose proof (big_lt d _ (num_big d l)). pose proof (big_lt d _ (num_big d h)).
    apply Rabs_def1; [eapply Rle_lt_trans; [exact C|]; eapply Rle_lt_trans; [apply Rle_abs|auto]|].
    eapply Rlt_le_trans; [|exact A]. destruct (Rabs_def2 _ _ H); auto. }
  assert (RB : forall d (l h : num d) v, B2R l <= v <= B2R h -> B2R l <= rnd d v <= B2R h).
  { intros d l h v (A & C). split; [rewrite <- (rnd_fmt d (B2R l)) by apply num_fmt|rewrite <- (rnd_fmt d (B2R h)) by apply num_fmt]; apply rnd_le; auto. }
  assert (L1 : B2R lo <= rnd float32 (B2R x) <= B2R hi) by (apply RB; auto).
  destruct (cast_R float64 float32 x F) as (FL & RL & _); [apply (BD float32 lo hi); auto|]. fold (literal x) in FL, RL.
  destruct m as [m|]; [|split; [exact FL|split; [eapply Rle_trans; [apply L1|right; symmetry; exact RL]|eapply Rle_trans; [right; exact RL|apply L1]]]]. cbn [work] in *. cbn [handed_tensor].
  assert (L2 : B2R lo' <= rnd m (B2R (literal x)) <= B2R hi') by (apply RB; rewrite E1, E2; split; [eapply Rle_trans; [apply L1|right; symmetry; exact RL]|eapply Rle_trans; [right; exact RL|apply L1]]).
  destruct (cast_R float32 m (literal x) FL) as (FT & RT & _); [apply (BD m lo' hi'); auto|]. rewrite RT, <- E1, <- E2. auto.
Qed.

(** A number between 0 and 1 stays there. *)
Theorem C117_unit : forall m x, is_finite x = true -> 0 <= B2R x <= 1 ->
  is_finite (handed_tensor m x) = true /\ 0 <= B2R (handed_tensor m x) <= 1.
Proof.
  intros m x F H. pose proof (proj2 (one_R float32)) as O1. pose proof (proj2 (one_R (work m))) as O2.
  destruct (C117_bounds m x (B754_zero false) (one float32) (B754_zero false) (one (work m)) F) as (A & B); [reflexivity|congruence|rewrite O1; exact H|].
  rewrite O1 in B. auto.
Qed.

(** The order of two parameters is kept, though they may become equal. *)
Theorem C117_order : forall m x y, holds_all float32 (work m) -> is_finite x = true -> is_finite y = true ->
  Rabs (B2R x) <= big float32 -> Rabs (B2R y) <= big float32 -> B2R x <= B2R y -> B2R (handed_tensor m x) <= B2R (handed_tensor m y).
Proof.
  intros m x y H Fx Fy Bx By L. destruct (literal_R x Fx Bx) as (Lx & Rx & _). destruct (literal_R y Fy By) as (Ly & Ry & _).
  destruct (tensor_up m x H Lx) as (_ & -> & _). destruct (tensor_up m y H Ly) as (_ & -> & _). rewrite Rx, Ry. apply rnd_le; auto.
Qed.

(** weighted_sum with a number between 0 and 1 for alpha, end to end: the result lies between the models. *)
Theorem C117_weighted_sum : forall A B m i o close (a : list (num A)) (b : list (num B)) (x : num float64),
  holds_all A o -> holds_all B o -> holds_all o i -> finer m o -> length b = length a ->
  Forall (fun v => is_finite v = true) a -> Forall (fun v => is_finite v = true) b -> is_finite x = true -> 0 <= B2R x <= 1 ->
  let alpha := repeat (handed_tensor (Some m) x) (length a) in
  let r := map (narrow m i o) (weighted_sum m close (map (cast A m) a) (map (cast B m) b) alpha) in
  length r = length a /\
  forall k v w, nth_error a k = Some v -> nth_error b k = Some w ->
  exists z, nth_error r k = Some z /\ is_finite z = true /\ Rmin (B2R v) (B2R w) <= B2R z <= Rmax (B2R v) (B2R w).
Proof.
  intros A B m i o close a b x HA HB Hi Hf Lb Fa Fb Fx Hx alpha r.
  assert (La : length alpha = length a) by apply repeat_length.
  destruct (C92_weighted_sum_range A B m i o close a b alpha HA HB Hi Hf (eq_sym La) (eq_trans Lb (eq_sym La)) Fa Fb) as (L & R).
  - apply Forall_forall. intros t Ht. apply repeat_spec in Ht. subst t. apply (C117_unit (Some m)); auto.
  - split; [rewrite <- La; exact L|exact R].
Qed.

(** ** Integers *)
Lemma fmt_int : forall d z, (Z.abs z <= 2 ^ prec d)%Z -> fmt d (IZR z).
Proof.
  intros d z H. pose proof (prec_pos' d). pose proof (prec_lt' d).
  destruct (Z.eq_dec (Z.abs z) (2 ^ prec d)) as [E|E].
  - assert (P : fmt d (IZR (2 ^ prec d))).
    { change 2%Z with (radix_val radix2). rewrite IZR_Zpower by lia. apply generic_format_bpow. unfold fx, FLT_exp, emin. lia. }
    destruct (Z.abs_spec z) as [(_ & Q)|(_ & Q)]; [rewrite <- Q, E; auto|].
    replace z with (- Z.abs z)%Z by lia. rewrite E, opp_IZR. apply fmt_opp; auto.
  - apply generic_format_FLT. exists (Float radix2 z 0); simpl; [unfold F2R; simpl; ring|lia|unfold emin; lia].
Qed.
Lemma fmt_double : forall z, (Z.abs z <= 2 ^ 53)%Z -> is_finite (double_of z) = true /\ B2R (double_of z) = IZR z.
Proof.
  intros z H. unfold double_of. pose proof (binary_normalize_correct (prec float64) (emax float64) (prec_pos float64) (prec_lt float64) mode_NE z 0 false) as C.
  cbv zeta in C. assert (V : F2R (Float radix2 z 0) = IZR z) by (unfold F2R; simpl; ring). rewrite V in C.
  assert (RR : round radix2 (SpecFloat.fexp (prec float64) (emax float64)) (round_mode mode_NE) (IZR z) = IZR z) by (apply (rnd_fmt float64), fmt_int; exact H).
  rewrite RR in C. rewrite Rlt_bool_true in C; [tauto|]. rewrite <- abs_IZR. apply Rle_lt_trans with (IZR (2 ^ 53)); [apply IZR_le; auto|].
  change (IZR (2 ^ 53)) with (bpow radix2 53). apply bpow_lt. reflexivity.
Qed.
Lemma cast_int : forall d e (x : num d) z, is_finite x = true -> B2R x = IZR z -> (Z.abs z <= 2 ^ prec e)%Z ->
  is_finite (cast d e x) = true /\ B2R (cast d e x) = IZR z.
Proof.
  intros d e x z F R H. pose proof (prec_lt' e). pose proof (prec_pos' e).
  destruct (cast_R d e x F) as (A & B & _); rewrite R, (rnd_fmt e) in * by (apply fmt_int; auto); auto.
  rewrite <- abs_IZR. apply Rle_lt_trans with (IZR (2 ^ prec e)); [apply IZR_le; auto|].
  change 2%Z with (radix_val radix2). rewrite IZR_Zpower by lia. apply bpow_lt. auto.
Qed.

(** An int arrives as it is in every merge dtype whose mantissa holds it: up to 2^24 by default, 2048 in float16, 256 in bfloat16. *)
Theorem C117_int : forall m z, (Z.abs z <= 2 ^ 24)%Z -> (Z.abs z <= 2 ^ prec (work m))%Z -> handed_int m z = Some z.
Proof.
  intros m z H1 H2. destruct (fmt_double z) as (F & R); [lia|].
  destruct (cast_int float64 float32 (double_of z) z F R H1) as (Fl & Rl). fold (literal (double_of z)) in Fl, Rl.
  assert (T : is_finite (handed_tensor m (double_of z)) = true /\ B2R (handed_tensor m (double_of z)) = IZR z) by (destruct m as [m|]; [apply cast_int; auto|auto]).
  destruct T as (Ft & Rt). unfold handed_int. rewrite Ft. f_equal. apply eq_IZR. rewrite Btrunc_correct by apply prec_lt. rewrite Rt.
  apply round_generic; auto with typeclass_instances. apply generic_format_FIX. exists (Float radix2 z 0); simpl; [unfold F2R; simpl; ring|reflexivity].
Qed.

(** ** Violated: under default options, 0.1 arrives as 0.100000001490116; a number just below 1 arrives as 1, one that is small but not
    zero as 0, and 2^128 as infinity. *)
Definition tenth : num float64 := val float64 7205759403792794 (-56).
Theorem C117_float_refuted :
  is_finite tenth = true /\ handed_float true (Some float64) tenth <> tenth /\
  B2SF (handed_float true (Some float64) tenth) = SpecFloat.S754_finite false 7205759511166976 (-56) /\
  handed_float true (Some float64) (val float64 (2 ^ 30 - 1) (-30)) = one float64 /\
  handed_float true (Some float64) (val float64 1 (-150)) = B754_zero false /\
  handed_float true (Some float64) (val float64 1 128) = B754_infinity false.
Proof.
  split; [reflexivity|]. split; [intros E; apply (f_equal B2SF) in E; vm_compute in E; discriminate|]. split; [vm_compute; reflexivity|].
  split; [apply B2SF_inj; vm_compute; reflexivity|]. split; apply B2SF_inj; vm_compute; reflexivity.
Qed.
(** In float16 a weight of 70000 is infinite, an int of 2049 is 2048 and one of 65520 raises OverflowError; in bfloat16 257 is 256. *)
Theorem C117_half_refuted :
  handed_float true (Some float16) (val float64 70000 0) = B754_infinity false /\
  handed_int (Some float16) 2049 = Some 2048%Z /\ handed_int (Some float16) 65520 = None /\ handed_int (Some bfloat16) 257 = Some 256%Z.
Proof. split; [apply B2SF_inj; vm_compute; reflexivity|]. vm_compute. auto. Qed.

Example C117_case : in_single (val float64 3 (-2)) /\ handed_float true (Some float64) (val float64 3 (-2)) = val float64 3 (-2) /\
  handed_int (Some float64) (-16777216) = Some (-16777216)%Z /\ handed_int (Some float16) 2048 = Some 2048%Z.
Proof.
  assert (I : in_single (val float64 3 (-2))).
  { exists (val float32 3 (-2)). split; [reflexivity|].
    assert (X : val float32 3 (-2) = @B754_finite 24 128 false 12582912 (-24) eq_refl) by (apply B2SF_inj; vm_compute; reflexivity).
    assert (Y : val float64 3 (-2) = @B754_finite 53 1024 false 6755399441055744 (-53) eq_refl) by (apply B2SF_inj; vm_compute; reflexivity).
    rewrite X, Y. unfold B2R, F2R. simpl. lra. }
  split; [exact I|]. split; [apply C117_float_iff; auto; [exact single_up|vm_compute; repeat split; discriminate]|]. split; apply C117_int; vm_compute; discriminate.
Qed.

Print Assumptions C117_float_iff.
Print Assumptions C117_accuracy.
Print Assumptions C117_bounds.
Print Assumptions C117_unit.
Print Assumptions C117_order.
Print Assumptions C117_weighted_sum.
Print Assumptions C117_int.
Print Assumptions C117_float_refuted.
Print Assumptions C117_half_refuted.
