(** C59, C68: the crossover filter. *)
From Coq Require Import Reals List Bool Arith ZArith Lia Lra Psatz.
From Verif Require Import Base ModelNum NumProofs PropsNum ModelFilter.
Import ListNotations.
Open Scope list_scope.
Open Scope R_scope.

Lemma rltb_true : forall x y, rltb x y = true <-> x < y.
Proof. intros. unfold rltb. destruct (Rlt_dec x y); split; intros; auto; discriminate || lra. Qed.
Lemma rltb_false : forall x y, rltb x y = false <-> y <= x.
Proof. intros. unfold rltb. destruct (Rlt_dec x y); split; intros; auto; discriminate || lra. Qed.

(** ** the mesh *)

(** a position in a tensor of the given shape *)
Definition in_shape (shape idx : list nat) : Prop := Forall2 (fun s k => (k < s)%nat) shape idx.

(** The frequency of bin [k] out of [s], relative to the highest one.  The last dimension of a real
    transform holds only the frequencies [0 .. s-1]; the others hold negative frequencies in
    their second half. *)
Definition frequency (last : bool) (s k : nat) : R :=
  if last then INR k / INR (s - 1) else INR (Nat.min k (s - k)) / INR (s / 2).
Fixpoint frequencies (shape idx : list nat) : list R :=
  match shape, idx with
  | s :: shape', k :: idx' =>
    (if (s =? 1)%nat then 0 else frequency (match shape' with [] => true | _ => false end) s k) :: frequencies shape' idx'
  | _, _ => []
  end.
(** root mean square *)
Definition rms (l : list R) : R := sqrt (rsum (map (fun x => x * x) l) / INR (length l)).

Lemma div2_facts : forall s, (s = 2 * (s / 2) \/ s = 2 * (s / 2) + 1)%nat.
Proof. intros s. pose proof (Nat.div_mod s 2). pose proof (Nat.mod_upper_bound s 2). lia. Qed.

Lemma gradient_is : forall last s k, (k < s)%nat ->
  gradient last s k = if (s =? 1)%nat then 0 else frequency last s k.
Proof.
  intros last s k K. unfold gradient. destruct (s =? 1)%nat eqn:E1.
  { apply Nat.eqb_eq in E1. rewrite orb_true_r. unfold linspace. subst. reflexivity. }
  apply Nat.eqb_neq in E1. rewrite orb_false_r. unfold frequency.
  destruct last.
  { unfold linspace. apply Nat.eqb_neq in E1. rewrite E1. field. apply not_0_INR. apply Nat.eqb_neq in E1. lia. }
  pose proof (div2_facts s) as D. set (h := (s / 2)%nat) in *. assert (1 <= h)%nat by lia.
  assert (INR h <> 0) by (apply not_0_INR; lia).
  f_equal.
  destruct (k <? s - h)%nat eqn:C.
  - apply Nat.ltb_lt in C. rewrite Nat.min_l by lia. unfold linspace.
    destruct (s - h =? 1)%nat eqn:F.
    + apply Nat.eqb_eq in F. assert (k = 0)%nat by lia. subst. reflexivity.
    + apply Nat.eqb_neq in F. assert ((s - 1) / 2 = s - h - 1)%nat as ->.
      { symmetry. apply (Nat.div_unique (s - 1) 2 (s - h - 1) (s - 1 - 2 * (s - h - 1))); lia. }
      assert (INR (s - h - 1) <> 0) by (apply not_0_INR; lia). field; auto.
  - apply Nat.ltb_ge in C. rewrite Nat.min_r by lia. unfold linspace.
    destruct (h =? 1)%nat eqn:F.
    + apply Nat.eqb_eq in F. f_equal. lia.
    + apply Nat.eqb_neq in F. replace (s - k)%nat with (h - (k - (s - h)))%nat by lia.
      rewrite (minus_INR h (k - (s - h))) by lia. rewrite (minus_INR h 1) by lia. simpl (INR 1).
      assert (INR h - 1 <> 0).
      { replace 1 with (INR 1) by reflexivity. rewrite <- minus_INR by lia. apply not_0_INR. lia. }
      field; auto.
Qed.

Lemma gradients_are : forall shape idx, in_shape shape idx -> gradients shape idx = frequencies shape idx.
Proof.
  induction shape as [|s shape IH]; intros idx V; inversion V; subst; auto.
  simpl. rewrite gradient_is by auto. rewrite IH by auto. reflexivity.
Qed.
Lemma frequencies_length : forall shape idx, in_shape shape idx -> length (frequencies shape idx) = length shape.
Proof. induction shape; intros idx V; inversion V; subst; simpl; auto. Qed.

Lemma frequency_range : forall last s k, (k < s)%nat -> s <> 1%nat -> 0 <= frequency last s k <= 1.
Proof.
  intros last s k K N. unfold frequency.
  assert (forall a b, (a <= b)%nat -> (0 < b)%nat -> 0 <= INR a / INR b <= 1) as H.
  { intros a b A B. assert (0 < INR b) by (apply lt_0_INR; auto). apply le_INR in A. pose proof (pos_INR a).
    split; [apply Rmult_le_pos; [auto|left; apply Rinv_0_lt_compat; auto]|].
    apply (Rmult_le_reg_r (INR b)); auto. unfold Rdiv. rewrite Rmult_assoc, Rinv_l, Rmult_1_r, Rmult_1_l by lra. auto. }
  destruct last; [apply H; lia|]. pose proof (div2_facts s). apply H; lia.
Qed.
Lemma frequencies_range : forall shape idx, in_shape shape idx -> Forall (fun x => 0 <= x <= 1) (frequencies shape idx).
Proof.
  induction shape as [|s shape IH]; intros idx V; inversion V; subst; simpl; constructor; auto.
  destruct (s =? 1)%nat eqn:E; [lra|]. apply frequency_range; auto. apply Nat.eqb_neq; auto.
Qed.

Lemma mesh_is : forall shape idx, shape <> [] -> in_shape shape idx -> mesh shape idx = rms (frequencies shape idx).
Proof.
  intros shape idx N V. unfold mesh, rms. rewrite gradients_are by auto. rewrite frequencies_length by auto.
  pose proof (frequencies_length _ _ V) as L. pose proof (frequencies_range _ _ V) as B.
  destruct (1 <? length shape)%nat eqn:E.
  - f_equal. f_equal. f_equal. apply map_ext. intros. ring.
  - apply Nat.ltb_ge in E. destruct shape as [|s [|]]; simpl in E; try congruence; try lia.
    destruct (frequencies [s] idx) as [|x [|]]; simpl in L; try lia. inversion B; subst.
    simpl. unfold rsum. simpl. replace ((x * x + 0) / 1) with (x * x) by field. symmetry. apply sqrt_square. lra.
Qed.

Lemma rms_range : forall l, l <> [] -> Forall (fun x => 0 <= x <= 1) l -> 0 <= rms l <= 1.
Proof.
  intros l N B. unfold rms. split; [apply sqrt_pos|]. rewrite <- sqrt_1. apply sqrt_le_1_alt.
  assert (mean (map (fun x => x * x) l) = rsum (map (fun x => x * x) l) / INR (length l)) as <-
    by (unfold mean; rewrite map_length; auto).
  apply (mean_bounds (map (fun x => x * x) l) 0 1); [destruct l; simpl; congruence|].
  intros y I. apply in_map_iff in I as (x & <- & I). rewrite Forall_forall in B. specialize (B x I). simpl in B. nra.
Qed.

(** ** the filter *)
Lemma clip01_range : forall x, 0 <= clip01 x <= 1.
Proof. intros. unfold clip01, Rmin, Rmax. destruct (Rle_dec x 0); destruct (Rle_dec _ 1); lra. Qed.
Lemma clip01_mono : forall x y, x <= y -> clip01 x <= clip01 y.
Proof.
  intros. unfold clip01, Rmin, Rmax. destruct (Rle_dec x 0), (Rle_dec y 0); repeat destruct (Rle_dec _ 1); lra.
Qed.
Lemma clip01_low : forall x, x <= 0 -> clip01 x = 0.
Proof. intros. unfold clip01, Rmin, Rmax. destruct (Rle_dec x 0); destruct (Rle_dec _ 1); lra. Qed.
Lemma clip01_high : forall x, 1 <= x -> clip01 x = 1.
Proof. intros. unfold clip01, Rmin, Rmax. destruct (Rle_dec x 0); destruct (Rle_dec _ 1); lra. Qed.
Lemma clip01_id : forall x, 0 <= x <= 1 -> clip01 x = x.
Proof. intros. unfold clip01, Rmin, Rmax. destruct (Rle_dec x 0); destruct (Rle_dec _ 1); lra. Qed.
Lemma clip01_flip : forall x, 1 - clip01 x = clip01 (1 - x).
Proof. intros. unfold clip01, Rmin, Rmax. repeat destruct (Rle_dec _ _); lra. Qed.
Lemma b2r_range : forall b, 0 <= b2r b <= 1.
Proof. intros []; simpl; lra. Qed.
Lemma filter_raw_range : forall alpha tilt m, 0 <= filter_raw alpha tilt m <= 1.
Proof.
  intros. unfold filter_raw. destruct (_ || _); [apply b2r_range|]. destruct (rltb _ _); [apply b2r_range|]. apply clip01_range.
Qed.
Lemma filter_at_range : forall alpha tilt m, 0 <= filter_at alpha tilt m <= 1.
Proof.
  intros. unfold filter_at. cbv zeta. destruct (rltb 2 _).
  - pose proof (filter_raw_range (1 - alpha) (tilt - IZR (Int_part (tilt / 4) * 4)) m). lra.
  - apply filter_raw_range.
Qed.

Lemma Int_part_is : forall x z, IZR z <= x < IZR z + 1 -> Int_part x = z.
Proof.
  intros x z H. destruct (base_Int_part x).
  assert (z < Int_part x + 1)%Z by (apply lt_IZR; rewrite plus_IZR; lra).
  assert (Int_part x < z + 1)%Z by (apply lt_IZR; rewrite plus_IZR; lra). lia.
Qed.

(** the tilt between 0 and 4 that [tilt] stands for *)
Lemma filter_period : forall alpha t z m, 0 <= t < 4 ->
  filter_at alpha (t + 4 * IZR z) m = if rltb 2 t then 1 - filter_raw (1 - alpha) t m else filter_raw alpha t m.
Proof.
  intros alpha t z m T. unfold filter_at.
  rewrite (Int_part_is _ z) by (replace ((t + 4 * IZR z) / 4) with (t / 4 + IZR z) by field; lra).
  rewrite mult_IZR. replace (t + 4 * IZR z - IZR z * 4) with t by ring. reflexivity.
Qed.
Lemma tilt_split : forall tilt, exists t z, 0 <= t < 4 /\ tilt = t + 4 * IZR z.
Proof.
  intros tilt. exists (tilt - 4 * IZR (Int_part (tilt / 4))), (Int_part (tilt / 4)).
  destruct (base_Int_part (tilt / 4)). split; lra.
Qed.

(** The filter has a value between 0 and 1 for every frequency, every tilt and every alpha between 0 and 1, and
    raises ValueError for every other alpha; tilts that differ by a multiple of 4 give the same
    filter; and it depends on the position only through the root mean square of the
    frequencies, so negative frequencies are treated like positive ones. *)
Theorem C59_filter : forall shape alpha tilt,
  (0 <= alpha <= 1 -> forall idx, exists v, create_filter shape alpha tilt idx = Ok v /\ 0 <= v <= 1) /\
  (~ 0 <= alpha <= 1 -> forall idx, create_filter shape alpha tilt idx = Err ValueError) /\
  (forall z idx, create_filter shape alpha (tilt + 4 * IZR z) idx = create_filter shape alpha tilt idx) /\
  (forall idx idx', shape <> [] -> in_shape shape idx -> in_shape shape idx' ->
     rms (frequencies shape idx) = rms (frequencies shape idx') ->
     create_filter shape alpha tilt idx = create_filter shape alpha tilt idx').
Proof.
  intros shape alpha tilt. unfold create_filter.
  destruct (rleb 0 alpha) eqn:A0; [apply rleb_true in A0|apply rleb_false in A0].
  destruct (rleb alpha 1) eqn:A1; [apply rleb_true in A1|apply rleb_false in A1].
  - cbn [andb]. split; [|split; [|split]].
    + intros _ idx. eexists. split; [reflexivity|]. apply filter_at_range.
    + intros C. exfalso. apply C. lra.
    + intros z idx. f_equal. destruct (tilt_split tilt) as (t & y & T & ->).
      replace (t + 4 * IZR y + 4 * IZR z) with (t + 4 * IZR (y + z)) by (rewrite plus_IZR; ring).
      rewrite !filter_period by auto. reflexivity.
    + intros idx idx' N V V' E. rewrite !mesh_is by auto. rewrite E. reflexivity.
  - cbn [andb]. split; [intros; lra|]. auto.
  - cbn [andb]. split; [intros; lra|]. auto.
Qed.

(** in a 4 by 3 filter the rows 1 and 3 are the frequencies 1 and -1 *)
Example C59_case : frequencies [4; 3]%nat [1; 2]%nat = frequencies [4; 3]%nat [3; 2]%nat /\
  frequencies [4; 3]%nat [1; 2]%nat = [INR 1 / INR 2; INR 2 / INR 2].
Proof. split; reflexivity. Qed.
Example C59_case_tilt : create_filter [3]%nat (1 / 2) 1 [0]%nat = Ok (1 / 2).
Proof.
  unfold create_filter.
  replace (rleb 0 (1 / 2)) with true by (symmetry; apply rleb_true; lra).
  replace (rleb (1 / 2) 1) with true by (symmetry; apply rleb_true; lra).
  cbn [andb]. f_equal. replace (filter_at (1 / 2) 1 (mesh [3%nat] [0%nat])) with (filter_at (1 / 2) (1 + 4 * IZR 0) (mesh [3%nat] [0%nat])) by (f_equal; ring). rewrite filter_period by lra.
  replace (rltb 2 1) with false by (symmetry; apply rltb_false; lra).
  unfold filter_raw, tiny.
  replace (rltb 1 _) with false by (symmetry; apply rltb_false; lra).
  replace (rltb (Rabs (1 - 4)) _) with false by (symmetry; apply rltb_false; rewrite Rabs_left; lra). cbn [orb].
  replace (rltb (Rabs (1 - 2)) _) with false by (symmetry; apply rltb_false; rewrite Rabs_left; lra).
  replace (rleb 1 1) with true by (symmetry; apply rleb_true; lra). cbn [orb].
  unfold cot. rewrite Rmult_1_r, cos_PI2, sin_PI2. rewrite clip01_id; lra.
Qed.

(** ** C68: alpha moves the filter from all of a to all of b *)

(** tilts on which the code takes the sloped branch *)
Definition sloped (tilt : R) : Prop := exists t z, tilt = t + 4 * IZR z /\ 0 < t < 4 /\
  1 / 10000000000 <= t <= 4 - 1 / 10000000000 /\ 1 / 10000000000 <= Rabs (t - 2).

Lemma cot_pos : forall t, 0 < t <= 1 -> 0 <= cot (PI * t / 2).
Proof.
  intros t T. pose proof PI_RGT_0. unfold cot. apply Rmult_le_pos.
  - apply cos_ge_0; nra.
  - left. apply Rinv_0_lt_compat. apply sin_gt_0; nra.
Qed.
Lemma cot_period : forall x, sin x <> 0 -> cot (x + PI) = cot x.
Proof. intros. unfold cot. rewrite neg_cos, neg_sin. field. auto. Qed.
Lemma cot_opp : forall x, sin x <> 0 -> cot (PI - x) = - cot x.
Proof. intros. unfold cot. rewrite Rtrigo_facts.cos_pi_minus, Rtrigo_facts.sin_pi_minus. field. auto. Qed.
Lemma sin_half : forall t, 0 < t < 2 -> sin (PI * t / 2) <> 0.
Proof. intros t T. pose proof PI_RGT_0. apply Rgt_not_eq. apply sin_gt_0; nra. Qed.

(** the four sloped branches are one formula with a slope that is not negative *)
Definition slope (t : R) : R :=
  if rleb t 1 then cot (PI * t / 2) else if rleb t 2 then cot (PI * (2 - t) / 2)
  else if rleb t 3 then cot (PI * (t - 2) / 2) else cot (PI * (4 - t) / 2).
Definition rising (alpha c m : R) : R := clip01 ((m + alpha - 1) * c + alpha).
Definition falling (alpha c m : R) : R := clip01 ((alpha - m) * c + alpha).

Lemma slope_pos : forall t, 0 < t < 4 -> t <> 2 -> 0 <= slope t.
Proof.
  intros t T N. unfold slope.
  destruct (rleb t 1) eqn:A; [apply rleb_true in A|apply rleb_false in A]; [apply cot_pos; lra|].
  destruct (rleb t 2) eqn:B; [apply rleb_true in B|apply rleb_false in B]; [apply cot_pos; lra|].
  destruct (rleb t 3) eqn:C; [apply rleb_true in C|apply rleb_false in C]; apply cot_pos; lra.
Qed.

Lemma filter_sloped : forall alpha t z m, 0 < t < 4 -> tiny <= t <= 4 - tiny -> tiny <= Rabs (t - 2) ->
  filter_at alpha (t + 4 * IZR z) m =
  if rleb t 1 then rising alpha (slope t) m else if rleb t 3 then falling alpha (slope t) m else rising alpha (slope t) m.
Proof.
  intros alpha t z m T T1 T2. rewrite filter_period by lra. unfold filter_raw.
  assert (0 < tiny) by (unfold tiny; lra).
  replace (rltb t tiny) with false by (symmetry; apply rltb_false; lra).
  replace (rltb (Rabs (t - 4)) tiny) with false by (symmetry; apply rltb_false; rewrite Rabs_left; lra).
  replace (rltb (Rabs (t - 2)) tiny) with false by (symmetry; apply rltb_false; auto). cbn [orb].
  assert (t <> 2) by (intros ->; rewrite Rminus_diag_eq, Rabs_R0 in T2 by auto; lra).
  unfold slope.
  destruct (rleb t 1) eqn:A; [apply rleb_true in A|apply rleb_false in A].
  { replace (rltb 2 t) with false by (symmetry; apply rltb_false; lra). cbn [orb].
    unfold rising. f_equal. ring. }
  destruct (rleb t 2) eqn:B; [apply rleb_true in B|apply rleb_false in B].
  { replace (rltb 2 t) with false by (symmetry; apply rltb_false; lra).
    replace (rleb t 3) with true by (symmetry; apply rleb_true; lra). cbn [orb andb].
    unfold falling. f_equal. replace (PI * t / 2) with (PI - PI * (2 - t) / 2) by field.
    rewrite cot_opp by (apply sin_half; lra). ring. }
  replace (rltb 2 t) with true by (symmetry; apply rltb_true; lra). cbn [orb andb].
  rewrite !clip01_flip.
  destruct (rleb t 3) eqn:C; [apply rleb_true in C|apply rleb_false in C].
  - unfold falling. f_equal. replace (PI * t / 2) with (PI * (t - 2) / 2 + PI) by field.
    rewrite cot_period by (apply sin_half; lra). ring.
  - unfold rising. f_equal. replace (PI * t / 2) with (PI - PI * (4 - t) / 2 + PI) by field.
    rewrite cot_period, cot_opp; try (apply sin_half; lra); [ring|].
    replace (PI - PI * (4 - t) / 2) with (PI * (t - 2) / 2) by field. apply sin_half. lra.
Qed.

(** Raising alpha never lowers the share of b at any frequency, alpha 0 is all a and alpha 1 is all b; and
    a tilt and its opposite give the same filter. *)
Definition well_behaved (tilt : R) : Prop := forall shape idx, shape <> [] -> in_shape shape idx ->
  (forall alpha alpha' v v', 0 <= alpha <= alpha' -> alpha' <= 1 ->
     create_filter shape alpha tilt idx = Ok v -> create_filter shape alpha' tilt idx = Ok v' -> v <= v') /\
  create_filter shape 0 tilt idx = Ok 0 /\ create_filter shape 1 tilt idx = Ok 1.

Theorem C68_alpha_blends_partial : forall tilt, sloped tilt -> well_behaved tilt.
Proof.
  intros tilt (t & z & -> & T & T1 & T2) shape idx N V.
  fold tiny in T1, T2.
  assert (forall alpha, 0 <= alpha <= 1 -> create_filter shape alpha (t + 4 * IZR z) idx =
    Ok (if rleb t 1 then rising alpha (slope t) (mesh shape idx) else
        if rleb t 3 then falling alpha (slope t) (mesh shape idx) else rising alpha (slope t) (mesh shape idx))) as E.
  { intros alpha A. unfold create_filter.
    replace (rleb 0 alpha) with true by (symmetry; apply rleb_true; lra).
    replace (rleb alpha 1) with true by (symmetry; apply rleb_true; lra). cbn [andb]. f_equal. apply filter_sloped; auto. }
  assert (0 < tiny) by (unfold tiny; lra).
  assert (0 <= slope t) as P.
  { apply slope_pos; auto. intros ->. rewrite Rminus_diag_eq, Rabs_R0 in T2 by auto. lra. }
  assert (0 <= mesh shape idx <= 1) as M.
  { rewrite mesh_is by auto. apply rms_range; [|apply frequencies_range; auto].
    intros Q. pose proof (frequencies_length _ _ V) as L. rewrite Q in L. destruct shape; simpl in *; congruence. }
  set (c := slope t) in *. set (m := mesh shape idx) in *.
  split; [|split].
  - intros alpha alpha' v v' A A1. rewrite !E by lra. intros Hv Hv'. inversion Hv; inversion Hv'.
    destruct (rleb t 1); [|destruct (rleb t 3)]; apply clip01_mono; nra.
  - rewrite E by lra. f_equal. destruct (rleb t 1); [|destruct (rleb t 3)]; apply clip01_low; nra.
  - rewrite E by lra. f_equal. destruct (rleb t 1); [|destruct (rleb t 3)]; apply clip01_high; nra.
Qed.

(** tilt 1/2 is such a tilt; so is -1/2, with the same filter by C68_even *)
Example C68_case : sloped (1 / 2) /\ sloped (-1 / 2).
Proof.
  split.
  - exists (1 / 2), 0%Z. rewrite Rabs_left by lra. lra.
  - exists (7 / 2), (-1)%Z. rewrite Rabs_right by lra. lra.
Qed.

Lemma sloped_opp : forall tilt, sloped tilt -> sloped (- tilt).
Proof.
  intros tilt (t & z & -> & T & T1 & T2). exists (4 - t), (- z - 1)%Z.
  rewrite minus_IZR, opp_IZR. split; [lra|]. split; [lra|]. split; [lra|].
  replace (4 - t - 2) with (- (t - 2)) by ring. rewrite Rabs_Ropp. auto.
Qed.
Theorem C68_even : forall shape alpha tilt idx, sloped tilt ->
  create_filter shape alpha (- tilt) idx = create_filter shape alpha tilt idx.
Proof.
  intros shape alpha tilt idx (t & z & -> & T & T1 & T2). unfold create_filter. destruct (_ && _); auto. f_equal.
  fold tiny in T1, T2. set (m := mesh shape idx).
  replace (- (t + 4 * IZR z)) with ((4 - t) + 4 * IZR (- z - 1)) by (rewrite minus_IZR, opp_IZR; ring).
  assert (t <> 2).
  { intros ->. rewrite Rminus_diag_eq, Rabs_R0 in T2 by auto. unfold tiny in T2. lra. }
  rewrite !filter_sloped; auto; try lra.
  2:{ replace (4 - t - 2) with (- (t - 2)) by ring. rewrite Rabs_Ropp. auto. }
  assert (0 < cos 0) by (rewrite cos_0; lra).
  assert (forall x, x = 1 -> cot (PI * x / 2) = 0) as Z.
  { intros x ->. unfold cot. rewrite Rmult_1_r, cos_PI2. unfold Rdiv. ring. }
  unfold slope.
  destruct (rleb t 1) eqn:A; [apply rleb_true in A|apply rleb_false in A];
  (destruct (rleb t 2) eqn:B; [apply rleb_true in B|apply rleb_false in B]); try lra;
  (destruct (rleb t 3) eqn:C; [apply rleb_true in C|apply rleb_false in C]); try lra;
  (destruct (rleb (4 - t) 1) eqn:A'; [apply rleb_true in A'|apply rleb_false in A']);
  (destruct (rleb (4 - t) 2) eqn:B'; [apply rleb_true in B'|apply rleb_false in B']); try lra;
  (destruct (rleb (4 - t) 3) eqn:C'; [apply rleb_true in C'|apply rleb_false in C']); try lra;
  unfold rising, falling; f_equal.
  all: try (replace (4 - (4 - t)) with t by ring; ring).
  all: try (replace (4 - t - 2) with (2 - t) by ring; ring).
  all: try (replace (2 - (4 - t)) with (t - 2) by ring; ring).
  all: try (rewrite !Z by lra; ring).
Qed.

(** Tilts within one unit of a multiple of 4 put b in the high frequencies, the others in the low ones; the
    share of b is alpha at the relative frequency 1 - alpha, respectively alpha. *)
Theorem C68_frequency : forall tilt, sloped tilt -> exists t z, tilt = t + 4 * IZR z /\ -1 < t <= 3 /\
  forall shape idx alpha v, shape <> [] -> in_shape shape idx -> create_filter shape alpha tilt idx = Ok v ->
    let f := rms (frequencies shape idx) in
    (t <= 1 -> f = 1 - alpha -> v = alpha) /\ (1 < t -> f = alpha -> v = alpha) /\
    forall shape' idx' v', shape' <> [] -> in_shape shape' idx' -> create_filter shape' alpha tilt idx' = Ok v' ->
      f <= rms (frequencies shape' idx') -> if rleb t 1 then v <= v' else v' <= v.
Proof.
  intros tilt (t & z & -> & T & T1 & T2). fold tiny in T1, T2.
  assert (0 < tiny) as TP by (unfold tiny; lra).
  assert (0 <= slope t) as P.
  { apply slope_pos; auto. intros ->. rewrite Rminus_diag_eq, Rabs_R0 in T2 by auto. lra. }
  assert (forall shape idx alpha v, shape <> [] -> in_shape shape idx -> create_filter shape alpha (t + 4 * IZR z) idx = Ok v ->
    0 <= alpha <= 1 /\ v = (if rleb t 1 then rising alpha (slope t) (rms (frequencies shape idx)) else
        if rleb t 3 then falling alpha (slope t) (rms (frequencies shape idx)) else rising alpha (slope t) (rms (frequencies shape idx)))) as E.
  { intros shape idx alpha v N V. unfold create_filter.
    destruct (rleb 0 alpha) eqn:A0; [apply rleb_true in A0|discriminate].
    destruct (rleb alpha 1) eqn:A1; [apply rleb_true in A1|discriminate]. cbn [andb].
    rewrite filter_sloped by auto. rewrite mesh_is by auto. intros Q; inversion Q. auto. }
  destruct (rleb t 3) eqn:C; [apply rleb_true in C|apply rleb_false in C].
  - exists t, z. split; auto. split; [lra|]. intros shape idx alpha v N V H f.
    apply E in H as [A ->]; auto. fold f.
    destruct (rleb t 1) eqn:B; [apply rleb_true in B|apply rleb_false in B];
      (split; [|split]); intros; try lra.
    + unfold rising. match goal with F : f = _ |- _ => rewrite F end. apply eq_trans with (clip01 alpha); [f_equal; ring|apply clip01_id; auto].
    + match goal with G : create_filter _ _ _ _ = Ok _ |- _ => apply E in G as [_ ->]; auto end. apply clip01_mono. nra.
    + unfold falling. match goal with F : f = _ |- _ => rewrite F end. apply eq_trans with (clip01 alpha); [f_equal; ring|apply clip01_id; auto].
    + match goal with G : create_filter _ _ _ _ = Ok _ |- _ => apply E in G as [_ ->]; auto end. apply clip01_mono. nra.
  - exists (t - 4), (z + 1)%Z. rewrite plus_IZR. split; [ring|]. split; [lra|]. intros shape idx alpha v N V H f.
    apply E in H as [A ->]; auto. fold f.
    replace (rleb (t - 4) 1) with true by (symmetry; apply rleb_true; lra).
    replace (rleb t 1) with false in * by (symmetry; apply rleb_false; lra).
    (split; [|split]); intros; try lra.
    + unfold rising. match goal with F : f = _ |- _ => rewrite F end. apply eq_trans with (clip01 alpha); [f_equal; ring|apply clip01_id; auto].
    + match goal with G : create_filter _ _ _ _ = Ok _ |- _ => apply E in G as [_ ->]; auto end. apply clip01_mono. nra.
Qed.

(** At a tilt that is a multiple of 4 the filter is a step: b above the relative frequency 1 - alpha, a up to it.  Halfway
    between two multiples the code has b below the relative frequency 1 - alpha. *)
Theorem C68_step : forall shape idx alpha z, shape <> [] -> in_shape shape idx -> 0 <= alpha <= 1 ->
  let f := rms (frequencies shape idx) in
  (exists v, create_filter shape alpha (4 * IZR z) idx = Ok v /\ (1 - alpha < f -> v = 1) /\ (f <= 1 - alpha -> v = 0)) /\
  (exists v, create_filter shape alpha (2 + 4 * IZR z) idx = Ok v /\ (f < 1 - alpha -> v = 1) /\ (1 - alpha <= f -> v = 0)).
Proof.
  intros shape idx alpha z N I A f. unfold create_filter.
  replace (rleb 0 alpha) with true by (symmetry; apply rleb_true; lra).
  replace (rleb alpha 1) with true by (symmetry; apply rleb_true; lra). cbn [andb]. rewrite (mesh_is shape idx N I). fold f. split.
  - eexists. split; [reflexivity|]. replace (4 * IZR z) with (0 + 4 * IZR z) by ring. rewrite filter_period by lra.
    replace (rltb 2 0) with false by (symmetry; apply rltb_false; lra). unfold filter_raw, tiny.
    replace (rltb 0 _) with true by (symmetry; apply rltb_true; lra). cbn [orb]. unfold b2r. split; intros H.
    + apply rltb_true in H. rewrite H. reflexivity.
    + apply rltb_false in H. rewrite H. reflexivity.
  - eexists. split; [reflexivity|]. rewrite filter_period by lra.
    replace (rltb 2 2) with false by (symmetry; apply rltb_false; lra). unfold filter_raw, tiny.
    replace (rltb 2 _) with false by (symmetry; apply rltb_false; lra).
    replace (rltb (Rabs (2 - 4)) _) with false by (symmetry; apply rltb_false; rewrite Rabs_left; lra).
    replace (rltb (Rabs (2 - 2)) _) with true by (symmetry; apply rltb_true; rewrite Rminus_diag_eq, Rabs_R0 by auto; lra).
    cbn [orb]. unfold b2r. split; intros H.
    + apply rltb_true in H. rewrite H. reflexivity.
    + apply rltb_false in H. rewrite H. reflexivity.
Qed.

(** Refuted at tilt 2: alpha 0 gives b at frequency 0 and alpha 1 gives a. *)
Theorem C68_alpha_blends_refuted : exists shape idx, in_shape shape idx /\
  create_filter shape 0 2 idx = Ok 1 /\ create_filter shape 1 2 idx = Ok 0.
Proof.
  exists [2%nat], [0%nat]. split; [repeat constructor|].
  assert (mesh [2%nat] [0%nat] = 0) as M.
  { unfold mesh. simpl. unfold gradient, linspace. simpl. lra. }
  assert (forall alpha, 0 <= alpha <= 1 -> create_filter [2%nat] alpha 2 [0%nat] = Ok (b2r (rltb 0 (1 - alpha)))) as E.
  { intros alpha A. unfold create_filter.
    replace (rleb 0 alpha) with true by (symmetry; apply rleb_true; lra).
    replace (rleb alpha 1) with true by (symmetry; apply rleb_true; lra). cbn [andb]. rewrite M. f_equal.
    replace (filter_at alpha 2 0) with (filter_at alpha (2 + 4 * IZR 0) 0) by (f_equal; ring). rewrite filter_period by lra.
    replace (rltb 2 2) with false by (symmetry; apply rltb_false; lra). unfold filter_raw, tiny.
    replace (rltb 2 _) with false by (symmetry; apply rltb_false; lra).
    replace (rltb (Rabs (2 - 4)) _) with false by (symmetry; apply rltb_false; rewrite Rabs_left; lra).
    replace (rltb (Rabs (2 - 2)) _) with true by (symmetry; apply rltb_true; rewrite Rminus_diag_eq, Rabs_R0 by auto; lra).
    reflexivity. }
  rewrite !E by lra. split; f_equal.
  - replace (rltb 0 (1 - 0)) with true; auto. symmetry. apply rltb_true. lra.
  - replace (rltb 0 (1 - 1)) with false; auto. symmetry. apply rltb_false. lra.
Qed.

Print Assumptions C59_filter.
Print Assumptions C68_alpha_blends_partial.
Print Assumptions C68_even.
Print Assumptions C68_frequency.
Print Assumptions C68_step.
Print Assumptions C68_alpha_blends_refuted.
