(** C50: binomial coefficients and the distribution of dropout masks. *)
From Coq Require Import Reals List Bool Arith ZArith Lia Lra Psatz.
From Verif Require Import Base ModelNum NumProofs PropsNum ModelDrop.
Import ListNotations.
Open Scope list_scope.
Open Scope nat_scope.

(** ** Pascal's triangle *)
Lemma choose_0 : forall n, choose n 0 = 1.
Proof. destruct n; auto. Qed.
Lemma choose_gt : forall n k, n < k -> choose n k = 0.
Proof. induction n; destruct k; simpl; intros; auto; try lia. rewrite !IHn by lia. auto. Qed.
Lemma choose_nn : forall n, choose n n = 1.
Proof. induction n; simpl; auto. rewrite IHn, choose_gt by lia. auto. Qed.
Lemma choose_step : forall n k, choose n (S k) * S k = choose n k * (n - k).
Proof.
  induction n; intros k.
  - destruct k; reflexivity.
  - destruct k.
    + simpl choose. rewrite choose_0. specialize (IHn 0). rewrite choose_0 in IHn. simpl in *. lia.
    + change (choose (S n) (S (S k))) with (choose n (S k) + choose n (S (S k))).
      change (choose (S n) (S k)) with (choose n k + choose n (S k)).
      change (S n - S k) with (n - k).
      pose proof (IHn k). pose proof (IHn (S k)).
      destruct (le_lt_dec n k).
      * rewrite (choose_gt n (S k)) in * by lia. rewrite (choose_gt n (S (S k))) in * by lia.
        replace (n - k) with 0 in * by lia. lia.
      * replace (n - k) with (S (n - S k)) in * by lia. nia.
Qed.
Lemma choose_sym : forall n k, k <= n -> choose n k = choose n (n - k).
Proof.
  induction n; intros k K.
  - replace k with 0 by lia. auto.
  - destruct k; [rewrite Nat.sub_0_r, choose_0, choose_nn; auto|].
    destruct (Nat.eq_dec k n) as [->|].
    + rewrite Nat.sub_diag, choose_0, choose_nn; auto.
    + replace (S n - S k) with (S (n - S k)) by lia. simpl.
      rewrite (IHn k), (IHn (S k)) by lia. replace (n - k) with (S (n - S k)) by lia. simpl. lia.
Qed.
Lemma choose_le_pow : forall n k, choose n k <= 2 ^ n.
Proof.
  induction n; destruct k; simpl; auto; try lia.
  - pose proof (IHn 0). rewrite choose_0 in H. lia.
  - pose proof (IHn k); pose proof (IHn (S k)). lia.
Qed.
Lemma choose_pos : forall n k, k <= n -> 0 < choose n k.
Proof.
  induction n; destruct k; simpl; intros; auto; try lia.
  pose proof (IHn k ltac:(lia)). lia.
Qed.

Lemma wrap64_small : forall z, (0 <= z < 2 ^ 63)%Z -> wrap64 z = z.
Proof. intros. unfold wrap64. rewrite Z.mod_small by lia. lia. Qed.

Lemma product_small : forall n i, (Z.of_nat n * 2 ^ Z.of_nat n < 2 ^ 63)%Z -> i < n ->
  (0 <= Z.of_nat (choose n i) * (Z.of_nat n - Z.of_nat (S i) + 1) < 2 ^ 63)%Z.
Proof.
  intros n i B I. split; [nia|]. apply Z.le_lt_trans with (2 := B).
  assert (Z.of_nat (choose n i) <= 2 ^ Z.of_nat n)%Z.
  { pose proof (choose_le_pow n i). apply inj_le in H. rewrite Nat2Z.inj_pow in H. exact H. }
  assert (0 <= 2 ^ Z.of_nat n)%Z by (apply Z.pow_nonneg; lia).
  rewrite (Z.mul_comm (Z.of_nat n)). apply Z.mul_le_mono_nonneg; lia.
Qed.

Lemma loop_choose : forall n i, (Z.of_nat n * 2 ^ Z.of_nat n < 2 ^ 63)%Z -> i <= n ->
  binomial_loop (Z.of_nat n) i = Z.of_nat (choose n i).
Proof.
  intros n i B. induction i; intros I; [rewrite choose_0; reflexivity|].
  cbn [binomial_loop]. rewrite IHi by lia. rewrite wrap64_small by (apply product_small; auto).
  replace (Z.of_nat n - Z.of_nat (S i) + 1)%Z with (Z.of_nat (n - i)) by lia.
  rewrite <- Nat2Z.inj_mul, <- choose_step, Nat2Z.inj_mul. apply Z.div_mul. lia.
Qed.

(** The model's numbers [Z.of_nat (choose n k)] are those of Pascal's triangle.  Dropout
    enumerates [2 ** n] masks, so [n * 2 ** n < 2 ** 63] (n <= 57) is no restriction there. *)
Theorem C50_binomial : forall n k, k <= n -> (Z.of_nat n * 2 ^ Z.of_nat n < 2 ^ 63)%Z ->
  binomial_coefficient_np (Z.of_nat n) (Z.of_nat k) = Z.of_nat (choose n k) /\
  (forall i, 1 <= i <= n ->
     let r := binomial_loop (Z.of_nat n) (i - 1) in
     ((r * (Z.of_nat n - Z.of_nat i + 1)) mod Z.of_nat i = 0)%Z /\
     (0 <= r * (Z.of_nat n - Z.of_nat i + 1) < 2 ^ 63)%Z).
Proof.
  intros n k K B. split.
  - unfold binomial_coefficient_np. destruct (Z.ltb_spec (Z.of_nat n - Z.of_nat k) (Z.of_nat k)).
    + replace (Z.of_nat n - Z.of_nat k)%Z with (Z.of_nat (n - k)) by lia. rewrite Nat2Z.id, loop_choose by lia.
      rewrite <- choose_sym; auto.
    + rewrite Nat2Z.id. apply loop_choose; auto.
  - intros i I r. unfold r. rewrite loop_choose by lia. destruct i as [|i]; [lia|].
    replace (S i - 1) with i by lia. split; [|apply product_small; auto; lia].
    replace (Z.of_nat n - Z.of_nat (S i) + 1)%Z with (Z.of_nat (n - i)) by lia.
    rewrite <- Nat2Z.inj_mul, <- choose_step, Nat2Z.inj_mul. apply Z.mod_mul. lia.
Qed.

Example C50_case : binomial_coefficient_np 6 4 = 15%Z /\ choose 6 4 = 15 /\ (6 * 2 ^ 6 < 2 ^ 63)%Z.
Proof. vm_compute. auto. Qed.

(** ** the mask distribution *)
Open Scope R_scope.

Lemma rsum_map_nonneg : forall A (f : A -> R) l, (forall x, In x l -> 0 <= f x) -> 0 <= rsum (map f l).
Proof. intros. apply rsum_nonneg. intros y I. apply in_map_iff in I as (x & <- & I). auto. Qed.
Lemma rsum_map_lerp : forall A t (f g : A -> R) l, rsum (map (fun x => lerp t (f x) (g x)) l) = lerp t (rsum (map f l)) (rsum (map g l)).
Proof.
  induction l; simpl; [unfold lerp, rsum; simpl; ring|]. rewrite !rsum_cons, IHl. unfold lerp. ring.
Qed.
Lemma rsum_map_scale : forall A k (f : A -> R) l, rsum (map (fun x => f x * k) l) = rsum (map f l) * k.
Proof. induction l; simpl; [unfold rsum; simpl; ring|]. rewrite !rsum_cons, IHl. ring. Qed.

Lemma popcount_even : forall b i, popcount (S b) (2 * i) = popcount b i.
Proof.
  intros. cbn [popcount]. rewrite (Nat.mul_comm 2), Nat.mod_mul, Nat.div_mul by lia. auto.
Qed.
Lemma popcount_odd : forall b i, popcount (S b) (2 * i + 1) = S (popcount b i).
Proof.
  intros. cbn [popcount].
  rewrite (Nat.add_comm _ 1), (Nat.mul_comm 2), Nat.mod_add, Nat.div_add by lia. auto.
Qed.
Lemma sum_pairs : forall (g : nat -> R) m, rsum (map g (seq 0 (2 * m))) = rsum (map (fun i => g (2 * i)%nat + g (2 * i + 1)%nat) (seq 0 m)).
Proof.
  induction m; [reflexivity|].
  replace (2 * S m)%nat with (2 * m + 1 + 1)%nat by lia. rewrite !seq_app, !map_app, !rsum_app, IHm.
  replace (S m) with (m + 1)%nat by lia. rewrite seq_app, map_app, rsum_app.
  simpl map. rewrite !rsum_cons. unfold rsum. simpl. replace (m + (m + 0))%nat with (2 * m)%nat by lia.
  replace (2 * m + 1)%nat with (m + (m + 0) + 1)%nat by lia. ring.
Qed.
Lemma sum_masks : forall n (g : nat -> R), rsum (map g (seq 0 (2 ^ n))) = g 0%nat + rsum (map g (masks n)).
Proof.
  intros. unfold masks. assert (0 < 2 ^ n)%nat by (apply Nat.neq_0_lt_0, Nat.pow_nonzero; lia).
  destruct (2 ^ n)%nat; [lia|]. simpl. rewrite Nat.sub_0_r, rsum_cons. reflexivity.
Qed.

Lemma popcount_0 : forall n, popcount n 0 = 0%nat.
Proof. induction n; auto. Qed.
Lemma rsum_ext : forall A (f g : A -> R) l, (forall x, In x l -> f x = g x) -> rsum (map f l) = rsum (map g l).
Proof. intros. f_equal. apply map_ext_in; auto. Qed.
Lemma rsum_map_add : forall A (f g : A -> R) l, rsum (map (fun x => f x + g x) l) = rsum (map f l) + rsum (map g l).
Proof. induction l; simpl; [unfold rsum; simpl; ring|]. rewrite !rsum_cons, IHl. ring. Qed.

Lemma singles : forall n, rsum (map (fun i => if (popcount n i =? 0)%nat then 1 else 0) (seq 0 (2 ^ n))) = 1 /\
  rsum (map (fun i => if (popcount n i =? 1)%nat then 1 else 0) (seq 0 (2 ^ n))) = INR n.
Proof.
  induction n as [|n [A B]]; [unfold rsum; simpl; lra|].
  replace (2 ^ S n)%nat with (2 * 2 ^ n)%nat by (simpl; lia). rewrite !sum_pairs. split.
  - etransitivity; [|exact A]. apply rsum_ext. intros i _. rewrite popcount_even, popcount_odd. cbn [Nat.eqb]. destruct (popcount n i =? 0)%nat; ring.
  - rewrite S_INR. transitivity (rsum (map (fun i => (if (popcount n i =? 1)%nat then 1 else 0) + (if (popcount n i =? 0)%nat then 1 else 0)) (seq 0 (2 ^ n)))).
    2:{ rewrite rsum_map_add, A, B. auto. }
    apply rsum_ext. intros i _. rewrite popcount_even, popcount_odd.
    destruct (popcount n i) as [|[|k]]; simpl; ring.
Qed.

Lemma even_sum : forall n, (1 <= n)%nat -> rsum (map (pmf_even n) (masks n)) = 1 /\ forall i, 0 <= pmf_even n i.
Proof.
  intros n N. assert (0 < INR n) as P by (apply lt_0_INR; lia). split.
  - pose proof (sum_masks n (pmf_even n)) as E. unfold pmf_even at 2 in E. rewrite popcount_0 in E. simpl in E.
    rewrite Rplus_0_l in E. rewrite <- E.
    rewrite (rsum_ext _ (pmf_even n) (fun i => (if (popcount n i =? 1)%nat then 1 else 0) * (1 / INR n))).
    + rewrite rsum_map_scale. destruct (singles n) as [_ ->]. field. lra.
    + intros i _. unfold pmf_even. destruct (_ =? 1)%nat; ring.
  - intros i. unfold pmf_even. destruct (_ =? 1)%nat; [|lra].
    apply Rmult_le_pos; [lra|]. left. apply Rinv_0_lt_compat; auto.
Qed.

Lemma odd_sum : forall n, (1 <= n)%nat -> rsum (map (pmf_odd n) (masks n)) = 1 /\ forall i, 0 <= pmf_odd n i.
Proof.
  intros n N. split.
  - unfold masks. assert (2 <= 2 ^ n)%nat by (change 2%nat with (2 ^ 1)%nat at 1; apply Nat.pow_le_mono_r; lia).
    replace (2 ^ n - 1)%nat with ((2 ^ n - 2) + 1)%nat by lia. rewrite seq_app, map_app, rsum_app.
    rewrite (rsum_const 0).
    + cbn [seq map]. rewrite rsum_cons. unfold pmf_odd at 2.
      replace (1 + (2 ^ n - 2) =? 2 ^ n - 1)%nat with true by (symmetry; apply Nat.eqb_eq; lia). unfold rsum; simpl; ring.
    + intros y I. apply in_map_iff in I as (i & <- & I). apply in_seq in I. unfold pmf_odd.
      replace (i =? 2 ^ n - 1)%nat with false by (symmetry; apply Nat.eqb_neq; lia). auto.
  - intros i. unfold pmf_odd. destruct (_ =? _)%nat; lra.
Qed.

Lemma masks_nonempty : forall n, (1 <= n)%nat -> masks n <> [].
Proof.
  intros n N. unfold masks. assert (2 <= 2 ^ n)%nat by (change 2%nat with (2 ^ 1)%nat at 1; apply Nat.pow_le_mono_r; lia).
  destruct (2 ^ n - 1)%nat eqn:E; [lia|discriminate].
Qed.

Lemma soft_sum : forall n o, (1 <= n)%nat -> rsum (map (pmf_soft n o) (masks n)) = 1 /\ forall i, 0 <= pmf_soft n o i.
Proof.
  intros n o N. unfold pmf_soft. set (s := rsum (map (pmf_weight n o) (masks n))).
  assert (0 < s) as S.
  { apply rsum_pos.
    - pose proof (masks_nonempty n N). destruct (masks n); [congruence|discriminate].
    - intros x I. apply in_map_iff in I as (i & <- & _). apply exp_pos. }
  split.
  - unfold Rdiv. rewrite rsum_map_scale. fold s. field. lra.
  - intros i. apply Rmult_le_pos; [left; apply exp_pos|left; apply Rinv_0_lt_compat; auto].
Qed.

Lemma popcount_le : forall n i, (popcount n i <= n)%nat.
Proof.
  induction n; intros i; cbn [popcount]; [lia|]. pose proof (IHn (i / 2)%nat). pose proof (Nat.mod_upper_bound i 2). lia.
Qed.

Lemma expanded_value : forall n p i, (Z.of_nat n * 2 ^ Z.of_nat n < 2 ^ 63)%Z ->
  expanded n p i = p ^ popcount n i * (1 - p) ^ (n - popcount n i).
Proof.
  intros n p i B. unfold expanded, binom_pmf. set (k := popcount n i). assert (k <= n)%nat as K by apply popcount_le.
  destruct (C50_binomial n k K B) as [-> _]. rewrite <- INR_IZR_INZ.
  assert (0 < INR (choose n k)) by (apply lt_0_INR, choose_pos; auto). field. lra.
Qed.

(** masks of [n] bits drawn independently with probability [p] each *)
Lemma expanded_total : forall n p, (Z.of_nat n * 2 ^ Z.of_nat n < 2 ^ 63)%Z ->
  rsum (map (expanded n p) (masks n)) = 1 - (1 - p) ^ n.
Proof.
  intros n p B. rewrite (rsum_ext _ _ (fun i => p ^ popcount n i * (1 - p) ^ (n - popcount n i))) by (intros; apply expanded_value; auto).
  assert (rsum (map (fun i => p ^ popcount n i * (1 - p) ^ (n - popcount n i)) (seq 0 (2 ^ n))) = 1) as T.
  { clear B. induction n as [|n IH]; [unfold rsum; simpl; lra|].
    replace (2 ^ S n)%nat with (2 * 2 ^ n)%nat by (simpl; lia). rewrite sum_pairs.
    etransitivity; [|exact IH]. apply rsum_ext. intros i _. rewrite popcount_even, popcount_odd.
    pose proof (popcount_le n i). replace (S n - popcount n i)%nat with (S (n - popcount n i)) by lia.
    simpl. ring. }
  rewrite sum_masks, popcount_0 in T. simpl in T. rewrite Nat.sub_0_r in T. lra.
Qed.

Theorem C50_mask_distribution_partial : forall n p overlap emphasis,
  (1 <= n)%nat -> (Z.of_nat n * 2 ^ Z.of_nat n < 2 ^ 63)%Z -> 0 < p <= 1 ->
  (emphasis = 0 \/ (0 <= emphasis <= 1 /\ 0 <= overlap <= 1)) ->
  exists pmf, overlapping_sets_pmf n p overlap emphasis = Some pmf /\
    length pmf = (2 ^ n)%nat /\ (forall x, In x pmf -> 0 <= x) /\ rsum pmf = 1 /\ hd 0 pmf = p.
Proof.
  intros n p overlap emphasis N B P E. unfold overlapping_sets_pmf.
  rewrite expanded_total by auto.
  set (total := 1 - (1 - p) ^ n).
  assert (0 < total) as T.
  { unfold total. assert ((1 - p) ^ n <= (1 - p) ^ 1).
    { replace n with (1 + (n - 1))%nat by lia. rewrite pow_add.
      rewrite <- (Rmult_1_r ((1 - p) ^ 1)) at 2. apply Rmult_le_compat_l; [apply pow_le; lra|].
      assert ((1 - p) ^ (n - 1) <= 1 ^ (n - 1)) as Q by (apply pow_incr; lra). rewrite pow1 in Q. exact Q. }
    simpl in H. lra. }
  destruct (Req_EM_T total 0); [lra|].
  set (close := isclose overlap (IZR (py_round overlap))).
  set (overlap' := if close then overlap else if Z.odd (Int_part overlap) then - overlap else overlap).
  set (pmf := if close then (if Z.even (py_round overlap) then pmf_even n else pmf_odd n) else pmf_soft n overlap').
  assert (rsum (map pmf (masks n)) = 1 /\ forall i, 0 <= pmf i) as [S1 S2].
  { unfold pmf. destruct close; [destruct (Z.even _)|]; [apply even_sum|apply odd_sum|apply soft_sum]; auto. }
  assert (rsum (map (fun i => expanded n p i / total) (masks n)) = 1) as X1.
  { unfold Rdiv. rewrite rsum_map_scale, expanded_total by auto. fold total. field. lra. }
  assert (forall i, 0 <= expanded n p i / total) as X2.
  { intros i. rewrite expanded_value by auto. apply Rmult_le_pos; [|left; apply Rinv_0_lt_compat; auto].
    apply Rmult_le_pos; apply pow_le; lra. }
  eexists; split; [reflexivity|]. split; [|split; [|split; [|reflexivity]]].
  - simpl. rewrite map_length. unfold masks. rewrite seq_length.
    assert (0 < 2 ^ n)%nat by (apply Nat.neq_0_lt_0, Nat.pow_nonzero; lia). lia.
  - intros x [<-|I]; [lra|]. apply in_map_iff in I as (i & <- & _). apply Rmult_le_pos; [|lra].
    destruct E as [->|[E1 E2]].
    + unfold lerp. rewrite Rminus_0_r, Rmult_1_l, Rmult_0_l, Rplus_0_r. auto.
    + assert (0 <= 1 - Rabs (2 * overlap' - 1) <= 1) as A.
      { assert (0 <= overlap' <= 1) as O.
        { unfold overlap'. destruct close eqn:C; auto. destruct (Z.odd (Int_part overlap)) eqn:D; auto.
          exfalso. destruct (base_Int_part overlap) as [I1 I2].
          assert (Int_part overlap <= 1)%Z by (apply le_IZR; lra).
          assert (-1 < Int_part overlap)%Z by (apply lt_IZR; lra).
          assert (Int_part overlap = 0 \/ Int_part overlap = 1)%Z as [Z|Z] by lia; rewrite Z in *; [discriminate|].
          assert (overlap = 1) by lra. subst overlap. clear D.
          assert (py_round 1 = 1%Z) as R1.
          { unfold py_round. rewrite Z. destruct (Rlt_dec _ _); auto. lra. }
          unfold close, isclose in C. rewrite R1 in C. apply rleb_false in C. rewrite Rminus_eq_0, Rabs_R0, Rabs_R1 in C. lra. }
        assert (Rabs (2 * overlap' - 1) <= 1) by (apply Rabs_le; lra). pose proof (Rabs_pos (2 * overlap' - 1)). lra. }
      assert (forall t x y, 0 <= t <= 1 -> 0 <= x -> 0 <= y -> 0 <= lerp t x y) as LP.
      { intros t x y T0 Hx Hy. unfold lerp. assert (0 <= (1 - t) * x) by (apply Rmult_le_pos; lra).
        assert (0 <= t * y) by (apply Rmult_le_pos; lra). lra. }
      apply LP; auto.
  - rewrite rsum_cons, rsum_map_scale, rsum_map_lerp, rsum_map_lerp, S1, X1. unfold lerp. ring.
Qed.

(** Refuted outside those ranges: with dropout probability 0 the distribution is NaN, and with
    an overlap of 2 fully emphasised it has a negative entry. *)
Theorem C50_mask_distribution_refuted :
  (forall n overlap emphasis, (1 <= n)%nat -> (Z.of_nat n * 2 ^ Z.of_nat n < 2 ^ 63)%Z -> overlapping_sets_pmf n 0 overlap emphasis = None) /\
  (exists pmf, overlapping_sets_pmf 2 (1 / 2) 2 1 = Some pmf /\ exists x, In x pmf /\ x < 0).
Proof.
  split.
  - intros n o e N B. unfold overlapping_sets_pmf. rewrite expanded_total by auto.
    destruct (Req_EM_T _ 0) as [Z|Z]; auto. elim Z. rewrite Rminus_0_r, pow1. ring.
  - assert (Int_part 2 = 2%Z) as I.
    { destruct (base_Int_part 2) as [A C]. assert (Int_part 2 <= 2)%Z by (apply le_IZR; lra).
      assert (1 < Int_part 2)%Z by (apply lt_IZR; lra). lia. }
    assert (py_round 2 = 2%Z) as R2 by (unfold py_round; rewrite I; destruct (Rlt_dec _ _); auto; lra).
    unfold overlapping_sets_pmf. rewrite expanded_total by (vm_compute; auto).
    destruct (Req_EM_T _ 0) as [Z|_]; [simpl in Z; lra|].
    rewrite R2. assert (isclose 2 (IZR 2) = true) as ->.
    { unfold isclose. apply rleb_true. rewrite Rminus_eq_0, Rabs_R0. pose proof (Rabs_pos (IZR 2)). lra. }
    cbn [Z.even]. eexists; split; [reflexivity|].
    exists (lerp 1 (pmf_even 2 3) (lerp (1 - Rabs (2 * 2 - 1)) (pmf_even 2 3) (expanded 2 (1 / 2) 3 / (1 - (1 - 1 / 2) ^ 2))) * (1 - 1 / 2)).
    split; [right; right; right; left; reflexivity|].
    rewrite expanded_value by (vm_compute; auto). unfold pmf_even. change (popcount 2 3) with 2%nat. simpl.
    rewrite Rabs_pos_eq by lra. unfold lerp. lra.
Qed.

Example C50_case_masks : (Z.of_nat 3 * 2 ^ Z.of_nat 3 < 2 ^ 63)%Z /\ 0 < 9 / 10 <= 1 /\ 0 <= 1 / 2 <= 1.
Proof. split; [vm_compute; auto|]. lra. Qed.

Print Assumptions C50_binomial.
Print Assumptions C50_mask_distribution_partial.
Print Assumptions C50_mask_distribution_refuted.
