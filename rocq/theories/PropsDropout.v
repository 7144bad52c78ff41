(** C69: dropout averages the deltas it keeps, and keeps the average of all deltas in expectation. *)
From Coq Require Import Reals List Bool Arith ZArith Lia Lra Psatz.
From Verif Require Import Base ModelNum NumProofs PropsNum ModelDrop PropsDrop ModelModes.
Import ListNotations.
Open Scope list_scope.
Open Scope R_scope.

(** the values a mask keeps: bit [t] of the mask stands for delta [t] *)
Definition kept_values (mask : nat) (col : list R) : list R :=
  map snd (filter (fun tx => Nat.testbit mask (fst tx)) (combine (seq 0 (length col)) col)).

Lemma kept_both : forall mask col s,
  rsum (map2 (fun t x => if kept mask t then x else 0) (seq s (length col)) col) =
    rsum (map snd (filter (fun tx => Nat.testbit mask (fst tx)) (combine (seq s (length col)) col))) /\
  rsum (map (fun t => if kept mask t then 1 else 0) (seq s (length col))) =
    INR (length (map snd (filter (fun tx => Nat.testbit mask (fst tx)) (combine (seq s (length col)) col)))).
Proof.
  induction col as [|x col IH]; intros s; [split; reflexivity|].
  simpl. destruct (IH (S s)) as [A B]. rewrite !rsum_cons, A, B. unfold kept.
  destruct (Nat.testbit mask s).
  - cbn [map snd length]. rewrite rsum_cons, S_INR. split; ring.
  - split; ring.
Qed.

Lemma dropout1_is : forall p rescale mask col,
  dropout1 p rescale mask col =
  (match kept_values mask col with [] => 0 | _ => mean (kept_values mask col) end) / rescalar p rescale.
Proof.
  intros. unfold dropout1, kept_sum, kept_count. destruct (kept_both mask col 0) as [-> ->]. fold (kept_values mask col).
  destruct (kept_values mask col) as [|y l] eqn:E.
  - unfold rsum. simpl. unfold Rdiv. ring.
  - unfold mean. rewrite Rmax_left; auto. cbn [length]. rewrite S_INR. pose proof (pos_INR (length l)). lra.
Qed.

(** the overlap is not an odd integer *)
Definition not_odd (overlap : R) : Prop := forall z, overlap <> IZR (2 * z + 1).

Lemma is_odd_spec : forall x, is_odd x = true <-> ~ not_odd x.
Proof.
  intros x. unfold is_odd, not_odd. split.
  - intros H N. apply andb_true_iff in H as [A B]. apply reqb_true in A. apply Z.odd_spec in B as (z & Z). apply (N z).
    rewrite <- Z. auto.
  - intros H. apply andb_true_iff.
    destruct (reqb x (IZR (Int_part x))) eqn:A.
    + apply reqb_true in A. split; auto. destruct (Z.odd (Int_part x)) eqn:B; auto. exfalso. apply H. intros z Q.
      rewrite Q in A. apply eq_IZR in A.
      assert (Z.odd (2 * z + 1) = true) as O by (apply Z.odd_spec; exists z; auto). rewrite Q in B. rewrite <- A in B. congruence.
    + exfalso. apply reqb_false in A. apply H. intros z ->. apply A. f_equal. symmetry.
      destruct (base_Int_part (IZR (2 * z + 1))) as [P Q].
      apply le_IZR in P.
      assert (2 * z + 1 < Int_part (IZR (2 * z + 1)) + 1)%Z by (apply lt_IZR; rewrite (plus_IZR (Int_part _)); lra). lia.
Qed.

(** For every draw of the masks, each element is the mean of the deltas its mask keeps (0 if none),
    divided by [(1 - p) ^ rescale]. *)
Theorem C69_dropout_partial : forall draw deltas n p rescale overlap emphasis,
  deltas <> [] -> shaped n deltas -> (Z.of_nat (length deltas) * 2 ^ Z.of_nat (length deltas) < 2 ^ 63)%Z ->
  0 < p < 1 -> not_odd overlap -> (emphasis = 0 \/ (0 <= emphasis <= 1 /\ 0 <= overlap <= 1)) ->
  exists v, dropout draw deltas p rescale overlap emphasis = Ok v /\ length v = n /\
    forall j, (j < n)%nat ->
      let ks := kept_values (draw j) (map (fun d => at_ d j) deltas) in
      at_ v j * Rpower (1 - p) rescale = match ks with [] => 0 | _ => mean ks end.
Proof.
  intros draw deltas n p rescale overlap emphasis N S B P O E.
  destruct (C50_mask_distribution_partial (length deltas) p overlap emphasis) as (pmf & F & L & Pos & Sum & _); auto; try lra.
  { destruct deltas; simpl; [congruence|lia]. }
  unfold dropout. destruct deltas as [|d0 ds]; [congruence|].
  assert (length d0 = n) as L0 by (apply S; left; auto).
  destruct (is_odd overlap) eqn:Od; [apply is_odd_spec in Od; contradiction|].
  rewrite F. unfold choice.
  replace (forallb (rleb 0) pmf) with true.
  2:{ symmetry. apply forallb_forall. intros x I. apply rleb_true. auto. }
  replace (reqb (rsum pmf) 1) with true by (symmetry; apply reqb_true; auto). cbn [andb bind].
  set (f := fun jm : nat * nat => _).
  eexists. split; [reflexivity|].
  assert (length (combine (seq 0 (length d0)) (map draw (seq 0 (length d0)))) = n) as LC
    by (rewrite combine_length, map_length, seq_length; lia).
  split; [rewrite map_length; auto|].
  intros j J. set (ks := kept_values _ _).
  rewrite (nth_indep _ 0 (f (0%nat, draw 0%nat))) by (rewrite map_length, LC; auto).
  rewrite map_nth, combine_nth by (rewrite map_length; auto).
  rewrite map_nth, seq_nth by lia. cbn [plus]. unfold f. cbn [fst snd].
  rewrite dropout1_is. fold ks. unfold rescalar. destruct (Req_EM_T p 1); [lra|].
  assert (0 < Rpower (1 - p) rescale) by apply exp_pos. field. lra.
Qed.

(** two deltas, overlap 0: element 0 keeps the second only *)
Example C69_case : not_odd 0 /\ (Z.of_nat 2 * 2 ^ Z.of_nat 2 < 2 ^ 63)%Z /\ kept_values 2 [10; 20] = [20].
Proof.
  split; [|split; [vm_compute; reflexivity|reflexivity]].
  intros z H. replace 0 with (IZR 0) in H by reflexivity. apply eq_IZR in H. lia.
Qed.

(** Refuted for odd overlaps, the default 1 among them: whatever the deltas, dropout raises. *)
Theorem C69_dropout_refuted : forall draw deltas p rescale emphasis z, deltas <> [] ->
  dropout draw deltas p rescale (IZR (2 * z + 1)) emphasis = Err AttributeError.
Proof.
  intros draw deltas p rescale emphasis z N. unfold dropout. destruct deltas; [congruence|].
  replace (is_odd (IZR (2 * z + 1))) with true; auto. symmetry. apply is_odd_spec. intros H. apply (H z). auto.
Qed.

(** ** the expected value *)
Definition expectation (pmf : list R) (f : nat -> R) : R := rsum (map2 (fun q i => q * f i) pmf (seq 0 (length pmf))).

Lemma testbit_even : forall j t, Nat.testbit (2 * j) (S t) = Nat.testbit j t.
Proof. intros. rewrite Nat.testbit_even_succ'. auto. Qed.
Lemma testbit_odd : forall j t, Nat.testbit (2 * j + 1) (S t) = Nat.testbit j t.
Proof. intros. rewrite Nat.testbit_odd_succ'. auto. Qed.

Definition bit (i t : nat) : R := if Nat.testbit i t then 1 else 0.

(** how often a bit is set does not depend on the bit *)
Lemma bit_sum : forall n t (H : nat -> R), (t < S n)%nat ->
  rsum (map (fun i => bit i t * H (popcount (S n) i)) (seq 0 (2 ^ S n))) =
  rsum (map (fun i => H (S (popcount n i))) (seq 0 (2 ^ n))).
Proof.
  induction n; intros t H T.
  - assert (t = 0)%nat as -> by lia. unfold rsum. simpl. unfold bit. simpl. ring.
  - replace (2 ^ S (S n))%nat with (2 * 2 ^ S n)%nat by (simpl; lia). rewrite sum_pairs.
    destruct t.
    + apply rsum_ext. intros i _. unfold bit. rewrite Nat.testbit_even_0, Nat.testbit_odd_0, popcount_odd. ring.
    + rewrite (rsum_ext _ _ (fun i => bit i t * (fun k => H k + H (S k)) (popcount (S n) i))).
      * rewrite (IHn t (fun k => H k + H (S k))) by lia.
        replace (2 ^ S n)%nat with (2 * 2 ^ n)%nat by (simpl; lia). rewrite sum_pairs.
        apply rsum_ext. intros i _. rewrite popcount_even, popcount_odd. ring.
      * intros i _. unfold bit. rewrite testbit_even, testbit_odd, popcount_even, popcount_odd. destruct (Nat.testbit i t); ring.
Qed.

Lemma bits_popcount : forall n i, (i < 2 ^ n)%nat -> rsum (map (bit i) (seq 0 n)) = INR (popcount n i).
Proof.
  induction n; intros i I; [reflexivity|].
  rewrite <- cons_seq. simpl map. rewrite rsum_cons. rewrite <- seq_shift, map_map.
  destruct (Nat.even i) eqn:E.
  - apply Nat.even_spec in E as (j & ->). rewrite popcount_even.
    rewrite (map_ext _ (bit j)) by (intros; unfold bit; rewrite testbit_even; auto).
    rewrite IHn by (simpl in I; lia). unfold bit. rewrite Nat.testbit_even_0. ring.
  - assert (Nat.odd i = true) as O by (unfold Nat.odd; rewrite E; auto). apply Nat.odd_spec in O as (j & ->).
    rewrite popcount_odd. rewrite (map_ext _ (bit j)) by (intros; unfold bit; rewrite testbit_odd; auto).
    rewrite IHn by (simpl in I; lia). unfold bit. rewrite Nat.testbit_odd_0, S_INR. ring.
Qed.

Lemma rsum_swap : forall A B (f : A -> B -> R) la lb,
  rsum (map (fun a => rsum (map (f a) lb)) la) = rsum (map (fun b => rsum (map (fun a => f a b) la)) lb).
Proof.
  intros A B f la lb. induction la; simpl.
  - rewrite (rsum_const 0 (map _ lb)); [unfold rsum; simpl; ring|]. intros y I. apply in_map_iff in I as (b & <- & _). reflexivity.
  - rewrite rsum_cons, IHla, <- rsum_map_add. apply rsum_ext. intros b _. rewrite rsum_cons. reflexivity.
Qed.

Lemma bit_sum_value : forall n (Q : nat -> R) total, (1 <= n)%nat ->
  rsum (map (fun i => Q (popcount n i)) (masks n)) = total ->
  forall t, (t < n)%nat ->
  rsum (map (fun i => bit i t * (Q (popcount n i) / Rmax (INR (popcount n i)) 1)) (seq 0 (2 ^ n))) = total / INR n.
Proof.
  intros n Q total N T. set (G := fun k => Q k / Rmax (INR k) 1).
  destruct n as [|n]; [lia|].
  set (C := rsum (map (fun i => G (S (popcount n i))) (seq 0 (2 ^ n)))).
  assert (forall t, (t < S n)%nat -> rsum (map (fun i => bit i t * G (popcount (S n) i)) (seq 0 (2 ^ S n))) = C) as E
    by (intros; apply bit_sum; auto).
  assert (INR (S n) * C = total) as V.
  { transitivity (rsum (map (fun t => rsum (map (fun i => bit i t * G (popcount (S n) i)) (seq 0 (2 ^ S n)))) (seq 0 (S n)))).
    - rewrite (rsum_const C); [rewrite map_length, seq_length; auto|].
      intros y I. apply in_map_iff in I as (t & <- & I). apply in_seq in I. apply E. lia.
    - rewrite rsum_swap. rewrite <- T.
      transitivity (0 + rsum (map (fun i => Q (popcount (S n) i)) (masks (S n)))); [|ring].
      rewrite (sum_masks (S n)). f_equal.
      + rewrite (rsum_const 0); [ring|]. intros y I. apply in_map_iff in I as (t & <- & I).
        unfold bit. rewrite Nat.bits_0. ring.
      + apply rsum_ext. intros i I. unfold masks in I. apply in_seq in I.
        assert (i < 2 ^ S n)%nat as L by lia.
        rewrite (rsum_map_scale _ (G (popcount (S n) i)) (bit i)). rewrite bits_popcount by auto.
        assert (1 <= INR (popcount (S n) i)) as P.
        { rewrite <- bits_popcount by auto. destruct (Req_dec (INR (popcount (S n) i)) 0) as [Z|Z].
          - exfalso. replace 0 with (INR 0) in Z by reflexivity. apply INR_eq in Z.
            assert (forall m i, (i < 2 ^ m)%nat -> popcount m i = 0%nat -> i = 0%nat) as Zero.
            { clear. induction m; intros i L H; [simpl in L; lia|]. cbn [popcount] in H.
              assert (i / 2 = 0)%nat as D.
              { apply IHm; [|lia]. apply Nat.div_lt_upper_bound; [lia|]. simpl in L. lia. }
              pose proof (Nat.div_mod i 2 ltac:(lia)). lia. }
            apply Zero in Z; auto. lia.
          - rewrite bits_popcount by auto. assert (popcount (S n) i <> 0)%nat by (intros H; apply Z; rewrite H; auto).
            replace 1 with (INR 1) by reflexivity. apply le_INR. lia. }
        unfold G. rewrite Rmax_left by auto. field. lra. }
  assert (INR (S n) <> 0) by (apply not_0_INR; lia).
  intros t Ht. rewrite E by auto. rewrite <- V. field. auto.
Qed.

Lemma popcount_full : forall n i, (i < 2 ^ n)%nat -> (i =? 2 ^ n - 1)%nat = (popcount n i =? n)%nat.
Proof.
  induction n; intros i I; [simpl in I; replace i with 0%nat by lia; reflexivity|].
  assert (0 < 2 ^ n)%nat by (apply Nat.neq_0_lt_0, Nat.pow_nonzero; lia).
  replace (2 ^ S n)%nat with (2 * 2 ^ n)%nat in * by (simpl; lia).
  destruct (Nat.even i) eqn:E.
  - apply Nat.even_spec in E as (j & ->). rewrite popcount_even. pose proof (popcount_le n j).
    replace (2 * j =? 2 * 2 ^ n - 1)%nat with false by (symmetry; apply Nat.eqb_neq; lia).
    symmetry. apply Nat.eqb_neq. lia.
  - assert (Nat.odd i = true) as O by (unfold Nat.odd; rewrite E; auto). apply Nat.odd_spec in O as (j & ->).
    rewrite popcount_odd. cbn [Nat.eqb]. rewrite <- IHn by lia.
    destruct (Nat.eqb_spec j (2 ^ n - 1)), (Nat.eqb_spec (2 * j + 1) (2 * 2 ^ n - 1)); auto; lia.
Qed.

Lemma pmf_symmetric : forall n p overlap emphasis pmf, overlapping_sets_pmf n p overlap emphasis = Some pmf ->
  exists Q, pmf = p :: map (fun i => Q (popcount n i)) (masks n).
Proof.
  intros n p overlap emphasis pmf. unfold overlapping_sets_pmf. cbv zeta. destruct (Req_EM_T _ 0) as [|_]; [discriminate|].
  intros H. injection H as <-.
  set (close := isclose overlap _). set (o := if close then overlap else _). set (tot := rsum (map (expanded n p) (masks n))).
  set (ex := fun k : nat => binom_pmf k n p / IZR (binomial_coefficient_np (Z.of_nat n) (Z.of_nat k)) / tot).
  set (sf := fun k : nat => exp (tan (PI * (o - 1 / 2)) * (INR k - INR n / 2)) / rsum (map (pmf_weight n o) (masks n))).
  set (base := fun k : nat => if close then (if Z.even (py_round overlap) then (if (k =? 1)%nat then 1 / INR n else 0) else (if (k =? n)%nat then 1 else 0)) else sf k).
  exists (fun k => lerp emphasis (base k) (lerp (1 - Rabs (2 * o - 1)) (base k) (ex k)) * (1 - p)).
  f_equal. apply map_ext_in. intros i I. unfold masks in I. apply in_seq in I.
  assert ((if close then if Z.even (py_round overlap) then pmf_even n else pmf_odd n else pmf_soft n o) i = base (popcount n i)) as ->.
  { unfold base. destruct close; [|reflexivity]. destruct (Z.even _); [reflexivity|].
    unfold pmf_odd. rewrite popcount_full by lia. reflexivity. }
  reflexivity.
Qed.

(** For every number of deltas, overlap and emphasis for which the masks have a distribution, the expected value of an
    element is the mean of its deltas times [(1 - p) / (1 - p) ^ rescale]; with rescale 1 it is the mean. *)
Theorem C69_dropout_unbiased : forall p rescale overlap emphasis col pmf, col <> [] -> p < 1 ->
  overlapping_sets_pmf (length col) p overlap emphasis = Some pmf -> rsum pmf = 1 ->
  expectation pmf (fun mask => dropout1 p rescale mask col) * Rpower (1 - p) rescale = (1 - p) * mean col /\
  (rescale = 1 -> expectation pmf (fun mask => dropout1 p rescale mask col) = mean col).
Proof.
  intros p rescale overlap emphasis col pmf NC P1 H Sum. apply pmf_symmetric in H as (Q & ->).
  set (n := length col) in *. assert (1 <= n)%nat as N by (unfold n; destruct col; simpl; [congruence|lia]).
  rewrite rsum_cons in Sum.
  assert (rsum (map (fun i => Q (popcount n i)) (masks n)) = 1 - p) as T by lra.
  assert (0 < Rpower (1 - p) rescale) as RP by apply exp_pos.
  set (rs := Rpower (1 - p) rescale) in *.
  assert (expectation (p :: map (fun i => Q (popcount n i)) (masks n)) (fun mask => dropout1 p rescale mask col) =
    rsum (map (fun i => Q (popcount n i) * dropout1 p rescale i col) (masks n))) as EX.
  { unfold expectation. cbn [length seq map2]. rewrite rsum_cons.
    assert (dropout1 p rescale 0 col = 0) as ->.
    { rewrite dropout1_is. unfold kept_values.
      replace (filter _ _) with (@nil (nat * R)); [simpl; unfold Rdiv; ring|].
      symmetry. generalize (combine (seq 0 (length col)) col). induction l; simpl; auto. rewrite Nat.bits_0. auto. }
    rewrite Rmult_0_r, Rplus_0_l. rewrite map_length. unfold masks. rewrite seq_length.
    assert (forall m s, rsum (map2 (fun q i => q * dropout1 p rescale i col) (map (fun i => Q (popcount n i)) (seq s m)) (seq s m)) =
      rsum (map (fun i => Q (popcount n i) * dropout1 p rescale i col) (seq s m))) as G; [|apply G].
    induction m; intros s; [reflexivity|]. cbn [seq map map2]. rewrite !rsum_cons, IHm. ring. }
  assert (forall i, (i < 2 ^ n)%nat -> dropout1 p rescale i col * rs =
     rsum (map (fun t => bit i t * at_ col t) (seq 0 n)) / Rmax (INR (popcount n i)) 1) as D.
  { intros i I. unfold dropout1, rescalar. destruct (Req_EM_T p 1); [lra|]. fold rs.
    unfold kept_count. fold n. rewrite (rsum_ext _ _ (bit i)) by reflexivity. rewrite bits_popcount by auto.
    assert (kept_sum i col = rsum (map (fun t => bit i t * at_ col t) (seq 0 n))) as ->.
    { unfold kept_sum. fold n. f_equal. unfold n.
      assert (forall l s f, (forall t, (t < length l)%nat -> f (s + t)%nat = at_ l t) ->
        map2 (fun t x => if kept i t then x else 0) (seq s (length l)) l = map (fun t => bit i t * f t) (seq s (length l))) as G.
      { induction l; intros s f F; [reflexivity|]. cbn [length seq map2 map]. f_equal.
        - unfold kept, bit. specialize (F 0%nat ltac:(simpl; lia)). rewrite Nat.add_0_r in F. rewrite F. simpl. destruct (Nat.testbit i s); ring.
        - apply IHl. intros t Ht. specialize (F (S t) ltac:(simpl; lia)). rewrite Nat.add_succ_r in F. exact F. }
      apply G. intros; reflexivity. }
    pose proof (Rmax_r (INR (popcount n i)) 1). field. lra. }
  assert (expectation (p :: map (fun i => Q (popcount n i)) (masks n)) (fun mask => dropout1 p rescale mask col) * rs = (1 - p) * mean col) as M.
  { rewrite EX, <- rsum_map_scale.
    transitivity (rsum (map (fun i => Q (popcount n i) * (rsum (map (fun t => bit i t * at_ col t) (seq 0 n)) / Rmax (INR (popcount n i)) 1)) (masks n))).
    { apply rsum_ext. intros i I. unfold masks in I. apply in_seq in I. rewrite <- D by lia. ring. }
    transitivity (rsum (map (fun i => rsum (map (fun t => bit i t * (Q (popcount n i) / Rmax (INR (popcount n i)) 1) * at_ col t) (seq 0 n))) (seq 0 (2 ^ n)))).
    { rewrite (sum_masks n). rewrite (rsum_const 0 (map _ (seq 0 n))).
      2:{ intros y I. apply in_map_iff in I as (t & <- & _). unfold bit. rewrite Nat.bits_0. ring. }
      rewrite Rmult_0_r, Rplus_0_l. apply rsum_ext. intros i _.
      rewrite (rsum_ext _ (fun t => bit i t * (Q (popcount n i) / Rmax (INR (popcount n i)) 1) * at_ col t)
                 (fun t => (bit i t * at_ col t) * (Q (popcount n i) / Rmax (INR (popcount n i)) 1))) by (intros; ring).
      rewrite rsum_map_scale. unfold Rdiv. ring. }
    rewrite rsum_swap.
    transitivity (rsum (map (fun t => at_ col t * ((1 - p) / INR n)) (seq 0 n))).
    { apply rsum_ext. intros t I. apply in_seq in I.
      rewrite (rsum_map_scale _ (at_ col t) (fun i => bit i t * (Q (popcount n i) / Rmax (INR (popcount n i)) 1))).
      rewrite (bit_sum_value n Q (1 - p)) by (auto; lia). ring. }
    rewrite rsum_map_scale.
    assert (map (fun t => at_ col t) (seq 0 n) = col) as ->.
    { apply nth_ext0; [rewrite map_length, seq_length; auto|]. intros j J. rewrite map_length, seq_length in J.
      rewrite (nth_indep _ 0 (at_ col 0)) by (rewrite map_length, seq_length; auto).
      rewrite (map_nth (fun t => at_ col t)), seq_nth by auto. reflexivity. }
    unfold mean. fold n. field. apply not_0_INR. lia. }
  split; auto. intros R1. unfold rs in M. clear D EX RP rs. subst rescale. rewrite Rpower_1 in M by lra.
  apply (Rmult_eq_reg_r (1 - p)); [lra|lra].
Qed.

(** by C50, three deltas with probability 9/10 and overlap 1/2 have such a distribution *)
Example C69_case_pmf : exists pmf, overlapping_sets_pmf (length [1; 2; 3]) (9 / 10) (1 / 2) 1 = Some pmf /\ rsum pmf = 1.
Proof.
  destruct (C50_mask_distribution_partial 3 (9 / 10) (1 / 2) 1) as (pmf & H & _ & _ & S & _);
    [lia|lia|lra|right; lra|]. exists pmf. auto.
Qed.

Print Assumptions C69_dropout_partial.
Print Assumptions C69_dropout_refuted.
Print Assumptions C69_dropout_unbiased.
