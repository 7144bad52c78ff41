(** C74, C75, C76, C77: select_max_delta, add_cosine, geometric_sum and multiply_quotient. *)
From Coq Require Import Reals List Bool Arith ZArith Lia Lra Psatz.
From Verif Require Import Base ModelNum NumProofs PropsNum PropsTies ModelFilter PropsFilter ModelModes ModelRegion PropsSlerp PropsStock ModelSelect.
Import ListNotations.
Open Scope list_scope.
Open Scope R_scope.

(** ** C74 *)

(** how far [x] is from the mean of [a], in standard deviations of [a]; nothing is, when all elements are
    equal *)
Definition variance (a : vec) : R := rsum (map (fun x => (x - mean a) ^ 2) a) / INR (length a - 1).
Definition remarkable (a : vec) (x : R) : R := if Req_EM_T (variance a) 0 then 0 else Rabs (x - mean a) / sqrt (variance a).
Definition affine (k d : R) (a : vec) : vec := map (fun x => k * x + d) a.

Lemma squares_zero : forall (f : R -> R) l, rsum (map (fun x => f x ^ 2) l) = 0 -> forall x, In x l -> f x = 0.
Proof.
  induction l as [|y l IH]; intros E x I; [contradiction|]. cbn [map] in E. rewrite rsum_cons in E.
  assert (0 <= rsum (map (fun x => f x ^ 2) l)) as P.
  { apply rsum_nonneg. intros z Z. apply in_map_iff in Z as (u & <- & _). apply pow2_ge_0. }
  pose proof (pow2_ge_0 (f y)) as G.
  assert (f y ^ 2 = 0) as Q by lra. destruct I as [<-|I]; [|apply IH; auto; lra].
  replace (f y ^ 2) with (Rsqr (f y)) in Q by (unfold Rsqr; ring). apply Rsqr_0_uniq; auto.
Qed.
Lemma variance_nonneg : forall a, 0 <= variance a.
Proof.
  intros a. unfold variance. assert (0 <= rsum (map (fun x => (x - mean a) ^ 2) a)) as P.
  { apply rsum_nonneg. intros z Z. apply in_map_iff in Z as (u & <- & _). apply pow2_ge_0. }
  destruct (length a - 1)%nat as [|k] eqn:E.
  - simpl. unfold Rdiv. rewrite Rinv_0. lra.
  - apply Rmult_le_pos; auto. left. apply Rinv_0_lt_compat, lt_0_INR. lia.
Qed.
Lemma std_variance : forall a, std a = sqrt (variance a).
Proof.
  intros. unfold std, variance. do 2 f_equal. f_equal. apply map_ext. intros; ring.
Qed.
Lemma deviation_is : forall fmax a x, In x a -> deviation fmax a x = remarkable a x.
Proof.
  intros fmax a x I. unfold deviation, remarkable. destruct (length a <=? 1)%nat eqn:L.
  - destruct (Req_EM_T (variance a) 0) as [|N]; auto. exfalso. apply N. unfold variance.
    apply Nat.leb_le in L. replace (length a - 1)%nat with 0%nat by lia. simpl. unfold Rdiv. rewrite Rinv_0. lra.
  - apply Nat.leb_gt in L. rewrite std_variance. pose proof (variance_nonneg a) as V.
    destruct (Req_EM_T (variance a) 0) as [Z|N].
    + assert (x - mean a = 0) as E.
      { apply (squares_zero (fun x => x - mean a) a); auto. unfold variance in Z.
        assert (0 < INR (length a - 1)) as P by (apply lt_0_INR; lia).
        set (s := rsum _) in *. replace s with (s / INR (length a - 1) * INR (length a - 1)) by (field; lra). rewrite Z. ring. }
      rewrite E. rewrite Z, sqrt_0. rewrite fdiv_00 by auto. apply Rabs_R0.
    + assert (0 < sqrt (variance a)) by (apply sqrt_lt_R0; lra).
      rewrite fdiv_ok by lra. unfold Rdiv. rewrite Rabs_mult. f_equal. rewrite Rabs_right; auto.
      left. apply Rinv_0_lt_compat. auto.
Qed.

Lemma mean_affine : forall k d a, a <> [] -> mean (affine k d a) = k * mean a + d.
Proof.
  intros k d a N. unfold mean, affine. rewrite map_length.
  assert (rsum (map (fun x => k * x + d) a) = k * rsum a + INR (length a) * d) as ->.
  { clear N. induction a as [|x a IH]; [unfold rsum; simpl; ring|].
    cbn [map]. change (length (x :: a)) with (S (length a)). rewrite !rsum_cons, IH, S_INR. ring. }
  assert (0 < INR (length a)) by (apply lt_0_INR; destruct a; [congruence|simpl; lia]). field. lra.
Qed.
Lemma variance_affine : forall k d a, a <> [] -> variance (affine k d a) = k ^ 2 * variance a.
Proof.
  intros k d a N. unfold variance. rewrite mean_affine by auto. unfold affine. rewrite map_length, map_map.
  assert (rsum (map (fun x => (k * x + d - (k * mean a + d)) ^ 2) a) = k ^ 2 * rsum (map (fun x => (x - mean a) ^ 2) a)) as ->.
  { rewrite <- rsum_scale, map_map. f_equal. apply map_ext. intros; ring. }
  unfold Rdiv. ring.
Qed.
Lemma remarkable_affine : forall k d a x, k <> 0 -> a <> [] -> remarkable (affine k d a) (k * x + d) = remarkable a x.
Proof.
  intros k d a x K N. unfold remarkable. rewrite variance_affine, mean_affine by auto. pose proof (variance_nonneg a).
  destruct (Req_EM_T (variance a) 0) as [Z|Z]; destruct (Req_EM_T (k ^ 2 * variance a) 0) as [Y|Y]; auto.
  - exfalso. apply Y. rewrite Z. ring.
  - exfalso. apply Rmult_integral in Y as [Y|Y]; [apply K; nra|lra].
  - replace (k * x + d - (k * mean a + d)) with (k * (x - mean a)) by ring.
    rewrite Rabs_mult, sqrt_mult by nra. replace (k ^ 2) with (Rsqr k) by (unfold Rsqr; ring). rewrite sqrt_Rsqr_abs.
    assert (0 < Rabs k) by (apply Rabs_pos_lt; auto). assert (0 < sqrt (variance a)) by (apply sqrt_lt_R0; lra). field. lra.
Qed.

Lemma select_length : forall fmax a b alpha, length a = length b -> (length alpha = length a \/ length alpha = 1%nat) ->
  length (select_max_delta fmax a b alpha) = length a.
Proof.
  intros. unfold select_max_delta. rewrite map2_length; rewrite ?bcast_length; auto. rewrite combine_length. lia.
Qed.
Lemma select_nth : forall fmax a b alpha j, length a = length b -> (length alpha = length a \/ length alpha = 1%nat) -> (j < length a)%nat ->
  let t := at_ (bcast (length a) alpha) j in
  at_ (select_max_delta fmax a b alpha) j =
    if rleb (t * remarkable b (at_ b j)) ((1 - t) * remarkable a (at_ a j)) then at_ a j else at_ b j.
Proof.
  intros fmax a b alpha j L LA J t. unfold select_max_delta.
  rewrite (map2_nth _ _ _ _ _ _ j 0 (0, 0) 0); rewrite ?bcast_length; auto; [|rewrite combine_length; lia].
  rewrite combine_nth by auto. cbn [fst snd]. rewrite !deviation_is by (apply nth_In; lia). auto.
Qed.
Lemma remarkable_nonneg : forall a x, 0 <= remarkable a x.
Proof.
  intros. unfold remarkable. destruct (Req_EM_T _ _); [lra|]. apply Rmult_le_pos; [apply Rabs_pos|].
  left. apply Rinv_0_lt_compat, sqrt_lt_R0. pose proof (variance_nonneg a). lra.
Qed.

(** Every element of the result is the element of [a] or of [b] at its place: that of [a] where its weighted
    distance from the mean, in standard deviations, is not smaller than that of [b].  Alpha 0 gives [a];
    alpha 1 gives [b] except where [b] is at its mean; which one is taken does not change when [a] is scaled
    or shifted as a whole. *)
Theorem C74_select_partial : forall fmax a b, length a = length b -> a <> [] ->
  (forall alpha, (length alpha = length a \/ length alpha = 1%nat) ->
     let v := select_max_delta fmax a b alpha in
     length v = length a /\
     forall j t, (j < length a)%nat -> t = at_ (bcast (length a) alpha) j ->
       (t * remarkable b (at_ b j) <= (1 - t) * remarkable a (at_ a j) -> at_ v j = at_ a j) /\
       ((1 - t) * remarkable a (at_ a j) < t * remarkable b (at_ b j) -> at_ v j = at_ b j)) /\
  select_max_delta fmax a b [0] = a /\
  (forall j, (j < length a)%nat -> at_ b j <> mean b -> at_ (select_max_delta fmax a b [1]) j = at_ b j) /\
  (forall alpha k d, (length alpha = length a \/ length alpha = 1%nat) -> k <> 0 ->
     exists from_a : nat -> bool, forall j, (j < length a)%nat ->
       at_ (select_max_delta fmax a b alpha) j = (if from_a j then at_ a j else at_ b j) /\
       at_ (select_max_delta fmax (affine k d a) b alpha) j = (if from_a j then k * at_ a j + d else at_ b j)).
Proof.
  intros fmax a b L N. split; [|split; [|split]].
  - intros alpha LA v. split; [apply select_length; auto|]. intros j t J T. subst t. unfold v. rewrite select_nth by auto.
    split; intros H1; [apply rleb_true in H1|apply rleb_false in H1]; rewrite H1; auto.
  - apply nth_ext0; [apply select_length; auto|]. intros j J. rewrite select_length in J by auto.
    rewrite select_nth by auto. simpl bcast. rewrite nth_repeat.
    match goal with |- (if ?c then _ else _) = _ => assert (c = true) as -> end; auto.
    apply rleb_true. pose proof (remarkable_nonneg a (at_ a j)). lra.
  - intros j J D. rewrite select_nth by auto. simpl bcast.
    rewrite (nth_indep _ 0 1) by (rewrite repeat_length; auto). rewrite nth_repeat.
    match goal with |- (if ?c then _ else _) = _ => assert (c = false) as -> end; auto.
    apply rleb_false. enough (0 < remarkable b (at_ b j)) by lra.
    unfold remarkable. destruct (Req_EM_T (variance b) 0) as [Z|Z].
    + exfalso. apply D. assert (In (at_ b j) b) as I by (apply nth_In; lia).
      assert (1 < length b)%nat as B.
      { destruct b as [|x [|y b]]; simpl in *; try lia. exfalso. apply D. unfold mean, rsum. simpl. destruct j; [field|lia]. }
      enough (at_ b j - mean b = 0) by lra. apply (squares_zero (fun x => x - mean b) b); auto. unfold variance in Z.
      assert (0 < INR (length b - 1)) as P by (apply lt_0_INR; lia).
      set (s := rsum _) in *. replace s with (s / INR (length b - 1) * INR (length b - 1)) by (field; lra). rewrite Z. ring.
    + apply Rmult_lt_0_compat; [apply Rabs_pos_lt; lra|]. apply Rinv_0_lt_compat, sqrt_lt_R0. pose proof (variance_nonneg b). lra.
  - intros alpha k d LA K.
    exists (fun j => let t := at_ (bcast (length a) alpha) j in rleb (t * remarkable b (at_ b j)) ((1 - t) * remarkable a (at_ a j))).
    assert (length (affine k d a) = length a) as LF by (unfold affine; apply map_length).
    intros j J. rewrite !select_nth by (rewrite ?LF; auto). split; auto. rewrite LF.
    assert (at_ (affine k d a) j = k * at_ a j + d) as ->.
    { unfold affine. rewrite (map_nth0 (fun x => k * x + d)) by auto. auto. }
    rewrite remarkable_affine by auto. auto.
Qed.
Example C74_case : at_ (select_max_delta 1 [1; 5; 3] [2; 2; 8] [1]) 2 = 8.
Proof.
  destruct (C74_select_partial 1 [1; 5; 3] [2; 2; 8] eq_refl ltac:(congruence)) as (_ & _ & H & _).
  apply (H 2%nat); simpl; [lia|]. unfold mean, rsum. simpl. lra.
Qed.
(** "alpha 1 gives b" is false where [b] is at its mean: for instance where [b] is constant *)
Theorem C74_select_refuted : exists a b, length a = length b /\ a <> b /\ forall fmax, select_max_delta fmax a b [1] = a.
Proof.
  exists [1; 2], [3; 3]. split; auto. split; [intros H; inversion H; lra|]. intros fmax.
  apply nth_ext0; [apply select_length; auto|]. intros j J. rewrite select_length in J by auto. rewrite select_nth by auto.
  assert (at_ (bcast (length [1; 2]) [1]) j = 1) as -> by (simpl in *; destruct j as [|[|]]; auto; lia).
  assert (remarkable [3; 3] (at_ [3; 3] j) = 0) as ->.
  { unfold remarkable. destruct (Req_EM_T _ 0) as [|Z]; auto. exfalso. apply Z. unfold variance, mean, rsum. simpl. field. }
  match goal with |- (if ?c then _ else _) = _ => assert (c = true) as -> end; auto.
  apply rleb_true. lra.
Qed.
Print Assumptions C74_select_partial.
Print Assumptions C74_select_refuted.
