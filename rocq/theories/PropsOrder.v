(** C106: the order of the models does not matter *)
From Coq Require Import Reals List Bool Arith ZArith Lia Lra Permutation.
From Verif Require Import Base ModelNum ModelModes NumProofs PropsNum.
Import ListNotations.
Open Scope list_scope.
Open Scope R_scope.

(** ** sums and folds *)
Lemma mean_perm : forall l l', Permutation l l' -> mean l = mean l'.
Proof. intros l l' P. unfold mean. rewrite (rsum_perm _ _ P), (Permutation_length P). auto. Qed.
Lemma fold_perm : forall (A B : Type) (f : A -> B -> A), (forall s b c, f (f s b) c = f (f s c) b) ->
  forall l l', Permutation l l' -> forall s, fold_left f l s = fold_left f l' s.
Proof. intros A B f C. induction 1; intros s; simpl; auto. - rewrite C; auto. - congruence. Qed.
Lemma reduce_perm : forall f, (forall x y, f x y = f y x) -> (forall s b c, f (f s b) c = f (f s c) b) ->
  forall l l', Permutation l l' -> reduce f l = reduce f l'.
Proof.
  intros f C D. induction 1; simpl; auto.
  - f_equal. apply fold_perm; auto.
  - rewrite C. auto.
  - congruence.
Qed.
Lemma over0_perm : forall f, (forall l l', Permutation l l' -> f l = f l') ->
  forall n m m', shaped n m -> Permutation m m' -> over0 f m = over0 f m'.
Proof.
  intros f F n m m' S P. destruct m as [|v m].
  - apply Permutation_nil in P. subst. auto.
  - destruct m' as [|v' m']; [symmetry in P; apply Permutation_nil in P; discriminate|]. unfold over0.
    assert (length v = length v') as E.
    { rewrite (S v), (S v'); auto; [|left; auto]. apply (Permutation_in _ (Permutation_sym P)). left; auto. }
    rewrite E. apply map_ext. intros j. apply F. apply Permutation_map. auto.
Qed.
Lemma map2_map : forall (A B C D : Type) (f : B -> C -> D) (g : A -> B) (h : A -> C) l, map2 f (map g l) (map h l) = map (fun x => f (g x) (h x)) l.
Proof. induction l; simpl; congruence. Qed.

Lemma mapM_same : forall (A B : Type) (f g : A -> result B), (forall x, f x = g x) -> forall l, mapM f l = mapM g l.
Proof. intros A B f g E. induction l as [|x l IH]; cbn [mapM]; [auto|]. rewrite E, IH. auto. Qed.

(** C106.  n_average of the same models in another order. *)
Theorem C106_n_average : forall n models models', shaped n models -> Permutation models models' -> n_average models = n_average models'.
Proof.
  intros n models models' S P. unfold n_average. destruct models as [|m ms].
  - apply Permutation_nil in P. subst. auto.
  - destruct models' as [|m' ms']; [symmetry in P; apply Permutation_nil in P; discriminate|].
    f_equal. apply over0_perm with n; auto using mean_perm.
Qed.

(** ** clamp *)
(** C106.  clamp with the same bounds in another order. *)
Theorem C106_clamp : forall n a bounds bounds' stiffness, length a = n -> shaped n bounds -> Permutation bounds bounds' ->
  clamp a bounds stiffness = clamp a bounds' stiffness.
Proof.
  intros n a bounds bounds' s _ _ P.
  assert (forall j, clamp1 s (nth j a 0) (map (fun v => nth j v 0) bounds) = clamp1 s (nth j a 0) (map (fun v => nth j v 0) bounds')) as C.
  { intros j. pose proof (Permutation_map (fun v => nth j v 0) P) as Q. unfold clamp1, smallest_positive, largest_negative.
    rewrite (reduce_perm Rmax) with (l' := map (fun v => nth j v 0) bounds'); auto using Rmax_comm.
    2:{ intros x y z. rewrite <- !Rmax_assoc, (Rmax_comm y z). auto. }
    rewrite (reduce_perm Rmin) with (l' := map (fun v => nth j v 0) bounds'); auto using Rmin_comm.
    2:{ intros x y z. rewrite <- !Rmin_assoc, (Rmin_comm y z). auto. }
    rewrite (mean_perm _ _ Q).
    destruct (reduce Rmax _) as [mx|]; [|reflexivity]. destruct (reduce Rmin _) as [mn|]; [|reflexivity]. cbn [bind].
    set (avg := mean _). rewrite (fold_perm R R (fun sp b => if rleb b sp && rleb avg b then b else sp)) with (l' := map (fun v => nth j v 0) bounds'); auto.
    2:{ intros x y z. unfold rleb. destruct (Rle_dec y x), (Rle_dec avg y), (Rle_dec z x), (Rle_dec avg z); cbn [andb]; repeat destruct (Rle_dec _ _); cbn [andb]; lra. }
    rewrite (fold_perm R R (fun ln b => if rleb ln b && rleb b avg then b else ln)) with (l' := map (fun v => nth j v 0) bounds'); auto.
    intros x y z. unfold rleb. destruct (Rle_dec x y), (Rle_dec y avg), (Rle_dec x z), (Rle_dec z avg); cbn [andb]; repeat destruct (Rle_dec _ _); cbn [andb]; lra. }
  unfold clamp. destruct bounds as [|b bs].
  - apply Permutation_nil in P. subst. auto.
  - destruct bounds' as [|b' bs']; [symmetry in P; apply Permutation_nil in P; discriminate|].
    apply mapM_same. exact C.
Qed.

(** ** ties *)
Lemma mapM_perm : forall (A B : Type) (f : A -> result B) E, (forall x e, f x = Err e -> e = E) ->
  forall l l', Permutation l l' ->
  match mapM f l, mapM f l' with Ok a, Ok b => Permutation a b | Err e, Err e' => e = E /\ e' = E | _, _ => False end.
Proof.
  intros A B f E FE.
  assert (forall l e, mapM f l = Err e -> e = E) as ME.
  { induction l as [|x l IH]; cbn [mapM]; [discriminate|]. intros e. destruct (f x) as [b|e0] eqn:F; cbn [bind].
    - destruct (mapM f l); cbn [bind]; [discriminate|]. intros H; inversion H; subst; eauto.
    - intros H; inversion H; subst; eauto. }
  induction 1 as [|x l l' P IH|x y l|l l' l'' P1 IH1 P2 IH2]; cbn [mapM].
  - constructor.
  - destruct (f x) as [b|e] eqn:F; cbn [bind]; [|apply FE in F; auto].
    destruct (mapM f l), (mapM f l'); cbn [bind]; auto.
  - destruct (f x) as [b|e] eqn:F; cbn [bind]; destruct (f y) as [b'|e'] eqn:F'; cbn [bind]; try apply FE in F; try apply FE in F'; subst;
      destruct (mapM f l) as [bs|e] eqn:M; cbn [bind]; try apply ME in M; subst; auto. constructor.
  - destruct (mapM f l), (mapM f l'), (mapM f l''); intuition. eapply Permutation_trans; eauto.
Qed.
Lemma filter_top_k_err : forall f32 k m e, filter_top_k f32 m k = Err e -> e = RuntimeError.
Proof.
  intros f32 k m e. unfold filter_top_k, kthvalue. destruct (_ && _)%bool; cbn [bind]; [discriminate|]. intros H; inversion H; auto.
Qed.
Lemma trimmed_shaped : forall f32 k n models ds, mapM (fun m => filter_top_k f32 m k) models = Ok ds -> shaped n models -> shaped n ds.
Proof.
  induction models as [|m ms IH]; intros ds E S; cbn [mapM] in E; [inversion E; intros v []|].
  destruct (filter_top_k f32 m k) as [d|] eqn:F; cbn [bind] in E; [|discriminate].
  destruct (mapM _ ms) as [ds'|]; cbn [bind] in E; [|discriminate]. inversion E; subst. intros v [<-|I].
  - unfold filter_top_k in F. destruct (kthvalue _ _); cbn [bind] in F; [|discriminate]. inversion F. rewrite map_length. apply S. left; auto.
  - eapply IH; eauto. intros u J. apply S. right; auto.
Qed.
Lemma elected_perm : forall vote l l', Permutation l l' -> elected vote l = elected vote l'.
Proof. intros vote l l' P. unfold elected. destruct vote; erewrite rsum_perm; eauto using Permutation_map. Qed.
Lemma counts_perm : forall vote l l', Permutation l l' -> param_counts vote l = param_counts vote l'.
Proof. intros vote l l' P. unfold param_counts, delta_filters. rewrite (elected_perm vote _ _ P). apply rsum_perm, Permutation_map; auto. Qed.
Lemma filtered_perm : forall vote l l', Permutation l l' -> rsum (filtered_delta vote l) = rsum (filtered_delta vote l').
Proof.
  intros vote l l' P. unfold filtered_delta, delta_filters. rewrite (elected_perm vote _ _ P).
  rewrite <- (map_id l) at 1. rewrite <- (map_id l') at 1. rewrite !map2_map. apply rsum_perm, Permutation_map; auto.
Qed.

(** C106.  ties_sum of the same deltas in another order, or the same error. *)
Theorem C106_ties_sum : forall f32 fmax n models models' k vote, shaped n models -> Permutation models models' ->
  ties_sum f32 fmax models k vote = ties_sum f32 fmax models' k vote.
Proof.
  intros f32 fmax n models models' k vote S P. unfold ties_sum.
  pose proof (mapM_perm _ _ (fun m => filter_top_k f32 m k) RuntimeError (filter_top_k_err f32 k) _ _ P) as M.
  destruct (mapM _ models) as [ds|e] eqn:E, (mapM _ models') as [ds'|e'] eqn:E'; cbn [bind]; try contradiction.
  - destruct ds as [|d ds].
    + apply Permutation_nil in M. subst. auto.
    + destruct ds' as [|d' ds']; [symmetry in M; apply Permutation_nil in M; discriminate|].
      f_equal. apply over0_perm with n; [|eapply trimmed_shaped; eauto|auto].
      intros l l' Q. unfold ties1. rewrite (filtered_perm vote _ _ Q), (counts_perm vote _ _ Q). auto.
  - destruct M; congruence.
Qed.

(** ** geometric_median *)
Lemma average_perm : forall (h : vec -> R) n ms ms', shaped n ms -> Permutation ms ms' ->
  weighted_average_tuple ms (map h ms) = weighted_average_tuple ms' (map h ms').
Proof.
  intros h n ms ms' S P. unfold weighted_average_tuple, over0. destruct ms as [|v ms].
  - apply Permutation_nil in P. subst. auto.
  - destruct ms' as [|v' ms']; [symmetry in P; apply Permutation_nil in P; discriminate|].
    assert (length v = length v') as E.
    { rewrite (S v), (S v'); auto; [|left; auto]. apply (Permutation_in _ (Permutation_sym P)). left; auto. }
    rewrite E. apply map_ext. intros j. rewrite !map2_map.
    rewrite (rsum_perm _ _ (Permutation_map h P)). f_equal. apply rsum_perm. apply (Permutation_map (fun x => nth j x 0 * h x) P).
Qed.
Lemma objective_perm : forall median ms ms', Permutation ms ms' ->
  geometric_median_objective median ms (map (fun _ => 1) ms) = geometric_median_objective median ms' (map (fun _ => 1) ms').
Proof.
  intros median ms ms' P. unfold geometric_median_objective. rewrite !map2_map. apply mean_perm.
  apply (Permutation_map (fun x => dist x median * 1) P).
Qed.
Lemma weiszfeld_perm : forall n ms ms' eps ftol, shaped n ms -> Permutation ms ms' ->
  forall it median objective h0, exists h,
    weiszfeld it ms (map (fun _ => 1) ms) eps ftol median objective (map h0 ms) = map h ms /\
    weiszfeld it ms' (map (fun _ => 1) ms') eps ftol median objective (map h0 ms') = map h ms'.
Proof.
  intros n ms ms' eps ftol S P. induction it as [|it IH]; intros median objective h0; [exists h0; auto|].
  cbn [weiszfeld]. rewrite !map2_map. set (h1 := fun x : vec => 1 / Rmax (dist x median) eps).
  rewrite <- (average_perm h1 n ms ms' S P). set (median' := weighted_average_tuple ms (map h1 ms)).
  rewrite <- (objective_perm median' ms ms' P). set (objective' := geometric_median_objective median' ms (map (fun _ => 1) ms)).
  destruct (Rle_dec _ _); [exists h1; auto|]. apply IH.
Qed.
(** C106.  geometric_median of the same models in another order: every iteration takes the same step and stops alike. *)
Theorem C106_geometric_median : forall n models models' eps maxiter ftol, shaped n models -> Permutation models models' ->
  geometric_median models eps maxiter ftol = geometric_median models' eps maxiter ftol.
Proof.
  intros n models models' eps maxiter ftol S P. unfold geometric_median.
  rewrite <- (average_perm (fun _ => 1) n models models' S P). set (m0 := weighted_average_tuple models (map (fun _ => 1) models)).
  rewrite <- (objective_perm m0 models models' P). set (o0 := geometric_median_objective m0 models (map (fun _ => 1) models)).
  destruct (weiszfeld_perm n models models' eps ftol S P (Z.to_nat maxiter) m0 o0 (fun _ => 1)) as (h & -> & ->).
  destruct models as [|m ms].
  - apply Permutation_nil in P. subst. auto.
  - destruct models' as [|m' ms']; [symmetry in P; apply Permutation_nil in P; discriminate|].
    f_equal. apply average_perm with n; auto.
Qed.

(** ** ties_sum_extended, without model_stock *)
Lemma elect_perm : forall vote n ts ts', shaped n ts -> Permutation ts ts' ->
  Permutation (elect_deltas vote ts) (elect_deltas vote ts') /\ shaped n (elect_deltas vote ts).
Proof.
  intros vote n ts ts' S P. split.
  - unfold elect_deltas. eapply Permutation_trans; [apply Permutation_map; exact P|].
    erewrite map_ext; [apply Permutation_refl|]. intros v. apply map_ext. intros j.
    rewrite (elected_perm vote _ _ (Permutation_map (fun u => nth j u 0) P)). auto.
  - intros v I. unfold elect_deltas in I. apply in_map_iff in I as (u & <- & I). rewrite map_length, seq_length. auto.
Qed.
(** C106.  ties_sum_extended of the same deltas in another order, whenever it does not use the ratio of model_stock, which does
    depend on the order (C70_model_stock_refuted). *)
Theorem C106_ties_sum_extended : forall f32 fmax d n models models' k vote stock median cos_eps eps maxiter ftol,
  shaped n models -> Permutation models models' -> median = false \/ stock = true ->
  ties_sum_extended f32 fmax d models k vote stock median cos_eps eps maxiter ftol =
  ties_sum_extended f32 fmax d models' k vote stock median cos_eps eps maxiter ftol.
Proof.
  intros f32 fmax d n models models' k vote stock median cos_eps eps maxiter ftol S P H. unfold ties_sum_extended.
  pose proof (mapM_perm _ _ (fun m => filter_top_k f32 m k) RuntimeError (filter_top_k_err f32 k) _ _ P) as M.
  destruct (mapM _ models) as [ts|e] eqn:E, (mapM _ models') as [ts'|e'] eqn:E'; cbn [bind]; try contradiction.
  - pose proof (trimmed_shaped _ _ _ _ _ E S) as T. destruct (elect_perm vote n ts ts' T M) as (Q & TQ).
    destruct ts as [|t0 ts0] eqn:Ts.
    + apply Permutation_nil in M. subst. auto.
    + destruct ts' as [|t0' ts0'] eqn:Ts'; [symmetry in M; apply Permutation_nil in M; discriminate|]. rewrite <- Ts, <- Ts' in *.
      destruct median.
      * destruct H as [H| ->]; [discriminate|].
        assert (length t0 = length t0') as L.
        { rewrite (T t0), (T t0'); auto; [|subst; left; auto]. apply (Permutation_in _ (Permutation_sym M)). subst; left; auto. }
        rewrite L. apply mapM_same. intros j. cbn [bind].
        rewrite (rsum_perm _ _ (Permutation_map (fun v => nth j v 0) Q)), (counts_perm vote _ _ (Permutation_map (fun v => nth j v 0) M)). auto.
      * apply C106_geometric_median with n; auto.
  - destruct M; congruence.
Qed.

(** ** two models and a weight *)
Definition complement (alpha : vec) : vec := map (fun t => 1 - t) alpha.
Lemma complement_bcast : forall n alpha, (length alpha = n \/ length alpha = 1%nat) -> forall j, (j < n)%nat ->
  nth j (bcast n (complement alpha)) 0 = 1 - nth j (bcast n alpha) 0.
Proof.
  intros n alpha L j J. unfold complement, bcast. destruct alpha as [|x [|y alpha]]; simpl in L.
  - exfalso. lia.
  - clear L. simpl. revert j J. induction n as [|n IH]; intros [|j] J; simpl; auto; try lia. apply IH. lia.
  - change (nth j (map (fun t => 1 - t) (x :: y :: alpha)) 0 = 1 - nth j (x :: y :: alpha) 0).
    rewrite (nth_indep _ 0 (1 - 0)) by (rewrite map_length; simpl in *; lia). apply (map_nth (fun t => 1 - t)).
Qed.
Lemma sum_at : forall a b alpha, length a = length b -> (length alpha = length a \/ length alpha = 1%nat) ->
  forall j, (j < length a)%nat -> exists t,
  nth j (weighted_sum a b alpha) 0 = lerp t (nth j a 0) (nth j b 0) /\
  (allclose alpha 0 = false -> allclose alpha 1 = false -> t = nth j (bcast (length a) alpha) 0) /\
  let x := nth j (bcast (length a) alpha) 0 in
  (t = x \/ (t = 0 /\ Rabs x <= 1 / 100000000) \/ (t = 1 /\ Rabs (x - 1) <= 1001 / 100000000)).
Proof.
  intros a b alpha L La j J. unfold weighted_sum. pose proof (bcast_nth (length a) alpha j La J) as I.
  destruct (allclose alpha 0) eqn:C0; [|destruct (allclose alpha 1) eqn:C1].
  - exists 0. split; [unfold lerp; lra|]. split; [discriminate|]. right. left. split; [auto|].
    pose proof (allclose_In _ _ _ C0 I) as B. rewrite Rabs_R0, Rminus_0_r in B. lra.
  - exists 1. split; [unfold lerp; lra|]. split; [discriminate|]. right. right. split; [auto|].
    pose proof (allclose_In _ _ _ C1 I) as B. rewrite Rabs_R1 in B. lra.
  - exists (nth j (bcast (length a) alpha) 0). split; [apply ws_impl_nth; auto|]. auto.
Qed.
(** C106.  weighted_sum of two models the other way round, with the weights on the other side: the same up to 1e-5 of their
    difference, and the same if one of the weights is not within 2e-5 of 0 or 1. *)
Theorem C106_weighted_sum : forall a b alpha, length a = length b -> (length alpha = length a \/ length alpha = 1%nat) ->
  length (weighted_sum a b alpha) = length (weighted_sum b a (complement alpha)) /\
  (forall j, (j < length a)%nat ->
     Rabs (nth j (weighted_sum a b alpha) 0 - nth j (weighted_sum b a (complement alpha)) 0) <=
     1001 / 100000000 * Rabs (nth j a 0 - nth j b 0)) /\
  ((exists t, In t alpha /\ 1 / 50000 < Rabs t /\ 1 / 50000 < Rabs (t - 1)) ->
   weighted_sum a b alpha = weighted_sum b a (complement alpha)).
Proof.
  intros a b alpha L La.
  assert (length (complement alpha) = length b \/ length (complement alpha) = 1%nat) as Lb by (unfold complement; rewrite map_length; lia).
  assert (length (weighted_sum a b alpha) = length (weighted_sum b a (complement alpha))) as LL.
  { unfold weighted_sum. repeat destruct (allclose _ _); rewrite ?ws_impl_length; auto; lia. }
  split; [exact LL|]. split.
  - intros j J. destruct (sum_at a b alpha L La j J) as (t & -> & _ & T).
    destruct (sum_at b a (complement alpha) (eq_sym L) Lb j ltac:(lia)) as (s & -> & _ & T').
    rewrite <- L in T'. cbv zeta in T, T'. rewrite (complement_bcast _ _ La j J) in T'. set (x := nth j (bcast (length a) alpha) 0) in *.
    replace (lerp t (nth j a 0) (nth j b 0) - lerp s (nth j b 0) (nth j a 0)) with ((1 - t - s) * (nth j a 0 - nth j b 0)) by (unfold lerp; ring).
    rewrite Rabs_mult. apply Rmult_le_compat_r; [apply Rabs_pos|].
    destruct T as [->|[(-> & T)|(-> & T)]], T' as [->|[(-> & T')|(-> & T')]];
      unfold Rabs in *; repeat destruct (Rcase_abs _); lra.
  - intros (t & I & T0 & T1).
    assert (forall c, 1 / 50000 < Rabs (t - c) -> (c = 0 \/ c = 1) -> allclose alpha c = false /\ allclose (complement alpha) (1 - c) = false) as N.
    { intros c T C. split.
      - destruct (allclose alpha c) eqn:E; [|auto]. pose proof (allclose_In _ _ _ E I) as B.
        assert (Rabs c <= 1) by (destruct C as [->| ->]; rewrite ?Rabs_R0, ?Rabs_R1; lra). lra.
      - destruct (allclose (complement alpha) (1 - c)) eqn:E; [|auto].
        pose proof (allclose_In _ _ _ E (in_map (fun t => 1 - t) _ _ I)) as B. cbv beta in B.
        assert (Rabs (1 - c) <= 1) by (destruct C as [->| ->]; unfold Rabs; destruct (Rcase_abs _); lra).
        replace (1 - t - (1 - c)) with (- (t - c)) in B by ring. rewrite Rabs_Ropp in B. lra. }
    destruct (N 0) as (A0 & B1); [rewrite Rminus_0_r; auto|auto|]. destruct (N 1) as (A1 & B0); [auto|auto|].
    rewrite Rminus_0_r in B1. replace (1 - 1) with 0 in B0 by ring.
    apply nth_ext0; [exact LL|]. intros j J.
    assert (j < length a)%nat as J'.
    { unfold weighted_sum in J. rewrite A0, A1, ws_impl_length in J; auto. }
    destruct (sum_at a b alpha L La j J') as (x & -> & X & _). destruct (sum_at b a (complement alpha) (eq_sym L) Lb j ltac:(lia)) as (y & -> & Y & _).
    rewrite X, Y by auto. rewrite <- L, (complement_bcast _ _ La j J'). unfold lerp. ring.
Qed.
(** C106.  Not the same for every weight: 1e-6 is used as it is, 1 - 1e-6 is taken for 1. *)
Theorem C106_weighted_sum_refuted :
  weighted_sum [1] [0] [1 / 1000000] <> weighted_sum [0] [1] (complement [1 / 1000000]).
Proof.
  unfold weighted_sum, complement. cbn [map].
  assert (allclose [1 / 1000000] 0 = false) as ->. { unfold allclose. cbn. rewrite andb_true_r. apply rleb_false. unfold Rabs. repeat destruct (Rcase_abs _); lra. }
  assert (allclose [1 / 1000000] 1 = false) as ->. { unfold allclose. cbn. rewrite andb_true_r. apply rleb_false. unfold Rabs. repeat destruct (Rcase_abs _); lra. }
  assert (allclose [1 - 1 / 1000000] 0 = false) as ->. { unfold allclose. cbn. rewrite andb_true_r. apply rleb_false. unfold Rabs. repeat destruct (Rcase_abs _); lra. }
  assert (allclose [1 - 1 / 1000000] 1 = true) as ->. { unfold allclose. cbn. rewrite andb_true_r. apply rleb_true. unfold Rabs. repeat destruct (Rcase_abs _); lra. }
  unfold weighted_sum_impl, lerp. simpl. intros E. inversion E as [H]. lra.
Qed.

Lemma map2_flip : forall (A B C : Type) (f : A -> B -> C) a b, map2 f a b = map2 (fun y x => f x y) b a.
Proof. induction a; destruct b; simpl; congruence. Qed.
Lemma map2_same : forall (A B C : Type) (f g : A -> B -> C), (forall x y, f x y = g x y) -> forall a b, map2 f a b = map2 g a b.
Proof. induction a; destruct b; simpl; congruence. Qed.
(** C106.  slerp the other way round, for every weight. *)
Theorem C106_slerp : forall a b alpha, slerp a b alpha = slerp b a (1 - alpha).
Proof.
  intros a b alpha.
  assert (map2 (lerp alpha) a b = map2 (lerp (1 - alpha)) b a) as Lin.
  { rewrite map2_flip. apply map2_same. intros x y. unfold lerp. ring. }
  unfold slerp. rewrite orb_comm. destruct (reqb (norm b) 0 || reqb (norm a) 0)%bool; [exact Lin|].
  set (an := map (fun x => x / norm a) a). set (bn := map (fun x => x / norm b) b).
  assert (dot an bn = dot bn an) as ->.
  { unfold dot. f_equal. rewrite map2_flip. apply map2_same. intros; ring. }
  set (omega := acos (clamp11 (dot bn an))). destruct (reqb (sin omega) 0); [exact Lin|].
  replace (lerp alpha (norm a) (norm b)) with (lerp (1 - alpha) (norm b) (norm a)) by (unfold lerp; ring).
  do 2 f_equal. replace (1 - (1 - alpha)) with alpha by ring. unfold vadd. rewrite map2_flip. apply map2_same. intros; ring.
Qed.

(** three models in two orders; bounds in two orders; two models and 1/4 *)
Example C106_case :
  n_average [[1; 4]; [3; 8]; [5; 0]] = Ok [3; 4] /\ n_average [[5; 0]; [1; 4]; [3; 8]] = Ok [3; 4] /\
  clamp [5; 0] [[1; 1]; [2; 3]] 0 = Ok [2; 1] /\ clamp [5; 0] [[2; 3]; [1; 1]] 0 = Ok [2; 1] /\
  weighted_sum [0] [4] [1/4] = [1] /\ weighted_sum [4] [0] (complement [1/4]) = [1].
Proof.
  assert (shaped 2 [[1; 4]; [3; 8]; [5; 0]]) as S by (intros v [<-|[<-|[<-|[]]]]; auto).
  assert (n_average [[1; 4]; [3; 8]; [5; 0]] = Ok [3; 4]) as A.
  { unfold n_average, over0, ModelNum.mean, rsum. simpl. repeat f_equal; lra. }
  assert (weighted_sum [0] [4] [1/4] = [1]) as W.
  { unfold weighted_sum, allclose. simpl. replace (rleb (Rabs (1 / 4 - 0)) _) with false.
    2:{ symmetry; apply rleb_false. rewrite Rabs_R0, Rminus_0_r, Rabs_pos_eq; lra. }
    simpl. replace (rleb (Rabs (1 / 4 - 1)) _) with false.
    2:{ symmetry; apply rleb_false. rewrite Rabs_R1, Rabs_left; lra. }
    simpl. unfold weighted_sum_impl, lerp. simpl. repeat f_equal; lra. }
  split; [exact A|]. split.
  { rewrite <- A. apply C106_n_average with 2%nat; [intros v [<-|[<-|[<-|[]]]]; auto|].
    eapply perm_trans; [apply perm_swap|]. apply perm_skip, perm_swap. }
  split; [exact C47_case|]. split.
  { rewrite <- C47_case. apply C106_clamp with 2%nat; auto; [intros v [<-|[<-|[]]]; auto|]. apply perm_swap. }
  split; [exact W|]. rewrite <- W. symmetry. apply C106_weighted_sum; auto. exists (1/4). split; [left; auto|].
  rewrite (Rabs_pos_eq (1 / 4)), (Rabs_left (1 / 4 - 1)) by lra. lra.
Qed.

Print Assumptions C106_n_average.
Print Assumptions C106_clamp.
Print Assumptions C106_ties_sum.
Print Assumptions C106_geometric_median.
Print Assumptions C106_ties_sum_extended.
Print Assumptions C106_weighted_sum.
Print Assumptions C106_weighted_sum_refuted.
Print Assumptions C106_slerp.
