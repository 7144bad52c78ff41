(** C107: ties_sum, rounding included. *)
From Coq Require Import ZArith Reals List Lia Lra Psatz Bool Permutation.
From Flocq Require Import Core BinarySingleNaN.
From Verif Require Import ModelRound SpecRound RoundProofs PropsRound PropsRoundErr PropsOrderRound ModelTiesRound.
Import ListNotations.
Open Scope R_scope.

(** ** zeros do not change a sum *)
Definition is_zero {m} (x : num m) : bool := match x with B754_zero _ => true | _ => false end.
Fixpoint prune {m} (t : tree m) : tree m :=
  match t with Zero => Zero | Term x => if is_zero x then Zero else Term x | Plus l r => Plus (prune l) (prune r) end.
Lemma prune_terms : forall m (t : tree m), terms m (prune t) = filter (fun x => negb (is_zero x)) (terms m t).
Proof. induction t as [|x|l IHl r IHr]; simpl; [auto| |rewrite filter_app; congruence]. destruct (is_zero x); auto. Qed.
Lemma prune_totR : forall m (t : tree m), totR m (prune t) = totR m t.
Proof.
  induction t as [|x|l IHl r IHr]; simpl; [auto| |rewrite IHl, IHr; auto]. destruct (is_zero x) eqn:Z; [|auto]. destruct x; try discriminate. auto.
Qed.
Lemma enough_less : forall m o n k, enough m o n -> (k <= n)%nat -> enough m o k.
Proof. unfold enough. intros m o n k [A B] L. lia. Qed.
Lemma div_zero : forall m (x : num m) k, B2R x = 0 -> is_finite x = true -> is_finite (of_nat m k) = true -> B2R (of_nat m k) <> 0 ->
  is_finite (div m x (of_nat m k)) = true /\ B2R (div m x (of_nat m k)) = 0.
Proof.
  intros m x k R F Fk Rk. destruct (div_R m x (of_nat m k) F Rk) as [A B].
  - rewrite R. unfold Rdiv. rewrite Rmult_0_l, rnd_0, Rabs_R0. apply bpow_gt_0.
  - split; [exact A|]. rewrite B, R. unfold Rdiv. rewrite Rmult_0_l. apply rnd_0.
Qed.
Lemma narrow_zero : forall m i o (x : num m), is_finite x = true -> B2R x = 0 -> is_finite (narrow m i o x) = true /\ B2R (narrow m i o x) = 0.
Proof.
  intros m i o x F R. destruct x as [s|s| |s mx ex Hx]; try discriminate; [split; reflexivity|].
  exfalso. simpl in R. apply eq_0_F2R in R. simpl in R. destruct s; discriminate.
Qed.
Lemma finite_same : forall m (x : num m), is_finite x = true -> nan_to_num m x = x.
Proof. destruct x; try discriminate; auto. Qed.

(** ** the signs *)
Lemma sgn_R : forall m (x : num m), is_finite x = true ->
  (sgn m x = Some 1%Z <-> 0 < B2R x) /\ (sgn m x = Some (-1)%Z <-> B2R x < 0) /\ (sgn m x = Some 0%Z <-> B2R x = 0).
Proof.
  intros m x F. destruct x as [s|s| |s mx ex Hx]; try discriminate.
  - simpl. repeat split; intros; try discriminate; lra.
  - assert (if s then B2R (B754_finite s mx ex Hx : num m) < 0 else 0 < B2R (B754_finite s mx ex Hx : num m)) as S.
    { destruct s; [apply F2R_lt_0; reflexivity | apply F2R_gt_0; reflexivity]. }
    destruct s; cbn [sgn] in *; repeat split; intros; try discriminate; try lra; auto.
Qed.
Lemma mul_one : forall m (x : num m), is_finite x = true -> is_finite (mul m x (one m)) = true /\ B2R (mul m x (one m)) = B2R x.
Proof.
  intros m x F. destruct (one_R m) as [F1 R1].
  destruct (mul_R m x (one m) F F1) as [Fm Rm]; rewrite R1, Rmult_1_r, rnd_fmt in * by apply num_fmt; auto.
  apply big_lt, num_big.
Qed.
Lemma mul_zero : forall m (x : num m), is_finite x = true -> exists s, mul m x (B754_zero false) = B754_zero s.
Proof. intros m x F. destruct x as [s|s| |s mx ex Hx]; try discriminate; unfold mul; simpl; eauto. Qed.
Lemma is_zero_R : forall m (x : num m), is_finite x = true -> (is_zero x = true <-> B2R x = 0).
Proof.
  intros m x F. destruct x as [s|s| |s mx ex Hx]; try discriminate; simpl; split; auto; try discriminate.
  intros Z. exfalso. apply eq_0_F2R in Z. simpl in Z. destruct s; discriminate.
Qed.
Lemma agrees_sgn : forall m z (x : num m), agrees m (Some z) x = true <-> sgn m x = Some z.
Proof.
  intros m z x. unfold agrees. destruct (sgn m x) as [a|]; [|split; discriminate]. rewrite Z.eqb_eq. split; congruence.
Qed.
Lemma filtered_R : forall m s (x : num m), is_finite x = true ->
  let y := mul m x (if agrees m s x then one m else B754_zero false) in
  is_finite y = true /\ B2R y = (if agrees m s x then B2R x else 0).
Proof.
  intros m s x F. cbv zeta. destruct (agrees m s x); [apply mul_one; auto|].
  destruct (mul_zero m x F) as [b ->]. auto.
Qed.
Lemma kept_nonzero : forall m z (ds : list (num m)), z <> 0%Z -> Forall (fun x => is_finite x = true) ds ->
  length (filter (fun x => negb (is_zero x)) (filtered m (Some z) ds)) = kept m (Some z) ds.
Proof.
  intros m z ds NZ. unfold kept, filtered. induction ds as [|x ds IH]; intros F; [auto|].
  cbn [map filter]. destruct (filtered_R m (Some z) x (Forall_inv F)) as [Fy Ry]. cbv zeta in Fy, Ry.
  set (y := mul m x _) in *. destruct (agrees m (Some z) x) eqn:A.
  - assert (is_zero y = false) as ->.
    { destruct (is_zero y) eqn:Z; [|auto]. apply is_zero_R in Z; auto. exfalso. apply NZ. apply agrees_sgn in A.
      assert (sgn m x = Some 0%Z) as E by (apply sgn_R; [apply (Forall_inv F)|congruence]). congruence. }
    simpl. f_equal. apply IH. apply (Forall_inv_tail F).
  - assert (is_zero y = true) as -> by (apply is_zero_R; auto). simpl. apply IH. apply (Forall_inv_tail F).
Qed.
Lemma filter_perm : forall (X : Type) (f : X -> bool) l l', Permutation l l' -> Permutation (filter f l) (filter f l').
Proof.
  induction 1; simpl; auto; [destruct (f x); auto| |eapply perm_trans; eauto].
  destruct (f y), (f x); try apply Permutation_refl. apply perm_swap.
Qed.
Lemma finite_narrow : forall m i o (x : num m), is_finite (narrow m i o x) = true -> is_finite x = true.
Proof. intros m i o x H. destruct x; auto; discriminate. Qed.
Lemma zero_case : forall m i o k (x : num m), is_finite x = true -> B2R x = 0 ->
  (is_finite (of_nat m k) = true /\ B2R (of_nat m k) = INR k) ->
  is_finite (narrow m i o (nan_to_num m (div m x (of_nat m k)))) = true /\ B2R (narrow m i o (nan_to_num m (div m x (of_nat m k)))) = 0.
Proof.
  intros m i o k x F R [Fk Rk]. destruct k as [|k].
  - apply is_zero_R in R; auto. destruct x; try discriminate. split; reflexivity.
  - destruct (div_zero m x (S k) R F Fk) as [A B]; [rewrite Rk; apply not_0_INR; lia|].
    rewrite finite_same by auto. apply narrow_zero; auto.
Qed.

(** ** the average over those that agree *)

(** [z] is between two of the models with [P], or there are none and it is zero *)
Definition among {A o} (P : R -> Prop) (models : list (num A)) (z : num o) : Prop :=
  (exists lo hi, In lo models /\ In hi models /\ P (B2R lo) /\ P (B2R hi) /\ B2R lo <= B2R z <= B2R hi) \/
  ((forall x, In x models -> ~ P (B2R x)) /\ B2R z = 0).

(** C107.  Whatever sign is elected and whatever the order of the additions, the merged delta is finite, and between two of
    the deltas that have that sign. *)
Theorem C107_range : forall A m i o (models : list (num A)) (tv t : tree m),
  holds_all A o -> holds_all o i -> finer m o -> enough m o (length models) ->
  Forall (fun x => is_finite x = true) models ->
  let deltas := map (cast A m) models in
  let s := sgn m (total m tv) in
  Permutation (terms m t) (filtered m s deltas) ->
  let z := narrow m i o (ties1 m deltas tv t) in
  is_finite z = true /\
  (s = Some 1%Z -> among (fun r => 0 < r) models z) /\ (s = Some (-1)%Z -> among (fun r => r < 0) models z) /\
  (s <> Some 1%Z -> s <> Some (-1)%Z -> B2R z = 0).
Proof.
  intros A m i o models tv t HA Hi Hf Hn Fin deltas s P z.
  assert (Hm : holds_all A m) by (pose proof (finer_holds m o Hf); unfold holds_all in *; lia).
  assert (FD : Forall (fun x => is_finite x = true) deltas).
  { apply Forall_forall. intros x I. apply in_map_iff in I as (w & <- & I). eapply Forall_forall in Fin; eauto. apply cast_up; auto. }
  assert (Bo : forall v : num A, Rabs (B2R v) <= big o) by (intro v; eapply Rle_trans; [apply num_big | now apply big_le]).
  assert (Fo : forall v : num A, fmt o (B2R v)) by (intro v; apply (fmt_holds A); [trivial | apply num_fmt]).
  assert (D : forall x, In x deltas -> exists w, In w models /\ is_finite x = true /\ B2R x = B2R w).
  { intros x I. apply in_map_iff in I as (w & <- & I). eapply Forall_forall in Fin; eauto.
    destruct (cast_up A m w Hm Fin) as (F & R & _). eauto. }
  assert (T : forall y, In y (terms m t) -> is_finite y = true /\
    exists w, In w models /\ ((sgn m (cast A m w) = s /\ B2R y = B2R w) \/ B2R y = 0)).
  { intros y I. apply (Permutation_in _ P) in I. apply in_map_iff in I as (x & <- & I). destruct (D x I) as (w & Iw & F & R).
    apply in_map_iff in I as (w' & E & I'). subst x.
    destruct (filtered_R m s (cast A m w') F) as [Fy Ry]. split; [exact Fy|]. rewrite Ry.
    pose proof (Fin) as F2. eapply Forall_forall in F2; [|exact I']. destruct (cast_up A m w' Hm F2) as (_ & R' & _).
    exists w'. split; [auto|]. destruct (agrees m s (cast A m w')) eqn:AG; [|auto]. left. split; [|auto].
    unfold agrees in AG. destruct (sgn m (cast A m w')), s; try discriminate. apply Z.eqb_eq in AG. congruence. }
  assert (C : count m t = length models).
  { unfold count. rewrite (Permutation_length P). unfold filtered, deltas. rewrite !map_length. auto. }
  destruct (total_R m o Hf (length models) Hn t ltac:(lia)) as [Ft Rt].
  { intros y I. destruct (T y I) as (F & w & _ & H). split; [exact F|]. destruct H as [(_ & ->)| ->]; [auto|].
    rewrite Rabs_R0. apply big_pos. }
  set (k := kept m s deltas).
  assert (K : (k <= length models)%nat).
  { unfold k, kept. replace (length models) with (length deltas) by apply map_length. clear. induction deltas; simpl; [lia|].
    destruct (agrees m s a); simpl; lia. }
  pose proof (of_nat_R m o Hf (length models) Hn k K) as NK.
  (* all terms are zero *)
  assert (Zs : (forall y, In y (terms m t) -> B2R y = 0) -> is_finite z = true /\ B2R z = 0).
  { intros H. apply zero_case; auto. rewrite Rt. clear - H. revert H. induction t as [|x|l IHl r IHr]; intros H; simpl; auto.
    - apply H. left; auto.
    - rewrite IHl, IHr by (intros; apply H; simpl; apply in_or_app; auto). rewrite Rplus_0_r. apply rnd_0. }
  assert (Main : forall q (Q : R -> Prop), s = Some q -> q <> 0%Z -> ~ Q 0 ->
    (forall x : num m, is_finite x = true -> (sgn m x = Some q <-> Q (B2R x))) -> is_finite z = true /\ among Q models z).
  { intros q Q Es Nq Q0 SQ.
    assert (Some_ : forall x, In x deltas -> agrees m s x = true -> Q (B2R x)).
    { intros x I AG. destruct (D x I) as (w & _ & F & _). rewrite Es in AG. apply agrees_sgn in AG. apply SQ; auto. }
    destruct (Nat.eq_dec k 0) as [K0|K0].
    - destruct Zs as [F R].
      + intros y I. apply (Permutation_in _ P) in I. apply in_map_iff in I as (x & <- & I). destruct (D x I) as (_ & _ & F & _).
        destruct (filtered_R m s x F) as [_ ->]. destruct (agrees m s x) eqn:AG; [|auto]. exfalso.
        assert (In x (filter (agrees m s) deltas)) as J by (apply filter_In; auto).
        unfold k, kept in K0. destruct (filter (agrees m s) deltas); [destruct J|discriminate].
      + split; [exact F|]. right. split; [|exact R]. intros w Iw HQ.
        assert (In (cast A m w) deltas) as I by (apply in_map; auto).
        pose proof Fin as F2. eapply Forall_forall in F2; [|exact Iw]. destruct (cast_up A m w Hm F2) as (Fw & Rw & _).
        assert (agrees m s (cast A m w) = true) as AG by (rewrite Es; apply agrees_sgn; apply SQ; auto; rewrite Rw; auto).
        assert (In (cast A m w) (filter (agrees m s) deltas)) as J by (apply filter_In; auto).
        unfold k, kept in K0. destruct (filter (agrees m s) deltas); [destruct J|discriminate].
    - set (pos := filter (fun w => agrees m s (cast A m w)) models).
      assert (pos <> []) as NE.
      { unfold k, kept in K0. destruct (filter (agrees m s) deltas) as [|x l] eqn:E; [simpl in K0; lia|].
        assert (In x (filter (agrees m s) deltas)) as I by (rewrite E; left; auto). apply filter_In in I as [I AG].
        apply in_map_iff in I as (w & <- & I). intros N. assert (In w pos) as J by (apply filter_In; auto). rewrite N in J. destruct J. }
      destruct (least (fun x : num A => B2R x) pos NE) as [lo [Ilo Llo]].
      destruct (least (fun x : num A => - B2R x) pos NE) as [hi [Ihi Lhi]].
      assert (Pos : forall w, In w pos -> In w models /\ Q (B2R w)).
      { intros w I. apply filter_In in I as [I AG]. split; [auto|].
        pose proof Fin as F2. eapply Forall_forall in F2; [|exact I]. destruct (cast_up A m w Hm F2) as (Fw & Rw & _).
        rewrite <- Rw. apply Some_; auto. apply in_map; auto. }
      assert (Cp : count m (prune t) = k).
      { unfold count. rewrite prune_terms, (Permutation_length (filter_perm _ _ _ _ P)). unfold k. rewrite Es. apply kept_nonzero; auto. }
      destruct (mean_between m o Hf k (enough_less m o _ k Hn K) i (prune t) (B2R lo) (B2R hi)) as [F R]; trivial; try lia; auto.
      { intros y I. rewrite prune_terms in I. apply filter_In in I as [I NZ].
        assert (is_finite y = true) as Fy by apply (T y I). split; [exact Fy|].
        apply (Permutation_in _ P) in I. apply in_map_iff in I as (x & E & I). destruct (D x I) as (_ & _ & Fx & _).
        destruct (filtered_R m s x Fx) as [_ Ry]. cbv zeta in Ry. rewrite E in Ry. destruct (agrees m s x) eqn:AG.
        - apply in_map_iff in I as (w & <- & I). assert (In w pos) as J by (apply filter_In; auto).
          pose proof Fin as F2. eapply Forall_forall in F2; [|exact I]. destruct (cast_up A m w Hm F2) as (_ & Rw & _).
          rewrite Ry, Rw. specialize (Llo w J). specialize (Lhi w J). simpl in Llo, Lhi. lra.
        - exfalso. apply is_zero_R in Ry; auto. rewrite Ry in NZ. discriminate. }
      destruct (total_R m o Hf (length models) Hn (prune t)) as [Fp Rp].
      { rewrite Cp. exact K. }
      { intros y I. rewrite prune_terms in I. apply filter_In in I as [I _]. destruct (T y I) as (Fy & w & _ & H). split; [exact Fy|].
        destruct H as [(_ & ->)| ->]; [auto|]. rewrite Rabs_R0. apply big_pos. }
      rewrite prune_totR in Rp.
      assert (is_finite z = true /\ B2R z = B2R (narrow m i o (mean m (prune t)))) as [Fz Rz].
      { unfold z, ties1. fold s k. unfold mean in *. fold (count m (prune t)) in *. rewrite Cp in *. destruct (Req_dec (totR m t) 0) as [Z|NZ].
        - destruct (zero_case m i o k (total m t) Ft) as [A1 B1]; [congruence|exact NK|]. split; [exact A1|]. rewrite B1.
          destruct (div_zero m (total m (prune t)) k) as [A2 B2]; [congruence|exact Fp|apply NK|destruct NK as [_ ->]; apply not_0_INR; lia|].
          destruct (narrow_zero m i o _ A2 B2) as [_ ->]. auto.
        - assert (total m t = total m (prune t)) as ->.
          { apply B2R_inj; [apply nonzero_strict; congruence|apply nonzero_strict; congruence|congruence]. }
          rewrite finite_same by (eapply finite_narrow; eauto). auto. }
      split; [exact Fz|]. left. exists lo, hi. destruct (Pos lo Ilo), (Pos hi Ihi). rewrite Rz. auto 6. }
  destruct s as [q|] eqn:Es.
  - destruct (Z.eq_dec q 1) as [->|N1]; [|destruct (Z.eq_dec q (-1)) as [->|N2]].
    + destruct (Main 1%Z (fun r => 0 < r)) as [F M]; auto; [lia|lra|intros x Fx; apply (sgn_R m x Fx)|].
      split; [exact F|]. split; [auto|]. split; [discriminate|congruence].
    + destruct (Main (-1)%Z (fun r => r < 0)) as [F M]; auto; [lia|lra|intros x Fx; apply (sgn_R m x Fx)|].
      split; [exact F|]. split; [discriminate|]. split; [auto|congruence].
    + destruct Zs as [F R].
      { intros y I. destruct (T y I) as (_ & w & Iw & H). destruct H as [(E & ->)| ->]; [|auto].
        pose proof Fin as F2. eapply Forall_forall in F2; [|exact Iw]. destruct (cast_up A m w Hm F2) as (Fw & Rw & _).
        destruct (sgn_R m (cast A m w) Fw) as (S1 & S2 & S3). rewrite <- Rw.
        destruct (Rtotal_order 0 (B2R (cast A m w))) as [G|[G|G]]; [|auto|]; exfalso; [apply N1|apply N2]; [apply S1 in G|apply S2 in G]; congruence. }
      split; [exact F|]. repeat split; auto; intros E; congruence.
  - destruct Zs as [F R].
    { intros y I. destruct (T y I) as (_ & w & Iw & H). destruct H as [(E & ->)| ->]; [|auto].
      pose proof Fin as F2. eapply Forall_forall in F2; [|exact Iw]. destruct (cast_up A m w Hm F2) as (Fw & Rw & _).
      destruct (cast A m w); discriminate. }
    split; [exact F|]. repeat split; auto; intros E; congruence.
Qed.

(** ** the election *)
Definition positives {A} (models : list (num A)) : nat := length (filter (fun x => if Rlt_dec 0 (B2R x) then true else false) models).
Definition negatives {A} (models : list (num A)) : nat := length (filter (fun x => if Rlt_dec (B2R x) 0 then true else false) models).

Lemma int_total : forall m n, (Z.of_nat n < 2 ^ prec m)%Z -> forall t : tree m, (count m t <= n)%nat ->
  (forall x, In x (terms m t) -> is_finite x = true /\ exists k, B2R x = IZR k /\ (Z.abs k <= 1)%Z) ->
  is_finite (total m t) = true /\ B2R (total m t) = sumR m t /\ exists k, sumR m t = IZR k /\ (Z.abs k <= Z.of_nat (count m t))%Z.
Proof.
  intros m n W. pose proof (prec_lt' m). pose proof (prec_pos' m). induction t as [|x|l IHl r IHr]; intros C T.
  - simpl. split; [reflexivity|]. split; [reflexivity|]. exists 0%Z. unfold sumR, count. simpl. split; [auto|lia].
  - destruct (T x (or_introl eq_refl)) as (F & k & E & K). cbn [total]. unfold sumR, count. cbn [terms map rtotal length].
    split; [exact F|]. split; [lra|]. exists k. split; [lra|lia].
  - rewrite count_plus in C.
    destruct IHl as (Fl & Rl & kl & El & Kl); [lia|intros x Ix; apply T; simpl; apply in_or_app; auto|].
    destruct IHr as (Fr & Rr & kr & Er & Kr); [lia|intros x Ix; apply T; simpl; apply in_or_app; auto|].
    assert (sumR m (Plus l r) = sumR m l + sumR m r) as ES by (unfold sumR; cbn [terms]; now rewrite map_app, rtotal_app).
    assert (sumR m (Plus l r) = IZR (kl + kr)) as E by (rewrite ES, El, Er, plus_IZR; ring).
    assert (Z.abs (kl + kr) < 2 ^ prec m)%Z as L by lia.
    assert (fmt m (IZR (kl + kr))) as F.
    { apply generic_format_FLT. exists (Float radix2 (kl + kr) 0); simpl; [unfold F2R; simpl; ring|exact L|unfold emin; lia]. }
    assert (Rabs (IZR (kl + kr)) < p2 (emax m)) as B.
    { rewrite <- abs_IZR. apply IZR_lt in L. change (2 ^ prec m)%Z with (radix2 ^ prec m)%Z in L. rewrite IZR_Zpower in L by lia.
      eapply Rlt_trans; [exact L|]. apply bpow_lt. lia. }
    rewrite <- E, ES in F, B. cbn [total].
    destruct (add_R m (total m l) (total m r) Fl Fr) as (Fa & Ra); [rewrite Rl, Rr, rnd_fmt; auto|].
    split; [exact Fa|]. split; [rewrite Ra, Rl, Rr, rnd_fmt; auto|]. exists (kl + kr)%Z. split; [exact E|]. rewrite count_plus. lia.
Qed.
Lemma sign_R : forall m (x : num m), is_finite x = true ->
  is_finite (sign_number m x) = true /\
  B2R (sign_number m x) = (if Rlt_dec 0 (B2R x) then 1 else if Rlt_dec (B2R x) 0 then -1 else 0).
Proof.
  intros m x F. destruct (one_R m) as [F1 R1]. destruct (sgn_R m x F) as (S1 & S2 & S3). unfold sign_number.
  destruct (Rlt_dec 0 (B2R x)) as [P|P]; [apply S1 in P; rewrite P; auto|].
  destruct (Rlt_dec (B2R x) 0) as [N|N]; [apply S2 in N; rewrite N; simpl; rewrite is_finite_Bopp, B2R_Bopp, R1; auto|].
  assert (sgn m x = Some 0%Z) as -> by (apply S3; lra). auto.
Qed.

(** Whatever the models hold, infinities and NaN included, and whatever overflows: in the merge dtype the result is finite. *)
Theorem C107_finite : forall m (deltas : list (num m)) (tv t : tree m), is_finite (ties1 m deltas tv t) = true.
Proof.
  intros m deltas tv t. unfold ties1. destruct (div m _ _) as [s|s| |s x e h]; try reflexivity. destruct s; cbn [nan_to_num].
  - rewrite is_finite_Bopp. reflexivity.
  - reflexivity.
Qed.

(** C107.  Signs are counted without error: the sign of the majority is elected, and the merged delta is between two of the
    deltas of the majority; without a majority it is zero. *)
Theorem C107_majority : forall A m i o (models : list (num A)) (tv t : tree m),
  holds_all A o -> holds_all o i -> finer m o -> enough m o (length models) ->
  Forall (fun x => is_finite x = true) models ->
  let deltas := map (cast A m) models in
  Permutation (terms m tv) (votes m false deltas) -> Permutation (terms m t) (filtered m (sgn m (total m tv)) deltas) ->
  let z := narrow m i o (ties1 m deltas tv t) in
  is_finite z = true /\
  ((negatives models < positives models)%nat ->
     exists lo hi, In lo models /\ In hi models /\ 0 < B2R lo /\ 0 < B2R hi /\ B2R lo <= B2R z <= B2R hi) /\
  ((positives models < negatives models)%nat ->
     exists lo hi, In lo models /\ In hi models /\ B2R lo < 0 /\ B2R hi < 0 /\ B2R lo <= B2R z <= B2R hi) /\
  (positives models = negatives models -> B2R z = 0).
Proof.
  intros A m i o models tv t HA Hi Hf Hn Fin deltas PV P z.
  destruct (C107_range A m i o models tv t HA Hi Hf Hn Fin P) as (Fz & Up & Down & Else).
  assert (Hm : holds_all A m) by (pose proof (finer_holds m o Hf); unfold holds_all in *; lia).
  assert (C : count m tv = length models).
  { unfold count. rewrite (Permutation_length PV). unfold votes, deltas. rewrite !map_length. auto. }
  destruct (int_total m (length models)) with (t := tv) as (Ft & Rt & _); [|lia| |].
  { destruct Hn as [H _]. destruct Hf as [H1 _]. pose proof (prec_pos' o). pose proof (prec_pos' m).
    apply Z.lt_le_trans with (2 ^ (prec m - prec o - 5))%Z; [lia|]. apply Z.pow_le_mono_r; lia. }
  { intros x I. apply (Permutation_in _ PV) in I. unfold votes, deltas in I. apply in_map_iff in I as (y & <- & I).
    apply in_map_iff in I as (w & <- & I). pose proof Fin as F2. eapply Forall_forall in F2; [|exact I].
    destruct (cast_up A m w Hm F2) as (Fw & _). destruct (sign_R m (cast A m w) Fw) as (F & R). split; [exact F|]. rewrite R.
    destruct (Rlt_dec 0 _); [exists 1%Z; split; [auto|lia]|]. destruct (Rlt_dec _ 0); [exists (-1)%Z; split; [auto|lia]|].
    exists 0%Z; split; [auto|lia]. }
  assert (sumR m tv = INR (positives models) - INR (negatives models)) as S.
  { unfold sumR. rewrite (rtotal_perm _ _ (Permutation_map _ PV)). unfold votes, deltas. rewrite !map_map.
    clear - Hm Fin. unfold positives, negatives. induction models as [|x l IH]; [simpl; lra|]. cbn [map rtotal filter].
    rewrite (IH (Forall_inv_tail Fin)). destruct (cast_up A m x Hm (Forall_inv Fin)) as (Fx & Rx & _).
    destruct (sign_R m _ Fx) as (_ & ->). rewrite Rx.
    destruct (Rlt_dec 0 (B2R x)), (Rlt_dec (B2R x) 0); cbn [length]; rewrite ?S_INR; lra. }
  rewrite S in Rt. destruct (sgn_R m (total m tv) Ft) as (S1 & S2 & S3). split; [exact Fz|]. split; [|split].
  - intros L. apply lt_INR in L. destruct Up as [H|[H _]]; [apply S1; lra|exact H|]. exfalso.
    assert (positives models = 0%nat) as E; [|rewrite E in L; simpl in L; pose proof (pos_INR (negatives models)); lra].
    unfold positives. clear - H. induction models as [|x l IH]; [auto|]. simpl. destruct (Rlt_dec 0 (B2R x)) as [Q|Q].
    + exfalso. apply (H x); [left; auto|exact Q].
    + apply IH. intros y I. apply H. right; auto.
  - intros L. apply lt_INR in L. destruct Down as [H|[H _]]; [apply S2; lra|exact H|]. exfalso.
    assert (negatives models = 0%nat) as E; [|rewrite E in L; simpl in L; pose proof (pos_INR (positives models)); lra].
    unfold negatives. clear - H. induction models as [|x l IH]; [auto|]. simpl. destruct (Rlt_dec (B2R x) 0) as [Q|Q].
    + exfalso. apply (H x); [left; auto|exact Q].
    + apply IH. intros y I. apply H. right; auto.
  - intros E. assert (sgn m (total m tv) = Some 0%Z) as E0 by (apply S3; rewrite Rt, E; lra). apply Else; congruence.
Qed.

(** C107.  The other vote, for models whose dtype is small enough next to that of the arithmetic: the sign of the exact sum
    is elected. *)
Theorem C107_sum_vote : forall S m i o (models : list (num S)) (tv t : tree m),
  holds_all S o -> holds_all o i -> finer m o -> enough m o (length models) ->
  (Z.of_nat (length models) * 2 ^ (emax S - emin S) <= 2 ^ prec m)%Z ->
  Forall (fun x => is_finite x = true) models ->
  let deltas := map (cast S m) models in
  Permutation (terms m tv) (votes m true deltas) -> Permutation (terms m t) (filtered m (sgn m (total m tv)) deltas) ->
  let z := narrow m i o (ties1 m deltas tv t) in
  let sum := fold_right Rplus 0 (map (fun x => B2R x) models) in
  is_finite z = true /\ (0 < sum -> among (fun r => 0 < r) models z) /\ (sum < 0 -> among (fun r => r < 0) models z) /\ (sum = 0 -> B2R z = 0).
Proof.
  intros S m i o models tv t HA Hi Hf Hn W Fin deltas PV P z sum.
  destruct (C107_range S m i o models tv t HA Hi Hf Hn Fin P) as (Fz & Up & Down & Else).
  assert (Hm : holds_all S m) by (pose proof (finer_holds m o Hf); unfold holds_all in *; lia).
  assert (C : count m tv = length models).
  { unfold count. rewrite (Permutation_length PV). apply map_length. }
  destruct (exact_total S m (length models) Hm W tv) as (Ft & _ & _); [lia| |].
  { intros x I. apply (Permutation_in _ PV) in I. apply in_map_iff in I as (y & <- & I). exists y. split; [|auto]. eapply Forall_forall in Fin; eauto. }
  destruct (C106_exact_average S m i o models models tv tv Hm W Fin (Permutation_refl _) PV PV) as (Rt & _).
  change (B2R (total m tv) = sum) in Rt. destruct (sgn_R m (total m tv) Ft) as (S1 & S2 & S3). rewrite Rt in *.
  split; [exact Fz|]. split; [intros H; apply Up, S1, H|]. split; [intros H; apply Down, S2, H|].
  intros H. apply S3 in H. apply Else; congruence.
Qed.

(** C107.  In general that vote can be lost in the rounding: of the bfloat16 deltas 2^60, 1, -2^60, whose sum is positive,
    none is kept. *)
Theorem C107_sum_vote_refuted :
  exists (models : list (num bfloat16)) (tv t : tree float64),
    let deltas := map (cast bfloat16 float64) models in
    Forall (fun x => is_finite x = true) models /\
    terms float64 tv = votes float64 true deltas /\ terms float64 t = filtered float64 (sgn float64 (total float64 tv)) deltas /\
    0 < fold_right Rplus 0 (map (fun x => B2R x) models) /\
    B2SF (narrow float64 float32 bfloat16 (ties1 float64 deltas tv t)) = SpecFloat.S754_zero false.
Proof.
  set (a := val bfloat16 1 60). set (b := val bfloat16 (-1) 60). set (c := val bfloat16 1 0).
  set (up := cast bfloat16 float64).
  set (f := fun x => mul float64 (up x) (B754_zero false)).
  exists [a; c; b], (Plus (Plus (Term (up a)) (Term (up c))) (Term (up b))), (Plus (Plus (Term (f a)) (Term (f c))) (Term (f b))).
  cbv zeta. split; [repeat constructor; vm_compute; reflexivity|]. split; [reflexivity|]. split.
  { set (s := sgn float64 _). assert (s = Some 0%Z) as -> by (vm_compute; reflexivity). reflexivity. }
  split; [|vm_compute; reflexivity].
  cbn [map fold_right]. assert (B2R b = - B2R a) as ->.
  { assert (b = Bopp a) as -> by (apply B2SF_inj; vm_compute; reflexivity). apply B2R_Bopp. }
  assert (0 < B2R c) by (apply sgn_R; vm_compute; reflexivity). lra.
Qed.

(** the float16 deltas 1, 3 and -8 by majority, the first two added in either order; by sum, the last *)
Example C107_case :
  let up := cast float16 float64 in
  let a := up (val float16 1 0) in let b := up (val float16 3 0) in let c := up (val float16 (-8) 0) in
  let zero := B754_zero false in let neg := B754_zero true in
  let out tv t := B2SF (narrow float64 float32 float16 (ties1 float64 [a; b; c] tv t)) in
  let one' := one float64 in
  map B2SF (votes float64 false [a; b; c]) = map B2SF [one'; one'; Bopp one'] /\
  map B2SF (filtered float64 (Some 1%Z) [a; b; c]) = map B2SF [a; b; neg] /\
  map B2SF (filtered float64 (Some (-1)%Z) [a; b; c]) = map B2SF [zero; zero; c] /\
  out (Plus (Plus (Term one') (Term one')) (Term (Bopp one'))) (Plus (Plus (Term a) (Term b)) (Term neg)) = B2SF (val float16 2 0) /\
  out (Plus (Plus (Term a) (Term b)) (Term c)) (Plus (Plus (Term zero) (Term zero)) (Term c)) = B2SF (val float16 (-8) 0).
Proof. vm_compute. repeat split. Qed.

Print Assumptions C107_finite.
Print Assumptions C107_range.
Print Assumptions C107_majority.
Print Assumptions C107_sum_vote.
Print Assumptions C107_sum_vote_refuted.
