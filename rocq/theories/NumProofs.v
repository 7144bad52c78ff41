(** Lemmas on lists of reals, columns and element-wise operations. *)
From Coq Require Import Reals List Bool Arith ZArith Lia Lra Permutation.
From Verif Require Import Base ModelNum.
Import ListNotations.
Open Scope list_scope.
Open Scope R_scope.

Lemma rleb_true : forall x y, rleb x y = true <-> x <= y.
Proof. intros; unfold rleb; destruct (Rle_dec x y); split; intros; auto; try discriminate; contradiction. Qed.
Lemma rleb_false : forall x y, rleb x y = false <-> y < x.
Proof. intros; unfold rleb; destruct (Rle_dec x y); split; intros; try discriminate; try lra; auto. Qed.
Lemma reqb_true : forall x y, reqb x y = true <-> x = y.
Proof. intros; unfold reqb; destruct (Req_EM_T x y); split; intros; auto; try discriminate; contradiction. Qed.
Lemma reqb_false : forall x y, reqb x y = false <-> x <> y.
Proof. intros; unfold reqb; destruct (Req_EM_T x y); split; intros; auto; try discriminate; contradiction. Qed.

Lemma map2_length : forall A B C (f : A -> B -> C) a b, length a = length b -> length (map2 f a b) = length a.
Proof. induction a; destruct b; simpl; intros; auto; discriminate || (f_equal; auto). Qed.

Lemma map2_nth : forall A B C (f : A -> B -> C) a b j da db dc, length a = length b -> (j < length a)%nat ->
  nth j (map2 f a b) dc = f (nth j a da) (nth j b db).
Proof.
  induction a; destruct b; simpl; intros; try lia. destruct j; auto. apply IHa; lia.
Qed.

Lemma map_map2 : forall A B C D (g : C -> D) (f : A -> B -> C) a b, map g (map2 f a b) = map2 (fun x y => g (f x y)) a b.
Proof. induction a; destruct b; simpl; auto. f_equal; auto. Qed.

Lemma combine_nth' : forall A B (a : list A) (b : list B) j da db, length a = length b ->
  nth j (combine a b) (da, db) = (nth j a da, nth j b db).
Proof. intros; apply combine_nth; auto. Qed.

Lemma bcast_length : forall n a, (length a = n \/ length a = 1%nat) -> length (bcast n a) = n.
Proof.
  intros n [|x [|y l]] H; simpl in *; auto; try lia. apply repeat_length.
Qed.

Lemma bcast_nth : forall n a j, (length a = n \/ length a = 1%nat) -> (j < n)%nat -> In (nth j (bcast n a) 0) a.
Proof.
  intros n [|x [|y l]] j H J; simpl in H.
  - lia.
  - simpl. left. symmetry. apply repeat_spec with n. apply nth_In. rewrite repeat_length; auto.
  - replace (bcast n (x :: y :: l)) with (x :: y :: l) by reflexivity. apply nth_In. simpl. lia.
Qed.

Lemma rsum_app : forall a b, rsum (a ++ b) = rsum a + rsum b.
Proof. induction a; simpl; intros; [lra|]. unfold rsum in *. rewrite IHa. lra. Qed.

Lemma rsum_perm : forall a b, Permutation a b -> rsum a = rsum b.
Proof. induction 1; simpl; unfold rsum in *; lra. Qed.

Lemma rsum_cons : forall x l, rsum (x :: l) = x + rsum l.
Proof. reflexivity. Qed.

Lemma rsum_scale : forall k l, rsum (map (Rmult k) l) = k * rsum l.
Proof. induction l; simpl; unfold rsum in *; [lra|]. rewrite IHl. simpl. lra. Qed.

Lemma rsum_pos : forall l, l <> [] -> (forall x, In x l -> 0 < x) -> 0 < rsum l.
Proof.
  induction l; intros; [congruence|]. rewrite rsum_cons. destruct l as [|b l'].
  - simpl. specialize (H0 a (or_introl eq_refl)). lra.
  - assert (0 < rsum (b :: l')) by (apply IHl; [discriminate|]; intros; apply H0; right; auto).
    specialize (H0 a (or_introl eq_refl)). lra.
Qed.

Lemma rsum_nonneg : forall l, (forall x, In x l -> 0 <= x) -> 0 <= rsum l.
Proof.
  induction l; intros; [simpl; lra|]. rewrite rsum_cons.
  assert (0 <= rsum l) by (apply IHl; intros; apply H; right; auto).
  specialize (H a (or_introl eq_refl)). lra.
Qed.

Lemma rsum_const : forall x l, (forall y, In y l -> y = x) -> rsum l = INR (length l) * x.
Proof.
  induction l; intros; [simpl; lra|]. rewrite rsum_cons, (H a), IHl; auto using in_eq, in_cons.
  cbn [length]. rewrite S_INR. lra.
Qed.

Lemma list_min : forall l : list R, l <> [] -> exists m, In m l /\ forall x, In x l -> m <= x.
Proof.
  induction l as [|a l IH]; intros; [congruence|]. destruct l as [|b l].
  - exists a. split; [left; auto|]. intros x [->|[]]; lra.
  - destruct IH as (m & I & Hm); [discriminate|]. destruct (Rle_dec a m).
    + exists a. split; [left; auto|]. intros x [->|Hx]; [lra|]. specialize (Hm x Hx). lra.
    + exists m. split; [right; auto|]. intros x [->|Hx]; [lra|]. auto.
Qed.

Lemma list_max : forall l : list R, l <> [] -> exists m, In m l /\ forall x, In x l -> x <= m.
Proof.
  intros l H. destruct (list_min (map Ropp l)) as (m & I & Hm).
  { destruct l; [congruence|discriminate]. }
  apply in_map_iff in I as (x & <- & I). exists x. split; auto.
  intros y Hy. specialize (Hm (- y) (in_map _ _ _ Hy)). lra.
Qed.

(** weighted sums of a column *)
Lemma wsum_bounds : forall col ws lo hi, length col = length ws ->
  (forall w, In w ws -> 0 <= w) -> (forall x, In x col -> lo <= x <= hi) ->
  lo * rsum ws <= rsum (map2 Rmult col ws) <= hi * rsum ws.
Proof.
  induction col; destruct ws; simpl length; intros; try discriminate.
  - simpl; lra.
  - simpl map2. rewrite !rsum_cons.
    assert (lo * rsum ws <= rsum (map2 Rmult col ws) <= hi * rsum ws)
      by (apply IHcol; auto using in_cons).
    assert (0 <= r) by auto using in_eq. assert (lo <= a <= hi) by auto using in_eq.
    assert (lo * r <= a * r) by (apply Rmult_le_compat_r; lra).
    assert (a * r <= hi * r) by (apply Rmult_le_compat_r; lra). lra.
Qed.

Lemma map2_ones : forall col ws, length col = length ws -> (forall w, In w ws -> w = 1) -> map2 Rmult col ws = col.
Proof.
  induction col; destruct ws; simpl; intros; auto; try discriminate.
  f_equal; [rewrite (H0 r) by auto; lra|apply IHcol; auto].
Qed.

Lemma wavg_bounds : forall col ws lo hi, length col = length ws -> ws <> [] ->
  (forall w, In w ws -> 0 < w) -> (forall x, In x col -> lo <= x <= hi) ->
  lo <= rsum (map2 Rmult col ws) / rsum ws <= hi.
Proof.
  intros col ws lo hi L N P B.
  assert (0 < rsum ws) as S by (apply rsum_pos; auto).
  destruct (wsum_bounds col ws lo hi) as [A C]; auto.
  { intros w Hw; specialize (P w Hw); lra. }
  split.
  - apply Rmult_le_reg_r with (rsum ws); auto. unfold Rdiv. rewrite Rmult_assoc, Rinv_l by lra. lra.
  - apply Rmult_le_reg_r with (rsum ws); auto. unfold Rdiv. rewrite Rmult_assoc, Rinv_l by lra. lra.
Qed.

Lemma mean_bounds : forall col lo hi, col <> [] -> (forall x, In x col -> lo <= x <= hi) -> lo <= mean col <= hi.
Proof.
  intros col lo hi N B. unfold mean.
  assert (rsum (map (fun _ => 1) col) = INR (length col)) as E.
  { rewrite (rsum_const 1). rewrite map_length; lra. intros y Hy; apply in_map_iff in Hy as (? & ? & ?); auto. }
  rewrite <- E. rewrite <- (map2_ones col (map (fun _ => 1) col)) at 1 3.
  - apply wavg_bounds; auto.
    + rewrite map_length; auto.
    + destruct col; [congruence|discriminate].
    + intros w Hw; apply in_map_iff in Hw as (? & ? & ?); lra.
  - rewrite map_length; auto.
  - intros w Hw; apply in_map_iff in Hw as (? & ? & ?); auto.
Qed.

(** ** columns *)
Definition column (j : nat) (models : list vec) : list R := map (fun v => nth j v 0) models.

Lemma over0_length : forall f m ms, length (over0 f (m :: ms)) = length m.
Proof. intros; simpl. rewrite map_length, seq_length; auto. Qed.

Lemma over0_nth : forall f m ms j, (j < length m)%nat -> nth j (over0 f (m :: ms)) 0 = f (column j (m :: ms)).
Proof.
  intros. change (over0 f (m :: ms)) with (map (fun j => f (column j (m :: ms))) (seq 0 (length m))).
  rewrite (nth_indep _ 0 (f (column 0 (m :: ms)))) by (rewrite map_length, seq_length; auto).
  rewrite (map_nth (fun j => f (column j (m :: ms))) (seq 0 (length m)) 0%nat j).
  rewrite seq_nth; auto.
Qed.

Lemma nth_ext0 : forall a b : vec, length a = length b -> (forall j, (j < length a)%nat -> nth j a 0 = nth j b 0) -> a = b.
Proof. intros; eapply nth_ext; eauto. Qed.

Lemma column_hull : forall models j x, In x (column j models) -> exists v, In v models /\ x = nth j v 0.
Proof. unfold column; intros. apply in_map_iff in H as (v & <- & I); eauto. Qed.

Lemma column_range : forall models j, models <> [] -> exists lo hi, In lo models /\ In hi models /\
  forall x, In x (column j models) -> nth j lo 0 <= x <= nth j hi 0.
Proof.
  intros models j N.
  assert (column j models <> []) as N' by (destruct models; [congruence|discriminate]).
  destruct (list_min _ N') as (lo & I1 & H1). destruct (list_max _ N') as (hi & I2 & H2).
  apply column_hull in I1 as (v & I1 & ->). apply column_hull in I2 as (w & I2 & ->).
  exists v, w. repeat split; auto.
Qed.

Lemma lerp_between : forall t x y, 0 <= t <= 1 -> Rmin x y <= lerp t x y <= Rmax x y.
Proof.
  intros. unfold lerp, Rmin, Rmax. destruct (Rle_dec x y).
  - assert (0 <= t * (y - x)) by (apply Rmult_le_pos; lra).
    assert (0 <= (1 - t) * (y - x)) by (apply Rmult_le_pos; lra). lra.
  - assert (0 <= t * (x - y)) by (apply Rmult_le_pos; lra).
    assert (0 <= (1 - t) * (x - y)) by (apply Rmult_le_pos; lra). lra.
Qed.

Lemma ws_impl_length : forall a b alpha, length a = length b -> (length alpha = length a \/ length alpha = 1%nat) ->
  length (weighted_sum_impl a b alpha) = length a.
Proof.
  intros. unfold weighted_sum_impl. rewrite map2_length; [apply bcast_length; tauto|].
  rewrite bcast_length, combine_length by tauto. lia.
Qed.

Lemma ws_impl_nth : forall a b alpha j, length a = length b -> (length alpha = length a \/ length alpha = 1%nat) ->
  (j < length a)%nat ->
  nth j (weighted_sum_impl a b alpha) 0 = lerp (nth j (bcast (length a) alpha) 0) (nth j a 0) (nth j b 0).
Proof.
  intros. unfold weighted_sum_impl.
  rewrite (map2_nth _ _ _ _ _ _ j 0 (0, 0) 0); [|rewrite bcast_length, combine_length by tauto; lia|rewrite bcast_length; tauto].
  rewrite combine_nth by auto. reflexivity.
Qed.

Lemma allclose_In : forall alpha c t, allclose alpha c = true -> In t alpha -> Rabs (t - c) <= 1 / 100000000 + 1 / 100000 * Rabs c.
Proof. unfold allclose; intros. rewrite forallb_forall in H. apply rleb_true; auto. Qed.

(** ** Weiszfeld *)
Lemma weiszfeld_weights : forall n models ws eps ftol med obj nw, 0 < eps ->
  length ws = length models -> (forall w, In w ws -> 0 < w) ->
  length nw = length models -> (forall w, In w nw -> 0 < w) ->
  let r := weiszfeld n models ws eps ftol med obj nw in length r = length models /\ forall w, In w r -> 0 < w.
Proof.
  induction n; intros models ws eps ftol med obj nw E L P L' P'; simpl; auto.
  set (w' := map2 _ _ _).
  assert (length w' = length models) as A.
  { unfold w'. rewrite map2_length; rewrite ?map_length; auto. }
  assert (forall w, In w w' -> 0 < w) as B.
  { intros w Hw. apply (In_nth _ _ 0) in Hw as (j & J & <-). unfold w'. rewrite A in J.
    rewrite (map2_nth _ _ _ _ _ _ j 0 0 0); rewrite ?map_length; auto; [|lia].
    apply Rdiv_lt_0_compat; [apply P, nth_In; lia|].
    apply Rlt_le_trans with eps; auto. apply Rmax_r. }
  destruct (Rle_dec _ _); auto.
Qed.

Lemma wat_nth : forall m ms ws j, (j < length m)%nat ->
  nth j (weighted_average_tuple (m :: ms) ws) 0 = rsum (map2 Rmult (column j (m :: ms)) ws) / rsum ws.
Proof. intros. unfold weighted_average_tuple. rewrite over0_nth; auto. Qed.

Global Arguments rsum : simpl never.
