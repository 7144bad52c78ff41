(** C70: model_stock. *)
From Coq Require Import Reals List Bool Arith ZArith Lia Lra Psatz Permutation.
From Verif Require Import Base ModelNum NumProofs PropsNum ModelDrop ModelModes PropsTies PropsModes.
Import ListNotations.
Open Scope list_scope.
Open Scope R_scope.

Lemma cauchy : forall a b, dot a b * dot a b <= dot a a * dot b b.
Proof.
  induction a as [|x a IH]; intros [|y b]; unfold dot in *; cbn [map2] in *; rewrite ?rsum_cons.
  - unfold rsum; simpl; lra.
  - unfold rsum at 1 2 3. simpl. lra.
  - unfold rsum at 1 2 4. simpl. lra.
  - specialize (IH b). pose proof (dot_self a) as A. pose proof (dot_self b) as B. unfold dot in A, B.
    set (D := rsum (map2 Rmult a b)) in *. set (P := rsum (map2 Rmult a a)) in *. set (Q := rsum (map2 Rmult b b)) in *.
    assert (2 * (x * y * D) <= x * x * Q + y * y * P) as H.
    { pose proof (Rle_0_sqr x) as X. pose proof (Rle_0_sqr y) as Y. unfold Rsqr in X, Y.
      assert (0 <= x * x * Q) by (apply Rmult_le_pos; auto). assert (0 <= y * y * P) by (apply Rmult_le_pos; auto).
      destruct (Rle_dec (2 * (x * y * D)) (x * x * Q + y * y * P)) as [|N]; auto. exfalso.
      assert ((x * x * Q + y * y * P) * (x * x * Q + y * y * P) < 2 * (x * y * D) * (2 * (x * y * D))) as L by (apply Rmult_le_0_lt_compat; lra).
      pose proof (Rle_0_sqr (x * x * Q - y * y * P)) as Z. unfold Rsqr in Z.
      assert (x * x * (y * y) * (D * D) <= x * x * (y * y) * (P * Q)) as W
        by (apply Rmult_le_compat_l; [apply Rmult_le_pos; auto|auto]).
      lra. }
    lra.
Qed.

(** the cosine of the angle between two rows, at least as long as neither is shorter than eps *)
Definition cos_angle (x y : vec) : R := dot x y / (norm x * norm y).

Lemma cosine_range : forall eps x y, 0 < eps -> -1 <= cosine eps x y <= 1.
Proof.
  intros eps x y E. unfold cosine.
  pose proof (Rmax_r (norm x) eps). pose proof (Rmax_l (norm x) eps).
  pose proof (Rmax_r (norm y) eps). pose proof (Rmax_l (norm y) eps).
  set (p := Rmax (norm x) eps) in *. set (q := Rmax (norm y) eps) in *.
  assert (0 <= norm x) by apply sqrt_pos. assert (0 <= norm y) by apply sqrt_pos.
  assert (0 < p * q) as PQ by (apply Rmult_lt_0_compat; lra).
  assert (dot x y * dot x y <= (p * q) * (p * q)) as C.
  { apply Rle_trans with (1 := cauchy x y). rewrite <- !norm_sqr.
    replace (norm x * norm x * (norm y * norm y)) with ((norm x * norm y) * (norm x * norm y)) by ring.
    assert (norm x * norm y <= p * q) by (apply Rmult_le_compat; auto).
    apply Rmult_le_compat; auto; apply Rmult_le_pos; auto. }
  assert (- (p * q) <= dot x y <= p * q) as D by nra.
  split; apply (Rmult_le_reg_r (p * q)); auto; unfold Rdiv; rewrite Rmult_assoc, Rinv_l by lra; lra.
Qed.
Lemma cosine_is : forall eps x y, eps <= norm x -> eps <= norm y -> cosine eps x y = cos_angle x y.
Proof. intros. unfold cosine, cos_angle. rewrite !Rmax_left by auto. reflexivity. Qed.

(** mean cosine between each delta and the next, in row [i] of rows of [d] elements *)
Definition agreement (eps : R) (d : nat) (deltas : list vec) (i : nat) : R :=
  mean (map (fun p => cosine eps (row d i (fst p)) (row d i (snd p))) (combine deltas (tl deltas))).

Lemma neighbours_combine : forall A (l : list A), neighbours l = combine l (tl l).
Proof. induction l as [|x [|y l] IH]; auto. change (neighbours (x :: y :: l)) with ((x, y) :: neighbours (y :: l)). rewrite IH. reflexivity. Qed.

Lemma stock_t : forall eps d deltas i, (2 <= length deltas)%nat ->
  model_stock_t eps d deltas i = Ok (fdiv (INR (length deltas) * agreement eps d deltas i)
    (1 + (INR (length deltas) - 1) * agreement eps d deltas i)).
Proof.
  intros eps d deltas i L. unfold model_stock_t, agreement. rewrite neighbours_combine.
  destruct deltas as [|x [|y l]]; simpl in L; try lia. reflexivity.
Qed.

Lemma stock_rows : forall fmax eps d rows deltas,
  (2 <= length deltas)%nat -> (0 < d)%nat -> shaped (rows * d) deltas -> 0 < eps ->
  exists avg v, n_average deltas = Ok avg /\ model_stock fmax d deltas eps = Ok v /\ length v = (rows * d)%nat /\
    (forall j, (j < rows * d)%nat ->
       let n := INR (length deltas) in
       let c := agreement eps d deltas (j / d) in
       -1 <= c <= 1 /\
       (1 + (n - 1) * c <> 0 -> at_ v j * (1 + (n - 1) * c) = n * c * at_ avg j) /\
       (0 <= c -> Rmin 0 (at_ avg j) <= at_ v j <= Rmax 0 (at_ avg j))) /\
    (forall x, (forall y, In y deltas -> y = x) -> (forall i, (i < rows)%nat -> eps <= norm (row d i x)) -> v = x) /\
    (forall a b, deltas = [a; b] -> model_stock fmax d [b; a] eps = Ok v).
Proof.
  intros fmax eps d rows deltas L D S E.
  assert (deltas <> []) as N by (destruct deltas; simpl in L; [lia|discriminate]).
  destruct (C53_n_average (rows * d) deltas N S) as (avg & A & LA & _ & SumA & PermA & ConstA).
  set (n := INR (length deltas)) in *.
  assert (2 <= n) as N2. { unfold n. replace 2 with (INR 2) by (simpl; lra). apply le_INR. auto. }
  set (val := fun j => nan_to_num fmax (emul (fdiv (n * agreement eps d deltas (j / d))
    (1 + (n - 1) * agreement eps d deltas (j / d))) (nth j avg 0))).
  assert (model_stock fmax d deltas eps = Ok (map val (seq 0 (rows * d)))) as M.
  { unfold model_stock. rewrite A. cbn [bind]. rewrite LA.
    rewrite (mapM_ext _ _ _ (fun j => Ok (val j))); [apply mapM_seq_ok|].
    intros j _. rewrite stock_t by auto. reflexivity. }
  exists avg, (map val (seq 0 (rows * d))). split; auto. split; auto. split; [rewrite map_length, seq_length; auto|].
  assert (forall i, -1 <= agreement eps d deltas i <= 1) as R.
  { intros i. unfold agreement. apply mean_bounds.
    - destruct deltas as [|x [|y l]]; simpl in L; try lia. discriminate.
    - intros y I. apply in_map_iff in I as (p & <- & _). apply cosine_range; auto. }
  assert (forall j, (j < rows * d)%nat -> 1 + (n - 1) * agreement eps d deltas (j / d) <> 0 ->
    at_ (map val (seq 0 (rows * d))) j = n * agreement eps d deltas (j / d) / (1 + (n - 1) * agreement eps d deltas (j / d)) * at_ avg j) as V.
  { intros j J Z. rewrite map_seq_nth by auto. unfold val, fdiv. destruct (Req_EM_T _ 0); [contradiction|]. reflexivity. }
  split; [|split].
  - intros j J. cbv zeta. set (c := agreement eps d deltas (j / d)) in *. specialize (R (j / d)%nat). fold c in R.
    split; auto. split.
    + intros Z. rewrite V by auto. fold c. field. auto.
    + intros C. assert (0 < 1 + (n - 1) * c) as P by nra.
      rewrite V by (auto; fold c; lra). fold c.
      set (t := n * c / (1 + (n - 1) * c)).
      assert (0 <= t <= 1) as T.
      { unfold t. split.
        - apply Rmult_le_pos; [nra|]. left. apply Rinv_0_lt_compat. auto.
        - apply (Rmult_le_reg_r (1 + (n - 1) * c)); auto. unfold Rdiv. rewrite Rmult_assoc, Rinv_l by lra. nra. }
      unfold Rmin, Rmax. destruct (Rle_dec 0 (at_ avg j)); split; nra.
  - intros x Eq Norm. assert (avg = x) as AX by (apply ConstA; auto).
    apply nth_ext0; [rewrite map_length, seq_length, <- AX; auto|].
    intros j J. rewrite map_length, seq_length in J.
    assert (j / d < rows)%nat as I by (apply Nat.div_lt_upper_bound; lia).
    assert (agreement eps d deltas (j / d) = 1) as C.
    { unfold agreement. set (f := fun p => cosine eps (row d (j / d) (fst p)) (row d (j / d) (snd p))).
      assert (forall p, In p (combine deltas (tl deltas)) -> f p = 1) as F.
      { intros [u w] Hp. assert (u = x) as -> by (apply Eq; eapply in_combine_l; eauto).
        assert (w = x) as ->.
        { apply Eq. apply in_combine_r in Hp. destruct deltas; [destruct Hp|right; auto]. }
        unfold f. cbn [fst snd]. specialize (Norm _ I). rewrite cosine_is by auto. unfold cos_angle. rewrite norm_sqr.
        rewrite <- norm_sqr. field. lra. }
      assert (map f (combine deltas (tl deltas)) <> []) as NE.
      { destruct deltas as [|x1 [|y1 l]]; simpl in L; try lia. discriminate. }
      destruct (mean_bounds (map f (combine deltas (tl deltas))) 1 1 NE) as [X Y]; [|lra].
      intros y H. apply in_map_iff in H as (p & <- & H). rewrite F by auto. lra. }
    rewrite V by (auto; rewrite C; lra). rewrite C, AX. field. lra.
  - intros a b ->. unfold model_stock. rewrite (PermA [b; a]) by constructor. cbn [bind]. rewrite LA.
    rewrite (mapM_ext _ _ _ (fun j => Ok (val j))); [apply mapM_seq_ok|].
    intros j _. rewrite stock_t by (simpl; lia). cbn [bind]. unfold val. unfold n.
    assert (forall i, agreement eps d [b; a] i = agreement eps d [a; b] i) as G.
    { intros i. unfold agreement. cbn [tl combine map fst snd]. unfold cosine.
      assert (forall u w, dot u w = dot w u) as Sym.
      { unfold dot. induction u; destruct w; simpl; auto. rewrite !rsum_cons, IHu. ring. }
      rewrite (Sym (row d i b)), (Rmult_comm (Rmax (norm (row d i b)) eps)). reflexivity. }
    rewrite G. reflexivity.
Qed.

(** row [i] of rows of [d] elements, and the mean cosine between each delta and the next in that row *)
Definition line (d i : nat) (v : vec) : vec := map (fun c => at_ v (i * d + c)) (seq 0 d).
Definition mean_cosine (eps : R) (d : nat) (deltas : list vec) (i : nat) : R :=
  mean (map (fun p => cosine eps (line d i (fst p)) (line d i (snd p))) (combine deltas (tl deltas))).

Lemma row_line : forall d rows i v, length v = (rows * d)%nat -> (i < rows)%nat -> row d i v = line d i v.
Proof.
  intros d rows i v L I. assert (length (row d i v) = d) as LR.
  { unfold row. rewrite firstn_length, skipn_length, L. nia. }
  unfold line. apply nth_ext with (d := 0) (d' := 0); [rewrite map_length, seq_length; auto|].
  intros c C. rewrite LR in C. rewrite map_seq_nth by auto. unfold row.
  rewrite <- (firstn_skipn (i * d) v) at 2.
  assert (length (firstn (i * d) v) = (i * d)%nat) as LF by (rewrite firstn_length; nia).
  rewrite app_nth2 by lia. rewrite LF. replace (i * d + c - i * d)%nat with c by lia.
  rewrite <- (firstn_skipn d (skipn (i * d) v)) at 2. rewrite app_nth1; auto. fold (row d i v). lia.
Qed.
Lemma agreement_line : forall eps d rows deltas i, shaped (rows * d) deltas -> (i < rows)%nat -> agreement eps d deltas i = mean_cosine eps d deltas i.
Proof.
  intros eps d rows deltas i S I. unfold agreement, mean_cosine. f_equal. apply map_ext_in. intros [u w] Hp. cbn [fst snd].
  rewrite (row_line d rows i u), (row_line d rows i w); auto.
  - apply S. apply in_combine_r in Hp. destruct deltas; [destruct Hp|right; auto].
  - apply S. eapply in_combine_l; eauto.
Qed.

(** With at least two deltas, each element is [t] times the average, where [t = n c / (1 + (n - 1) c)] for the mean
    cosine [c] of its row; between 0 and the average when [c] is not negative; equal deltas come out
    unchanged; and swapping two deltas changes nothing. *)
Theorem C70_model_stock_partial : forall fmax eps d rows deltas,
  (2 <= length deltas)%nat -> (0 < d)%nat -> shaped (rows * d) deltas -> 0 < eps ->
  exists avg v, n_average deltas = Ok avg /\ model_stock fmax d deltas eps = Ok v /\ length v = (rows * d)%nat /\
    (forall j, (j < rows * d)%nat ->
       let n := INR (length deltas) in
       let c := mean_cosine eps d deltas (j / d) in
       -1 <= c <= 1 /\
       (1 + (n - 1) * c <> 0 -> at_ v j * (1 + (n - 1) * c) = n * c * at_ avg j) /\
       (0 <= c -> Rmin 0 (at_ avg j) <= at_ v j <= Rmax 0 (at_ avg j))) /\
    (forall x, (forall y, In y deltas -> y = x) -> (forall i, (i < rows)%nat -> eps <= norm (line d i x)) -> v = x) /\
    (forall a b, deltas = [a; b] -> model_stock fmax d [b; a] eps = Ok v).
Proof.
  intros fmax eps d rows deltas L D S E.
  destruct (stock_rows fmax eps d rows deltas L D S E) as (avg & v & A & M & LV & V & Eq & Sw).
  exists avg, v. split; auto. split; auto. split; auto. split; [|split; auto].
  - intros j J. rewrite <- (agreement_line eps d rows) by (auto; apply Nat.div_lt_upper_bound; lia). apply V; auto.
  - intros x H N. apply Eq; auto. intros i I. assert (In x deltas) as Ix.
    { destruct deltas as [|y l]; [simpl in L; lia|]. left. apply H. left; auto. }
    rewrite (row_line d rows) by (auto; apply S; auto). auto.
Qed.

(** three deltas of one row *)
Definition east : vec := [1; 0].
Definition north : vec := [0; 1].
Lemma compass : norm east = 1 /\ norm north = 1 /\ dot east east = 1 /\ dot east north = 0 /\ dot north east = 0.
Proof.
  unfold norm, dot, east, north, rsum. simpl.
  replace (1 * 1 + (0 * 0 + 0)) with 1 by ring. replace (0 * 0 + (1 * 1 + 0)) with 1 by ring. rewrite sqrt_1. lra.
Qed.

(** Refuted for three deltas: the result depends on their order.  And a single delta raises. *)
Theorem C70_model_stock_refuted :
  (exists deltas deltas' v v', Permutation deltas deltas' /\ model_stock 1000 2 deltas (1 / 2) = Ok v /\
     model_stock 1000 2 deltas' (1 / 2) = Ok v' /\ v <> v') /\
  (forall fmax d eps delta, delta <> [] -> model_stock fmax d [delta] eps = Err RuntimeError).
Proof.
  split.
  - destruct compass as (N1 & N2 & D1 & D2 & D3).
    assert (forall l, In l [[east; east; north]; [east; north; east]] -> shaped (1 * 2) l) as S.
    { intros l [<-|[<-|[]]] v; simpl; intros H; decompose [or] H; subst; try reflexivity; contradiction. }
    destruct (stock_rows 1000 (1 / 2) 2 1 [east; east; north]) as (a & v & A & V & _ & H & _); try lra; try (simpl; lia).
    { apply S; left; auto. }
    destruct (stock_rows 1000 (1 / 2) 2 1 [east; north; east]) as (a' & v' & A' & V' & _ & H' & _); try lra; try (simpl; lia).
    { apply S; right; left; auto. }
    exists [east; east; north], [east; north; east], v, v'. split; [constructor; constructor|]. split; auto. split; auto.
    intros Eq. subst v'.
    specialize (H 0%nat ltac:(lia)). specialize (H' 0%nat ltac:(lia)). cbv zeta in *.
    replace (0 / 2)%nat with 0%nat in * by reflexivity.
    assert (cosine (1 / 2) (row 2 0 east) (row 2 0 east) = 1) as C1.
    { change (row 2 0 east) with east. unfold cosine. rewrite N1, D1, Rmax_left by lra. field. }
    assert (cosine (1 / 2) (row 2 0 east) (row 2 0 north) = 0) as C2.
    { change (row 2 0 east) with east. change (row 2 0 north) with north. unfold cosine. rewrite N1, N2, D2, Rmax_left by lra. field. }
    assert (cosine (1 / 2) (row 2 0 north) (row 2 0 east) = 0) as C3.
    { change (row 2 0 east) with east. change (row 2 0 north) with north. unfold cosine. rewrite N1, N2, D3, Rmax_left by lra. field. }
    assert (agreement (1 / 2) 2 [east; east; north] 0 = 1 / 2) as G1.
    { unfold agreement. cbn [tl combine map fst snd]. rewrite C1, C2. unfold mean, rsum. simpl. field. }
    assert (agreement (1 / 2) 2 [east; north; east] 0 = 0) as G2.
    { unfold agreement. cbn [tl combine map fst snd]. rewrite C2, C3. unfold mean, rsum. simpl. field. }
    rewrite G1 in H. rewrite G2 in H'. simpl length in *. replace (INR 3) with 3 in * by (simpl; lra).
    destruct H as (_ & H & _). destruct H' as (_ & H' & _). specialize (H ltac:(lra)). specialize (H' ltac:(lra)).
    assert (at_ a 0 = 2 / 3) as AV.
    { unfold n_average in A. injection A as <-. unfold mean, rsum. simpl. field. }
    rewrite AV in H. lra.
  - intros fmax d eps delta N. unfold model_stock, n_average. cbn [bind over0]. rewrite map_length, seq_length.
    destruct delta; [congruence|]. reflexivity.
Qed.

(** two copies of a unit vector *)
Example C70_case : (2 <= length [east; east])%nat /\ shaped (1 * 2) [east; east] /\ 1 / 2 <= norm (line 2 0 east).
Proof.
  split; [simpl; lia|]. split; [intros v [<-|[<-|[]]]; reflexivity|].
  change (line 2 0 east) with east. destruct compass as [-> _]. lra.
Qed.

Print Assumptions C70_model_stock_partial.
Print Assumptions C70_model_stock_refuted.
