(** C78: truncate_rank gives a matrix of the target rank, the projection of the given one. *)
From Coq Require Import ZArith.
From Coq Require Rdefinitions.
From Verif Require Import Base ModelRegion ModelRank RankProofs.
From mathcomp Require Import all_ssreflect all_algebra.
Set Implicit Arguments.
Unset Strict Implicit.
Unset Printing Implicit Defensive.
Import Order.TTheory GRing.Theory Num.Theory.
Local Open Scope ring_scope.

(** ** What torch's factorisations give *)
Definition orthonormal (F : fieldType) m n (Q : 'M[F]_(m, n)) : Prop := Q^T *m Q = 1%:M.
Definition is_qr (F : fieldType) (qr : forall m n, 'M[F]_(m, n) -> 'M[F]_(m, n)) : Prop :=
  forall m n (A : 'M[F]_(m, n)), (n <= m)%N -> orthonormal (qr m n A) /\ exists r : 'M_n, A = qr m n A *m r.
Definition is_svd (F : fieldType) (svd : forall m n, 'M[F]_(m, n) -> 'M[F]_(m, n) * 'rV[F]_n * 'M[F]_n) : Prop :=
  forall m n (A : 'M[F]_(m, n)), (n <= m)%N -> (svd m n A).1.1 *m diag_mx (svd m n A).1.2 *m (svd m n A).2 = A.

(** ** Ranks over an ordered field *)
Section Gram.
Variable F : realFieldType.
Lemma gram_zero m n (W : 'M[F]_(m, n)) : W *m W^T = 0 -> W = 0.
Proof.
move=> H; apply/matrixP=> i j; rewrite mxE.
have /matrixP/(_ i i) := H; rewrite !mxE => /eqP.
rewrite psumr_eq0 => [|k _]; last by rewrite mxE -expr2 sqr_ge0.
by move=> /allP/(_ j (mem_index_enum j)); rewrite mxE -expr2 sqrf_eq0 => /eqP.
Qed.
Lemma gram_rank m n (A : 'M[F]_(m, n)) : \rank (A^T *m A) = \rank A.
Proof.
rewrite -(mxrank_tr A) -(mxrank_mul_ker A^T A).
suff -> : \rank (A^T :&: kermx A)%MS = 0%N by rewrite addn0.
set W := (A^T :&: kermx A)%MS.
have /submxP[V EV] : (W <= A^T)%MS by apply: capmxSl.
have /sub_kermxP EK : (W <= kermx A)%MS by apply: capmxSr.
suff -> : W = 0 by rewrite mxrank0.
apply: gram_zero; rewrite {1}EV -mulmxA -trmx_mul EK trmx0 mulmx0 //.
Qed.
Lemma gram_sub m n (A : 'M[F]_(m, n)) : (A <= A^T *m A)%MS.
Proof.
have S : (A^T *m A <= A)%MS by apply: submxMl.
by have := mxrank_leqif_sup S; rewrite -/(geq _ _) => -[_ <-]; rewrite gram_rank.
Qed.
End Gram.

(** ** The result is a projection *)
Section Project.
Variable F : realFieldType.
Variable qr : forall m n, 'M[F]_(m, n) -> 'M[F]_(m, n).
Variable svd : forall m n, 'M[F]_(m, n) -> 'M[F]_(m, n) * 'rV[F]_n * 'M[F]_n.
Variable randn : forall m n, 'M[F]_(m, n).
Hypothesis QR : is_qr qr.
Hypothesis SVD : is_svd svd.

Lemma basis_orthonormal m n (A : 'M[F]_(m, n)) q : (q <= m)%N -> orthonormal (approximate_basis qr randn A q).
Proof. move=> qm; exact: (proj1 (QR _ qm)). Qed.
Lemma svd_value m n (A : 'M[F]_(m, n)) q : (q <= m)%N -> (m < n)%N || (q < n)%N ->
  let Q := approximate_basis qr randn A^T q in
  exists usv, svd_lowrank qr svd randn A q = Ok usv /\ usv.1.1 *m diag_mx usv.1.2 *m usv.2 = A *m Q *m Q^T.
Proof.
move=> qm cond Q; rewrite /svd_lowrank cond -/Q.
have := SVD (A *m Q) qm; case: (svd (A *m Q)) => -[U s] Vh /= H.
by exists (U, s, (Q *m Vh^T)^T); split=> //=; rewrite trmx_mul trmxK !mulmxA H.
Qed.

Lemma kept_step m n q (A : 'M[F]_(m, n)) (Q : 'M[F]_(n, q)) : (q <= m)%N -> (q <= n)%N ->
  (A <= Q^T)%MS -> (A <= (basis_step qr A^T Q)^T)%MS.
Proof.
move=> qm qn /submxP[D ED]; rewrite /basis_step trmxK.
have [_ [s Es]] := QR (A *m Q) qm; set P := qr _ in Es *.
have [_ [r Er]] := QR (A^T *m P) qn; set Q' := qr _ in Er *.
have H1 : (P^T *m A <= Q'^T)%MS.
  have -> : P^T *m A = r^T *m Q'^T by rewrite -trmx_mul -Er trmx_mul trmxK.
  exact: submxMl.
apply: submx_trans H1.
have H2 : (Q^T *m (A^T *m A) <= P^T *m A)%MS.
  have -> : Q^T *m (A^T *m A) = s^T *m (P^T *m A).
    by rewrite mulmxA -trmx_mul {1}Es trmx_mul -mulmxA.
  exact: submxMl.
apply: submx_trans H2.
have H3 : (A *m (A^T *m A) <= Q^T *m (A^T *m A))%MS.
  by rewrite {1}ED -mulmxA; exact: submxMl.
apply: submx_trans H3.
apply: (submx_trans (gram_sub A)).
rewrite mulmxA; apply: submxMr.
by have := gram_sub A^T; rewrite trmxK.
Qed.
Lemma kept_start m n q (A : 'M[F]_(m, n)) : (q <= n)%N -> \rank (A^T *m randn m q) = \rank A ->
  (A <= (qr (A^T *m randn m q))^T)%MS.
Proof.
move=> qn E; have [_ [r Er]] := QR (A^T *m randn m q) qn; set Q := qr _ in Er *.
have S : ((randn m q)^T *m A <= A)%MS by apply: submxMl.
have H : (A <= (randn m q)^T *m A)%MS.
  have := mxrank_leqif_sup S; case=> _ <-.
  by rewrite -mxrank_tr trmx_mul trmxK E.
apply: (submx_trans H).
have -> : (randn m q)^T *m A = r^T *m Q^T by rewrite -trmx_mul -Er trmx_mul trmxK.
exact: submxMl.
Qed.
Lemma kept_value m n q (A : 'M[F]_(m, n)) : (q <= m)%N -> (q <= n)%N -> \rank (A^T *m randn m q) = \rank A ->
  let Q := approximate_basis qr randn A^T q in A *m Q *m Q^T = A.
Proof.
move=> qm qn E Q.
have /submxP[D ED] : (A <= Q^T)%MS by rewrite /Q /approximate_basis; do 2![apply: kept_step => //]; apply: kept_start.
have O : orthonormal Q by apply: basis_orthonormal.
by rewrite {1}ED -(mulmxA D) O mulmx1 -ED.
Qed.
End Project.

Lemma target_rank_range (Ar : arith) r ratio : (target_rank Ar r ratio <= r)%N /\ ((0 < r)%N -> (0 < target_rank Ar r ratio)%N).
Proof.
rewrite /target_rank; set t := to_round _ _.
have le : forall a b : nat, (a <= b)%coq_nat -> (a <= b)%N by move=> a b H; apply/ssrnat.leP.
split; [|move=> /ssrnat.ltP r0]; apply: le; Lia.lia.
Qed.

(** [truncate_rank] succeeds on a matrix that has more columns than rows or than the target rank.  The
    result [B] has at most the target rank.  It is the orthogonal projection of [A]'s rows on a subspace:
    what is cut off, [A - B], is orthogonal to what is kept.  And unless the random draw loses a
    dimension, a matrix of at most the target rank is returned unchanged. *)
Theorem C78_truncate_rank_partial : forall (F : realFieldType) qr svd randn, @is_qr F qr -> @is_svd F svd ->
  forall Ar m n (A : 'M[F]_(m, n)) ratio,
  let q := target_rank Ar (minn m n) ratio in
  (m < n)%N \/ (q < n)%N ->
  exists B : 'M[F]_(m, n),
    truncate_rank qr svd randn (Mat A) ratio = Ok (Mat B) /\
    (\rank B <= q)%N /\
    (A - B) *m B^T = 0 /\ B *m B^T + (A - B) *m (A - B)^T = A *m A^T /\
    (\rank (A^T *m randn m q) = \rank A -> B = A).
Proof.
move=> F qr svd randn QR SVD Ar m n A ratio q cond.
have [qmn _] := target_rank_range (minn m n) ratio.
have qm : (q <= m)%N by apply: leq_trans qmn (geq_minl m n).
have qn : (q <= n)%N by apply: leq_trans qmn (geq_minr m n).
have [|[[u s] vt] [E V]] := @svd_value F qr svd randn SVD m n A q qm; first by apply/orP.
set Q := approximate_basis _ _ _ _ in V.
have O : Q^T *m Q = 1%:M by apply: basis_orthonormal.
have Bt : (A *m Q *m Q^T)^T = Q *m Q^T *m A^T by rewrite !trmx_mul trmxK mulmxA.
have ABt : A *m (A *m Q *m Q^T)^T = A *m Q *m Q^T *m A^T by rewrite Bt !mulmxA.
have BBt : A *m Q *m Q^T *m (A *m Q *m Q^T)^T = A *m Q *m Q^T *m A^T.
  by rewrite Bt !mulmxA -(mulmxA (A *m Q) Q^T Q) O mulmx1.
exists (A *m Q *m Q^T); split; [|split; [|split; [|split]]].
- by rewrite /truncate_rank -/q E /=; rewrite /= in V; rewrite V.
- by apply: leq_trans (mxrankM_maxr _ _) (rank_leq_row _).
- by rewrite mulmxBl ABt BBt subrr.
- rewrite linearB /= mulmxBl !mulmxBr ABt BBt.
  have -> : A *m Q *m Q^T *m A^T - A *m Q *m Q^T *m A^T = 0 by rewrite subrr.
  by rewrite subr0 addrC subrK.
- by move=> H; apply: kept_value.
Qed.
(** tensors of less than two dimensions are returned as they are *)
Theorem C78_small (F : fieldType) qr svd randn Ar v ratio :
  @truncate_rank F qr svd randn Ar (Low v) ratio = Ok (Low v).
Proof. by []. Qed.

(** But keeping the full rank, which should keep the matrix, raises for every matrix that has at least
    as many rows as columns. *)
Theorem C78_truncate_rank_refuted : forall (F : fieldType) qr svd randn m n (A : 'M[F]_(m, n)),
  (0 < n)%N -> (n <= m)%N -> @truncate_rank F qr svd randn exact (Mat A) (Rdefinitions.IZR 1) = Err AssertionError.
Proof.
move=> F qr svd randn m n A n0 nm; rewrite /truncate_rank.
have -> : target_rank exact (minn m n) (Rdefinitions.IZR 1) = n.
  by rewrite (minn_idPr nm); apply: full_rank; apply/ssrnat.leP.
by rewrite /svd_lowrank ltnNge nm ltnn.
Qed.

(** ** Such factorisations exist over the real numbers, or any real closed field *)
Section Exists.
Variable F : rcfType.
Lemma unit_vector m (w : 'cV[F]_m) : w != 0 -> exists k, k != 0 /\ (k *: w)^T *m (k *: w) = 1%:M.
Proof.
move=> w0; set t := (w^T *m w) 0 0.
have E : w^T *m w = t%:M by apply/matrixP=> i j; rewrite !ord1 [RHS]mxE eqxx mulr1n.
have t0 : 0 < t.
  rewrite lt0r; apply/andP; split.
    apply: contra w0 => /eqP t0; apply/eqP; apply: trmx_inj; rewrite trmx0; apply: gram_zero.
    by rewrite trmxK E t0 -scalemx1 scale0r.
  by rewrite /t mxE sumr_ge0 // => k _; rewrite mxE -expr2 sqr_ge0.
exists (Num.sqrt t)^-1; split; first by rewrite invr_eq0 sqrtr_eq0 -ltNge.
have -> : (Num.sqrt t)^-1 *: w = (Num.sqrt t)^-1 *: w by [].
have T : ((Num.sqrt t)^-1 *: w)^T = (Num.sqrt t)^-1 *: w^T by apply/matrixP=> i j; rewrite !mxE.
rewrite T -scalemxAl -scalemxAr scalerA E -invfM -expr2 sqr_sqrtr ?(ltW t0) //.
by rewrite -scalemx1 scalerA mulVf ?scale1r // gt_eqF.
Qed.
Lemma qr_exists m n (A : 'M[F]_(m, n)) : (n <= m)%N -> exists Q : 'M[F]_(m, n), orthonormal Q /\ exists r : 'M_n, A = Q *m r.
Proof.
elim: n A => [|n IH] A nm.
  by exists A; split; [apply/matrixP=> -[]|exists 1%:M; rewrite mulmx1].
have [Q' [O' [r' E']]] := IH (rsubmx (A : 'M_(m, 1 + n))) (ltnW nm).
set c := lsubmx (A : 'M_(m, 1 + n)).
set d := c - Q' *m (Q'^T *m c).
have Qd : Q'^T *m d = 0 by rewrite mulmxBr (mulmxA Q'^T) O' mul1mx subrr.
have [w [w0 [Qw [s Es]]]] : exists w : 'cV[F]_m, w != 0 /\ Q'^T *m w = 0 /\ exists s, d = s *: w.
  have [d0|d0] := eqVneq d 0; last by exists d; split=> //; split=> //; exists 1; rewrite scale1r.
  have : kermx Q' != 0.
    rewrite -mxrank_eq0 mxrank_ker subn_eq0 -ltnNge.
    by apply: leq_ltn_trans (rank_leq_col _) nm.
  case/rowV0Pn=> v /sub_kermxP vQ v0; exists v^T; split; last split.
  - by apply: contra v0 => /eqP H; apply/eqP; apply: trmx_inj; rewrite H trmx0.
  - by rewrite -trmx_mul vQ trmx0.
  - by exists 0; rewrite scale0r.
have [k [k0 U]] := unit_vector w0; set u := k *: w in U.
exists (row_mx u Q' : 'M_(m, 1 + n)); split.
  change ((row_mx u Q')^T *m row_mx u Q' = 1%:M :> 'M_(1 + n)).
  rewrite tr_row_mx mul_col_row U O' [RHS]scalar_mx_block; congr (block_mx _ _ _ _).
    by apply: trmx_inj; rewrite trmx_mul trmxK -scalemxAr Qw scaler0 trmx0.
  by rewrite -scalemxAr Qw scaler0.
exists (block_mx (s / k)%:M 0 (Q'^T *m c) r' : 'M_(1 + n)).
change (A = row_mx u Q' *m block_mx (s / k)%:M 0 (Q'^T *m c) r' :> 'M_(m, 1 + n)).
rewrite mul_row_block mulmx0 add0r -E'; apply: etrans (esym (hsubmxK _)) _; rewrite -/c; congr (row_mx _ _).
rewrite mul_mx_scalar scalerA divfK // -Es /d addrNK //.
Qed.
Definition good_qr m n (A Q : 'M[F]_(m, n)) : bool := (n <= m)%N ==> (Q^T *m Q == 1%:M) && (A^T <= Q^T)%MS.
Lemma good_qr_exists m n (A : 'M[F]_(m, n)) : exists Q, good_qr A Q.
Proof.
rewrite /good_qr; case: (leqP n m) => nm /=; last by exists A.
have [Q [O [r E]]] := qr_exists A nm; exists Q; rewrite O eqxx /=.
by rewrite E trmx_mul submxMl.
Qed.
Definition some_qr m n (A : 'M[F]_(m, n)) : 'M[F]_(m, n) := xchoose (good_qr_exists A).
Lemma some_qr_ok : is_qr some_qr.
Proof.
move=> m n A nm; have : good_qr A (some_qr A) by apply: xchooseP.
rewrite /good_qr nm /=; case/andP=> /eqP O /submxP[D E]; split=> //; exists D^T.
by apply: trmx_inj; rewrite E trmx_mul trmxK.
Qed.
Definition some_svd m n (A : 'M[F]_(m, n)) : 'M[F]_(m, n) * 'rV[F]_n * 'M[F]_n := (A, const_mx 1, 1%:M).
Lemma some_svd_ok : is_svd some_svd.
Proof. by move=> m n A _; rewrite /= diag_const_mx !mulmx1. Qed.

(** a two by three matrix of ones has rank 1 and is kept by rank 1 *)
Lemma ones_rank m n (x : F) : (0 < m)%N -> (0 < n)%N -> x != 0 -> \rank (const_mx x : 'M_(m, n)) = 1%N.
Proof.
move=> m0 n0 x0; apply/eqP; rewrite eqn_leq; apply/andP; split.
  have -> : (const_mx x : 'M_(m, n)) = (const_mx x : 'cV_m) *m (const_mx 1 : 'rV_n).
    by apply/matrixP=> i j; rewrite !mxE big_ord1 !mxE mulr1.
  by apply: leq_trans (mxrankM_maxl _ _) (rank_leq_col _).
rewrite lt0n mxrank_eq0; apply: contra x0 => /eqP/matrixP/(_ (Ordinal m0) (Ordinal n0)).
by rewrite !mxE => /eqP.
Qed.
Example C78_case : truncate_rank some_qr some_svd (fun m n => const_mx 1) (Ar := exact) (Mat (const_mx 1 : 'M[F]_(2, 3))) (Rdefinitions.IZR 0)
  = Ok (Mat (const_mx 1 : 'M[F]_(2, 3))).
Proof.
have q1 : target_rank exact (minn 2 3) (Rdefinitions.IZR 0) = 1%N by apply: zero_ratio.
have [|B [E [_ [_ [_ K]]]]] := @C78_truncate_rank_partial F some_qr some_svd (fun m n => const_mx 1) some_qr_ok some_svd_ok exact 2 3 (const_mx 1) (Rdefinitions.IZR 0).
  by left.
rewrite E K // q1 ones_rank ?oner_eq0 // (_ : _ *m _ = const_mx 2%:R); last first.
  by apply/matrixP=> i j; rewrite !mxE !big_ord_recl big_ord0 !mxE mulr1 addr0.
by rewrite ones_rank ?pnatr_eq0.
Qed.
End Exists.
Print Assumptions C78_truncate_rank_partial.
Print Assumptions C78_truncate_rank_refuted.
