(** C83: orthogonal_procrustes gives the orthogonal matrix that brings a closest to b. *)
From Verif Require Import Base ModelRank ModelProcrustes.
From mathcomp Require Import all_ssreflect all_algebra.
Set Implicit Arguments.
Unset Strict Implicit.
Unset Printing Implicit Defensive.
Import Order.TTheory GRing.Theory Num.Theory.
Local Open Scope ring_scope.

(** ** Distance, orthogonal matrices, rotations, and what torch's decomposition gives *)
Definition dist2 (F : realFieldType) m n (x y : 'M[F]_(m, n)) : F := \sum_i \sum_j (x i j - y i j) ^+ 2.
Definition orthogonal (F : realFieldType) n (T : 'M[F]_n) : Prop := T^T *m T = 1%:M.
Definition rotation (F : realFieldType) n (T : 'M[F]_n) : Prop := orthogonal T /\ \det T = 1.
Definition is_svd_full (F : realFieldType) n (A : 'M[F]_n) (d : 'M[F]_n * 'rV[F]_n * 'M[F]_n) : Prop :=
  let '(U, s, V) := d in
    orthogonal U /\ orthogonal V /\ U *m diag_mx s *m V = A /\
    (forall i, 0 <= s 0 i) /\ (forall i j : 'I_n, (i <= j)%N -> s 0 j <= s 0 i).

Section Trace.
Variable F : realFieldType.
Lemma frob m n (X : 'M[F]_(m, n)) : \tr (X^T *m X) = \sum_i \sum_j X i j ^+ 2.
Proof.
rewrite /mxtrace exchange_big /=; apply: eq_bigr => j _; rewrite mxE.
by apply: eq_bigr => i _; rewrite mxE expr2.
Qed.
Lemma frob_ge0 m n (X : 'M[F]_(m, n)) : 0 <= \tr (X^T *m X).
Proof. by rewrite frob; apply: sumr_ge0 => i _; apply: sumr_ge0 => j _; apply: sqr_ge0. Qed.
Lemma dist2E m n (x y : 'M[F]_(m, n)) : dist2 x y = \tr ((x - y)^T *m (x - y)).
Proof. by rewrite frob /dist2; apply: eq_bigr => i _; apply: eq_bigr => j _; rewrite !mxE. Qed.
Lemma trace_CS m n (X Y : 'M[F]_(m, n)) : \tr (X^T *m Y) *+ 2 <= \tr (X^T *m X) + \tr (Y^T *m Y).
Proof.
have := frob_ge0 (X - Y).
have -> : (X - Y)^T = X^T - Y^T by rewrite linearB.
rewrite mulmxBl !mulmxBr !(raddfB (@mxtrace_additive F n)) /=.
have -> : \tr (Y^T *m X) = \tr (X^T *m Y) by rewrite -mxtrace_tr trmx_mul trmxK.
set x := \tr _; set y := \tr _; set z := \tr _ => H.
by rewrite -subr_ge0 mulr2n; have <- : x - y - (y - z) = x + z - (y + y) by rewrite opprB addrACA -opprD.
Qed.
Lemma orthogonal_tr n (T : 'M[F]_n) : orthogonal T -> T *m T^T = 1%:M.
Proof. by move=> H; apply: mulmx1C. Qed.
Lemma orthogonal_trmx n (T : 'M[F]_n) : orthogonal T -> orthogonal T^T.
Proof. by move=> H; rewrite /orthogonal trmxK; apply: orthogonal_tr. Qed.
Lemma orthogonal_mul n (S T : 'M[F]_n) : orthogonal S -> orthogonal T -> orthogonal (S *m T).
Proof. by move=> HS HT; rewrite /orthogonal trmx_mul -mulmxA (mulmxA S^T) HS mul1mx HT. Qed.
Lemma orthogonal_det n (T : 'M[F]_n) : orthogonal T -> \det T ^+ 2 = 1.
Proof. by move=> H; rewrite expr2 -{1}det_tr -det_mulmx H det1. Qed.
Lemma orthogonal_entry n (T : 'M[F]_n) i j : orthogonal T -> T i j <= 1.
Proof.
move=> /matrixP/(_ j j); rewrite !mxE eqxx (bigD1 i) //= mxE => H.
have : T i j ^+ 2 <= 1.
  rewrite -[X in _ <= X]/(true%:R) -H -expr2 ler_addl; apply: sumr_ge0 => k _; rewrite mxE -expr2; exact: sqr_ge0.
case: (lerP (T i j) 1) => // Z.
have Z0 : 0 <= T i j by apply/ltW/(lt_trans ltr01 Z).
by rewrite -[X in _ <= X -> _](expr1n _ 2) ler_sqr ?nnegrE ?ler01 // leNgt Z.
Qed.

(** a reflection has trace at most n - 2 *)
Lemma reflection_trace n (Z : 'M[F]_n) : orthogonal Z -> \det Z = -1 -> \tr Z <= n%:R - 2%:R.
Proof.
move=> OZ dZ.
have D0 : \det (Z + 1%:M) = 0.
  have E : \det (Z + 1%:M) = - \det (Z + 1%:M).
    rewrite -{1}(orthogonal_tr OZ) -{1}[Z]mulmx1 -mulmxDr det_mulmx dZ mulN1r.
    by rewrite -[in LHS]det_tr linearD /= trmxK trmx1 addrC.
  by move/eqP: E; rewrite -addr_eq0 -mulr2n mulrn_eq0 /= => /eqP.
have [v v0 Hv] : exists2 v : 'rV_n, v != 0 & v *m (Z + 1%:M) = 0 by apply/det0P; rewrite D0.
have vZ : v *m Z = - v by apply/eqP; rewrite -subr_eq0 opprK; move: Hv; rewrite mulmxDr mulmx1 => ->.
set c := (v *m v^T) 0 0.
have c0 : c != 0.
  apply: contra v0 => /eqP H; apply/eqP/matrixP => i j; rewrite ord1 mxE.
  move: H; rewrite /c mxE => /eqP; rewrite psumr_eq0 => [|k _]; last by rewrite mxE -expr2 sqr_ge0.
  by move=> /allP/(_ j (mem_index_enum j)); rewrite mxE -expr2 sqrf_eq0 => /eqP.
have vv : v *m v^T = c%:M by apply/matrixP => i j; rewrite !ord1 [RHS]mxE eqxx mulr1n.
pose P : 'M[F]_n := c^-1 *: (v^T *m v).
have PT : P^T = P by rewrite /P linearZ /= trmx_mul trmxK.
have PP : P *m P = P.
  rewrite /P -scalemxAl -scalemxAr scalerA mulmxA -(mulmxA v^T) vv mul_mx_scalar -scalemxAl scalerA.
  by rewrite -mulrA mulVf // mulr1.
have trP : \tr P = 1.
  by rewrite /P mxtraceZ mxtrace_mulC vv /mxtrace big_ord1 !mxE eqxx mulr1n mulVf.
have trPZ : \tr (P *m Z) = -1.
  by rewrite /P -scalemxAl -mulmxA vZ mulmxN scalerN linearN /= -/P trP.
pose Q : 'M[F]_n := 1%:M - P.
have QT : Q^T = Q by rewrite /Q linearB /= trmx1 PT.
have QQ : Q *m Q = Q by rewrite /Q mulmxBl mul1mx mulmxBr mulmx1 PP subrr subr0.
have trQ : \tr Q = n%:R - 1 by rewrite /Q linearB /= mxtrace1 trP.
have trQZ : \tr (Q *m Z) <= n%:R - 1.
  have := trace_CS Q (Z *m Q).
  rewrite trmx_mul !QT mulmxA mxtrace_mulC !mulmxA QQ.
  rewrite -(mulmxA _ Z^T) OZ mulmx1 QQ trQ -mulr2n.
  by rewrite ler_muln2r.
have -> : Z = P *m Z + Q *m Z by rewrite -mulmxDl /Q addrC subrK mul1mx.
rewrite linearD /= trPZ addrC -[2%:R]/(1 + 1) opprD addrA ler_add2r //.
Qed.

(** the trace that decides *)
Lemma trace_diag n (Z : 'M[F]_n) s : \tr (Z *m diag_mx s) = \sum_i Z i i * s 0 i.
Proof. by rewrite /mxtrace; apply: eq_bigr => i _; rewrite mul_mx_diag mxE. Qed.
Lemma trace_le n (Z : 'M[F]_n) (s : 'rV[F]_n) : orthogonal Z -> (forall i, 0 <= s 0 i) -> \tr (Z *m diag_mx s) <= \sum_i s 0 i.
Proof.
move=> OZ s0; rewrite trace_diag; apply: ler_sum => i _.
by rewrite -[X in _ <= X]mul1r; apply: ler_wpmul2r => //; apply: orthogonal_entry.
Qed.
Lemma trace_le_reflection n (Z : 'M[F]_n.+1) (s : 'rV[F]_n.+1) : orthogonal Z -> \det Z = -1 ->
  (forall i j : 'I_n.+1, (i <= j)%N -> s 0 j <= s 0 i) -> (forall i, 0 <= s 0 i) ->
  \tr (Z *m diag_mx s) <= \sum_i s 0 i - s 0 ord_max *+ 2.
Proof.
move=> OZ dZ so s0; rewrite trace_diag.
have -> : \sum_i Z i i * s 0 i = \sum_i Z i i * (s 0 i - s 0 ord_max) + \tr Z * s 0 ord_max.
  rewrite /mxtrace mulr_suml -big_split /=; apply: eq_bigr => i _; by rewrite mulrBr subrK.
have H1 : \sum_i Z i i * (s 0 i - s 0 ord_max) <= \sum_i (s 0 i - s 0 ord_max).
  apply: ler_sum => i _; rewrite -[X in _ <= X]mul1r; apply: ler_wpmul2r; last exact: orthogonal_entry.
  by rewrite subr_ge0; apply: so; rewrite -ltnS.
have H2 : \tr Z * s 0 ord_max <= (n.+1%:R - 2%:R) * s 0 ord_max.
  by apply: ler_wpmul2r => //; apply: reflection_trace.
apply: (le_trans (ler_add H1 H2)).
rewrite sumrB sumr_const card_ord mulrBl !mulr_natl addrA subrK //.
Qed.
End Trace.

Section Best.
Variable F : realFieldType.
(** for orthogonal matrices, closer means a larger trace *)
Lemma dist2_orthogonal m n (a b : 'M[F]_(m, n)) (T : 'M[F]_n) : orthogonal T ->
  dist2 (a *m T) b = \tr (a^T *m a) + \tr (b^T *m b) - \tr (T^T *m (a^T *m b)) *+ 2.
Proof.
move=> OT; rewrite dist2E.
have -> : (a *m T - b)^T = (a *m T)^T - b^T by rewrite linearB.
rewrite mulmxBl !mulmxBr !(raddfB (@mxtrace_additive F n)) /=.
have -> : \tr (b^T *m (a *m T)) = \tr ((a *m T)^T *m b) by rewrite -mxtrace_tr trmx_mul trmxK.
rewrite trmx_mul -[T^T *m a^T *m b]mulmxA.
have -> : \tr (T^T *m a^T *m (a *m T)) = \tr (a^T *m a).
  by rewrite mxtrace_mulC -mulmxA (mulmxA T) (orthogonal_tr OT) mul1mx mxtrace_mulC.
by rewrite opprB addrACA -opprD -mulr2n.
Qed.
Lemma closer m n (a b : 'M[F]_(m, n)) (R T : 'M[F]_n) : orthogonal R -> orthogonal T ->
  \tr (T^T *m (a^T *m b)) <= \tr (R^T *m (a^T *m b)) -> dist2 (a *m R) b <= dist2 (a *m T) b.
Proof. by move=> OR OT H; rewrite !dist2_orthogonal // ler_add2l ler_opp2 ler_muln2r. Qed.

(** the factor of the last column *)
Definition flip n (e : F) : 'M[F]_n.+1 := diag_mx (\row_j (if j == ord_max then e else 1)).
Lemma divide_lastE n (u : 'M[F]_n.+1) c : divide_last u c = u *m flip n c^-1.
Proof.
apply/matrixP => i j; rewrite mul_mx_diag !mxE; case: eqP => // _; by rewrite mulr1.
Qed.
Lemma flip_det n e : \det (flip n e) = e.
Proof.
rewrite det_diag (bigD1 ord_max) //= mxE eqxx big1 ?mulr1 // => i /negbTE H; by rewrite mxE H.
Qed.
Lemma flip_orthogonal n e : e ^+ 2 = 1 -> orthogonal (flip n e).
Proof.
move=> H; rewrite /orthogonal /flip tr_diag_mx; apply/matrixP => i j; rewrite mul_diag_mx !mxE.
case: (i =P j) => [->|]; last by rewrite !mulr0n mulr0.
by rewrite !mulr1n; case: eqP => _; rewrite ?mulr1 // -expr2.
Qed.
Lemma flip_trace n e (s : 'rV[F]_n.+1) : \tr (flip n e *m diag_mx s) = \sum_i s 0 i - (1 - e) * s 0 ord_max.
Proof.
rewrite trace_diag (bigD1 ord_max) //= [in RHS](bigD1 ord_max) //= !mxE !eqxx mulr1n.
rewrite (eq_bigr (fun i => s 0 i)) => [|i /negbTE H]; last by rewrite !mxE eqxx H mulr1n mul1r.
by rewrite mulrBl mul1r opprB [X in _ = X + _]addrC addrACA subrr addr0 addrC.
Qed.
Lemma sign_det n (T : 'M[F]_n) : orthogonal T -> slogdet_sign T = \det T /\ (\det T = 1 \/ \det T = -1).
Proof.
move=> OT; rewrite /slogdet_sign.
have /eqP := orthogonal_det OT; rewrite sqrf_eq1 => /orP[/eqP H|/eqP H]; rewrite H; split; auto.
- exact: sgr1.
- by rewrite sgrN sgr1.
Qed.

Variable svd_full : forall n, 'M[F]_n -> 'M[F]_n * 'rV[F]_n * 'M[F]_n.
Variable qr : forall m n, 'M[F]_(m, n) -> 'M[F]_(m, n).
Variable svd : forall m n, 'M[F]_(m, n) -> 'M[F]_(m, n) * 'rV[F]_n * 'M[F]_n.
Variable randn : forall m n, 'M[F]_(m, n).
Let procrustes := orthogonal_procrustes svd_full qr svd randn.

Lemma best m n (a b : 'M[F]_(m, n.+1)) : is_svd_full (a^T *m b) (svd_full (a^T *m b)) ->
  (n.+1 <= m + 10)%N -> exists R, procrustes a b false = Ok R /\ orthogonal R /\
    forall T, orthogonal T -> dist2 (a *m R) b <= dist2 (a *m T) b.
Proof.
move=> SVD mn; rewrite /procrustes /orthogonal_procrustes ltnNge mn /=.
move: SVD; case E : (svd_full (a^T *m b)) => [[u s] v] [OU [OV [EM [s0 so]]]].
exists (u *m v); split=> //; have OR : orthogonal (u *m v) by apply: orthogonal_mul.
split=> // T OT; apply: closer => //; rewrite -EM.
have -> : (u *m v)^T *m (u *m diag_mx s *m v) = v^T *m (diag_mx s *m v).
  by rewrite trmx_mul -!mulmxA (mulmxA u^T) OU mul1mx.
have -> : \tr (v^T *m (diag_mx s *m v)) = \sum_i s 0 i.
  by rewrite mxtrace_mulC -mulmxA (orthogonal_tr OV) mulmx1 mxtrace_diag.
have -> : \tr (T^T *m (u *m diag_mx s *m v)) = \tr ((v *m T^T *m u) *m diag_mx s).
  by rewrite mulmxA mxtrace_mulC !mulmxA.
by apply: trace_le => //; do ![apply: orthogonal_mul] => //; apply: orthogonal_trmx.
Qed.
Lemma best_rotation m n (a b : 'M[F]_(m, n.+1)) : is_svd_full (a^T *m b) (svd_full (a^T *m b)) ->
  exists R, procrustes a b true = Ok R /\ rotation R /\
    forall T, rotation T -> dist2 (a *m R) b <= dist2 (a *m T) b.
Proof.
move=> SVD; rewrite /procrustes /orthogonal_procrustes /=.
move: SVD; case E : (svd_full (a^T *m b)) => [[u s] v] [OU [OV [EM [s0 so]]]].
have [SU DU] := sign_det OU; have [SV DV] := sign_det OV; rewrite SU SV.
set e := (\det u * \det v)^-1.
have e2 : e ^+ 2 = 1 by rewrite /e exprVn exprMn !orthogonal_det // mulr1 invr1.
have eE : e = \det u * \det v.
  by rewrite /e; case: DU => ->; case: DV => ->; rewrite ?mulr1 ?mul1r ?mulrN1 ?opprK ?invrN ?invr1.
exists (divide_last u (\det u * \det v) *m v); split=> //; rewrite divide_lastE -/e.
set D := flip n e; have OD : orthogonal D by apply: flip_orthogonal.
have OR : orthogonal (u *m D *m v) by do 2![apply: orthogonal_mul => //].
split.
  split=> //; rewrite !det_mulmx flip_det eE !mulrA -expr2 -mulrA -expr2.
  by rewrite !orthogonal_det // mulr1.
move=> T [OT dT]; apply: closer => //; rewrite -EM.
have -> : \tr ((u *m D *m v)^T *m (u *m diag_mx s *m v)) = \tr (D *m diag_mx s).
  rewrite !trmx_mul -!mulmxA (mulmxA u^T) OU mul1mx mxtrace_mulC -!mulmxA (orthogonal_tr OV) mulmx1.
  by rewrite /D /flip tr_diag_mx.
have -> : \tr (T^T *m (u *m diag_mx s *m v)) = \tr ((v *m T^T *m u) *m diag_mx s).
  by rewrite mulmxA mxtrace_mulC !mulmxA.
have OZ : orthogonal (v *m T^T *m u) by do ![apply: orthogonal_mul] => //; apply: orthogonal_trmx.
have dZ : \det (v *m T^T *m u) = e by rewrite !det_mulmx det_tr dT mulr1 mulrC eE.
rewrite /D flip_trace.
have : e = 1 \/ e = -1 by rewrite eE; case: DU => ->; case: DV => ->; rewrite ?mulr1 ?mul1r ?mulrN1 ?opprK; auto.
case=> E1; rewrite E1 in dZ *.
- by rewrite subrr mul0r subr0; apply: trace_le.
- by rewrite opprK -[1 + 1]/(2%:R) mulr_natl; apply: trace_le_reflection.
Qed.
(** a wide matrix *)
Lemma wide m n (a b : 'M[F]_(m, n.+1)) R : (m + 10 < n.+1)%N -> procrustes a b false = Ok R -> (\rank R <= m + 10)%N.
Proof.
move=> mn; rewrite /procrustes /orthogonal_procrustes mn /= /svd_lowrank mn orbT.
case: (svd _) => -[U s] Vh [<-]; apply: leq_trans (mxrankM_maxl _ _) _; exact: rank_leq_col.
Qed.
End Best.

(** orthogonal_procrustes(a, b) is an orthogonal matrix, and no orthogonal matrix brings a closer to b, as
    long as there are at most ten more columns than rows; *)
Theorem C83_procrustes_partial : forall (F : realFieldType) svd_full qr svd randn m n (a b : 'M[F]_(m, n.+1)),
  is_svd_full (a^T *m b) (svd_full n.+1 (a^T *m b)) -> (n.+1 <= m + 10)%N ->
  exists R, orthogonal_procrustes svd_full qr svd randn a b false = Ok R /\ orthogonal R /\
    forall T, orthogonal T -> dist2 (a *m R) b <= dist2 (a *m T) b.
Proof. move=> F svd_full qr svd randn m n a b SVD mn; exact: best. Qed.
(** with cancel_reflection it is a rotation, for any number of columns, and no rotation is better; *)
Theorem C83_rotation : forall (F : realFieldType) svd_full qr svd randn m n (a b : 'M[F]_(m, n.+1)),
  is_svd_full (a^T *m b) (svd_full n.+1 (a^T *m b)) ->
  exists R, orthogonal_procrustes svd_full qr svd randn a b true = Ok R /\ rotation R /\
    forall T, rotation T -> dist2 (a *m R) b <= dist2 (a *m T) b.
Proof. move=> F svd_full qr svd randn m n a b SVD; exact: best_rotation. Qed.
(** but for wider matrices, without cancel_reflection, it is never orthogonal. *)
Theorem C83_procrustes_refuted : forall (F : realFieldType) svd_full qr svd randn m n (a b : 'M[F]_(m, n.+1)) R, (m + 10 < n.+1)%N ->
  orthogonal_procrustes svd_full qr svd randn a b false = Ok R -> ~ orthogonal R.
Proof.
move=> F svd_full qr svd randn m n a b R mn E O.
have := wide mn E; rewrite leqNgt; apply/negP/negPn.
suff -> : \rank R = n.+1 by [].
by apply/eqP; rewrite -[_ == _]/(row_full R) row_full_unit unitmxE; have /eqP := orthogonal_det O; rewrite sqrf_eq1 => /orP[]/eqP ->; rewrite ?unitrN unitr1.
Qed.

(** Powers: 1 gives the matrix, 0 the identity, and exponents add up, for matrices that torch.linalg.eig
    diagonalises. *)
Theorem C83_power : forall (F : fieldType) (E : Type) (one zero : E) (add : E -> E -> E) pow eig n (A : 'M[F]_n),
  let '(l, V) := eig n A in
  V \in unitmx -> A = V *m diag_mx l *m invmx V ->
  (forall x, pow x one = x) -> (forall x, pow x zero = 1) -> (forall x p q, pow x (add p q) = pow x p * pow x q) ->
  let power := @fractional_matrix_power F E eig pow n A in
  power one = A /\ power zero = 1%:M /\ forall p q, power (add p q) = power p *m power q.
Proof.
move=> F E one zero add pow eig n A; rewrite /fractional_matrix_power; case: (eig n A) => l V uV EA p1 p0 pD /=.
split; [|split].
- by rewrite [RHS]EA; congr (_ *m diag_mx _ *m _); apply/matrixP => i j; rewrite mxE p1.
- have -> : map_mx (pow^~ zero) l = const_mx 1 by apply/matrixP => i j; rewrite !mxE p0.
  by rewrite diag_const_mx mulmx1 mulmxV.
- move=> p q; rewrite !mulmxA mulmxKV // -[X in _ = X *m _]mulmxA mulmx_diag; congr (_ *m diag_mx _ *m _).
  by apply/matrixP => i j; rewrite !mxE pD ord1.
Qed.

(** ** A case: turning the plane by a quarter, which a decomposition by hand gives back *)
Section Case.
Definition svd_case n (A : 'M[rat]_n) : 'M[rat]_n * 'rV[rat]_n * 'M[rat]_n := (A, const_mx 1, 1%:M).
Lemma svd_orthogonal n (A : 'M[rat]_n) : orthogonal A -> is_svd_full A (svd_case A).
Proof.
move=> H; split=> //; split; first by rewrite /orthogonal trmx1 mulmx1.
by rewrite diag_const_mx !mulmx1; split=> //; split=> [i|i j _]; rewrite !mxE.
Qed.
Definition quarter : 'M[rat]_2 := \matrix_(i, j) (if (i == 0) && (j == 1) then 1 else if (i == 1) && (j == 0) then -1 else 0).
Lemma quarter_orthogonal : orthogonal quarter.
Proof. by apply/matrixP => i j; rewrite !mxE !big_ord_recl big_ord0 !mxE; case: i => [[|[|//]] ?]; case: j => [[|[|//]] ?]. Qed.
Example C83_case : is_svd_full (1%:M^T *m quarter) (svd_case (1%:M^T *m quarter)) /\ rotation quarter /\ dist2 (1%:M *m quarter) quarter = 0 /\ dist2 (1%:M : 'M[rat]_2) quarter = 4%:R.
Proof.
rewrite trmx1 mul1mx; split; first exact: svd_orthogonal quarter_orthogonal.
split; [split; [exact: quarter_orthogonal|]|split].
- by rewrite (expand_det_row _ ord0) !big_ord_recl big_ord0 /cofactor !det_mx11 !mxE.
- by rewrite /dist2 big1 // => i _; rewrite big1 // => j _; rewrite subrr expr0n.
- by rewrite /dist2 !big_ord_recl !big_ord0 !mxE.
Qed.
End Case.

Print Assumptions C83_procrustes_partial.
Print Assumptions C83_rotation.
Print Assumptions C83_procrustes_refuted.
Print Assumptions C83_power.
