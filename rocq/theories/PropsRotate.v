(** C84: rotate turns the neurons of a towards those of b. *)
From Verif Require Import Base ModelRank ModelProcrustes ModelRotate PropsProcrustes.
From mathcomp Require Import all_ssreflect all_algebra.
Set Implicit Arguments.
Unset Strict Implicit.
Unset Printing Implicit Defensive.
Import Order.TTheory GRing.Theory Num.Theory.
Local Open Scope ring_scope.

(** What a merge passes: the parameters are declared as tensors.  It raises on every input. *)
Theorem C84_rotate_refuted : forall (F : realFieldType) svd_full qr svd randn isclose round allclose_half power m n (A B : 'M[F]_(m.+1, n.+1)) alignment alpha,
  rotate svd_full qr svd randn isclose round allclose_half power (AsTensor A) (AsTensor B) alignment alpha = Err TypeError.
Proof. by move=> *; rewrite /rotate /=; do 2![case: ifP => // _]. Qed.

Section Dicts.
Variable F : realFieldType.
Variable svd_full : forall n, 'M[F]_n -> 'M[F]_n * 'rV[F]_n * 'M[F]_n.
Variable qr : forall m n, 'M[F]_(m, n) -> 'M[F]_(m, n).
Variable svd : forall m n, 'M[F]_(m, n) -> 'M[F]_(m, n) * 'rV[F]_n * 'M[F]_n.
Variable randn : forall m n, 'M[F]_(m, n).
Variable isclose : F -> F -> bool.
Variable round : F -> nat.
Variable allclose_half : forall m n, 'M[F]_(m, n) -> 'M[F]_(m, n) -> bool.
Variable power : forall n, 'M[F]_n -> F -> 'M[F]_n.
Let rot m n (A B : 'M[F]_(m.+1, n.+1)) := rotate svd_full qr svd randn isclose round allclose_half power (AsDict A) (AsDict B).

Lemma rot_ends m n (A B : 'M[F]_(m.+1, n.+1)) : isclose 0 0 -> isclose 1 1 -> isclose 1 0 = false ->
  rot A B 0 0 = Ok A /\ rot A B 1 1 = Ok B.
Proof. by move=> c00 c11 c10; rewrite /rot /rotate c00 c11 c10. Qed.
Lemma rot_one m n (A B : 'M[F]_(m.+1, n.+1)) : isclose 0 0 -> isclose 1 1 -> isclose 1 0 = false -> isclose 0 1 = false -> round 1 = 1%N ->
  (forall R : 'M[F]_n.+1, power R 1 = R) -> allclose_half A B = false ->
  let A' := A - spread _ (centroid A) in let B' := B - spread _ (centroid B) in
  is_svd_full (A'^T *m B') (svd_full (A'^T *m B')) ->
  exists R, rotation R /\ rot A B 1 0 = Ok (A' *m R + spread _ (centroid B)) /\
    forall T, rotation T -> dist2 (A' *m R + spread _ (centroid B)) B <= dist2 (A' *m T + spread _ (centroid B)) B.
Proof.
move=> c00 c11 c10 c01 r1 p1 ac A' B' SVD; rewrite /rot /rotate c10 c11 c01 /= ac r1 c11 c00 -/A' -/B'.
have [R [-> [OR H]]] := best_rotation qr svd randn SVD.
exists R; split=> //; split=> /=; first by rewrite p1 subrr scale0r add0r scale1r.
have E : forall X : 'M[F]_(m.+1, n.+1), dist2 (X + spread _ (centroid B)) B = dist2 X B'.
  move=> X; apply: eq_bigr => i _; apply: eq_bigr => j _; rewrite !mxE; congr (_ ^+ 2).
  by rewrite opprB addrA.
by move=> T HT; rewrite !E; apply: H.
Qed.
Lemma rot_fraction m n (A B : 'M[F]_(m.+1, n.+1)) x : isclose 0 0 -> isclose x 0 = false -> isclose x 1 = false ->
  isclose x (round x)%:R = false -> round x = 0%N -> allclose_half A B = false -> 
  (n.+1 <= m.+1 + 10)%N ->
  rot A B x 0 = Ok (A + spread _ (x *: (centroid B - centroid A))).
Proof.
move=> c00 cx0 cx1 cr r0 ac mn; rewrite /rot /rotate cx0 cx1 /= ac cr c00 r0.
rewrite /orthogonal_procrustes ltnNge mn /=; case: (svd_full _) => -[u s] v /=.
congr Ok; rewrite mulmx1; apply/matrixP => i j; rewrite !mxE mulrBr mulrBl mul1r.
by rewrite -[LHS]addrA; congr (_ + _); rewrite addrA addKr addrC.
Qed.

(** the sum of each column *)
Lemma spread_sum m n (r : 'rV[F]_n) : const_mx 1 *m spread m.+1 r = m.+1%:R *: r :> 'rV[F]_n.
Proof.
apply/rowP => j; rewrite !mxE (eq_bigr (fun _ => r 0 j)); last by move=> k _; rewrite !mxE mul1r.
by rewrite sumr_const card_ord mulr_natl.
Qed.
Lemma centroid_sum m n (X : 'M[F]_(m.+1, n)) : const_mx 1 *m spread m.+1 (centroid X) = const_mx 1 *m X :> 'rV[F]_n.
Proof.
rewrite spread_sum; apply/rowP => j; rewrite !mxE.
rewrite mulrCA mulfV ?mulr1 ?pnatr_eq0 //; apply: eq_bigr => i _; by rewrite !mxE mul1r.
Qed.
Lemma centred m n (X : 'M[F]_(m.+1, n)) : const_mx 1 *m (X - spread _ (centroid X)) = 0 :> 'rV[F]_n.
Proof. by rewrite mulmxBr centroid_sum subrr. Qed.
Lemma spreadD m n (r q : 'rV[F]_n) : spread m (r + q) = spread m r + spread m q.
Proof. by apply/matrixP => i j; rewrite !mxE. Qed.
Lemma spreadZ m n c (r : 'rV[F]_n) : spread m (c *: r) = c *: spread m r.
Proof. by apply/matrixP => i j; rewrite !mxE. Qed.

Lemma rot_centre m n (A B R : 'M[F]_(m.+1, n.+1)) x y : isclose x 0 && isclose y 0 = false -> isclose x 1 && isclose y 1 = false ->
  allclose_half A B = false -> rot A B x y = Ok R ->
  const_mx 1 *m R = (1 - x) *: (const_mx 1 *m A) + x *: (const_mx 1 *m B) :> 'rV[F]_n.+1.
Proof.
move=> e0 e1 ac; rewrite /rot /rotate e0 e1 /= ac.
case: (orthogonal_procrustes _ _ _ _ _ _ _) => [P|e] //= [<-].
rewrite mulmxDr spreadD !spreadZ mulmxDr -!scalemxAr !centroid_sum.
set N := if isclose y 0 then _ else _; set T := if isclose x (round x)%:R then _ else _.
suff -> : const_mx 1 *m (N *m T) = 0 :> 'rV[F]_n.+1 by rewrite add0r.
rewrite mulmxA; suff -> : const_mx 1 *m N = 0 :> 'rV[F]_n.+1 by rewrite mul0mx.
rewrite /N; case: (isclose y 0); first exact: centred.
by rewrite mulmxDr -scalemxAl -!scalemxAr mulmxA !centred mul0mx !scaler0 addr0.
Qed.

Lemma dist2C m n (X Y : 'M[F]_(m, n)) : dist2 X Y = dist2 Y X.
Proof. by apply: eq_bigr => i _; apply: eq_bigr => j _; rewrite -opprB sqrrN. Qed.
Lemma dist2_turn m n (X Y : 'M[F]_(m, n)) R : orthogonal R -> dist2 (X *m R) Y = dist2 X (Y *m R^T).
Proof.
move=> O; have -> : dist2 (X *m R) Y = dist2 (X *m R) (Y *m R^T *m R) by rewrite -mulmxA O mulmx1.
rewrite !dist2E -mulmxBl trmx_mul -mulmxA mxtrace_mulC -!mulmxA (orthogonal_tr O) mulmx1 //.
Qed.
Lemma rotation_trmx n (R : 'M[F]_n) : rotation R -> rotation R^T.
Proof. by case=> O D; split; [apply: orthogonal_trmx | rewrite det_tr]. Qed.
Lemma uncentre m n (B : 'M[F]_(m.+1, n)) : B - spread _ (centroid B) + spread _ (centroid B) = B.
Proof. by rewrite subrK. Qed.

Lemma rot_blend_one m n (A B : 'M[F]_(m.+1, n.+1)) y : isclose 1 1 -> isclose 1 0 = false -> isclose y 0 = false -> isclose y 1 = false -> round 1 = 1%N ->
  (forall R : 'M[F]_n.+1, power R 1 = R) -> allclose_half A B = false ->
  let A' := A - spread _ (centroid A) in let B' := B - spread _ (centroid B) in
  is_svd_full (A'^T *m B') (svd_full (A'^T *m B')) ->
  exists R, rotation R /\ (forall T, rotation T -> dist2 (A' *m R) B' <= dist2 (A' *m T) B') /\
    rot A B 1 y = Ok ((1 - y) *: (A' *m R + spread _ (centroid B)) + y *: B).
Proof.
move=> c11 c10 cy0 cy1 r1 p1 ac A' B' SVD; rewrite /rot /rotate c10 c11 cy1 cy0 /= ac r1 c11 -/A' -/B'.
have [R [-> [OR H]]] := best_rotation qr svd randn SVD.
exists R; split=> //; split=> //=; congr Ok; rewrite p1 subrr scale0r add0r scale1r.
case: (OR) => O _; rewrite mulmxDl -!scalemxAl -mulmxA O mulmx1.
have -> : y *: B = y *: B' + y *: spread _ (centroid B) by rewrite -scalerDr uncentre.
by rewrite (scalerDr (1 - y) (A' *m R)) [RHS]addrACA; congr (_ + _); rewrite -scalerDl subrK scale1r.
Qed.
Lemma rot_blend_zero m n (A B : 'M[F]_(m.+1, n.+1)) y : isclose 0 0 -> isclose 0 1 = false -> isclose y 0 = false -> round 0 = 0%N ->
  (forall R : 'M[F]_n.+1, power R 0 = 1%:M) -> allclose_half A B = false ->
  let A' := A - spread _ (centroid A) in let B' := B - spread _ (centroid B) in
  is_svd_full (A'^T *m B') (svd_full (A'^T *m B')) ->
  exists R, rotation R /\ (forall T, rotation T -> dist2 (B' *m R) A' <= dist2 (B' *m T) A') /\
    rot A B 0 y = Ok ((1 - y) *: A + y *: (B' *m R + spread _ (centroid A))).
Proof.
move=> c00 c01 cy0 r0 p0 ac A' B' SVD; rewrite /rot /rotate c00 c01 cy0 /= ac r0 c00 -/A' -/B'.
have [R [-> [OR H]]] := best_rotation qr svd randn SVD.
exists R^T; split; first exact: rotation_trmx. split=> /=.
  have E : forall T, orthogonal T -> dist2 (B' *m T) A' = dist2 (A' *m T^T) B'.
    by move=> T HT; rewrite (dist2_turn _ _ HT) dist2C.
  move=> T RT; rewrite (E _ (orthogonal_trmx (proj1 OR))) trmxK (E _ (proj1 RT)).
  exact/H/rotation_trmx.
congr Ok; rewrite p0 mulmx1 subr0 scale1r scale0r addr0.
have -> : (1 - y) *: A = (1 - y) *: A' + (1 - y) *: spread _ (centroid A) by rewrite -scalerDr uncentre.
by rewrite (scalerDr y (B' *m R^T)) -scalemxAl [RHS]addrACA; congr (_ + _); rewrite -scalerDl subrK scale1r.
Qed.
End Dicts.

(** Called directly with dicts, rotate gives a for alignment and alpha 0, b for alignment and alpha 1, and for
    alignment 1 and alpha 0 the neurons of a around their centre, turned by a rotation and moved to the centre
    of b, so that no other rotation brings them closer to b. *)
Theorem C84_rotate_partial : forall (F : realFieldType) svd_full qr svd randn (isclose : F -> F -> bool) (round : F -> nat) allclose_half power m n (A B : 'M[F]_(m.+1, n.+1)),
  let rot := rotate svd_full qr svd randn isclose round allclose_half power (AsDict A) (AsDict B) in
  (forall x, isclose x x) -> isclose 1 0 = false -> isclose 0 1 = false -> round 1 = 1%N -> (forall R : 'M[F]_n.+1, power n.+1 R 1 = R) ->
  rot 0 0 = Ok A /\ rot 1 1 = Ok B /\
  let A' := A - spread _ (centroid A) in let B' := B - spread _ (centroid B) in
  (allclose_half m.+1 n.+1 A B = false -> is_svd_full (A'^T *m B') (svd_full n.+1 (A'^T *m B')) ->
   exists R, rotation R /\ rot 1 0 = Ok (A' *m R + spread _ (centroid B)) /\
     forall T, rotation T -> dist2 (A' *m R + spread _ (centroid B)) B <= dist2 (A' *m T + spread _ (centroid B)) B).
Proof.
move=> F svd_full qr svd randn isclose round ac power m n A B rot c c10 c01 r1 p1.
have [E0 E1] := rot_ends svd_full qr svd randn round ac power A B (c 0) (c 1) c10.
by do 2![split=> //]; move=> A' B' nc SVD; apply: rot_one.
Qed.

(** Alpha blends before the turn is applied: with alignment 1 the result lies between a turned onto b and b,
    with alignment 0 between a and b turned back onto a, in each case by the rotation that brings them closest. *)
Theorem C84_blend : forall (F : realFieldType) svd_full qr svd randn (isclose : F -> F -> bool) (round : F -> nat) allclose_half power m n (A B : 'M[F]_(m.+1, n.+1)) y,
  let rot := rotate svd_full qr svd randn isclose round allclose_half power (AsDict A) (AsDict B) in
  (forall x, isclose x x) -> isclose 1 0 = false -> isclose 0 1 = false -> round 0 = 0%N -> round 1 = 1%N ->
  (forall R : 'M[F]_n.+1, power n.+1 R 0 = 1%:M) -> (forall R : 'M[F]_n.+1, power n.+1 R 1 = R) ->
  isclose y 0 = false -> isclose y 1 = false -> allclose_half m.+1 n.+1 A B = false ->
  let A' := A - spread _ (centroid A) in let B' := B - spread _ (centroid B) in
  is_svd_full (A'^T *m B') (svd_full n.+1 (A'^T *m B')) ->
  (exists R, rotation R /\ (forall T, rotation T -> dist2 (A' *m R) B' <= dist2 (A' *m T) B') /\
     rot 1 y = Ok ((1 - y) *: (A' *m R + spread _ (centroid B)) + y *: B)) /\
  (exists R, rotation R /\ (forall T, rotation T -> dist2 (B' *m R) A' <= dist2 (B' *m T) A') /\
     rot 0 y = Ok ((1 - y) *: A + y *: (B' *m R + spread _ (centroid A)))).
Proof.
move=> F svd_full qr svd randn isclose round allclose_half power m n A B y rot cr c10 c01 r0 r1 p0 p1 cy0 cy1 ac A' B' SVD.
by split; [apply: rot_blend_one | apply: rot_blend_zero].
Qed.

(** The neurons' mean moves by the alignment, whatever the turn and whatever alpha is. *)
Theorem C84_centre : forall (F : realFieldType) svd_full qr svd randn (isclose : F -> F -> bool) (round : F -> nat) allclose_half power m n (A B R : 'M[F]_(m.+1, n.+1)) x y,
  isclose x 0 && isclose y 0 = false -> isclose x 1 && isclose y 1 = false -> allclose_half m.+1 n.+1 A B = false ->
  rotate svd_full qr svd randn isclose round allclose_half power (AsDict A) (AsDict B) x y = Ok R ->
  forall j, (\sum_i R i j) / m.+1%:R = (1 - x) * ((\sum_i A i j) / m.+1%:R) + x * ((\sum_i B i j) / m.+1%:R).
Proof.
move=> F svd_full qr svd randn isclose round allclose_half power m n A B R x y e0 e1 ac E j.
have /matrixP/(_ 0 j) := rot_centre e0 e1 ac E; rewrite !mxE.
have S : forall X : 'M[F]_(m.+1, n.+1), \sum_i (const_mx 1 : 'rV[F]_m.+1) 0 i * X i j = \sum_i X i j.
  by move=> X; apply: eq_bigr => i _; rewrite mxE mul1r.
by rewrite !S => ->; rewrite mulrDl !mulrA.
Qed.

(** Tensors that are close in half precision are blended without a turn. *)
Theorem C84_close : forall (F : realFieldType) svd_full qr svd randn (isclose : F -> F -> bool) (round : F -> nat) allclose_half power m n (A B : 'M[F]_(m.+1, n.+1)) x y,
  isclose x 0 && isclose y 0 = false -> isclose x 1 && isclose y 1 = false -> allclose_half m.+1 n.+1 A B = true ->
  exists R, rotate svd_full qr svd randn isclose round allclose_half power (AsDict A) (AsDict B) x y = Ok R /\
    forall i j, R i j = (1 - y) * A i j + y * B i j.
Proof.
move=> F svd_full qr svd randn isclose round allclose_half power m n A B x y e0 e1 ac.
by rewrite /rotate e0 e1 /= ac; eexists; split; [reflexivity|] => i j; rewrite !mxE.
Qed.

(** But an alignment that rounds to zero, such as 1/4, does not turn the neurons at all: it only moves them. *)
Theorem C84_fraction_refuted : forall (F : realFieldType) svd_full qr svd randn (isclose : F -> F -> bool) (round : F -> nat) allclose_half power m n (A B : 'M[F]_(m.+1, n.+1)) (x : F),
  isclose 0 0 -> isclose x 0 = false -> isclose x 1 = false -> isclose x (round x)%:R = false -> round x = 0%N ->
  allclose_half m.+1 n.+1 A B = false -> (n.+1 <= m.+1 + 10)%N ->
  rotate svd_full qr svd randn isclose round allclose_half power (AsDict A) (AsDict B) x 0 = Ok (A + spread _ (x *: (centroid B - centroid A))).
Proof. move=> *; exact: rot_fraction. Qed.

(** ** The hypotheses hold: numbers compared exactly, over the rationals *)
Example C84_case : let x : rat := 4%:R^-1 in let close (p q : rat) := p == q in
  close 0 0 /\ close x 0 = false /\ close x 1 = false /\ (forall x, close x x) /\ close 1 0 = false.
Proof. by do 4![split=> //]; move=> y; rewrite eqxx. Qed.

Print Assumptions C84_rotate_partial.
Print Assumptions C84_rotate_refuted.
Print Assumptions C84_fraction_refuted.
Print Assumptions C84_blend.
Print Assumptions C84_centre.
Print Assumptions C84_close.
