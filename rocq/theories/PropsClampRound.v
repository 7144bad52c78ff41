(** C108: clamp, rounding included. *)
From Coq Require Import ZArith Reals List Lia Lra Psatz Bool.
From Flocq Require Import Core BinarySingleNaN.
From Verif Require Import ModelRound SpecRound RoundProofs PropsRound ModelClampRound.
Import ListNotations.
Open Scope R_scope.

Lemma maximum_R : forall m (x y : num m), is_finite x = true -> is_finite y = true ->
  (maximum m x y = x \/ maximum m x y = y) /\ B2R (maximum m x y) = Rmax (B2R x) (B2R y).
Proof.
  intros m x y Fx Fy. unfold maximum. rewrite Bcompare_correct by auto.
  destruct (Rcompare_spec (B2R x) (B2R y)); split; auto; unfold Rmax; destruct (Rle_dec _ _); lra.
Qed.
Lemma minimum_R : forall m (x y : num m), is_finite x = true -> is_finite y = true ->
  (minimum m x y = x \/ minimum m x y = y) /\ B2R (minimum m x y) = Rmin (B2R x) (B2R y).
Proof.
  intros m x y Fx Fy. unfold minimum. rewrite Bcompare_correct by auto.
  destruct (Rcompare_spec (B2R x) (B2R y)); split; auto; unfold Rmin; destruct (Rle_dec _ _); lra.
Qed.
Lemma fold_max : forall m (bs : list (num m)) b0, Forall (fun x => is_finite x = true) (b0 :: bs) ->
  In (fold_left (maximum m) bs b0) (b0 :: bs) /\ forall x, In x (b0 :: bs) -> B2R x <= B2R (fold_left (maximum m) bs b0).
Proof.
  intros m. induction bs as [|b bs IH]; intros b0 F.
  - split; [left; auto|]. intros x [<-|[]]. simpl. lra.
  - pose proof (Forall_inv F) as F0. pose proof (Forall_inv (Forall_inv_tail F)) as F1.
    destruct (maximum_R m b0 b F0 F1) as [E R]. cbn [fold_left]. destruct (IH (maximum m b0 b)) as [I L].
    { constructor; [destruct E as [-> | ->]; auto|apply (Forall_inv_tail (Forall_inv_tail F))]. }
    split.
    + destruct I as [I|I]; [|right; right; auto]. rewrite <- I. destruct E as [-> | ->]; simpl; auto.
    + pose proof (L _ (or_introl eq_refl)) as L0. rewrite R in L0. pose proof (Rmax_l (B2R b0) (B2R b)). pose proof (Rmax_r (B2R b0) (B2R b)).
      intros x [<-|[<-|J]]; [lra|lra|]. apply L. right; auto.
Qed.
Lemma fold_min : forall m (bs : list (num m)) b0, Forall (fun x => is_finite x = true) (b0 :: bs) ->
  In (fold_left (minimum m) bs b0) (b0 :: bs) /\ forall x, In x (b0 :: bs) -> B2R (fold_left (minimum m) bs b0) <= B2R x.
Proof.
  intros m. induction bs as [|b bs IH]; intros b0 F.
  - split; [left; auto|]. intros x [<-|[]]. simpl. lra.
  - pose proof (Forall_inv F) as F0. pose proof (Forall_inv (Forall_inv_tail F)) as F1.
    destruct (minimum_R m b0 b F0 F1) as [E R]. cbn [fold_left]. destruct (IH (minimum m b0 b)) as [I L].
    { constructor; [destruct E as [-> | ->]; auto|apply (Forall_inv_tail (Forall_inv_tail F))]. }
    split.
    + destruct I as [I|I]; [|right; right; auto]. rewrite <- I. destruct E as [-> | ->]; simpl; auto.
    + pose proof (L _ (or_introl eq_refl)) as L0. rewrite R in L0. pose proof (Rmin_l (B2R b0) (B2R b)). pose proof (Rmin_r (B2R b0) (B2R b)).
      intros x [<-|[<-|J]]; [lra|lra|]. apply L. right; auto.
Qed.
Lemma fold_pick : forall (X : Type) (f : X -> X -> bool) l s, In (fold_left (fun s b => if f s b then b else s) l s) (s :: l).
Proof.
  intros X f. induction l as [|b l IH]; intros s; [left; auto|]. cbn [fold_left].
  destruct (IH (if f s b then b else s)) as [E|I]; [|right; right; auto]. rewrite <- E. destruct (f s b); simpl; auto.
Qed.

(** C108.  The merged entry is finite and between two of the bounds, for every stiffness between 0 and 1. *)
Theorem C108_clamp_range : forall A B m i o (a : num A) (b0 : num B) (bs : list (num B)) (average stiffness : num m),
  holds_all A m -> holds_all B o -> holds_all o i -> finer m o ->
  is_finite a = true -> Forall (fun x => is_finite x = true) (b0 :: bs) -> is_finite stiffness = true -> 0 <= B2R stiffness <= 1 ->
  let z := narrow m i o (clamp1 m (cast A m a) (cast B m b0) (map (cast B m) bs) average stiffness) in
  is_finite z = true /\ exists lo hi, In lo (b0 :: bs) /\ In hi (b0 :: bs) /\ B2R lo <= B2R z <= B2R hi.
Proof.
  intros A B m i o a b0 bs average s HA HB Hi Hf Fa Fb Fs Hs z.
  assert (Hm : holds_all o m) by now apply finer_holds.
  assert (HBm : holds_all B m) by (unfold holds_all in *; lia).
  destruct (cast_up A m a HA Fa) as [Fa' [Ra _]].
  set (ba := cast B m b0) in *. set (bb := map (cast B m) bs) in *.
  assert (U : forall x, In x (ba :: bb) -> exists w, In w (b0 :: bs) /\ is_finite x = true /\ B2R x = B2R w).
  { intros x I. change (ba :: bb) with (map (cast B m) (b0 :: bs)) in I. apply in_map_iff in I as (w & <- & I).
    pose proof Fb as F. eapply Forall_forall in F; [|exact I]. destruct (cast_up B m w HBm F) as (F' & R & _). eauto. }
  assert (FU : Forall (fun x => is_finite x = true) (ba :: bb)).
  { apply Forall_forall. intros x I. destruct (U x I) as (w & _ & F & _). auto. }
  destruct (fold_max m bb ba FU) as [Imx Lmx]. destruct (fold_min m bb ba FU) as [Imn Lmn].
  set (mx := fold_left (maximum m) bb ba) in *. set (mn := fold_left (minimum m) bb ba) in *.
  destruct (U mx Imx) as (hi & Ihi & Fmx & Rmx). destruct (U mn Imn) as (lo & Ilo & Fmn & Rmn).
  assert (Fo : forall v : num B, fmt o (B2R v)) by (intro v; apply (fmt_holds B); [trivial | apply num_fmt]).
  assert (Bo : forall v : num B, Rabs (B2R v) <= big o) by (intro v; eapply Rle_trans; [apply num_big | now apply big_le]).
  assert (Ulp : forall x, 0 < ulp radix2 (fx o) x / 8).
  { intros x. pose proof (ulp_big o x). pose proof (bpow_gt_0 radix2 (emin o)). lra. }
  cut (exists v w, is_finite (clamp1 m (cast A m a) ba bb average s) = true /\ v <= B2R (clamp1 m (cast A m a) ba bb average s) <= w /\
         Rabs (v - B2R lo) < ulp radix2 (fx o) (B2R lo) / 8 /\ Rabs (w - B2R hi) < ulp radix2 (fx o) (B2R hi) / 8).
  { intros (v & w & Fc & Bc & Cv & Cw).
    destruct (narrow_between m o i (B2R lo) (B2R hi) v w _ Hi Hm Fc Bc (Fo lo) (Fo hi) (Bo lo) (Bo hi) Cv Cw) as [F R].
    split; [exact F|]. exists lo, hi. auto. }
  assert (Last : forall p q : num m, is_finite p = true -> is_finite q = true -> forall v w, v <= B2R p <= w -> v <= B2R q <= w ->
    is_finite (minimum m (maximum m (cast A m a) p) q) = true /\ v <= B2R (minimum m (maximum m (cast A m a) p) q) <= w).
  { intros p q Fp Fq v w Bp Bq. destruct (maximum_R m (cast A m a) p Fa' Fp) as [E1 R1].
    assert (is_finite (maximum m (cast A m a) p) = true) as F1 by (destruct E1 as [-> | ->]; auto).
    destruct (minimum_R m _ q F1 Fq) as [E2 R2]. split; [destruct E2 as [-> | ->]; auto|]. rewrite R2, R1.
    pose proof (Rmax_r (B2R (cast A m a)) (B2R p)). split; [apply Rmin_glb; lra|]. eapply Rle_trans; [apply Rmin_r|lra]. }
  assert (Zero : exists v w, is_finite (minimum m (maximum m (cast A m a) mn) mx) = true /\
    v <= B2R (minimum m (maximum m (cast A m a) mn) mx) <= w /\
    Rabs (v - B2R lo) < ulp radix2 (fx o) (B2R lo) / 8 /\ Rabs (w - B2R hi) < ulp radix2 (fx o) (B2R hi) / 8).
  { exists (B2R lo), (B2R hi). pose proof (Lmx mn Imn) as L.
    destruct (Last mn mx Fmn Fmx (B2R lo) (B2R hi)) as [F R]; [lra|lra|]. split; [exact F|]. split; [exact R|].
    unfold Rminus. rewrite !Rplus_opp_r, Rabs_R0. auto. }
  assert (Soft : let mx' := weighted_sum_impl m s mx (nearest_above m average mx (ba :: bb)) in
    let mn' := weighted_sum_impl m s mn (nearest_below m average mn (ba :: bb)) in
    exists v w, is_finite (minimum m (maximum m (cast A m a) mn') mx') = true /\
    v <= B2R (minimum m (maximum m (cast A m a) mn') mx') <= w /\
    Rabs (v - B2R lo) < ulp radix2 (fx o) (B2R lo) / 8 /\ Rabs (w - B2R hi) < ulp radix2 (fx o) (B2R hi) / 8).
  { intros mx' mn'. set (al := B2R s) in *. exists (ws m al (B2R lo) (B2R lo)), (ws m al (B2R hi) (B2R hi)).
    assert (Pick : forall x y, In x (ba :: bb) -> In y (ba :: bb) -> is_finite (weighted_sum_impl m s x y) = true /\
      ws m al (B2R lo) (B2R lo) <= B2R (weighted_sum_impl m s x y) <= ws m al (B2R hi) (B2R hi)).
    { intros x y Ix Iy. destruct (U x Ix) as (wx & _ & Fx & Rx). destruct (U y Iy) as (wy & _ & Fy & Ry).
      destruct (ws_impl_R m o Hf s Fs Hs x y Fx Fy) as [F R]; rewrite ?Rx, ?Ry; auto. split; [exact F|]. rewrite R. fold al.
      pose proof (Lmn x Ix). pose proof (Lmn y Iy). pose proof (Lmx x Ix). pose proof (Lmx y Iy).
      split; apply ws_mono; auto; lra. }
    assert (forall c, In c (ba :: bb) -> In (nearest_above m average c (ba :: bb)) (ba :: bb)) as Iu.
    { intros c Ic. unfold nearest_above. destruct (fold_pick _ (fun sp b => leb m b sp && leb m average b)%bool (ba :: bb) c) as [E|I]; [|exact I].
      rewrite <- E. exact Ic. }
    assert (forall c, In c (ba :: bb) -> In (nearest_below m average c (ba :: bb)) (ba :: bb)) as Il.
    { intros c Ic. unfold nearest_below. destruct (fold_pick _ (fun ln b => leb m ln b && leb m b average)%bool (ba :: bb) c) as [E|I]; [|exact I].
      rewrite <- E. exact Ic. }
    destruct (Pick mx _ Imx (Iu mx Imx)) as [Fx Bx]. destruct (Pick mn _ Imn (Il mn Imn)) as [Fn Bn].
    destruct (Last mn' mx' Fn Fx _ _ Bn Bx) as [F R]. split; [exact F|]. split; [exact R|].
    split; apply small_ws; auto. }
  unfold clamp1. fold mx mn. destruct s; try exact Zero; exact Soft.
Qed.

(** C108.  Without stiffness nothing is rounded: the merged entry is that of a, or the least or greatest bound. *)
Theorem C108_clamp_exact : forall A B m i o (a : num A) (b0 : num B) (bs : list (num B)) (average : num m) s,
  holds_all A o -> holds_all B o -> holds_all o i -> holds_all o m ->
  is_finite a = true -> Forall (fun x => is_finite x = true) (b0 :: bs) ->
  let z := narrow m i o (clamp1 m (cast A m a) (cast B m b0) (map (cast B m) bs) average (B754_zero s)) in
  is_finite z = true /\
  exists lo hi, In lo (b0 :: bs) /\ In hi (b0 :: bs) /\ (forall b, In b (b0 :: bs) -> B2R lo <= B2R b <= B2R hi) /\
    B2R z = Rmin (Rmax (B2R a) (B2R lo)) (B2R hi).
Proof.
  intros A B m i o a b0 bs average s HA HB Hi Hm Fa Fb z.
  assert (HBm : holds_all B m) by (unfold holds_all in *; lia). assert (HAm : holds_all A m) by (unfold holds_all in *; lia).
  destruct (cast_up A m a HAm Fa) as [Fa' [Ra _]].
  set (ba := cast B m b0) in *. set (bb := map (cast B m) bs) in *.
  assert (U : forall x, In x (ba :: bb) -> exists w, In w (b0 :: bs) /\ is_finite w = true /\ x = cast B m w /\ is_finite x = true /\ B2R x = B2R w).
  { intros x I. change (ba :: bb) with (map (cast B m) (b0 :: bs)) in I. apply in_map_iff in I as (w & <- & I).
    pose proof Fb as F. eapply Forall_forall in F; [|exact I]. destruct (cast_up B m w HBm F) as (F' & R & _). exists w. auto. }
  assert (FU : Forall (fun x => is_finite x = true) (ba :: bb)).
  { apply Forall_forall. intros x I. destruct (U x I) as (w & _ & _ & _ & F & _). auto. }
  destruct (fold_max m bb ba FU) as [Imx Lmx]. destruct (fold_min m bb ba FU) as [Imn Lmn].
  unfold z, clamp1. set (mx := fold_left (maximum m) bb ba) in *. set (mn := fold_left (minimum m) bb ba) in *.
  destruct (U mx Imx) as (hi & Ihi & Fhi & Ehi & Fmx & Rmx). destruct (U mn Imn) as (lo & Ilo & Flo & Elo & Fmn & Rmn).
  destruct (maximum_R m (cast A m a) mn Fa' Fmn) as [E1 R1].
  assert (is_finite (maximum m (cast A m a) mn) = true) as F1 by (destruct E1 as [-> | ->]; auto).
  destruct (minimum_R m _ mx F1 Fmx) as [E2 R2].
  assert (is_finite (narrow m i o (minimum m (maximum m (cast A m a) mn) mx)) = true /\
    B2R (narrow m i o (minimum m (maximum m (cast A m a) mn) mx)) = B2R (minimum m (maximum m (cast A m a) mn) mx)) as [F R].
  { assert (minimum m (maximum m (cast A m a) mn) mx = cast A m a \/ minimum m (maximum m (cast A m a) mn) mx = mn \/
            minimum m (maximum m (cast A m a) mn) mx = mx) as [E|[E|E]].
    { destruct E2 as [E2|E2]; [|auto]. destruct E1 as [E1|E1]; rewrite E2; auto. }
    - rewrite E. destruct (narrow_up A m i o a HA HAm Hi Fa) as (F & R & _). rewrite Ra. auto.
    - rewrite E, Elo at 1 2 3. destruct (narrow_up B m i o lo HB HBm Hi Flo) as (F & R & _). rewrite <- Elo, Rmn, Elo. auto.
    - rewrite E, Ehi at 1 2 3. destruct (narrow_up B m i o hi HB HBm Hi Fhi) as (F & R & _). rewrite <- Ehi, Rmx, Ehi. auto. }
  split; [exact F|]. exists lo, hi. split; [auto|]. split; [auto|]. split.
  - intros b Ib. assert (In (cast B m b) (ba :: bb)) as J by (change (ba :: bb) with (map (cast B m) (b0 :: bs)); apply in_map; auto).
    pose proof Fb as F2. eapply Forall_forall in F2; [|exact Ib]. destruct (cast_up B m b HBm F2) as (_ & Rb & _).
    pose proof (Lmn _ J). pose proof (Lmx _ J). lra.
  - rewrite R, R2, R1, Ra, Rmn, Rmx. auto.
Qed.

Lemma leb_R : forall m (x y : num m), is_finite x = true -> is_finite y = true -> leb m x y = true <-> B2R x <= B2R y.
Proof.
  intros m x y Fx Fy. unfold leb. rewrite Bcompare_correct by auto.
  destruct (Rcompare_spec (B2R x) (B2R y)); split; auto; try discriminate; lra.
Qed.
Lemma nearest_above_R : forall m (avg : num m) l s, is_finite avg = true -> is_finite s = true -> Forall (fun x => is_finite x = true) l ->
  let r := nearest_above m avg s l in
  B2R r <= B2R s /\ (B2R avg <= B2R s -> B2R avg <= B2R r) /\
  (forall b, In b l -> B2R avg <= B2R b -> B2R r <= B2R b).
Proof.
  intros m avg l. induction l as [|b l IH]; intros s Fa Fs F r.
  - unfold r; simpl. split; [lra|]. split; [auto|intros b []].
  - pose proof (Forall_inv F) as Fb. pose proof (Forall_inv_tail F) as Fl. unfold r, nearest_above; cbn [fold_left].
    destruct (leb m b s) eqn:L1; destruct (leb m avg b) eqn:L2; cbn [andb].
    1:{ apply leb_R in L1; auto. apply leb_R in L2; auto. destruct (IH b Fa Fb Fl) as (P & Q & W). fold (nearest_above m avg b l).
        split; [lra|]. split; [intros _; auto|]. intros c [<-|I] H; [lra|auto]. }
    all: destruct (IH s Fa Fs Fl) as (P & Q & W); fold (nearest_above m avg s l); split; [exact P|]; split; [exact Q|];
      intros c [<-|I] H; [|auto].
    1,3: exfalso; apply leb_R in H; auto; congruence.
    assert (~ B2R b <= B2R s) by (intros K; apply leb_R in K; auto; congruence). lra.
Qed.
Lemma nearest_below_R : forall m (avg : num m) l s, is_finite avg = true -> is_finite s = true -> Forall (fun x => is_finite x = true) l ->
  let r := nearest_below m avg s l in
  B2R s <= B2R r /\ (B2R s <= B2R avg -> B2R r <= B2R avg) /\
  (forall b, In b l -> B2R b <= B2R avg -> B2R b <= B2R r).
Proof.
  intros m avg l. induction l as [|b l IH]; intros s Fa Fs F r.
  - unfold r; simpl. split; [lra|]. split; [auto|intros b []].
  - pose proof (Forall_inv F) as Fb. pose proof (Forall_inv_tail F) as Fl. unfold r, nearest_below; cbn [fold_left].
    destruct (leb m s b) eqn:L1; destruct (leb m b avg) eqn:L2; cbn [andb].
    1:{ apply leb_R in L1; auto. apply leb_R in L2; auto. destruct (IH b Fa Fb Fl) as (P & Q & W). fold (nearest_below m avg b l).
        split; [lra|]. split; [intros _; auto|]. intros c [<-|I] H; [lra|auto]. }
    all: destruct (IH s Fa Fs Fl) as (P & Q & W); fold (nearest_below m avg s l); split; [exact P|]; split; [exact Q|];
      intros c [<-|I] H; [|auto].
    1,3: exfalso; apply leb_R in H; auto; congruence.
    assert (~ B2R s <= B2R b) by (intros K; apply leb_R in K; auto; congruence). lra.
Qed.
Lemma ws_one : forall m x y, fmt m y -> ws m 1 x y = y.
Proof.
  intros m x y F. unfold ws, comp. replace (1 - 1) with 0 by lra. rewrite rnd_0, Rmult_0_l, rnd_0, Rplus_0_l, Rmult_1_l.
  rewrite (rnd_fmt m y F). apply rnd_fmt; auto.
Qed.

(** C108.  With stiffness 1 the limits are the bounds next to the average: the least of those above it, the greatest of those below it. *)
Theorem C108_clamp_stiff : forall A B m i o (a : num A) (b0 : num B) (bs : list (num B)) (average stiffness : num m),
  holds_all A o -> holds_all B o -> holds_all o i -> finer m o ->
  is_finite a = true -> Forall (fun x => is_finite x = true) (b0 :: bs) -> is_finite average = true ->
  is_finite stiffness = true -> B2R stiffness = 1 ->
  (exists b, In b (b0 :: bs) /\ B2R b <= B2R average) -> (exists b, In b (b0 :: bs) /\ B2R average <= B2R b) ->
  let z := narrow m i o (clamp1 m (cast A m a) (cast B m b0) (map (cast B m) bs) average stiffness) in
  is_finite z = true /\
  exists lo hi, In lo (b0 :: bs) /\ In hi (b0 :: bs) /\ B2R lo <= B2R average <= B2R hi /\
    (forall b, In b (b0 :: bs) -> B2R b <= B2R lo \/ B2R hi <= B2R b) /\
    B2R z = Rmin (Rmax (B2R a) (B2R lo)) (B2R hi).
Proof.
  intros A B m i o a b0 bs average s HA HB Hi Hf Fa Fb Fv Fs Hs Below Above z.
  assert (Hm : holds_all o m) by now apply finer_holds.
  assert (HBm : holds_all B m) by (unfold holds_all in *; lia). assert (HAm : holds_all A m) by (unfold holds_all in *; lia).
  destruct (cast_up A m a HAm Fa) as [Fa' [Ra _]].
  assert (V : forall w, In w (b0 :: bs) -> is_finite (cast B m w) = true /\ B2R (cast B m w) = B2R w).
  { intros w I. pose proof Fb as F. eapply Forall_forall in F; [|exact I]. destruct (cast_up B m w HBm F) as (F' & R & _). auto. }
  set (ba := cast B m b0) in *. set (bb := map (cast B m) bs) in *.
  assert (J : forall w, In w (b0 :: bs) -> In (cast B m w) (ba :: bb)).
  { intros w I. change (ba :: bb) with (map (cast B m) (b0 :: bs)). apply in_map; auto. }
  assert (U : forall x, In x (ba :: bb) -> exists w, In w (b0 :: bs) /\ is_finite x = true /\ B2R x = B2R w).
  { intros x I. change (ba :: bb) with (map (cast B m) (b0 :: bs)) in I. apply in_map_iff in I as (w & <- & I).
    destruct (V w I). exists w. auto. }
  assert (FU : Forall (fun x => is_finite x = true) (ba :: bb)).
  { apply Forall_forall. intros x I. destruct (U x I) as (w & _ & F & _). auto. }
  destruct (fold_max m bb ba FU) as [Imx Lmx]. destruct (fold_min m bb ba FU) as [Imn Lmn].
  set (mx := fold_left (maximum m) bb ba) in *. set (mn := fold_left (minimum m) bb ba) in *.
  destruct (U mx Imx) as (_ & _ & Fmx & _). destruct (U mn Imn) as (_ & _ & Fmn & _).
  set (sp := nearest_above m average mx (ba :: bb)). set (ln := nearest_below m average mn (ba :: bb)).
  assert (Isp : In sp (ba :: bb)).
  { unfold sp, nearest_above. destruct (fold_pick _ (fun sp b => leb m b sp && leb m average b)%bool (ba :: bb) mx) as [E|I]; [|exact I].
    rewrite <- E. exact Imx. }
  assert (Iln : In ln (ba :: bb)).
  { unfold ln, nearest_below. destruct (fold_pick _ (fun ln b => leb m ln b && leb m b average)%bool (ba :: bb) mn) as [E|I]; [|exact I].
    rewrite <- E. exact Imn. }
  destruct (nearest_above_R m average (ba :: bb) mx Fv Fmx FU) as (_ & Qsp & Wsp). fold sp in Qsp, Wsp.
  destruct (nearest_below_R m average (ba :: bb) mn Fv Fmn FU) as (_ & Qln & Wln). fold ln in Qln, Wln.
  destruct (U sp Isp) as (hi & Ihi & Fsp & Rsp). destruct (U ln Iln) as (lo & Ilo & Fln & Rln).
  assert (Av : B2R lo <= B2R average <= B2R hi).
  { destruct Below as (b & Ib & Hb). destruct Above as (c & Ic & Hc). destruct (V b Ib) as [_ Rb]. destruct (V c Ic) as [_ Rc].
    rewrite <- Rsp, <- Rln. split; [apply Qln; eapply Rle_trans; [apply (Lmn _ (J b Ib))|lra]|].
    apply Qsp. eapply Rle_trans; [|apply (Lmx _ (J c Ic))]. lra. }
  assert (Fo : forall v : num B, fmt o (B2R v)) by (intro v; apply (fmt_holds B); [trivial | apply num_fmt]).
  assert (Bo : forall v : num B, Rabs (B2R v) <= big o) by (intro v; eapply Rle_trans; [apply num_big | now apply big_le]).
  assert (W : forall x y, In x (ba :: bb) -> In y (ba :: bb) -> is_finite (weighted_sum_impl m s x y) = true /\ B2R (weighted_sum_impl m s x y) = B2R y).
  { intros x y Ix Iy. destruct (U x Ix) as (wx & _ & Fx & Rx). destruct (U y Iy) as (wy & _ & Fy & Ry).
    destruct (ws_impl_R m o Hf s Fs) with (a := x) (b := y) as [F R]; rewrite ?Rx, ?Ry; auto; [lra|]. split; [exact F|].
    rewrite R, Hs, ws_one; [auto|apply num_fmt]. }
  destruct (W mx sp Imx Isp) as [Fx Rx]. destruct (W mn ln Imn Iln) as [Fn Rn].
  assert (clamp1 m (cast A m a) ba bb average s = minimum m (maximum m (cast A m a) (weighted_sum_impl m s mn ln)) (weighted_sum_impl m s mx sp)) as C.
  { unfold clamp1. fold mx mn sp ln. destruct s; auto. exfalso. simpl in Hs. lra. }
  unfold z. rewrite C. destruct (maximum_R m (cast A m a) _ Fa' Fn) as [E1 R1].
  assert (is_finite (maximum m (cast A m a) (weighted_sum_impl m s mn ln)) = true) as F1 by (destruct E1 as [-> | ->]; auto).
  destruct (minimum_R m _ _ F1 Fx) as [E2 R2]. set (r := minimum m _ _) in *.
  assert (is_finite r = true) as Fr by (destruct E2 as [-> | ->]; auto). rewrite R1, Ra, Rn, Rx, Rln, Rsp in R2.
  assert (fmt o (B2R r) /\ Rabs (B2R r) <= big o) as [Or Br].
  { assert (B2R r = B2R a \/ B2R r = B2R lo \/ B2R r = B2R hi) as [-> | [-> | ->]].
    { rewrite R2. unfold Rmin, Rmax. repeat destruct (Rle_dec _ _); auto. }
    - split; [apply (fmt_holds A); [trivial|apply num_fmt]|]. eapply Rle_trans; [apply num_big | now apply big_le].
    - auto.
    - auto. }
  assert (0 < ulp radix2 (fx o) (B2R r) / 8) as Pu.
  { pose proof (ulp_big o (B2R r)). pose proof (bpow_gt_0 radix2 (emin o)). lra. }
  destruct (narrow_between m o i (B2R r) (B2R r) (B2R r) (B2R r) r Hi Hm Fr) as [F R]; auto; try lra;
    try (unfold Rminus; rewrite Rplus_opp_r, Rabs_R0; exact Pu).
  split; [exact F|]. exists lo, hi. split; [auto|]. split; [auto|]. split; [exact Av|]. split; [|lra].
  intros b Ib. destruct (V b Ib) as [_ Rb]. pose proof (Wsp _ (J b Ib)). pose proof (Wln _ (J b Ib)).
  destruct (Rle_dec (B2R b) (B2R average)); [left; lra|right; lra].
Qed.

(** Concretely, in float16 with bounds 1, 4, 6, 9 and their mean 5: without stiffness 20 becomes 9, with stiffness 1 it becomes 6 and
    3 becomes 4, with stiffness 1/2 it becomes 7.5; with stiffness 0.1, as float64 has it, and a bound of 1 alone, 20 becomes exactly 1. *)
Example C108_case :
  let up := cast float16 float64 in
  let n z := up (val float16 z 0) in
  let out a s := B2SF (narrow float64 float32 float16 (clamp1 float64 (n a) (n 1%Z) [n 4%Z; n 6%Z; n 9%Z] (n 5%Z) s)) in
  let tenth := val float64 7205759403792794 (-56) in
  out 20%Z (B754_zero false) = B2SF (val float16 9 0) /\
  out 3%Z (B754_zero false) = B2SF (val float16 3 0) /\
  out 20%Z (one float64) = B2SF (val float16 6 0) /\
  out 3%Z (one float64) = B2SF (val float16 4 0) /\
  out 20%Z (val float64 1 (-1)) = B2SF (val float16 15 (-1)) /\
  B2SF (narrow float64 float32 float16 (clamp1 float64 (n 20%Z) (n 1%Z) [] (n 1%Z) tenth)) = B2SF (val float16 1 0).
Proof. vm_compute. repeat split. Qed.

Print Assumptions C108_clamp_range.
Print Assumptions C108_clamp_exact.
Print Assumptions C108_clamp_stiff.
