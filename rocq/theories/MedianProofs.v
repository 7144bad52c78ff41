(** Weiszfeld's iteration never increases the smoothed sum of distances, and where it stands
    still that sum is least. *)
From Coq Require Import Reals List Bool Arith ZArith Lia Lra Psatz.
From Verif Require Import Base ModelNum NumProofs SpecMedian.
Import ListNotations.
Open Scope list_scope.
Open Scope R_scope.

(** ** sums *)
Definition sumf {A} (f : A -> R) (l : list A) : R := rsum (map f l).

Lemma sumf_cons : forall A (f : A -> R) x l, sumf f (x :: l) = f x + sumf f l.
Proof. reflexivity. Qed.
Lemma sumf_ext : forall A (f g : A -> R) l, (forall x, In x l -> f x = g x) -> sumf f l = sumf g l.
Proof. intros. unfold sumf. f_equal. apply map_ext_in; auto. Qed.
Lemma sumf_le : forall A (f g : A -> R) l, (forall x, In x l -> f x <= g x) -> sumf f l <= sumf g l.
Proof.
  induction l; intros; [unfold sumf, rsum; simpl; lra|]. rewrite !sumf_cons.
  specialize (H a (in_eq _ _)) as H1. assert (sumf f l <= sumf g l) by (apply IHl; auto using in_cons). lra.
Qed.
Lemma sumf_plus : forall A (f g : A -> R) l, sumf (fun x => f x + g x) l = sumf f l + sumf g l.
Proof. induction l; [unfold sumf, rsum; simpl; lra|]. rewrite !sumf_cons, IHl. lra. Qed.
Lemma sumf_minus : forall A (f g : A -> R) l, sumf (fun x => f x - g x) l = sumf f l - sumf g l.
Proof. induction l; [unfold sumf, rsum; simpl; lra|]. rewrite !sumf_cons, IHl. lra. Qed.
Lemma sumf_scale : forall A k (f : A -> R) l, sumf (fun x => k * f x) l = k * sumf f l.
Proof. induction l; [unfold sumf, rsum; simpl; lra|]. rewrite !sumf_cons, IHl. lra. Qed.
Lemma sumf_const : forall A k (l : list A), sumf (fun _ => k) l = INR (length l) * k.
Proof. induction l; [unfold sumf, rsum; simpl; lra|]. rewrite sumf_cons, IHl. cbn [length]. rewrite S_INR. lra. Qed.
Lemma sumf_swap : forall A B (f : A -> B -> R) l l', sumf (fun a => sumf (f a) l') l = sumf (fun b => sumf (fun a => f a b) l) l'.
Proof.
  induction l; intros.
  - rewrite (sumf_ext _ (fun b => sumf (fun a => f a b) []) (fun _ => 0)) by reflexivity.
    rewrite sumf_const. unfold sumf, rsum; simpl; lra.
  - rewrite sumf_cons, IHl, <- sumf_plus. apply sumf_ext. intros. reflexivity.
Qed.

(** ** the smoothed distance *)
Lemma smoothed_ge : forall eps d, 0 < eps -> 0 <= d -> d <= smoothed eps d.
Proof.
  intros. unfold smoothed. destruct (Rle_dec eps d); [lra|].
  assert (d * d / eps + eps - 2 * d = (eps - d) * (eps - d) / eps) as E by (field; lra).
  assert (0 <= (eps - d) * (eps - d) / eps).
  { apply Rmult_le_pos; [nra|]. left; apply Rinv_0_lt_compat; auto. }
  lra.
Qed.
Lemma smoothed_le : forall eps d, 0 < eps -> 0 <= d -> smoothed eps d <= d + eps / 2.
Proof.
  intros. unfold smoothed. destruct (Rle_dec eps d); [lra|].
  assert (d * d / eps <= d * 1).
  { unfold Rdiv. rewrite Rmult_assoc. apply Rmult_le_compat_l; auto.
    apply Rmult_le_reg_r with eps; auto. rewrite Rmult_assoc, Rinv_l; lra. }
  lra.
Qed.

Lemma frac_nonneg : forall a b, 0 <= a -> 0 < b -> 0 <= a / b.
Proof. intros. apply Rmult_le_pos; auto. left; apply Rinv_0_lt_compat; auto. Qed.

Lemma smoothed_major : forall eps d0 d, 0 < eps -> 0 <= d0 -> 0 <= d ->
  smoothed eps d <= smoothed eps d0 + (d * d - d0 * d0) * (1 / Rmax d0 eps) / 2.
Proof.
  intros eps d0 d E P0 P. unfold smoothed, Rmax.
  destruct (Rle_dec eps d) as [D|D], (Rle_dec eps d0) as [D0|D0], (Rle_dec d0 eps) as [D1|D1]; try (exfalso; lra);
    try (assert (d0 = eps) by lra; subst d0).
  - assert (0 <= (d - eps) * (d - eps) / eps) by (apply frac_nonneg; [apply Rle_0_sqr|lra]).
    assert (eps + (d * d - eps * eps) * (1 / eps) / 2 - d = (d - eps) * (d - eps) / eps / 2) by (field; lra). lra.
  - assert (0 <= (d - d0) * (d - d0) / d0) by (apply frac_nonneg; [apply Rle_0_sqr|lra]).
    assert (d0 + (d * d - d0 * d0) * (1 / d0) / 2 - d = (d - d0) * (d - d0) / d0 / 2) by (field; lra). lra.
  - assert (0 <= (d - eps) * (d - eps) / eps) by (apply frac_nonneg; [apply Rle_0_sqr|lra]).
    assert ((d0 * d0 / eps + eps) / 2 + (d * d - d0 * d0) * (1 / eps) / 2 - d = (d - eps) * (d - eps) / eps / 2) by (field; lra). lra.
  - assert (eps + (d * d - eps * eps) * (1 / eps) / 2 = (d * d / eps + eps) / 2) by (field; lra). lra.
  - assert (0 <= (d0 - eps) * (d0 * eps - d * d) / (d0 * eps)).
    { apply frac_nonneg; [|apply Rmult_lt_0_compat; lra]. apply Rmult_le_pos; [lra|].
      assert (d * d <= eps * eps) by (apply Rmult_le_compat; lra).
      assert (eps * eps <= d0 * eps) by (apply Rmult_le_compat_r; lra). lra. }
    assert (d0 + (d * d - d0 * d0) * (1 / d0) / 2 - (d * d / eps + eps) / 2 = (d0 - eps) * (d0 * eps - d * d) / (d0 * eps) / 2) by (field; lra).
    lra.
  - assert ((d0 * d0 / eps + eps) / 2 + (d * d - d0 * d0) * (1 / eps) / 2 = (d * d / eps + eps) / 2) by (field; lra). lra.
Qed.

Lemma smoothed_tangent : forall eps a b, 0 < eps -> 0 <= a -> 0 <= b ->
  smoothed eps a + (a * b - a * a) * (1 / Rmax a eps) <= smoothed eps b.
Proof.
  intros eps a b E A B.
  destruct (Rle_dec eps a) as [D|D].
  - rewrite Rmax_left by lra. unfold smoothed at 1. destruct (Rle_dec eps a); [|lra].
    replace (a + (a * b - a * a) * (1 / a)) with b by (field; lra). apply smoothed_ge; auto.
  - rewrite Rmax_right by lra. unfold smoothed. destruct (Rle_dec eps a); [lra|].
    destruct (Rle_dec eps b).
    + assert (0 <= (eps - a) * (2 * b - eps - a) / eps) by (apply frac_nonneg; auto; nra).
      assert (b - ((a * a / eps + eps) / 2 + (a * b - a * a) * (1 / eps)) = (eps - a) * (2 * b - eps - a) / eps / 2) by (field; lra). lra.
    + assert (0 <= (b - a) * (b - a) / eps) by (apply frac_nonneg; [apply Rle_0_sqr|lra]).
      assert ((b * b / eps + eps) / 2 - ((a * a / eps + eps) / 2 + (a * b - a * a) * (1 / eps)) = (b - a) * (b - a) / eps / 2) by (field; lra). lra.
Qed.

(** ** distances by coordinates *)
Notation at_ v j := (nth j v 0).
Definition ip (n : nat) (f g : nat -> R) : R := sumf (fun j => f j * g j) (seq 0 n).

Lemma rsum_map2_seq : forall (f : R -> R -> R) (a b : vec) n, length a = n -> length b = n ->
  rsum (map2 f a b) = sumf (fun j => f (at_ a j) (at_ b j)) (seq 0 n).
Proof.
  induction a as [|x a IH]; destruct b as [|y b]; intros n A B; simpl in *; subst; try discriminate; [reflexivity|].
  cbn [map2]. rewrite rsum_cons. cbn [seq]. rewrite sumf_cons. cbn [nth]. f_equal.
  rewrite (IH b (length a)) by lia. rewrite <- seq_shift. unfold sumf. rewrite map_map. reflexivity.
Qed.

Definition diff (p m : vec) (j : nat) : R := at_ p j - at_ m j.

Lemma dist_sqr : forall n p m, length p = n -> length m = n -> dist p m * dist p m = ip n (diff p m) (diff p m).
Proof.
  intros n p m P M. unfold dist, norm.
  assert (length (vsub p m) = n) as L by (unfold vsub; rewrite map2_length; congruence).
  assert (dot (vsub p m) (vsub p m) = ip n (diff p m) (diff p m)) as E.
  { unfold dot. rewrite (rsum_map2_seq _ _ _ n) by auto. unfold ip. apply sumf_ext. intros j J. apply in_seq in J.
    unfold vsub, diff. rewrite (map2_nth _ _ _ _ _ _ j 0 0 0) by lia. reflexivity. }
  rewrite E. apply sqrt_sqrt. unfold ip. rewrite <- (Rmult_0_r (INR (length (seq 0 n)))), <- sumf_const.
  apply sumf_le. intros. apply Rle_0_sqr.
Qed.
Lemma dist_pos : forall p m, 0 <= dist p m.
Proof. intros. apply sqrt_pos. Qed.

Lemma ip_square : forall n a b f g, ip n (fun j => a * f j + b * g j) (fun j => a * f j + b * g j) =
  (a * a) * ip n f f + (2 * a * b) * ip n f g + (b * b) * ip n g g.
Proof. intros. unfold ip. rewrite <- !sumf_scale, <- !sumf_plus. apply sumf_ext; intros; ring. Qed.
Lemma ip_pos : forall n f, 0 <= ip n f f.
Proof.
  intros. unfold ip. rewrite <- (Rmult_0_r (INR (length (seq 0 n)))), <- sumf_const. apply sumf_le. intros. apply Rle_0_sqr.
Qed.
Lemma ip_cauchy : forall n f g, ip n f g * ip n f g <= ip n f f * ip n g g.
Proof.
  intros n f g. pose proof (ip_pos n g) as G. pose proof (ip_pos n f) as F.
  destruct (Req_dec (ip n g g) 0) as [Z|NZ].
  - assert (forall t, 0 <= ip n f f + 2 * t * ip n f g) as H.
    { intros t. pose proof (ip_pos n (fun j => 1 * f j + t * g j)) as P. rewrite ip_square, Z in P. lra. }
    assert (ip n f g = 0) as ->; [|rewrite Z; lra].
    destruct (Req_dec (ip n f g) 0) as [|N]; auto. exfalso.
    specialize (H (- (ip n f f + 1) / (2 * ip n f g))).
    replace (2 * (- (ip n f f + 1) / (2 * ip n f g)) * ip n f g) with (- (ip n f f + 1)) in H by (field; auto). lra.
  - pose proof (ip_pos n (fun j => ip n g g * f j + (- ip n f g) * g j)) as P.
    rewrite ip_square in P.
    assert (0 <= ip n g g * (ip n f f * ip n g g - ip n f g * ip n f g)) as Q by lra.
    assert (0 < ip n g g) by lra.
    assert (0 <= ip n f f * ip n g g - ip n f g * ip n f g); [|lra].
    apply Rmult_le_reg_l with (ip n g g); auto. lra.
Qed.

(** ** the weighted average *)
Lemma wat_coord : forall n g models j, models <> [] -> (forall v, In v models -> length v = n) -> (j < n)%nat ->
  at_ (weighted_average_tuple models (map g models)) j = sumf (fun p => at_ p j * g p) models / sumf g models.
Proof.
  intros n g models j N S J. destruct models as [|m ms]; [congruence|].
  rewrite wat_nth by (rewrite (S m (in_eq _ _)); auto). unfold sumf, column. f_equal.
  generalize (m :: ms). intros l. f_equal. induction l; simpl; auto. f_equal; auto.
Qed.
Lemma wat_length : forall n ws models, models <> [] -> (forall v, In v models -> length v = n) ->
  length (weighted_average_tuple models ws) = n.
Proof. intros. destruct models as [|m ms]; [congruence|]. unfold weighted_average_tuple. rewrite over0_length. auto using in_eq. Qed.

Section Step.
  Context (n : nat) (models : list vec) (eps : R).
  Hypothesis E : 0 < eps.
  Hypothesis N : models <> [].
  Hypothesis S : forall v, In v models -> length v = n.

  Definition wt (m p : vec) : R := 1 / Rmax (dist p m) eps.
  Definition next (m : vec) : vec := weighted_average_tuple models (map (wt m) models).

  Lemma wt_pos : forall m p, 0 < wt m p.
  Proof.
    intros. unfold wt. apply Rdiv_lt_0_compat; [lra|]. apply Rlt_le_trans with eps; auto. apply Rmax_r.
  Qed.
  Lemma total_wt_pos : forall m, 0 < sumf (wt m) models.
  Proof.
    intros. apply rsum_pos; [destruct models; [congruence|discriminate]|].
    intros x I. apply in_map_iff in I as (p & <- & _). apply wt_pos.
  Qed.
  Lemma next_length : forall m, length (next m) = n.
  Proof. intros. apply wat_length; auto. Qed.

  (** the weighted average is the point of least weighted square distance *)
  Lemma least_squares : forall m x, length x = n ->
    sumf (fun p => wt m p * ip n (diff p (next m)) (diff p (next m))) models <=
    sumf (fun p => wt m p * ip n (diff p x) (diff p x)) models.
  Proof.
    intros m x L.
    assert (forall y, sumf (fun p => wt m p * ip n (diff p y) (diff p y)) models =
      sumf (fun j => sumf (fun p => wt m p * (diff p y j * diff p y j)) models) (seq 0 n)) as SW.
    { intros y. rewrite <- sumf_swap. apply sumf_ext. intros p _. unfold ip. rewrite <- sumf_scale. reflexivity. }
    rewrite !SW. apply sumf_le. intros j J. apply in_seq in J.
    pose proof (total_wt_pos m) as W. set (w := sumf (wt m) models) in *.
    set (s := sumf (fun p => at_ p j * wt m p) models).
    set (q := sumf (fun p => wt m p * (at_ p j * at_ p j)) models).
    assert (at_ (next m) j * w = s) as C.
    { unfold next. rewrite (wat_coord n) by (auto; lia). change (sumf (wt m) models) with w. fold s. field. lra. }
    assert (forall y, sumf (fun p => wt m p * (diff p y j * diff p y j)) models = q + (- 2 * at_ y j) * s + (at_ y j * at_ y j) * w) as X.
    { intros y. unfold q, s, w. rewrite <- !sumf_scale, <- !sumf_plus. apply sumf_ext. intros p _. unfold diff. ring. }
    rewrite !X, <- C.
    assert (0 <= (at_ x j - at_ (next m) j) * (at_ x j - at_ (next m) j) * w); [|lra].
    apply Rmult_le_pos; [apply Rle_0_sqr|lra].
  Qed.

  Lemma descent : forall m, length m = n -> smoothed_total eps models (next m) <= smoothed_total eps models m.
  Proof.
    intros m L. unfold smoothed_total. fold (sumf (fun p => smoothed eps (dist p (next m))) models) (sumf (fun p => smoothed eps (dist p m)) models).
    apply Rle_trans with (sumf (fun p => smoothed eps (dist p m) + (/ 2) * (wt m p * ip n (diff p (next m)) (diff p (next m)) - wt m p * ip n (diff p m) (diff p m))) models).
    - apply sumf_le. intros p I. rewrite <- !dist_sqr by (auto using next_length).
      eapply Rle_trans; [apply (smoothed_major eps (dist p m)); auto using dist_pos|]. unfold wt. right. field.
      apply Rgt_not_eq. apply Rlt_le_trans with eps; auto. apply Rmax_r.
    - rewrite sumf_plus, sumf_scale, sumf_minus. pose proof (least_squares m m L). lra.
  Qed.

  (** where the iteration stands still, no point has a smaller smoothed sum *)
  Lemma standstill : forall m x, length m = n -> length x = n -> next m = m -> smoothed_total eps models m <= smoothed_total eps models x.
  Proof.
    intros m x L Lx F. unfold smoothed_total. fold (sumf (fun p => smoothed eps (dist p x)) models) (sumf (fun p => smoothed eps (dist p m)) models).
    apply Rle_trans with (sumf (fun p => smoothed eps (dist p m) + wt m p * ip n (diff m p) (diff x m)) models).
    - rewrite sumf_plus.
      assert (sumf (fun p => wt m p * ip n (diff m p) (diff x m)) models = 0) as ->; [|lra].
      rewrite (sumf_ext _ _ (fun p => sumf (fun j => diff x m j * (wt m p * diff m p j)) (seq 0 n))).
      2:{ intros p _. unfold ip. rewrite <- sumf_scale. apply sumf_ext. intros. ring. }
      rewrite sumf_swap. rewrite (sumf_ext _ _ (fun _ => 0)); [rewrite sumf_const; lra|].
      intros j J. apply in_seq in J. rewrite sumf_scale.
      pose proof (total_wt_pos m) as W. set (w := sumf (wt m) models) in *.
      set (s := sumf (fun p => at_ p j * wt m p) models).
      assert (at_ m j * w = s) as C.
      { rewrite <- F at 1. unfold next. rewrite (wat_coord n) by (auto; lia). change (sumf (wt m) models) with w. fold s. field. lra. }
      assert (sumf (fun p => wt m p * diff m p j) models = at_ m j * w - s) as ->; [|rewrite C; ring].
      unfold w, s. rewrite <- sumf_scale, <- sumf_minus. apply sumf_ext. intros. unfold diff. ring.
    - apply sumf_le. intros p I.
      assert (ip n (diff m p) (diff x m) <= dist p m * dist p x - dist p m * dist p m) as B.
      { rewrite (dist_sqr n p m) by auto.
        assert (ip n (diff m p) (diff x m) = ip n (diff p m) (diff p x) - ip n (diff p m) (diff p m)) as ->.
        { unfold ip. rewrite <- sumf_minus. apply sumf_ext. intros. unfold diff. ring. }
        assert (ip n (diff p m) (diff p x) <= dist p m * dist p x); [|lra].
        pose proof (ip_cauchy n (diff p m) (diff p x)) as C. rewrite <- !dist_sqr in C by auto.
        pose proof (dist_pos p m). pose proof (dist_pos p x).
        destruct (Rle_dec (ip n (diff p m) (diff p x)) 0); [nra|].
        apply Rsqr_incr_0; unfold Rsqr; nra. }
      pose proof (smoothed_tangent eps (dist p m) (dist p x) E (dist_pos _ _) (dist_pos _ _)) as T.
      pose proof (wt_pos m p) as W. unfold wt in *.
      assert (1 / Rmax (dist p m) eps * ip n (diff m p) (diff x m) <= 1 / Rmax (dist p m) eps * (dist p m * dist p x - dist p m * dist p m)) by (apply Rmult_le_compat_l; lra).
      lra.
  Qed.

  (** ** the loop *)
  Definition ones : list R := map (fun _ : vec => 1) models.

  Lemma new_weights_eq : forall m, map2 (fun w d => w / Rmax d eps) ones (map (fun p => dist p m) models) = map (wt m) models.
  Proof. intros m. unfold ones, wt. generalize models as l. induction l; simpl; auto. f_equal; auto. Qed.

  Lemma loop_descends : forall k ftol m obj ws, m = weighted_average_tuple models ws ->
    smoothed_total eps models (weighted_average_tuple models (weiszfeld k models ones eps ftol m obj ws)) <= smoothed_total eps models m.
  Proof.
    induction k; intros ftol m obj ws M; cbn [weiszfeld]; [subst; lra|].
    rewrite new_weights_eq. fold (next m).
    assert (length m = n) as L by (subst m; apply wat_length; auto).
    pose proof (descent m L) as D. destruct (Rle_dec _ _).
    - exact D.
    - eapply Rle_trans; [apply IHk; reflexivity|exact D].
  Qed.

  (** more iterations never make it worse *)
  Lemma loop_monotone : forall k k' ftol m obj ws, (k <= k')%nat -> m = weighted_average_tuple models ws ->
    smoothed_total eps models (weighted_average_tuple models (weiszfeld k' models ones eps ftol m obj ws)) <=
    smoothed_total eps models (weighted_average_tuple models (weiszfeld k models ones eps ftol m obj ws)).
  Proof.
    induction k; intros k' ftol m obj ws K M.
    - cbn [weiszfeld]. rewrite <- M. apply loop_descends; auto.
    - destruct k'; [lia|]. cbn [weiszfeld]. destruct (Rle_dec _ _); [lra|]. apply IHk; [lia|reflexivity].
  Qed.

  Lemma objective_pos : forall m, 0 <= geometric_median_objective m models ones.
  Proof.
    intros. unfold geometric_median_objective, mean. apply frac_nonneg.
    - apply rsum_nonneg. unfold ones. generalize models as l. induction l; simpl; [tauto|].
      intros x [<-|I]; auto. rewrite Rmult_1_r. apply dist_pos.
    - unfold ones. assert (forall l : list vec, length (map2 Rmult (map (fun p => dist p m) l) (map (fun _ => 1) l)) = length l) as ->.
      { induction l; simpl; auto. } destruct models; [congruence|]. apply lt_0_INR. simpl. lia.
  Qed.

  (** with a negative tolerance the loop stops early only once the objective is zero *)
  Lemma early_stop : forall k ftol m obj ws, ftol < 0 -> m = weighted_average_tuple models ws ->
    obj = geometric_median_objective m models ones ->
    let r := weighted_average_tuple models (weiszfeld k models ones eps ftol m obj ws) in
    let r' := weighted_average_tuple models (weiszfeld (Datatypes.S k) models ones eps ftol m obj ws) in
    r' = next r \/ (geometric_median_objective r models ones = 0).
  Proof.
    induction k; intros ftol m obj ws F M O.
    - cbn [weiszfeld]. rewrite new_weights_eq. cbv zeta. left. rewrite <- M. unfold next.
      destruct (Rle_dec _ _); reflexivity.
    - cbv zeta. cbn [weiszfeld]. rewrite new_weights_eq. fold (next m).
      destruct (Rle_dec _ _) as [D|D].
      + right. pose proof (objective_pos (next m)) as P. fold (next m).
        destruct (Req_dec (geometric_median_objective (next m) models ones) 0) as [|NZ]; auto.
        assert (ftol * geometric_median_objective (next m) models ones < 0) by nra.
        pose proof (Rabs_pos (obj - geometric_median_objective (next m) models ones)). lra.
      + apply (IHk ftol (next m) _ (map (wt m) models) F); reflexivity.
  Qed.

  Lemma objective_total : forall m, geometric_median_objective m models ones = total_distance models m / INR (length models).
  Proof.
    intros. unfold geometric_median_objective, mean, total_distance, ones.
    assert (forall l : list vec, map2 Rmult (map (fun p => dist p m) l) (map (fun _ => 1) l) = map (fun p => dist p m) l) as ->.
    { induction l; simpl; auto. f_equal; auto. ring. }
    rewrite map_length. reflexivity.
  Qed.

  Lemma total_between : forall m, total_distance models m <= smoothed_total eps models m <= total_distance models m + INR (length models) * (eps / 2).
  Proof.
    intros. unfold total_distance, smoothed_total. fold (sumf (fun p => smoothed eps (dist p m)) models) (sumf (fun p => dist p m) models).
    split.
    - apply sumf_le. intros. apply smoothed_ge; auto using dist_pos.
    - rewrite <- sumf_const, <- sumf_plus. apply sumf_le. intros. apply smoothed_le; auto using dist_pos.
  Qed.
  Lemma total_pos : forall m, 0 <= total_distance models m.
  Proof. intros. apply rsum_nonneg. intros x I. apply in_map_iff in I as (p & <- & _). apply dist_pos. Qed.

  Lemma start_centre : weighted_average_tuple models ones = centre n models.
  Proof.
    apply nth_ext0.
    - rewrite (wat_length n) by auto. unfold centre. rewrite map_length, seq_length. auto.
    - intros j J. rewrite (wat_length n) in J by auto. unfold ones. rewrite (wat_coord n) by auto.
      unfold centre. rewrite (nth_indep _ 0 ((fun j => rsum (map (fun p => at_ p j) models) / INR (length models)) 0%nat)) by (rewrite map_length, seq_length; auto).
      rewrite (map_nth (fun j => rsum (map (fun p => at_ p j) models) / INR (length models)) (seq 0 n) 0%nat j).
      rewrite seq_nth by auto. cbn [Nat.add]. rewrite sumf_const, Rmult_1_r. f_equal. apply sumf_ext. intros. ring.
  Qed.
End Step.
