(** Sums of cosines, and the transforms of ModelFourier *)
From Coq Require Import Reals ZArith List Bool Arith Lia Lra.
From Verif Require Import Base ModelNum ModelFilter ModelCross ModelFourier NumProofs.
Import ListNotations.
Open Scope list_scope.
Open Scope R_scope.

(** ** sums *)
Definition sum {A} (l : list A) (g : A -> R) : R := rsum (map g l).
Lemma sum_nil : forall A (g : A -> R), sum [] g = 0.
Proof. reflexivity. Qed.
Lemma sum_cons : forall A (x : A) l g, sum (x :: l) g = g x + sum l g.
Proof. intros. unfold sum. simpl. apply rsum_cons. Qed.
Lemma sum_app : forall A (l l' : list A) g, sum (l ++ l') g = sum l g + sum l' g.
Proof. intros. unfold sum. rewrite map_app. apply rsum_app. Qed.
Lemma sum_ext : forall A (l : list A) g h, (forall x, In x l -> g x = h x) -> sum l g = sum l h.
Proof. intros. unfold sum. f_equal. apply map_ext_in. auto. Qed.
Lemma sum_add : forall A (l : list A) g h, sum l (fun x => g x + h x) = sum l g + sum l h.
Proof. induction l; intros; rewrite ?sum_nil, ?sum_cons; [lra|]. rewrite IHl. lra. Qed.
Lemma sum_scale : forall A (l : list A) c g, sum l (fun x => c * g x) = c * sum l g.
Proof. induction l; intros; rewrite ?sum_nil, ?sum_cons; [lra|]. rewrite IHl. lra. Qed.
Lemma sum_scale_r : forall A (l : list A) c g, sum l (fun x => g x * c) = sum l g * c.
Proof. induction l; intros; rewrite ?sum_nil, ?sum_cons; [lra|]. rewrite IHl. lra. Qed.
Lemma sum_sub : forall A (l : list A) g h, sum l (fun x => g x - h x) = sum l g - sum l h.
Proof. induction l; intros; rewrite ?sum_nil, ?sum_cons; [lra|]. rewrite IHl. lra. Qed.
Lemma sum_opp : forall A (l : list A) g, sum l (fun x => - g x) = - sum l g.
Proof. induction l; intros; rewrite ?sum_nil, ?sum_cons; [lra|]. rewrite IHl. lra. Qed.
Lemma sum_zero : forall A (l : list A) g, (forall x, In x l -> g x = 0) -> sum l g = 0.
Proof. induction l; intros; rewrite ?sum_nil, ?sum_cons; auto. rewrite H, IHl; auto using in_eq, in_cons. lra. Qed.
Lemma sum_swap : forall A B (l : list A) (m : list B) g, sum l (fun x => sum m (g x)) = sum m (fun y => sum l (fun x => g x y)).
Proof.
  induction l as [|x l IH]; intros.
  - rewrite sum_nil. symmetry. apply sum_zero. intros. apply sum_nil.
  - rewrite sum_cons, IH, <- sum_add. apply sum_ext. intros. rewrite sum_cons. auto.
Qed.
Lemma sum_map : forall A B (f : A -> B) l g, sum (map f l) g = sum l (fun x => g (f x)).
Proof. intros. unfold sum. rewrite map_map. auto. Qed.
Lemma sum_flat : forall A B (f : A -> list B) l g, sum (flat_map f l) g = sum l (fun x => sum (f x) g).
Proof. induction l; intros; [reflexivity|]. simpl. rewrite sum_app, sum_cons, IHl. auto. Qed.
Lemma sum_le : forall A (l : list A) g h, (forall x, In x l -> g x <= h x) -> sum l g <= sum l h.
Proof.
  induction l; intros; rewrite ?sum_nil, ?sum_cons; [lra|]. pose proof (H a (in_eq _ _)).
  assert (sum l g <= sum l h) by (apply IHl; intros; apply H; right; auto). lra.
Qed.

Lemma sum_idx : forall n s g, sum (all_idx (n :: s)) g = sum (seq 0 n) (fun p => sum (all_idx s) (fun k => g (p :: k))).
Proof. intros. simpl. rewrite sum_flat. apply sum_ext. intros. apply sum_map. Qed.

(** [k] is an index of the shape *)
Fixpoint index (s k : list nat) : Prop :=
  match s, k with
  | [], [] => True
  | n :: s', p :: k' => (p < n)%nat /\ index s' k'
  | _, _ => False
  end.
Lemma idx_in : forall s k, In k (all_idx s) <-> index s k.
Proof.
  induction s as [|n s IH]; intros k; simpl.
  - split; [intros [<-|[]]; simpl; auto|destruct k; simpl; tauto].
  - rewrite in_flat_map. split.
    + intros (p & P & K). apply in_map_iff in K as (k' & <- & K). apply in_seq in P. simpl. split; [lia|]. apply IH; auto.
    + destruct k as [|p k]; [intros []|]. intros (P & K). exists p. split; [apply in_seq; lia|]. apply in_map. apply IH; auto.
Qed.
Lemma idx_nodup : forall s, NoDup (all_idx s).
Proof.
  induction s as [|n s IH]; simpl; [constructor; auto; constructor|].
  assert (forall m a, NoDup (flat_map (fun i => map (cons i) (all_idx s)) (seq a m))) as G.
  { induction m as [|m IHm]; intros a; simpl; [constructor|].
    assert (forall l l' : list (list nat), NoDup l -> NoDup l' -> (forall x, In x l -> ~ In x l') -> NoDup (l ++ l')) as App.
    { induction l as [|x l IHl]; intros l' N N' D; simpl; auto. inversion N; subst. constructor.
      - rewrite in_app_iff. intros [X|X]; [auto|]. apply (D x); [left|]; auto.
      - apply IHl; auto. intros y Y. apply D; right; auto. }
    apply App; auto.
    - apply FinFun.Injective_map_NoDup; auto. intros x y E. inversion E; auto.
    - intros x X Y. apply in_map_iff in X as (x' & <- & _). apply in_flat_map in Y as (p & P & K). apply in_map_iff in K as (y & E & _).
      inversion E; subst. apply in_seq in P. lia. }
  apply G.
Qed.

(** ** a sum of cosines over one dimension *)
Lemma telescope : forall n h f, 2 * sin h * sum (seq 0 n) (fun k => cos (f + 2 * INR k * h)) = sin (f + (2 * INR n - 1) * h) - sin (f - h).
Proof.
  induction n as [|n IH]; intros h f.
  - cbn [seq]. rewrite sum_nil. cbn [INR]. replace (f + (2 * 0 - 1) * h) with (f - h) by ring. ring.
  - rewrite seq_S, sum_app, sum_cons, sum_nil, Rplus_0_r, Rmult_plus_distr_l, IH. cbn [Nat.add].
    rewrite S_INR. replace (f + (2 * (INR n + 1) - 1) * h) with ((f + 2 * INR n * h) + h) by ring.
    replace (f + (2 * INR n - 1) * h) with ((f + 2 * INR n * h) - h) by ring. rewrite sin_plus, sin_minus. ring.
Qed.
Lemma period_Z : forall x (z : Z), cos (x + 2 * IZR z * PI) = cos x /\ sin (x + 2 * IZR z * PI) = sin x.
Proof.
  intros x z. destruct (Z_le_gt_dec 0 z) as [P|P].
  - rewrite <- (Z2Nat.id z) by auto. rewrite <- INR_IZR_INZ. rewrite cos_period, sin_period. auto.
  - assert (exists m : nat, z = (- Z.of_nat m)%Z) as (m & ->) by (exists (Z.to_nat (- z)); lia).
    rewrite opp_IZR, <- INR_IZR_INZ. rewrite <- (cos_period (x + 2 * - INR m * PI) m), <- (sin_period (x + 2 * - INR m * PI) m).
    split; f_equal; ring.
Qed.
Lemma one_dimension : forall n (m : Z) f, (0 < n)%nat ->
  sum (seq 0 n) (fun k => cos (f + 2 * PI * (IZR m * INR k / INR n))) = if (m mod Z.of_nat n =? 0)%Z then INR n * cos f else 0.
Proof.
  intros n m f N. assert (INR n <> 0) as N0 by (apply not_0_INR; lia).
  destruct (Z.eqb_spec (m mod Z.of_nat n) 0) as [E|E].
  - apply Z.mod_divide in E as (z & ->); [|lia].
    assert (forall k, cos (f + 2 * PI * (IZR (z * Z.of_nat n) * INR k / INR n)) = cos f) as C.
    { intros k. rewrite mult_IZR, <- INR_IZR_INZ. rewrite <- (proj1 (period_Z f (z * Z.of_nat k))), mult_IZR, <- INR_IZR_INZ. f_equal. field. auto. }
    rewrite (sum_ext _ _ _ (fun _ => cos f)) by (intros; apply C). unfold sum. rewrite (rsum_const (cos f)).
    + rewrite map_length, seq_length. auto.
    + intros y Y. apply in_map_iff in Y as (? & ? & _). auto.
  - pose proof (telescope n (PI * IZR m / INR n) f) as T.
    assert (sin (f + (2 * INR n - 1) * (PI * IZR m / INR n)) = sin (f - PI * IZR m / INR n)) as S.
    { rewrite <- (proj2 (period_Z (f - PI * IZR m / INR n) m)). f_equal. field. auto. }
    rewrite S, Rminus_diag_eq in T by auto.
    rewrite (sum_ext _ _ _ (fun k => cos (f + 2 * INR k * (PI * IZR m / INR n)))) by (intros; f_equal; field; auto).
    apply Rmult_integral in T as [T|T]; auto. exfalso.
    assert (sin (PI * IZR m / INR n) = 0) as Z by lra. apply sin_eq_0_0 in Z as (z & Z).
    apply E. apply Z.mod_divide; [lia|]. exists z. apply eq_IZR. rewrite mult_IZR, <- INR_IZR_INZ.
    pose proof PI_RGT_0. apply Rmult_eq_reg_l with PI; [|lra].
    replace (PI * IZR m) with (PI * IZR m / INR n * INR n) by (field; auto). rewrite Z. ring.
Qed.

(** ** over all dimensions *)
Fixpoint phaseZ (s : list nat) (m : list Z) (j : list nat) : R :=
  match s, m, j with
  | n :: s', p :: m', q :: j' => IZR p * INR q / INR n + phaseZ s' m' j'
  | _, _, _ => 0
  end.
Fixpoint multiple (s : list nat) (m : list Z) : bool :=
  match s, m with n :: s', p :: m' => (p mod Z.of_nat n =? 0)%Z && multiple s' m' | _, _ => true end.
Notation pos s := (Forall (fun n => (0 < n)%nat) s).
Lemma all_dimensions : forall s m f, pos s -> length m = length s ->
  sum (all_idx s) (fun j => cos (f + 2 * PI * phaseZ s m j)) = if multiple s m then INR (numel s) * cos f else 0.
Proof.
  induction s as [|n s IH]; intros m f P L.
  - simpl. rewrite sum_cons, sum_nil. rewrite Rmult_0_r, !Rplus_0_r. lra.
  - destruct m as [|p m]; [discriminate|]. inversion P; subst. rewrite sum_idx. simpl in L.
    rewrite (sum_ext _ _ _ (fun k => (if multiple s m then INR (numel s) else 0) * cos (f + 2 * PI * (IZR p * INR k / INR n)))).
    + rewrite sum_scale, one_dimension by auto. simpl multiple. destruct (p mod Z.of_nat n =? 0)%Z; simpl; [|lra].
      destruct (multiple s m); [|lra]. rewrite mult_INR. ring.
    + intros k K. simpl phaseZ.
      rewrite (sum_ext _ _ _ (fun j => cos ((f + 2 * PI * (IZR p * INR k / INR n)) + 2 * PI * phaseZ s m j))) by (intros; f_equal; ring).
      rewrite IH by (auto; lia). destruct (multiple s m); ring.
Qed.

Fixpoint zip_z (op : Z -> Z -> Z) (k l : list nat) : list Z :=
  match k, l with p :: k', q :: l' => op (Z.of_nat p) (Z.of_nat q) :: zip_z op k' l' | _, _ => [] end.
Lemma zip_length : forall op s k l, index s k -> index s l -> length (zip_z op k l) = length s.
Proof. induction s as [|n s IH]; destruct k, l; simpl; intros; try tauto. f_equal. apply IH; tauto. Qed.
Lemma phase_add : forall s k l j, index s k -> index s l -> phaseZ s (zip_z Z.add k l) j = phase s k j + phase s l j.
Proof.
  induction s as [|n s IH]; destruct k, l, j; simpl; intros; try tauto; try lra. rewrite IH by tauto. rewrite plus_IZR, <- !INR_IZR_INZ. unfold Rdiv. ring.
Qed.
Lemma phase_sub : forall s k l j, index s k -> index s l -> phaseZ s (zip_z Z.sub k l) j = phase s k j - phase s l j.
Proof.
  induction s as [|n s IH]; destruct k, l, j; simpl; intros; try tauto; try lra. rewrite IH by tauto. rewrite minus_IZR, <- !INR_IZR_INZ. unfold Rdiv. ring.
Qed.
Lemma phase_sym : forall s k j, phase s k j = phase s j k.
Proof. induction s; destruct k, j; simpl; auto. rewrite IHs. unfold Rdiv. ring. Qed.

(** the opposite frequency *)
Fixpoint neg (s k : list nat) : list nat :=
  match s, k with n :: s', p :: k' => (if p =? 0 then 0 else n - p)%nat :: neg s' k' | _, _ => [] end.
Lemma neg_index : forall s k, index s k -> index s (neg s k).
Proof. induction s as [|n s IH]; destruct k as [|p k]; simpl; auto. intros (P & K). split; auto. destruct (Nat.eqb_spec p 0); lia. Qed.
Lemma neg_neg : forall s k, index s k -> neg s (neg s k) = k.
Proof.
  induction s as [|n s IH]; destruct k as [|p k]; simpl; intros; try tauto. rewrite IH by tauto. f_equal.
  destruct (Nat.eqb_spec p 0); simpl; auto. destruct (Nat.eqb_spec (n - p) 0); lia.
Qed.
Lemma neg_phase : forall s k j, pos s -> index s k -> index s j -> exists z, phase s (neg s k) j = INR z - phase s k j.
Proof.
  induction s as [|n s IH]; destruct k as [|p k], j as [|q j]; simpl; intros P K J; try tauto.
  - exists 0%nat. simpl. lra.
  - inversion P; subst. destruct (IH k j) as (z & E); try tauto. rewrite E. assert (INR n <> 0) by (apply not_0_INR; lia).
    destruct (Nat.eqb_spec p 0) as [->|N].
    + exists z. simpl. unfold Rdiv. ring.
    + exists (q + z)%nat. rewrite minus_INR, plus_INR by lia. field. auto.
Qed.
Lemma neg_angle : forall s k j, pos s -> index s k -> index s j ->
  cos (angle s (neg s k) j) = cos (angle s k j) /\ sin (angle s (neg s k) j) = - sin (angle s k j).
Proof.
  intros s k j P K J. unfold angle. destruct (neg_phase s k j P K J) as (z & ->).
  replace (2 * PI * (INR z - phase s k j)) with (- (2 * PI * phase s k j) + 2 * INR z * PI) by ring.
  rewrite cos_period, sin_period, cos_neg, sin_neg. auto.
Qed.

Definition same (k l : list nat) : bool := if list_eq_dec Nat.eq_dec k l then true else false.
Lemma multiple_sub : forall s k l, index s k -> index s l -> multiple s (zip_z Z.sub k l) = same k l.
Proof.
  unfold same. induction s as [|n s IH]; destruct k as [|p k], l as [|q l]; cbn [index multiple zip_z neg]; intros; try tauto; try reflexivity.
  - destruct H as (P & K), H0 as (Q & L). rewrite (IH k l K L).
    destruct (list_eq_dec Nat.eq_dec (p :: k) (q :: l)) as [E|E].
    + inversion E; subst. destruct (list_eq_dec Nat.eq_dec l l); [|congruence]. rewrite Z.sub_diag. rewrite Zmod_0_l. reflexivity.
    + destruct (list_eq_dec Nat.eq_dec k l) as [->|]; [|apply andb_false_r]. rewrite andb_true_r. apply Z.eqb_neq. intros M.
      apply Z.mod_divide in M as (z & M); [|lia]. apply E. f_equal. assert (z = 0%Z) by nia. lia.
Qed.
Lemma multiple_add : forall s k l, index s k -> index s l -> multiple s (zip_z Z.add k l) = same k (neg s l).
Proof.
  unfold same. induction s as [|n s IH]; destruct k as [|p k], l as [|q l]; cbn [index multiple zip_z neg]; intros; try tauto; try reflexivity.
  - destruct H as (P & K), H0 as (Q & L). rewrite (IH k l K L).
    destruct (list_eq_dec Nat.eq_dec (p :: k) ((if q =? 0 then 0 else n - q)%nat :: neg s l)) as [E|E].
    + inversion E. destruct (list_eq_dec Nat.eq_dec (neg s l) (neg s l)); [|congruence]. rewrite andb_true_r. apply Z.eqb_eq.
      destruct (Nat.eqb_spec q 0); subst; [simpl; apply Zmod_0_l|]. replace (Z.of_nat (n - q) + Z.of_nat q)%Z with (Z.of_nat n) by lia. apply Z_mod_same_full.
    + destruct (list_eq_dec Nat.eq_dec k (neg s l)) as [->|]; [|apply andb_false_r]. rewrite andb_true_r. apply Z.eqb_neq. intros M.
      apply Z.mod_divide in M as (z & M); [|lia]. apply E. f_equal. destruct (Nat.eqb_spec q 0); [assert (z = 0%Z) by nia; lia|].
      assert (z = 1%Z) by nia. lia.
Qed.

(** ** products of the waves *)
Definition delta (N : R) (k l : list nat) : R := if same k l then N else 0.
Lemma cos_diff : forall s k l, pos s -> index s k -> index s l ->
  sum (all_idx s) (fun j => cos (angle s k j - angle s l j)) = delta (INR (numel s)) k l.
Proof.
  intros s k l P K L. rewrite (sum_ext _ _ _ (fun j => cos (0 + 2 * PI * phaseZ s (zip_z Z.sub k l) j))).
  - rewrite all_dimensions, multiple_sub by (auto; eapply zip_length; eauto). rewrite cos_0, Rmult_1_r. reflexivity.
  - intros j _. rewrite phase_sub by auto. unfold angle. f_equal. ring.
Qed.
Lemma sin_diff : forall s k l, pos s -> index s k -> index s l ->
  sum (all_idx s) (fun j => sin (angle s k j - angle s l j)) = 0.
Proof.
  intros s k l P K L. rewrite (sum_ext _ _ _ (fun j => cos (- (PI / 2) + 2 * PI * phaseZ s (zip_z Z.sub k l) j))).
  - rewrite all_dimensions by (auto; eapply zip_length; eauto). rewrite cos_neg, cos_PI2, Rmult_0_r. destruct (multiple _ _); auto.
  - intros j _. rewrite phase_sub by auto. rewrite <- cos_shift, <- cos_neg. unfold angle. f_equal. ring.
Qed.
Lemma cos_tot : forall s k l, pos s -> index s k -> index s l ->
  sum (all_idx s) (fun j => cos (angle s k j + angle s l j)) = delta (INR (numel s)) k (neg s l).
Proof.
  intros s k l P K L. rewrite (sum_ext _ _ _ (fun j => cos (0 + 2 * PI * phaseZ s (zip_z Z.add k l) j))).
  - rewrite all_dimensions, multiple_add by (auto; eapply zip_length; eauto). rewrite cos_0, Rmult_1_r. reflexivity.
  - intros j _. rewrite phase_add by auto. unfold angle. f_equal. ring.
Qed.
Lemma sin_tot : forall s k l, pos s -> index s k -> index s l ->
  sum (all_idx s) (fun j => sin (angle s k j + angle s l j)) = 0.
Proof.
  intros s k l P K L. rewrite (sum_ext _ _ _ (fun j => cos (- (PI / 2) + 2 * PI * phaseZ s (zip_z Z.add k l) j))).
  - rewrite all_dimensions by (auto; eapply zip_length; eauto). rewrite cos_neg, cos_PI2, Rmult_0_r. destruct (multiple _ _); auto.
  - intros j _. rewrite phase_add by auto. rewrite <- cos_shift, <- cos_neg. unfold angle. f_equal. ring.
Qed.
Lemma cos_cos : forall s k l, pos s -> index s k -> index s l ->
  sum (all_idx s) (fun j => cos (angle s k j) * cos (angle s l j)) = (delta (INR (numel s)) k l + delta (INR (numel s)) k (neg s l)) / 2.
Proof.
  intros. rewrite <- cos_diff, <- cos_tot, <- sum_add by auto. unfold Rdiv. rewrite <- sum_scale_r. apply sum_ext. intros.
  rewrite cos_minus, cos_plus. field.
Qed.
Lemma sin_sin : forall s k l, pos s -> index s k -> index s l ->
  sum (all_idx s) (fun j => sin (angle s k j) * sin (angle s l j)) = (delta (INR (numel s)) k l - delta (INR (numel s)) k (neg s l)) / 2.
Proof.
  intros. rewrite <- cos_diff, <- cos_tot, <- sum_sub by auto. unfold Rdiv. rewrite <- sum_scale_r. apply sum_ext. intros.
  rewrite cos_minus, cos_plus. field.
Qed.
Lemma sin_cos : forall s k l, pos s -> index s k -> index s l ->
  sum (all_idx s) (fun j => sin (angle s k j) * cos (angle s l j)) = 0.
Proof.
  intros. rewrite (sum_ext _ _ _ (fun j => (sin (angle s k j + angle s l j) + sin (angle s k j - angle s l j)) * / 2)).
  - rewrite sum_scale_r, sum_add, sin_tot, sin_diff by auto. lra.
  - intros. rewrite sin_minus, sin_plus. field.
Qed.

(** ** a sum over half the frequencies *)
Lemma sum_neg : forall n (g : nat -> R), sum (seq 0 n) (fun p => g (if p =? 0 then 0 else n - p)%nat) = sum (seq 0 n) g.
Proof.
  intros [|n] g; [reflexivity|]. cbn [seq]. rewrite !sum_cons. cbn [Nat.eqb]. f_equal.
  rewrite <- seq_shift, !sum_map. rewrite (sum_ext _ _ _ (fun p => g (n - p)%nat)) by (intros; f_equal; lia).
  assert (forall m, sum (seq 0 m) (fun p => g (m - p)%nat) = sum (seq 0 m) (fun p => g (S p))) as G.
  { induction m as [|m IH]; [reflexivity|]. cbn [seq]. rewrite sum_cons. rewrite <- seq_shift, sum_map.
    rewrite (sum_ext _ _ _ (fun p => g (m - p)%nat)) by (intros; f_equal; lia). rewrite IH.
    change (0 :: map S (seq 0 m))%nat with (seq 0 1 ++ map S (seq 0 m)). rewrite seq_shift, <- seq_app. rewrite Nat.add_comm. rewrite seq_app.
    rewrite sum_app. cbn [seq]. rewrite sum_cons, sum_nil. cbn [Nat.add]. replace (S m - 0)%nat with (S m) by lia. lra. }
  apply G.
Qed.
Lemma half_one : forall n (g : nat -> R), (0 < n)%nat -> (forall p, (p < n)%nat -> g (if p =? 0 then 0 else n - p)%nat = g p) ->
  sum (seq 0 (n / 2 + 1)) (fun p => (if (p =? 0)%nat || (2 * p =? n)%nat then 1 else 2) * g p) = sum (seq 0 n) g.
Proof.
  intros n g N S. pose proof (Nat.div_mod n 2 ltac:(lia)) as D. pose proof (Nat.mod_upper_bound n 2 ltac:(lia)) as M.
  set (h := (n / 2)%nat) in *. clearbody h.
  assert (exists u, n = (h + 1) + u)%nat as (u & E) by (exists (n - h - 1)%nat; lia). replace (seq 0 n) with (seq 0 (h + 1) ++ seq (h + 1) u) by (change (h + 1)%nat with (0 + (h + 1))%nat at 2; rewrite <- seq_app; f_equal; lia). rewrite sum_app.
  assert (sum (seq (h + 1) u) g = sum (seq 1 u) g) as ->.
  { assert (sum (seq (h + 1) u) (fun p => g (n - p)%nat) = sum (seq 1 u) g) as <-.
    - assert (forall v a, (a + v = n)%nat -> sum (seq a v) (fun p => g (n - p)%nat) = sum (seq 1 v) g) as G.
      { induction v as [|v IH]; intros a A; [reflexivity|]. rewrite (seq_S v 1), sum_app, sum_cons, sum_nil. cbn [seq]. rewrite sum_cons.
        rewrite IH by lia. replace (n - a)%nat with (1 + v)%nat by lia. lra. }
      apply G. lia.
    - apply sum_ext. intros p P. apply in_seq in P. rewrite <- (S p) at 1 by lia. destruct (Nat.eqb_spec p 0); [lia|]. auto. }
  assert (sum (seq 1 u) g = sum (seq 0 (h + 1)) (fun p => if (p =? 0)%nat || (2 * p =? n)%nat then 0 else g p)) as ->.
  { rewrite (Nat.add_comm h 1), seq_app, sum_app. cbn [seq]. rewrite sum_cons, sum_nil. cbn [Nat.eqb orb Nat.add].
    destruct (Nat.eq_dec (2 * h) n) as [Q|Q].
    - assert (h = u + 1)%nat as -> by lia. rewrite seq_app, sum_app. cbn [seq]. rewrite sum_cons, sum_nil.
      replace (2 * (1 + u) =? n)%nat with true by (symmetry; apply Nat.eqb_eq; lia). rewrite orb_true_r.
      rewrite ?Rplus_0_l, ?Rplus_0_r. apply sum_ext. intros p P. apply in_seq in P.
      destruct (Nat.eqb_spec p 0); [lia|]. destruct (Nat.eqb_spec (2 * p) n); [lia|]. auto.
    - assert (u = h) as -> by lia. rewrite ?Rplus_0_l. apply sum_ext. intros p P. apply in_seq in P.
      destruct (Nat.eqb_spec p 0); [lia|]. destruct (Nat.eqb_spec (2 * p) n); [lia|]. auto. }
  rewrite <- sum_add. apply sum_ext. intros p _. destruct (_ || _); ring.
Qed.
Lemma half : forall s (g : list nat -> R), pos s -> (forall k, index s k -> g (neg s k) = g k) ->
  sum (all_idx (dft_shape s)) (fun k => weight s k * g k) = sum (all_idx s) g.
Proof.
  induction s as [|n s IH]; intros g P S; [simpl; rewrite !sum_cons, !sum_nil; ring|]. inversion P; subst.
  destruct s as [|n' s].
  - cbn [dft_shape]. rewrite !sum_idx. cbn [all_idx]. rewrite <- (half_one n); auto.
    + apply sum_ext. intros p _. rewrite !sum_cons, !sum_nil. cbn [weight]. ring.
    + intros p Q. rewrite !sum_cons, !sum_nil. rewrite <- (S [p]) by (simpl; auto). reflexivity.
  - change (dft_shape (n :: n' :: s)) with (n :: dft_shape (n' :: s)). rewrite !sum_idx.
    rewrite (sum_swap _ _ (seq 0 n) (all_idx (dft_shape (n' :: s)))), (sum_swap _ _ (seq 0 n) (all_idx (n' :: s))).
    rewrite <- IH; auto.
    + apply sum_ext. intros k _. rewrite <- sum_scale. reflexivity.
    + intros k K. rewrite <- (sum_neg n). apply sum_ext. intros p Q. apply in_seq in Q. rewrite <- (S (p :: k)); [reflexivity|]. split; auto; lia.
Qed.

(** ** the transforms, on tensors given by a function of the index *)
Lemma as_function : forall A (d : A) (L : list (list nat)) (x : list A), NoDup L -> length x = length L -> exists g, x = map g L.
Proof.
  induction L as [|k L IH]; intros x N E; destruct x as [|a x]; try discriminate.
  - exists (fun _ => d). auto.
  - inversion N; subst. destruct (IH x) as (g & G); auto. exists (fun j => if same j k then a else g j). simpl.
    unfold same at 1. destruct (list_eq_dec Nat.eq_dec k k); [|congruence]. f_equal. rewrite G. apply map_ext_in. intros j J.
    unfold same. destruct (list_eq_dec Nat.eq_dec j k); auto. subst. contradiction.
Qed.
Lemma combine_self : forall A (g : list nat -> A) L, combine (map g L) L = map (fun k => (g k, k)) L.
Proof. induction L; simpl; f_equal; auto. Qed.
Lemma map2_map : forall A B C D (f : B -> C -> D) (g : A -> B) (h : A -> C) L, map2 f (map g L) (map h L) = map (fun k => f (g k) (h k)) L.
Proof. induction L; simpl; f_equal; auto. Qed.

Section Shape.
  Variable s : list nat.
  Hypothesis P : pos s.
  Notation L := (all_idx s).
  Notation N := (INR (numel s)).
  Definition re (g : list nat -> R) (k : list nat) : R := sum L (fun j => g j * cos (angle s k j)).
  Definition im (g : list nat -> R) (k : list nat) : R := - sum L (fun j => g j * sin (angle s k j)).

  Lemma N_pos : 0 < N.
  Proof. clear -P. induction s as [|n s' IH]; simpl; [lra|]. inversion P; subst. rewrite mult_INR. apply Rmult_lt_0_compat; auto. apply lt_0_INR; auto. Qed.
  Lemma frequency_fun : forall g k, frequency s (map g L) k = (re g k, im g k).
  Proof. intros. unfold frequency, re, im, sum. rewrite combine_self, !map_map. reflexivity. Qed.
  Lemma re_neg : forall g k, index s k -> re g (neg s k) = re g k.
  Proof. intros. apply sum_ext. intros j J. apply idx_in in J. rewrite (proj1 (neg_angle s k j P H J)). auto. Qed.
  Lemma im_neg : forall g k, index s k -> im g (neg s k) = - im g k.
  Proof.
    intros. unfold im. f_equal. rewrite <- sum_opp. apply sum_ext. intros j J. apply idx_in in J. rewrite (proj2 (neg_angle s k j P H J)). ring.
  Qed.
  Lemma re_add : forall g h k, re (fun j => g j + h j) k = re g k + re h k.
  Proof. intros. unfold re. rewrite <- sum_add. apply sum_ext. intros. ring. Qed.
  Lemma im_add : forall g h k, im (fun j => g j + h j) k = im g k + im h k.
  Proof. intros. unfold im. rewrite <- Ropp_plus_distr, <- sum_add. f_equal. apply sum_ext. intros. ring. Qed.
  Lemma sum_delta : forall h l, index s l -> sum L (fun k => h k * delta N k l) = h l * N.
  Proof.
    intros h l I. apply idx_in in I. pose proof (idx_nodup s) as ND. revert I ND. generalize L as M. induction M as [|k M IH]; intros I ND; [destruct I|].
    inversion ND; subst. rewrite sum_cons. unfold delta at 1, same. destruct (list_eq_dec Nat.eq_dec k l) as [->|X].
    - rewrite sum_zero; [ring|]. intros j J. unfold delta, same. destruct (list_eq_dec Nat.eq_dec j l); [subst; contradiction|ring].
    - destruct I as [I|I]; [congruence|]. rewrite IH by auto. ring.
  Qed.

  (** the inverse transform of frequencies scaled by [f] *)
  Definition wave (f g : list nat -> R) (j : list nat) : R :=
    sum L (fun k => f k * (re g k * cos (angle s k j) - im g k * sin (angle s k j))) / N.
  Definition even (f : list nat -> R) : Prop := forall k, index s k -> f (neg s k) = f k.

  Lemma inverse_fun : forall f g X, even f -> (forall k, In k (all_idx (dft_shape s)) -> X k = (f k * re g k, f k * im g k)) ->
    irfftn s (map X (all_idx (dft_shape s))) = map (wave f g) L.
  Proof.
    intros f g X S E. unfold irfftn. apply map_ext_in. intros j J. apply idx_in in J. unfold wave. f_equal. rewrite combine_self, map_map. cbn [fst snd].
    rewrite <- half; auto.
    - apply sum_ext. intros k K. rewrite (E k K). cbn [fst snd]. ring.
    - intros k K. destruct (neg_angle s k j P K J) as (-> & ->). rewrite S, re_neg, im_neg by auto. ring.
  Qed.

  Lemma wave_self : forall g j, index s j -> wave (fun _ => 1) g j = g j.
  Proof.
    intros g j J. unfold wave. pose proof N_pos.
    rewrite (sum_ext _ _ _ (fun k => sum L (fun i => g i * cos (angle s i k - angle s j k)))).
    - rewrite sum_swap. rewrite (sum_ext _ _ _ (fun i => g i * delta N i j)).
      + rewrite sum_delta by auto. field. lra.
      + intros i I. apply idx_in in I. rewrite sum_scale, cos_diff; auto.
    - intros k _. unfold re, im. match goal with |- 1 * (?A * ?c - - ?B * ?d) = _ => replace (1 * (A * c - - B * d)) with (A * c + B * d) by ring end.
      rewrite <- !sum_scale_r, <- sum_add.
      apply sum_ext. intros i _. rewrite cos_minus. unfold angle. rewrite (phase_sym s i k), (phase_sym s j k). ring.
  Qed.

  Lemma wave_re : forall f g k, even f -> index s k -> re (wave f g) k = f k * re g k.
  Proof.
    intros f g k S K. pose proof N_pos. unfold re at 1, wave.
    rewrite (sum_ext _ _ _ (fun j => sum L (fun l => (f l * re g l * (cos (angle s l j) * cos (angle s k j)) - f l * im g l * (sin (angle s l j) * cos (angle s k j))) / N))).
    2:{ intros j _. unfold Rdiv. rewrite Rmult_assoc, (Rmult_comm (/ N)), <- Rmult_assoc, <- !sum_scale_r. apply sum_ext. intros. ring. }
    rewrite sum_swap.
    rewrite (sum_ext _ _ _ (fun l => (f l * re g l * delta N l k + f l * re g l * delta N l (neg s k)) * (/ 2 * / N))).
    2:{ intros l I. apply idx_in in I. unfold Rdiv. rewrite sum_scale_r, sum_sub, !sum_scale, cos_cos, sin_cos by auto. field. lra. }
    rewrite sum_scale_r, sum_add, !sum_delta by (auto using neg_index). rewrite S, re_neg by auto. field. lra.
  Qed.
  Lemma wave_im : forall f g k, even f -> index s k -> im (wave f g) k = f k * im g k.
  Proof.
    intros f g k S K. pose proof N_pos. unfold im at 1, wave.
    rewrite (sum_ext _ _ _ (fun j => sum L (fun l => (f l * re g l * (sin (angle s k j) * cos (angle s l j)) - f l * im g l * (sin (angle s l j) * sin (angle s k j))) / N))).
    2:{ intros j _. unfold Rdiv. rewrite Rmult_assoc, (Rmult_comm (/ N)), <- Rmult_assoc, <- !sum_scale_r. apply sum_ext. intros. ring. }
    rewrite sum_swap.
    rewrite (sum_ext _ _ _ (fun l => (f l * im g l * delta N l k - f l * im g l * delta N l (neg s k)) * (- / 2 * / N))).
    2:{ intros l I. apply idx_in in I. unfold Rdiv. rewrite sum_scale_r, sum_sub, !sum_scale, sin_sin, sin_cos by auto. field. lra. }
    rewrite sum_scale_r, sum_sub, !sum_delta by (auto using neg_index). rewrite S, im_neg by auto. field. lra.
  Qed.
  (** Parseval *)
  Lemma wave_dot : forall f f' g, even f -> even f' ->
    sum L (fun j => wave f g j * wave f' g j) = sum L (fun k => f k * f' k * (re g k * re g k + im g k * im g k)) / N.
  Proof.
    intros f f' g S S'. pose proof N_pos. unfold wave at 1.
    rewrite (sum_ext _ _ _ (fun j => sum L (fun l => (f l * re g l * (wave f' g j * cos (angle s l j)) - f l * im g l * (wave f' g j * sin (angle s l j))) / N))).
    2:{ intros j _. unfold Rdiv. rewrite Rmult_assoc, (Rmult_comm (/ N)), <- Rmult_assoc, <- !sum_scale_r. apply sum_ext. intros. ring. }
    rewrite sum_swap. unfold Rdiv. rewrite <- sum_scale_r. apply sum_ext. intros l I. apply idx_in in I.
    rewrite sum_scale_r, sum_sub, !sum_scale. f_equal.
    change (sum L (fun j => wave f' g j * cos (angle s l j))) with (re (wave f' g) l).
    replace (sum L (fun j => wave f' g j * sin (angle s l j))) with (- im (wave f' g) l) by (unfold im; ring).
    rewrite wave_re, wave_im by auto. ring.
  Qed.
End Shape.
