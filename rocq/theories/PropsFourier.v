(** C79: crossover with the Fourier transforms it calls *)
From Coq Require Import Reals List Bool Arith Lia Lra.
From Verif Require Import Base ModelNum ModelFilter ModelCross NumProofs PropsNum PropsFilter FourierProofs PropsCross ModelFourier.
Import ListNotations.
Open Scope list_scope.
Open Scope R_scope.

Lemma combine_idx : forall s (x : vec), length x = numel s -> exists g, x = map g (all_idx s).
Proof. intros s x H. apply (as_function R 0); [apply idx_nodup|]. rewrite all_idx_length. auto. Qed.

(** ** The transforms are linear, and the second one undoes the first.  (torch refuses dimensions of size 0.) *)
Theorem C79_transforms : forall s, Forall (fun n => (0 < n)%nat) s -> transforms s (rfftn s) (irfftn s).
Proof.
  intros s P. constructor.
  - intros x _. unfold rfftn. rewrite map_length, all_idx_length. auto.
  - intros X _. unfold irfftn. rewrite map_length, all_idx_length. auto.
  - intros x y X Y. destruct (combine_idx s x X) as (g & ->). destruct (combine_idx s y Y) as (h & ->).
    unfold vadd, cadds, rfftn. rewrite !map2_map. apply map_ext. intros k. rewrite !frequency_fun. unfold cadd. cbn [fst snd].
    rewrite re_add, im_add. reflexivity.
  - intros X Y LX LY. rewrite <- all_idx_length in LX, LY.
    destruct (as_function _ (0, 0) _ X (idx_nodup _) LX) as (g & ->). destruct (as_function _ (0, 0) _ Y (idx_nodup _) LY) as (h & ->).
    unfold vadd, cadds, irfftn. rewrite !map2_map. apply map_ext. intros j. rewrite !combine_self, !map_map. cbn [fst snd].
    unfold Rdiv. rewrite <- Rmult_plus_distr_r. f_equal.
    change (sum (all_idx (dft_shape s)) (fun x => weight s x * (fst (cadd (g x) (h x)) * cos (angle s x j) - snd (cadd (g x) (h x)) * sin (angle s x j))) =
      sum (all_idx (dft_shape s)) (fun x => weight s x * (fst (g x) * cos (angle s x j) - snd (g x) * sin (angle s x j))) +
      sum (all_idx (dft_shape s)) (fun x => weight s x * (fst (h x) * cos (angle s x j) - snd (h x) * sin (angle s x j)))).
    rewrite <- sum_add. apply sum_ext. intros k _. unfold cadd. cbn [fst snd]. ring.
  - intros x X. destruct (combine_idx s x X) as (g & ->). unfold rfftn.
    rewrite (inverse_fun s P (fun _ => 1) g).
    + apply map_ext_in. intros j J. apply idx_in in J. apply wave_self; auto.
    + intros k _. auto.
    + intros k _. rewrite frequency_fun. f_equal; ring.
Qed.

(** crossover gives a for alpha 0 and b for alpha 1, for alphas in between a tensor of the same size; mixing
    a with itself gives a; exchanging a and b exchanges what is taken and what is left; and adding a
    tensor to both adds it to the result. *)
Theorem C79_crossover_partial : forall close shape, Forall (fun n => (0 < n)%nat) shape -> forall a b, length a = numel shape -> length b = numel shape ->
  let cross := crossover close rfftn irfftn shape in
  (forall tilt, cross a b 0 tilt = Ok a /\ cross a b 1 tilt = Ok b) /\
  forall alpha tilt, 0 <= alpha <= 1 ->
    cross a a alpha tilt = Ok a /\
    exists v, cross a b alpha tilt = Ok v /\ length v = length a /\
      (tilt = 1 -> forall j, (j < length a)%nat -> at_ v j = (1 - alpha) * at_ a j + alpha * at_ b j) /\
      (close a b = close b a -> exists w, cross b a alpha tilt = Ok w /\ (alpha <> 0 -> alpha <> 1 -> vadd v w = vadd a b)) /\
      (forall c, length c = numel shape -> close (vadd a c) (vadd b c) = close a b ->
         cross (vadd a c) (vadd b c) alpha tilt = Ok (vadd v c)).
Proof. intros close shape P. apply crossover_laws. apply C79_transforms; auto. Qed.

(** ** The filter takes a frequency and its opposite alike *)
Fixpoint fold_last (s k : list nat) : list nat :=
  match s, k with [n], [p] => [Nat.min p (n - p)] | _ :: s', p :: k' => p :: fold_last s' k' | _, _ => [] end.
Lemma half_index : forall s k, Forall (fun n => (0 < n)%nat) s -> index (dft_shape s) k -> index s k /\ fold_last s k = k.
Proof.
  induction s as [|n s IH]; intros k P I; [destruct k; simpl in *; tauto|]. inversion P; subst.
  destruct s as [|n' s].
  - destruct k as [|p k]; [destruct I|]. cbn [dft_shape index] in I. destruct I as (I & K). destruct k; [|destruct K].
    pose proof (Nat.div_mod n 2 ltac:(lia)) as D. pose proof (Nat.mod_upper_bound n 2 ltac:(lia)) as M.
    simpl. split; [split; auto; lia|]. f_equal. lia.
  - destruct k as [|p k]; [destruct I|]. change (dft_shape (n :: n' :: s)) with (n :: dft_shape (n' :: s)) in I. destruct I as (I & K).
    destruct (IH k H2 K) as (A & B). split; [split; auto|]. change (fold_last (n :: n' :: s) (p :: k)) with (p :: fold_last (n' :: s) k). rewrite B. auto.
Qed.
Lemma gradient_even : forall n p, (p < n)%nat -> gradient false n (if p =? 0 then 0 else n - p) = gradient false n p.
Proof.
  intros n p P. destruct (Nat.eqb_spec p 0) as [->|Z]; auto.
  assert (forall q, (0 < q < n)%nat -> gradient false n q = INR (Nat.min q (n - q)) / INR (n / 2)) as G.
  { intros q Q. unfold gradient. destruct (Nat.eqb_spec n 1); [lia|]. cbn [orb]. f_equal.
    pose proof (Nat.div_mod n 2 ltac:(lia)) as D. pose proof (Nat.mod_upper_bound n 2 ltac:(lia)) as M.
    pose proof (Nat.div_mod (n - 1) 2 ltac:(lia)) as D'. pose proof (Nat.mod_upper_bound (n - 1) 2 ltac:(lia)) as M'.
    set (v := (n / 2)%nat) in *. set (u := ((n - 1) / 2)%nat) in *. clearbody u v. assert (n - v = u + 1)%nat as E by lia. rewrite E.
    destruct (Nat.ltb_spec q (u + 1)).
    - unfold linspace. destruct (Nat.eqb_spec (u + 1) 1); [lia|]. replace (u + 1 - 1)%nat with u by lia. rewrite Nat.min_l by lia.
      assert (INR u <> 0) by (apply not_0_INR; lia). field. auto.
    - rewrite Nat.min_r by lia. unfold linspace. destruct (Nat.eqb_spec v 1); [replace (n - q)%nat with v by lia; auto|].
      assert (INR (v - 1) <> 0) as W by (apply not_0_INR; lia).
      replace (1 - INR v) with (- INR (v - 1)) by (rewrite minus_INR by lia; simpl; ring).
      replace (n - q)%nat with (v - (q - (u + 1)))%nat by lia. rewrite (minus_INR v (q - (u + 1))) by lia. field. auto. }
  rewrite !G by lia. do 2 f_equal. lia.
Qed.
Lemma gradients_even : forall s k, index s k -> gradients (dft_shape s) (fold_last s (neg s k)) = gradients (dft_shape s) (fold_last s k).
Proof.
  induction s as [|n s IH]; intros k I; destruct k as [|p k]; try (destruct I; fail); auto. destruct I as (I & K).
  destruct s as [|n' s].
  - destruct k; [|destruct K]. cbn [neg fold_last dft_shape].
    replace (Nat.min (if p =? 0 then 0 else n - p) (n - (if p =? 0 then 0 else n - p)))%nat with (Nat.min p (n - p)) by (destruct (Nat.eqb_spec p 0); lia). auto.
  - destruct k as [|p' k]; [destruct K|].
    change (dft_shape (n :: n' :: s)) with (n :: dft_shape (n' :: s)).
    change (fold_last (n :: n' :: s) (p :: p' :: k)) with (p :: fold_last (n' :: s) (p' :: k)).
    change (fold_last (n :: n' :: s) (neg (n :: n' :: s) (p :: p' :: k))) with ((if p =? 0 then 0 else n - p)%nat :: fold_last (n' :: s) (neg (n' :: s) (p' :: k))).
    cbn [gradients]. rewrite IH by auto. f_equal. destruct (dft_shape (n' :: s)) eqn:E; [destruct s; discriminate|].
    apply gradient_even; auto.
Qed.

(** the filter over all frequencies *)
Definition full_filter (s : list nat) (alpha tilt : R) (k : list nat) : R := filter_at alpha tilt (mesh (dft_shape s) (fold_last s k)).
Lemma full_even : forall s alpha tilt, even s (full_filter s alpha tilt).
Proof. intros s alpha tilt k K. unfold full_filter, mesh. rewrite gradients_even by auto. auto. Qed.
Lemma create_filter_ok : forall s alpha tilt k, 0 <= alpha <= 1 -> create_filter s alpha tilt k = Ok (filter_at alpha tilt (mesh s k)).
Proof.
  intros. unfold create_filter. unfold rleb. destruct (Rle_dec 0 alpha); [|lra]. destruct (Rle_dec alpha 1); [|lra]. auto.
Qed.
Lemma mapM_ok : forall A B (f : A -> result B) (g : A -> B) l, (forall x, f x = Ok (g x)) -> mapM f l = Ok (map g l).
Proof. induction l; simpl; intros; auto. rewrite H. simpl. rewrite IHl by auto. auto. Qed.
Lemma full_range : forall s alpha tilt k, 0 <= alpha <= 1 -> 0 <= full_filter s alpha tilt k <= 1.
Proof.
  intros s alpha tilt k A. destruct (C59_filter (dft_shape s) alpha tilt) as (E & _). destruct (E A (fold_last s k)) as (v & V & R).
  rewrite create_filter_ok in V by auto. unfold full_filter. injection V as V. subst v. auto.
Qed.

(** what crossover computes from the differences of the frequencies *)
Lemma cross_wave : forall close s g h alpha tilt, Forall (fun n => (0 < n)%nat) s -> s <> [] -> 0 < alpha < 1 -> tilt <> 1 ->
  close (map g (all_idx s)) (map h (all_idx s)) = false ->
  crossover close rfftn irfftn s (map g (all_idx s)) (map h (all_idx s)) alpha tilt =
  Ok (map (fun j => g j + wave s (full_filter s alpha tilt) (fun i => h i - g i) j) (all_idx s)).
Proof.
  intros close s g h alpha tilt P NE A T C. unfold crossover.
  destruct (Req_EM_T alpha 0); [lra|]. destruct (Req_EM_T alpha 1); [lra|]. destruct (Req_EM_T tilt 1); [lra|].
  rewrite C. destruct (Nat.eqb_spec (length s) 0); [destruct s; [congruence|discriminate]|]. cbn [orb].
  rewrite (mapM_ok _ _ _ (fun k => filter_at alpha tilt (mesh (dft_shape s) k))) by (intros; apply create_filter_ok; lra). cbn [bind]. f_equal.
  unfold mix, rfftn. rewrite map_map, !map2_map.
  pose proof (C79_transforms s P) as Tr.
  set (d := fun i => h i - g i). set (f := full_filter s alpha tilt).
  assert (irfftn s (cadds (map (frequency s (map g (all_idx s))) (all_idx (dft_shape s)))
            (map (fun k => (f k * re s d k, f k * im s d k)) (all_idx (dft_shape s)))) =
          map (fun j => g j + wave s f d j) (all_idx s)) as <-.
  - rewrite (G_add _ _ _ Tr) by (rewrite map_length, all_idx_length; auto).
    change (map (frequency s (map g (all_idx s))) (all_idx (dft_shape s))) with (rfftn s (map g (all_idx s))).
    rewrite (G_F _ _ _ Tr) by (rewrite map_length, all_idx_length; auto).
    rewrite (inverse_fun s P f d); [|apply full_even|auto]. unfold vadd. rewrite map2_map. auto.
  - f_equal. unfold cadds. rewrite map2_map. apply map_ext_in. intros k K. apply idx_in in K. destruct (half_index s k P K) as (I & F).
    rewrite !frequency_fun. unfold f, full_filter. rewrite F. unfold cadd, cscale. cbn [fst snd].
    assert (forall x : list nat, h x = g x + d x) as E by (intros; unfold d; ring).
    assert (re s h k = re s g k + re s d k) as -> by (rewrite <- re_add; apply sum_ext; intros; rewrite <- E; auto).
    assert (im s h k = im s g k + im s d k) as -> by (rewrite <- im_add; unfold im; f_equal; apply sum_ext; intros; rewrite <- E; auto).
    f_equal; ring.
Qed.

(** ** Each frequency of the result is the mix of those of a and b that the filter says: for tilt 0 that of a below the
    cut and that of b above. *)
Theorem C79_frequencies : forall close s a b alpha tilt, Forall (fun n => (0 < n)%nat) s -> s <> [] -> length a = numel s -> length b = numel s ->
  0 < alpha < 1 -> tilt <> 1 -> close a b = false ->
  exists v, crossover close rfftn irfftn s a b alpha tilt = Ok v /\ length v = numel s /\
    forall k f, In k (all_idx (dft_shape s)) -> create_filter (dft_shape s) alpha tilt k = Ok f ->
      frequency s v k = cadd (cscale (1 - f) (frequency s a k)) (cscale f (frequency s b k)).
Proof.
  intros close s a b alpha tilt P NE LA LB A T C.
  destruct (combine_idx s a LA) as (g & ->). destruct (combine_idx s b LB) as (h & ->).
  rewrite cross_wave by auto. eexists. split; [reflexivity|]. split; [rewrite map_length, all_idx_length; auto|].
  intros k f K F. rewrite create_filter_ok in F by lra. inversion F; subst f. clear F.
  apply idx_in in K. destruct (half_index s k P K) as (I & FL). rewrite !frequency_fun.
  set (d := fun i => h i - g i). assert (forall x : list nat, h x = g x + d x) as E by (intros; unfold d; ring).
  assert (re s h k = re s g k + re s d k) as -> by (rewrite <- re_add; apply sum_ext; intros; rewrite <- E; auto).
  assert (im s h k = im s g k + im s d k) as -> by (rewrite <- im_add; unfold im; f_equal; apply sum_ext; intros; rewrite <- E; auto).
  rewrite re_add, im_add, wave_re, wave_im by (auto; apply full_even). unfold full_filter. rewrite FL. unfold cadd, cscale. cbn [fst snd].
  f_equal; ring.
Qed.

(** ** The mean of the result is that of a: it is the lowest frequency *)
Lemma phase_zero : forall s j, phase s (map (fun _ => 0%nat) s) j = 0.
Proof. induction s; destruct j; simpl; auto. rewrite IHs. unfold Rdiv. ring. Qed.
Lemma frequency_zero : forall s x, length x = numel s -> frequency s x (map (fun _ => 0%nat) s) = (rsum x, 0).
Proof.
  intros s x L. destruct (combine_idx s x L) as (g & ->). rewrite frequency_fun. unfold re, im, angle. f_equal.
  - apply sum_ext. intros j _. rewrite phase_zero, Rmult_0_r, cos_0. ring.
  - rewrite sum_zero; [ring|]. intros j _. rewrite phase_zero, Rmult_0_r, sin_0. ring.
Qed.
Lemma zero_in : forall s, Forall (fun n => (0 < n)%nat) s -> In (map (fun _ => 0%nat) s) (all_idx (dft_shape s)).
Proof.
  intros s P. apply idx_in. induction s as [|n s IH]; simpl; auto. inversion P; subst. destruct s; [simpl; split; auto; lia|].
  split; [lia|]. apply IH; auto.
Qed.
Lemma gradient_zero : forall l n, gradient l n 0 = 0.
Proof.
  intros l n. unfold gradient. destruct (l || (n =? 1)%nat) eqn:E.
  - unfold linspace. destruct (n =? 1)%nat; auto. simpl. unfold Rdiv. ring.
  - apply orb_false_iff in E as (_ & E). apply Nat.eqb_neq in E.
    pose proof (Nat.div_mod n 2 ltac:(lia)) as D. pose proof (Nat.mod_upper_bound n 2 ltac:(lia)) as M.
    destruct (Nat.ltb_spec 0 (n - n / 2)).
    + unfold linspace. destruct (_ =? 1)%nat; simpl; unfold Rdiv; ring.
    + assert (n = 0)%nat as -> by lia. simpl. unfold Rdiv. rewrite Rinv_0. ring.
Qed.
Lemma mesh_zero : forall s, mesh (dft_shape s) (map (fun _ => 0%nat) s) = 0.
Proof.
  intros s. assert (forall s' k, length k = length s' -> (forall p, In p k -> p = 0%nat) -> gradients s' k = map (fun _ => 0) s') as G.
  { induction s' as [|n s' IH]; intros k L Z; destruct k as [|p k]; try discriminate; auto. simpl. rewrite (Z p), gradient_zero by (left; auto).
    f_equal. apply IH; [simpl in L; lia|]. intros; apply Z; right; auto. }
  unfold mesh. rewrite G.
  - destruct (_ <? _)%nat.
    + rewrite map_map. replace (rsum _) with 0; [unfold Rdiv; rewrite Rmult_0_l; apply sqrt_0|].
      symmetry. apply (sum_zero _ (dft_shape s) (fun _ => 0 ^ 2)). intros. ring.
    + destruct (dft_shape s); reflexivity.
  - rewrite map_length. clear G. induction s as [|n s IH]; auto. destruct s; auto. simpl in *. congruence.
  - intros p I. apply in_map_iff in I as (? & ? & _). auto.
Qed.
Theorem C79_mean : forall close s a b alpha, Forall (fun n => (0 < n)%nat) s -> s <> [] -> length a = numel s -> length b = numel s ->
  0 < alpha < 1 -> close a b = false ->
  exists v, crossover close rfftn irfftn s a b alpha 0 = Ok v /\ mean v = mean a.
Proof.
  intros close s a b alpha P NE LA LB A C. destruct (C79_frequencies close s a b alpha 0) as (v & E & L & F); auto.
  exists v. split; auto. specialize (F _ 0 (zero_in s P)). rewrite create_filter_ok in F by lra. rewrite mesh_zero in F.
  assert (filter_at alpha 0 0 = 0) as Z.
  { unfold filter_at. replace (0 / 4) with 0 by (unfold Rdiv; ring). replace (Int_part 0) with 0%Z.
    - simpl. replace (0 - 0) with 0 by ring. unfold rltb. destruct (Rlt_dec 2 0); [lra|]. unfold filter_raw, rltb, tiny.
      destruct (Rlt_dec 0 _); [|exfalso; apply n0; lra]. cbn [orb]. destruct (Rlt_dec (1 - alpha) 0); [lra|]. auto.
    - unfold Int_part. assert (1 = up 0)%Z as <- by (apply tech_up; simpl; lra). reflexivity. }
  rewrite Z in F. specialize (F eq_refl). rewrite !frequency_zero in F by auto. unfold cadd, cscale in F. cbn [fst snd] in F.
  inversion F. unfold mean. rewrite L, LA, H0. f_equal. ring.
Qed.

(** ** The result is in the ball with a and b at opposite ends *)
Theorem C79_ball : forall close s a b alpha tilt, Forall (fun n => (0 < n)%nat) s -> s <> [] -> length a = numel s -> length b = numel s ->
  0 <= alpha <= 1 -> (close a b = false \/ 0 <= tilt <= 1) ->
  exists v, crossover close rfftn irfftn s a b alpha tilt = Ok v /\
    dot (vsub v a) (vsub v a) + dot (vsub v b) (vsub v b) <= dot (vsub a b) (vsub a b).
Proof.
  intros close s a b alpha tilt P NE LA LB A C.
  destruct (combine_idx s a LA) as (g & ->). destruct (combine_idx s b LB) as (h & ->).
  assert (forall w, (forall j, In j (all_idx s) -> True) -> sum (all_idx s) (fun j => (w j - g j) * (h j - w j)) >= 0 ->
    dot (vsub (map w (all_idx s)) (map g (all_idx s))) (vsub (map w (all_idx s)) (map g (all_idx s))) +
    dot (vsub (map w (all_idx s)) (map h (all_idx s))) (vsub (map w (all_idx s)) (map h (all_idx s))) <=
    dot (vsub (map g (all_idx s)) (map h (all_idx s))) (vsub (map g (all_idx s)) (map h (all_idx s)))) as D.
  { intros w _ W. unfold dot, vsub. rewrite !map2_map.
    change (sum (all_idx s) (fun k => (w k - g k) * (w k - g k)) + sum (all_idx s) (fun k => (w k - h k) * (w k - h k)) <= sum (all_idx s) (fun k => (g k - h k) * (g k - h k))).
    rewrite (sum_ext _ _ (fun k => (g k - h k) * (g k - h k)) (fun k => (w k - g k) * (w k - g k) + (w k - h k) * (w k - h k) + 2 * ((w k - g k) * (h k - w k)))) by (intros; ring).
    rewrite !sum_add, sum_scale. lra. }
  assert (forall t, 0 <= t <= 1 -> sum (all_idx s) (fun j => (lerp t (g j) (h j) - g j) * (h j - lerp t (g j) (h j))) >= 0) as Lp.
  { intros t Ht. apply Rle_ge. rewrite <- (sum_zero _ (all_idx s) (fun _ => 0)) by auto. apply sum_le. intros j _. unfold lerp.
    match goal with |- 0 <= ?e => replace e with ((t * (1 - t)) * ((h j - g j) * (h j - g j))) by ring end. pose proof (Rle_0_sqr (h j - g j)). unfold Rsqr in *.
    apply Rmult_le_pos; auto. apply Rmult_le_pos; lra. }
  destruct (Req_EM_T alpha 0) as [A0|A0].
  { exists (map g (all_idx s)). split; [unfold crossover; destruct (Req_EM_T alpha 0); auto; lra|]. apply D; auto.
    rewrite sum_zero; [lra|]. intros. ring. }
  destruct (Req_EM_T alpha 1) as [A1|A1].
  { exists (map h (all_idx s)). split; [unfold crossover; destruct (Req_EM_T alpha 0); [lra|]; destruct (Req_EM_T alpha 1); auto; lra|]. apply D; auto.
    rewrite sum_zero; [lra|]. intros. ring. }
  destruct (Req_EM_T tilt 1) as [T1|T1].
  { eexists. split; [unfold crossover; destruct (Req_EM_T alpha 0); [contradiction|]; destruct (Req_EM_T alpha 1); [contradiction|]; destruct (Req_EM_T tilt 1); [reflexivity|contradiction]|].
    rewrite map2_map. apply D; auto. }
  destruct (close (map g (all_idx s)) (map h (all_idx s))) eqn:Cl.
  { destruct C as [C|C]; [discriminate|]. eexists. split.
    - unfold crossover; destruct (Req_EM_T alpha 0); [contradiction|]; destruct (Req_EM_T alpha 1); [contradiction|]; destruct (Req_EM_T tilt 1); [contradiction|].
      rewrite Cl, orb_true_r. reflexivity.
    - rewrite map2_map. apply D; auto. }
  rewrite cross_wave by (auto; lra). eexists. split; [reflexivity|]. apply D; auto.
  set (d := fun i => h i - g i). set (f := full_filter s alpha tilt).
  assert (even s f) as Ef by apply full_even.
  assert (even s (fun k => 1 - f k)) as Ef' by (intros k K; rewrite Ef by auto; auto).
  rewrite (sum_ext _ _ _ (fun j => wave s f d j * wave s (fun k => 1 - f k) d j)).
  - rewrite wave_dot by auto. apply Rle_ge. apply Rmult_le_pos.
    + rewrite <- (sum_zero _ (all_idx s) (fun _ => 0)) by auto. apply sum_le. intros k _. pose proof (full_range s alpha tilt k A) as R. fold f in R.
      pose proof (Rle_0_sqr (re s d k)). pose proof (Rle_0_sqr (im s d k)). unfold Rsqr in *. apply Rmult_le_pos; [|lra]. apply Rmult_le_pos; lra.
    + apply Rlt_le, Rinv_0_lt_compat, N_pos; auto.
  - intros j J. apply idx_in in J.
    assert (wave s (fun k => 1 - f k) d j = d j - wave s f d j) as ->.
    { rewrite <- (wave_self s P d j J) at 1. unfold wave, Rdiv. rewrite <- Rmult_minus_distr_r, <- sum_sub. f_equal. apply sum_ext. intros. ring. }
    change (d j) with (h j - g j). ring.
Qed.

(** two elements: the mean 2 of a, and the difference 3 of b *)
Example C79_case : crossover (fun _ _ => false) rfftn irfftn [2%nat] [1; 3] [5; 2] (1 / 2) 0 = Ok [7 / 2; 1 / 2].
Proof.
  assert (cos (2 * PI * (1 * 1 / (1 + 1) + 0)) = -1) as C by (replace (2 * PI * (1 * 1 / (1 + 1) + 0)) with PI by field; apply cos_PI).
  assert (sin (2 * PI * (1 * 1 / (1 + 1) + 0)) = 0) as S by (replace (2 * PI * (1 * 1 / (1 + 1) + 0)) with PI by field; apply sin_PI).
  assert (forall x y, 2 * PI * (x * 0 / y + 0) = 0) as Z by (intros; unfold Rdiv; ring).
  assert (forall x y, 2 * PI * (0 * x / y + 0) = 0) as Z' by (intros; unfold Rdiv; ring).
  unfold crossover. destruct (Req_EM_T (1 / 2) 0); [lra|]. destruct (Req_EM_T (1 / 2) 1); [lra|]. destruct (Req_EM_T 0 1); [lra|].
  cbn [length Nat.eqb orb dft_shape]. change (2 / 2 + 1)%nat with 2%nat.
  rewrite (mapM_ok _ _ _ (fun k => filter_at (1 / 2) 0 (mesh [2%nat] k))) by (intros; apply create_filter_ok; lra).
  assert (forall m, filter_at (1 / 2) 0 m = if Rlt_dec (1 / 2) m then 1 else 0) as F.
  { intros m. unfold filter_at. rewrite (Int_part_is _ 0) by (simpl; lra). simpl. replace (0 - 0) with 0 by ring. unfold rltb. destruct (Rlt_dec 2 0); [lra|].
    unfold filter_raw, rltb, tiny. destruct (Rlt_dec 0 _) as [_|X]; [|exfalso; apply X; lra]. cbn [orb]. replace (1 - 1 / 2) with (1 / 2) by field.
    destruct (Rlt_dec _ m); auto. }
  cbn [all_idx seq flat_map map app bind]. rewrite !F. unfold mesh. cbn [length Nat.ltb Nat.leb gradients nth gradient orb linspace Nat.eqb Nat.sub INR].
  destruct (Rlt_dec (1 / 2) (0 + (1 - 0) * 0 / 1)); [exfalso; lra|]. destruct (Rlt_dec (1 / 2) (0 + (1 - 0) * 1 / 1)); [|exfalso; lra].
  f_equal. unfold irfftn, rfftn, frequency, mix, angle. change (dft_shape [2%nat]) with [2%nat].
  cbn [all_idx seq flat_map map app combine map2 fst snd phase numel fold_right Nat.mul Nat.add INR cadd cscale weight Nat.eqb orb].
  unfold rsum. cbn [fold_right]. unfold cadd, cscale. cbn [fst snd].
  rewrite !C, !S, !Z, !Z', ?cos_0, ?sin_0. f_equal; [field|]. f_equal. field.
Qed.

Print Assumptions C79_crossover_partial.
Print Assumptions C79_transforms.
Print Assumptions C79_frequencies.
Print Assumptions C79_mean.
Print Assumptions C79_ball.
