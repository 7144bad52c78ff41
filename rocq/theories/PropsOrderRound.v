(** C106, on IEEE numbers: n_average with its additions in another order. *)
From Coq Require Import ZArith Reals List Lia Lra Psatz Bool Permutation.
From Flocq Require Import Core BinarySingleNaN.
From Verif Require Import ModelRound SpecRound RoundProofs PropsRound PropsRoundErr.
Import ListNotations.
Open Scope R_scope.

(** ** sums that are not rounded *)
Lemma exact_fmt : forall S m n k, holds_all S m -> (Z.of_nat n * 2 ^ (emax S - emin S) <= 2 ^ prec m)%Z ->
  (Z.abs k <= Z.of_nat n * (2 ^ (emax S - emin S) - 1))%Z ->
  fmt m (IZR k * p2 (emin S)) /\ Rabs (IZR k * p2 (emin S)) < p2 (emax m).
Proof.
  intros S m n k (H1 & H2 & H3) W K. pose proof (prec_lt' S). pose proof (prec_pos' S). pose proof (prec_lt' m). pose proof (prec_pos' m).
  assert (0 < 2 ^ prec m)%Z by (apply Z.pow_pos_nonneg; lia).
  assert (Z.abs k < 2 ^ prec m)%Z as L by nia.
  split.
  - apply generic_format_FLT. exists (Float radix2 k (emin S)); simpl; auto.
  - apply IZR_lt in L. rewrite abs_IZR in L. change (2 ^ prec m)%Z with (radix2 ^ prec m)%Z in L. rewrite IZR_Zpower in L by lia.
    rewrite Rabs_mult, (Rabs_pos_eq (p2 (emin S))) by apply bpow_ge_0.
    apply Rlt_le_trans with (p2 (prec m) * p2 (emin S)); [apply Rmult_lt_compat_r; [apply bpow_gt_0|exact L]|].
    rewrite <- bpow_plus. apply bpow_le. unfold emin. lia.
Qed.
Lemma exact_total : forall S m n, holds_all S m -> (Z.of_nat n * 2 ^ (emax S - emin S) <= 2 ^ prec m)%Z ->
  forall t : tree m, (count m t <= n)%nat -> (forall x, In x (terms m t) -> exists y : num S, is_finite y = true /\ x = cast S m y) ->
  is_finite (total m t) = true /\ B2R (total m t) = sumR m t /\
  exists k, sumR m t = IZR k * p2 (emin S) /\ (Z.abs k <= Z.of_nat (count m t) * (2 ^ (emax S - emin S) - 1))%Z.
Proof.
  intros S m n Hm W. induction t as [|x|l IHl r IHr]; intros C T.
  - simpl. split; [reflexivity|]. split; [reflexivity|]. exists 0%Z. unfold sumR. simpl. split; [lra|lia].
  - destruct (T x (or_introl eq_refl)) as (y & Fy & ->). destruct (cast_up S m y Hm Fy) as (F & R & _).
    destruct (multiple S y) as (k & E & K). cbn [total]. unfold sumR, count. cbn [terms map rtotal length]. rewrite R.
    split; [exact F|]. split; [lra|]. exists k. split; [lra|lia].
  - rewrite count_plus in C.
    destruct IHl as (Fl & Rl & kl & El & Kl); [lia|intros x Ix; apply T; simpl; apply in_or_app; auto|].
    destruct IHr as (Fr & Rr & kr & Er & Kr); [lia|intros x Ix; apply T; simpl; apply in_or_app; auto|].
    assert (sumR m (Plus l r) = sumR m l + sumR m r) as ES by (unfold sumR; cbn [terms]; now rewrite map_app, rtotal_app).
    assert (sumR m (Plus l r) = IZR (kl + kr) * p2 (emin S)) as E by (rewrite ES, El, Er, plus_IZR; ring).
    assert (0 < 2 ^ (emax S - emin S))%Z as P
      by (apply Z.pow_pos_nonneg; [lia|]; pose proof (prec_lt' S); pose proof (prec_pos' S); unfold emin; lia).
    destruct (exact_fmt S m n (kl + kr) Hm W) as (F & B); [nia|]. rewrite <- E in F, B. rewrite ES in F, B. cbn [total].
    destruct (add_R m (total m l) (total m r) Fl Fr) as (Fa & Ra); [rewrite Rl, Rr, rnd_fmt; auto|].
    split; [exact Fa|]. split; [rewrite Ra, Rl, Rr, rnd_fmt; auto|].
    exists (kl + kr)%Z. split; [exact E|]. rewrite count_plus. nia.
Qed.

(** C106.  The averages over models whose dtype is small enough next to that of the arithmetic: every sum is exact, and
    the merged number is the same for every order of the models and of the additions. *)
Theorem C106_exact_average : forall S m i o (models models' : list (num S)) (t t' : tree m),
  holds_all S m -> (Z.of_nat (length models) * 2 ^ (emax S - emin S) <= 2 ^ prec m)%Z ->
  Forall (fun x => is_finite x = true) models -> Permutation models models' ->
  Permutation (terms m t) (map (cast S m) models) -> Permutation (terms m t') (map (cast S m) models') ->
  let sum := fold_right Rplus 0 (map (fun x => B2R x) models) in
  B2R (total m t) = sum /\
  B2R (narrow m i o (mean m t)) = B2R (narrow m i o (mean m t')) /\
  (sum <> 0 -> narrow m i o (mean m t) = narrow m i o (mean m t')).
Proof.
  intros S m i o models models' t t' Hm W Fin P Q Q' sum.
  assert (Permutation (terms m t') (map (cast S m) models)) as Q2.
  { eapply Permutation_trans; [exact Q'|]. apply Permutation_map. symmetry. exact P. }
  assert (forall t, Permutation (terms m t) (map (cast S m) models) ->
    is_finite (total m t) = true /\ B2R (total m t) = sum /\ count m t = length models) as X.
  { clear - Hm W Fin. intros t Q.
    assert (count m t = length models) as C by (unfold count; rewrite (Permutation_length Q); apply map_length).
    destruct (exact_total S m (length models) Hm W t) as (F & R & _); [lia| |].
    - intros x I. apply (Permutation_in _ Q) in I. apply in_map_iff in I as (y & <- & I). exists y. split; [|auto].
      eapply Forall_forall in Fin; eauto.
    - split; [exact F|]. split; [|exact C]. rewrite R. unfold sumR, sum. rewrite (rtotal_perm _ _ (Permutation_map _ Q)), map_map.
      clear - Hm Fin. induction models as [|x l IH]; [reflexivity|]. cbn [map rtotal fold_right].
      rewrite (IH (Forall_inv_tail Fin)). destruct (cast_up S m x Hm (Forall_inv Fin)) as (_ & -> & _). reflexivity. }
  destruct (X t Q) as (F1 & R1 & C1). destruct (X t' Q2) as (F2 & R2 & C2). clear X.
  split; [exact R1|].
  assert (sum <> 0 -> narrow m i o (mean m t) = narrow m i o (mean m t')) as N.
  { intros NZ. f_equal. unfold mean. fold (count m t) (count m t'). rewrite C1, C2. f_equal.
    apply B2R_inj; try (apply nonzero_strict; congruence). congruence. }
  split; [|exact N]. destruct (Req_dec sum 0) as [Z|NZ]; [|rewrite N; auto].
  assert (forall x : num m, is_finite x = true -> B2R x = 0 -> forall y, B2R (narrow m i o (div m x y)) = 0) as D.
  { clear. intros x F R y. destruct x as [s|s| |s mx ex Hx]; try discriminate.
    - destruct y; reflexivity.
    - exfalso. simpl in R. apply eq_0_F2R in R. simpl in R. destruct s; discriminate. }
  unfold mean. rewrite !D; congruence.
Qed.

(** float16 models in the default float64: up to 8192 of them *)
Theorem C106_half_precision : forall i o (models models' : list (num float16)) (t t' : tree float64),
  (Z.of_nat (length models) <= 8192)%Z -> Forall (fun x => is_finite x = true) models -> Permutation models models' ->
  Permutation (terms float64 t) (map (cast float16 float64) models) ->
  Permutation (terms float64 t') (map (cast float16 float64) models') ->
  B2R (narrow float64 i o (mean float64 t)) = B2R (narrow float64 i o (mean float64 t')).
Proof.
  intros i o models models' t t' L Fin P Q Q'. eapply C106_exact_average; eauto.
  - vm_compute; repeat split; discriminate.
  - change (2 ^ (emax float16 - emin float16))%Z with 1099511627776%Z. change (2 ^ prec float64)%Z with 9007199254740992%Z. lia.
Qed.

(** C106.  In general: two orders of the additions differ by no more than twice the error of C93. *)
Theorem C106_rounding : forall A m i o (models models' : list (num A)) (t t' : tree m) M,
  holds_all A o -> holds_all o i -> finer m o -> enough m o (length models) ->
  models <> [] -> Forall (fun x => is_finite x = true /\ Rabs (B2R x) <= M) models -> Permutation models models' ->
  Permutation (terms m t) (map (cast A m) models) -> Permutation (terms m t') (map (cast A m) models') ->
  Rabs (B2R (narrow m i o (mean m t)) - B2R (narrow m i o (mean m t'))) <= 6 * p2 (- prec o) * M + 4 * p2 (emin o).
Proof.
  intros A m i o models models' t t' M HA Hi Hf Hn Hne Fin P Q Q'.
  assert (Permutation (terms m t') (map (cast A m) models)) as Q2.
  { eapply Permutation_trans; [exact Q'|]. apply Permutation_map. symmetry. exact P. }
  pose proof (C93_accuracy A m i o models t M HA Hi Hf Hn Hne Fin Q) as E1.
  pose proof (C93_accuracy A m i o models t' M HA Hi Hf Hn Hne Fin Q2) as E2.
  match type of E1 with Rabs (?y - ?c) <= _ => match type of E2 with Rabs (?x - _) <= _ =>
    replace (y - x) with ((y - c) + - (x - c)) by ring end end.
  eapply Rle_trans; [apply Rabs_triang|]. rewrite Rabs_Ropp. lra.
Qed.

(** C106.  It is not zero in general: the bfloat16 models 2^60, -2^60, 1, added from the left in float64, average to 1/3;
    2^60, 1, -2^60 average to 0. *)
Theorem C106_rounding_refuted :
  exists (models models' : list (num bfloat16)) (t t' : tree float64),
    Permutation models models' /\ Forall (fun x => is_finite x = true) models /\
    terms float64 t = map (cast bfloat16 float64) models /\ terms float64 t' = map (cast bfloat16 float64) models' /\
    (exists x y z x' y' z', t = Plus (Plus (Term x) (Term y)) (Term z) /\ t' = Plus (Plus (Term x') (Term y')) (Term z')) /\
    B2R (narrow float64 float32 bfloat16 (mean float64 t')) = 0 /\
    B2SF (narrow float64 float32 bfloat16 (mean float64 t)) = SpecFloat.S754_finite false 171 (-9).
Proof.
  set (a := val bfloat16 1 60). set (b := val bfloat16 (-1) 60). set (c := val bfloat16 1 0).
  set (up := fun x => Term (cast bfloat16 float64 x)).
  exists [a; b; c], [a; c; b], (Plus (Plus (up a) (up b)) (up c)), (Plus (Plus (up a) (up c)) (up b)).
  split; [apply perm_skip, perm_swap|]. split; [repeat constructor; vm_compute; reflexivity|].
  split; [reflexivity|]. split; [reflexivity|]. split; [repeat eexists|].
  split; [|vm_compute; reflexivity].
  assert (B2SF (narrow float64 float32 bfloat16 (mean float64 (Plus (Plus (up a) (up c)) (up b)))) = SpecFloat.S754_zero false) as E
    by (vm_compute; reflexivity).
  destruct (narrow _ _ _ _); try discriminate. reflexivity.
Qed.

(** the float16 models 65504, 2^-24, -65504, in two orders: the smallest positive number of float16 is not lost *)
Example C106_half_precision_case :
  let up x := Term (cast float16 float64 x) in
  let a := val float16 2047 5 in let b := val float16 1 (-24) in let c := val float16 (-2047) 5 in
  let one t := B2SF (mean float64 t) in
  one (Plus (Plus (up a) (up b)) (up c)) = one (Plus (Plus (up a) (up c)) (up b)) /\
  one (Plus (Plus (up a) (up b)) (up c)) = SpecFloat.S754_finite false 6004799503160661 (-78) /\
  B2SF (mean float32 (Plus (Plus (Term (cast float16 float32 a)) (Term (cast float16 float32 b))) (Term (cast float16 float32 c))))
    = SpecFloat.S754_zero false.
Proof. vm_compute. repeat split. Qed.

Print Assumptions C106_exact_average.
Print Assumptions C106_half_precision.
Print Assumptions C106_rounding.
Print Assumptions C106_rounding_refuted.
