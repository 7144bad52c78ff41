(** C28: integer hyperparameters *)
From Coq Require Import String List Bool ZArith Lia Arith.
From Verif Require Import Base ModelEval SpecEval EvalProofs PropsEval SpecCast PropsCast ModelInt.
Import ListNotations.
Open Scope Z_scope.

(** [z] has at most 24 significant bits: these are the integers float32 can hold *)
Definition exact_in_float32 (z : Z) : Prop := exists m e, 0 <= e /\ Z.abs m < 2 ^ 24 /\ z = m * 2 ^ e.

Lemma f32_exact : forall z, f32 z = z <-> exact_in_float32 z.
Proof.
  intros z. unfold f32. set (a := Z.abs z). set (k := Z.log2 a - 23).
  assert (0 <= a) as Ha by (unfold a; lia).
  destruct (Z.leb_spec k 0) as [Hk|Hk].
  - split; [|auto]. intros _. exists z, 0. split; [lia|]. split; [|lia].
    fold a. destruct (Z.eq_dec a 0) as [->|]; [reflexivity|].
    apply Z.log2_lt_pow2; lia.
  - assert (a <> 0) as Ha0 by (intros E; unfold k in Hk; rewrite E in Hk; simpl in Hk; lia).
    set (q := a / 2 ^ k). set (r := a mod 2 ^ k).
    assert (0 < 2 ^ k) as Pk by (apply Z.pow_pos_nonneg; lia).
    assert (a = 2 ^ k * q + r) as D by (apply Z.div_mod; lia).
    assert (0 <= r < 2 ^ k) as Rr by (apply Z.mod_pos_bound; lia).
    assert (2 ^ k = 2 * 2 ^ (k - 1)) as P2.
    { replace k with (Z.succ (k - 1)) at 1 by lia. rewrite Z.pow_succ_r by lia. auto. }
    assert (z = Z.sgn z * a) as Sz by (unfold a; lia).
    assert (Z.sgn z = 1 \/ Z.sgn z = -1) as Sg by (unfold a in Ha0; lia).
    split.
    + intros E.
      assert (r = 0) as R0.
      { set (q' := if ((2 ^ (k - 1) <? r) || ((r =? 2 ^ (k - 1)) && Z.odd q))%bool then q + 1 else q) in E.
        assert (q' * 2 ^ k = a) as E' by (destruct Sg as [S|S]; rewrite S in *; lia).
        assert (a mod 2 ^ k = 0) by (rewrite <- E'; apply Z.mod_mul; lia). auto. }
      exists (Z.sgn z * q), k. split; [lia|]. split; [|lia].
      assert (0 <= q) by (apply Z.div_pos; lia).
      assert (q < 2 ^ 24).
      { apply Z.div_lt_upper_bound; [lia|]. rewrite <- Z.pow_add_r by lia.
        apply Z.log2_lt_pow2; [lia|]. unfold k. lia. }
      destruct Sg as [-> | ->]; lia.
    + intros (m & e & He & Hm & E).
      assert (r = 0) as R0.
      { assert (k <= e) as Hke.
        { destruct (Z.le_gt_cases k e); auto. exfalso.
          assert (a < 2 ^ (23 + k)).
          { replace a with (Z.abs m * 2 ^ e) by (unfold a; rewrite E, Z.abs_mul, (Z.abs_eq (2 ^ e)); [auto|apply Z.pow_nonneg; lia]).
            replace (23 + k) with (24 + (k - 1)) by lia. rewrite Z.pow_add_r by lia.
            apply Z.lt_le_trans with (2 ^ 24 * 2 ^ e).
            - apply Z.mul_lt_mono_pos_r; [apply Z.pow_pos_nonneg; lia|auto].
            - apply Z.mul_le_mono_nonneg_l; [lia|]. apply Z.pow_le_mono_r; lia. }
          apply Z.log2_lt_pow2 in H0; [|lia]. unfold k in H0. lia. }
        unfold r. replace a with (Z.abs m * 2 ^ (e - k) * 2 ^ k).
        - apply Z.mod_mul; lia.
        - rewrite <- Z.mul_assoc, <- Z.pow_add_r by lia. replace (e - k + k) with e by lia.
          unfold a. rewrite E, Z.abs_mul, (Z.abs_eq (2 ^ e)); [auto|apply Z.pow_nonneg; lia]. }
      rewrite R0. assert (0 < 2 ^ (k - 1)) as Ph by (apply Z.pow_pos_nonneg; lia).
      destruct (Z.ltb_spec (2 ^ (k - 1)) 0); [lia|]. destruct (Z.eqb_spec 0 (2 ^ (k - 1))); [lia|]. simpl.
      rewrite Sz at 2. f_equal. lia.
Qed.

Lemma small_exact : forall z, Z.abs z <= 2 ^ 24 -> exact_in_float32 z.
Proof.
  intros z H. destruct (Z.eq_dec (Z.abs z) (2 ^ 24)) as [E|E].
  - exists (Z.sgn z), 24. split; [lia|]. split; lia.
  - exists z, 0. split; [lia|]. split; [lia|]. change (2 ^ 0) with 1. lia.
Qed.

(** the recipe [merge] evaluates for an int literal under default options *)
Definition int_input (z : Z) : result (node Z) := cast_inputs to_float64 (LStr "cpu") (LStr "float64") (NLit (VL (LInt z))).

Lemma int_input_eval : forall z key, Z.abs z < 2 ^ 63 ->
  exists n, int_input z = Ok n /\ eval int_conv n key = Ok (VT (f32 z)).
Proof.
  intros z key H. exists (NMerge (cast to_float64) [NLit (VL (LInt z)); NLit (VL (LStr "cpu")); NLit (VL (LStr "float64"))] [] None).
  split; [reflexivity|].
  rewrite (eval_inputs int_conv (cast to_float64) [NLit (VL (LInt z)); NLit (VL (LStr "cpu")); NLit (VL (LStr "float64"))] [] None key
    [IVal (VT (f32 z)); IVal (VL (LStr "cpu")); IVal (VL (LStr "float64"))] []); auto.
  - apply wf_merge; [|constructor|left; discriminate|left; simpl; lia|constructor|intros x []].
    repeat (constructor; [constructor|]). constructor.
  - intros i k n I. inversion I as [? ? ? A B|? ? ? A B D|j ? ? ? A]; subst.
    + destruct i as [|[|[|i]]]; simpl in *.
      * inversion A; inversion B; subst. eexists; split; [reflexivity|]. exists (VL (LInt z)), (VT (f32 z)).
        split; [auto|]. split; [|auto]. unfold cast_value, instance_of, int_conv. destruct (Z.ltb_spec (Z.abs z) (2 ^ 63)); [auto|lia].
      * inversion A; inversion B; subst. eexists; split; [reflexivity|]. eexists (VL _), (VL _). simpl. eauto.
      * inversion A; inversion B; subst. eexists; split; [reflexivity|]. eexists (VL _), (VL _). simpl. eauto.
      * destruct i; discriminate.
    + discriminate.
    + destruct j; discriminate.
Qed.

(** The method is handed [z] itself exactly when float32 holds [z]. *)
Theorem C28_int_parameters_iff : forall z key, Z.abs z < 2 ^ 63 ->
  exists n, int_input z = Ok n /\
    ((forall x, handed (eval int_conv) (cast_value int_conv) key (KVal TInt) n x <-> x = IVal (VL (LInt z))) <-> exact_in_float32 z).
Proof.
  intros z key H. destruct (int_input_eval z key H) as (n & N & E). exists n. split; auto.
  assert (forall x, handed (eval int_conv) (cast_value int_conv) key (KVal TInt) n x <-> x = IVal (VL (LInt (f32 z)))) as X.
  { intros x. split.
    - intros (v & w & E1 & E2 & ->). rewrite E in E1. inversion E1; subst. simpl in E2. inversion E2; auto.
    - intros ->. exists (VT (f32 z)), (VL (LInt (f32 z))). auto. }
  rewrite <- f32_exact. split.
  - intros A. assert (IVal (VL (LInt z)) = @IVal Z (VL (LInt (f32 z)))) as Q by (apply X, A; auto).
    inversion Q. congruence.
  - intros A x. rewrite X, A. tauto.
Qed.

Theorem C28_int_parameters_partial : forall z key n, Z.abs z <= 2 ^ 24 -> int_input z = Ok n ->
  forall x, handed (eval int_conv) (cast_value int_conv) key (KVal TInt) n x <-> x = IVal (VL (LInt z)).
Proof.
  intros z key n H N. destruct (C28_int_parameters_iff z key) as (n' & N' & I); [lia|].
  assert (n' = n) by congruence. subst. apply I, small_exact; auto.
Qed.

Theorem C28_int_parameters_refuted :
  ~ (forall z key n, Z.abs z < 2 ^ 63 -> int_input z = Ok n ->
       forall x, handed (eval int_conv) (cast_value int_conv) key (KVal TInt) n x -> x = IVal (VL (LInt z))).
Proof.
  intros H. specialize (H (2 ^ 24 + 1) "k"%string _ eq_refl eq_refl (IVal (VL (LInt (2 ^ 24))))).
  assert (@IVal Z (VL (LInt (2 ^ 24))) = IVal (VL (LInt (2 ^ 24 + 1)))) as E.
  { apply H. eexists (VT _), (VL _). split; [vm_compute; reflexivity|]. split; vm_compute; reflexivity. }
  vm_compute in E. discriminate.
Qed.

Example C28_case : f32 100 = 100 /\ f32 (2 ^ 24 + 1) = 2 ^ 24 /\ f32 (2 ^ 24 + 3) = 2 ^ 24 + 4 /\ f32 (- (2 ^ 25 + 2)) = - (2 ^ 25) /\
  f32 (2 ^ 24 + 2) = 2 ^ 24 + 2 /\ f32 (2 ^ 62) = 2 ^ 62.
Proof. vm_compute. auto 10. Qed.

Print Assumptions C28_int_parameters_iff.
Print Assumptions C28_int_parameters_partial.
Print Assumptions C28_int_parameters_refuted.
