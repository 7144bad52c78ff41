(** C54: the algebra of differences, as recipes evaluated at a key (exact arithmetic). *)
From Coq Require Import Reals String List Bool Arith ZArith Lia Lra.
From Verif Require Import Base ModelEval SpecEval EvalProofs PropsEval ModelNum NumProofs PropsNum ModelDiff.
Import ListNotations.
Open Scope string_scope.
Open Scope list_scope.

Section Diff.
  Variable conv : ety -> value vec -> result (value vec).
  Variable cfg : option config.
  Notation ev := (eval conv).
  Notation sub a b := (subtract_n cfg a b).
  Notation plus a b t := (add_difference_n cfg a b t).

  (** the recipe has this tensor at the key *)
  Definition tensor_at (n : node vec) (key : string) (x : vec) : Prop := wf n /\ ev n key = Ok (VT x).
  (** the recipe given for [alpha] is, or converts to, this tensor *)
  Definition param_at (n : node vec) (key : string) (t : vec) : Prop :=
    wf n /\ exists v, ev n key = Ok v /\ cast_value conv v TTensor = Ok (VT t).

  Lemma two_values : forall (m : mmethod vec) a b x y key, m_args m = [KVal TTensor; KVal TTensor] -> m_kw m = [] ->
    tensor_at a key x -> tensor_at b key y ->
    wf (NMerge m [a; b] [] cfg) /\ ev (NMerge m [a; b] [] cfg) key = m_fun m [IVal (VT x); IVal (VT y)] [] key.
  Proof.
    intros m a b x y key M K [Wa Ea] [Wb Eb].
    assert (wf (NMerge m [a; b] [] cfg)) as W by (eapply wf2; eauto).
    split; auto. rewrite (eval_inputs conv m [a; b] [] cfg key [IVal (VT x); IVal (VT y)] []); auto.
    intros i k n I. eapply input2 in I; [|exact M].
    destruct I as [(-> & -> & ->)|(-> & -> & ->)]; simpl; eexists; (split; [reflexivity|]).
    - exists (VT x), (VT x). auto.
    - exists (VT y), (VT y). auto.
  Qed.

  Lemma sub_at : forall a b x y key, tensor_at a key x -> tensor_at b key y -> tensor_at (sub a b) key (subtract x y).
  Proof.
    intros a b x y key A B. destruct (two_values subtract_m a b x y key eq_refl eq_refl A B) as [W E].
    split; [exact W|]. unfold subtract_n. rewrite E. reflexivity.
  Qed.

  Lemma plus_at : forall a b n x y t key, tensor_at a key x -> tensor_at b key y -> param_at n key t ->
    tensor_at (plus a b n) key (add_difference x y t).
  Proof.
    intros a b n x y t key [Wa Ea] [Wb Eb] (Wn & v & V1 & V2).
    assert (wf (plus a b n)) as W.
    { apply wf_merge; [| constructor | left; discriminate | left; simpl; lia | constructor | intros z []].
      apply Forall_cons; auto. }
    split; auto. unfold add_difference_n.
    rewrite (eval_inputs conv add_difference_m [a; b; n] [] cfg key
        [ISd (fun k' => match ev a k' with Ok v => cast_value conv v TTensor | Err e => Err e end) (node_cfg a);
         ISd (fun k' => match ev b k' with Ok v => cast_value conv v TTensor | Err e => Err e end) (node_cfg b);
         IVal (VT t)] []); auto.
    - simpl. rewrite Ea, Eb. reflexivity.
    - intros i k n' I. inversion I as [? ? ? A B|? ? ? A B C|j ? ? ? A]; subst.
      + destruct i as [|[|[|i]]]; simpl in *; try (inversion A; inversion B; subst; eexists; split; reflexivity).
        * inversion A; inversion B; subst. eexists; split; [reflexivity|]. exists v, (VT t). auto.
        * destruct i; discriminate.
      + discriminate.
      + destruct j; discriminate.
  Qed.

  Lemma add_length : forall x y t, length x = length y -> (length t = length x \/ length t = 1%nat) -> length (add_difference x y t) = length x.
  Proof.
    intros. unfold add_difference. rewrite map2_length; [apply bcast_length; tauto|].
    rewrite bcast_length, combine_length by tauto. lia.
  Qed.
  Lemma add_nth : forall x y t j, length x = length y -> (length t = length x \/ length t = 1%nat) -> (j < length x)%nat ->
    at_ (add_difference x y t) j = (at_ x j + at_ y j * at_ (bcast (length x) t) j)%R.
  Proof.
    intros. unfold add_difference.
    rewrite (map2_nth _ _ _ _ _ _ j 0%R (0, 0)%R 0%R); [|rewrite bcast_length, combine_length by tauto; lia|rewrite bcast_length; tauto].
    rewrite combine_nth by auto. reflexivity.
  Qed.
  Lemma bcast_one : forall n t j, (j < n)%nat -> at_ (bcast n [t]) j = t.
  Proof. intros. simpl. apply repeat_spec with n. apply nth_In. rewrite repeat_length; auto. Qed.
  Lemma sub_length : forall x y, length x = length y -> length (subtract x y) = length x.
  Proof. intros. apply map2_length; auto. Qed.
  Lemma sub_nth : forall x y j, length x = length y -> (j < length x)%nat -> at_ (subtract x y) j = (at_ x j - at_ y j)%R.
  Proof. intros. unfold subtract, vsub. rewrite (map2_nth _ _ _ _ _ _ j 0%R 0%R 0%R); auto. Qed.

  (** a + (b - a) = b and a + 0 * d = a *)
  Theorem C54_difference_algebra : forall a b d one zero x y z key,
    tensor_at a key x -> tensor_at b key y -> tensor_at d key z -> length x = length y -> length x = length z ->
    param_at one key [1%R] -> param_at zero key [0%R] ->
    ev (plus a (sub b a) one) key = Ok (VT y) /\ ev (plus a d zero) key = Ok (VT x).
  Proof.
    intros a b d one zero x y z key A B D L L' O Z. split.
    - destruct (plus_at a (sub b a) one x (subtract y x) [1%R] key A) as [_ ->]; auto using sub_at.
      assert (length (subtract y x) = length x) as LS by (rewrite sub_length; congruence).
      do 2 f_equal. apply nth_ext0; [rewrite add_length; auto|].
      intros j J. rewrite add_length in J by auto.
      rewrite add_nth, sub_nth, bcast_one by (auto; lia). lra.
    - destruct (plus_at a d zero x z [0%R] key A D Z) as [_ ->].
      do 2 f_equal. apply nth_ext0; [rewrite add_length; auto|].
      intros j J. rewrite add_length in J by auto. rewrite add_nth, bcast_one by auto. lra.
  Qed.

  (** the wrapper: a + alpha * (b - c), and clamped to lie between a and b *)
  Theorem C54_add_difference_wrapper : forall a b c n x y z t key,
    tensor_at a key x -> tensor_at b key y -> tensor_at c key z -> param_at n key [t] ->
    length x = length y -> length x = length z ->
    (exists r v, add_difference_w cfg a b (Some c) n false = Ok r /\ ev r key = Ok (VT v) /\ length v = length x /\
       forall j, (j < length x)%nat -> at_ v j = (at_ x j + t * (at_ y j - at_ z j))%R) /\
    (exists r v, add_difference_w cfg a b (Some c) n true = Ok r /\ ev r key = Ok (VT v) /\ length v = length x /\ in_hull v [x; y] /\
       forall j, (j < length x)%nat ->
         let s := (at_ x j + t * (at_ y j - at_ z j))%R in
         nearest (Rmin (at_ x j) (at_ y j)) (Rmax (at_ x j) (at_ y j)) s (at_ v j)).
  Proof.
    intros a b c n x y z t key A B C P L L'.
    assert (tensor_at (plus a (sub b c) n) key (add_difference x (subtract y z) [t])) as R by (apply plus_at; auto using sub_at).
    assert (length (subtract y z) = length x) as LS by (rewrite sub_length; congruence).
    set (u := add_difference x (subtract y z) [t]) in *.
    assert (length u = length x) as LU by (apply add_length; auto).
    assert (forall j, (j < length x)%nat -> at_ u j = (at_ x j + t * (at_ y j - at_ z j))%R) as U.
    { intros j J. unfold u. rewrite add_nth, sub_nth, bcast_one by (auto; lia). ring. }
    split.
    - exists (plus a (sub b c) n), u. split; [reflexivity|]. split; [apply R|]. auto.
    - set (r := NMerge clamp_m [plus a (sub b c) n; a; b] [("stiffness", NLit (VL (LFloat "0.0")))] cfg).
      destruct (C47_clamp (length x) u [x; y] 0) as (v & E & Lv & H & N & _); auto.
      { intros w [<-|[<-|[]]]; auto. } { discriminate. } { lra. }
      exists r, v. split; [reflexivity|]. split; [|split; [auto|split; [auto|]]].
      + assert (wf r) as W.
        { destruct R, A, B. apply wf_merge.
          - apply Forall_cons; [auto|]. apply Forall_cons; [auto|]. apply Forall_cons; auto.
          - apply Forall_cons; [constructor|constructor].
          - left; discriminate.
          - right; discriminate.
          - simpl. constructor; [intros []|constructor].
          - intros k [<-|[]]. left; auto. }
        unfold r.
        rewrite (eval_inputs conv clamp_m _ _ cfg key [IVal (VT u); IVal (VT x); IVal (VT y)] [IVal (VL (LFloat "0.0"))]); auto.
        * cbn [clamp_m m_fun map fst combine]. rewrite E. reflexivity.
        * intros i k n' I. inversion I as [? ? ? Q1 Q2|? ? ? Q1 Q2 Q3|j ? ? ? Q1 Q2]; subst.
          -- destruct i as [|i]; simpl in Q1, Q2; [|destruct i; discriminate]. injection Q1 as <-. injection Q2 as <-.
             eexists; split; [reflexivity|]. exists (VT u), (VT u). split; [apply R|auto].
          -- simpl in Q3. injection Q3 as <-. simpl in Q2. destruct i as [|[|[|i]]]; [lia| | |destruct i; discriminate];
               simpl in Q1; injection Q1 as <-; (eexists; split; [reflexivity|]).
             ++ exists (VT x), (VT x). split; [apply A|auto].
             ++ exists (VT y), (VT y). split; [apply B|auto].
          -- destruct j as [|j]; [|destruct j; discriminate]. simpl in Q1. injection Q1 as <- <-.
             simpl in Q2. destruct Q2 as [Q2|[]]. injection Q2 as <-.
             eexists; split; [reflexivity|]. exists (VL (LFloat "0.0")), (VL (LFloat "0.0")). auto.
      + intros j J s. destruct (N j J) as (lo & hi & Rg & LH & Nr). rewrite U in Nr by auto. fold s in Nr.
        destruct Rg as (avg & mn & mx & be & abv & _ & [I1 G1] & [I2 G2] & _ & _ & E1 & E2).
        replace lo with mn in Nr by lra. replace hi with mx in Nr by lra.
        replace (Rmin (at_ x j) (at_ y j)) with mn. replace (Rmax (at_ x j) (at_ y j)) with mx; [exact Nr|].
        * unfold Rmax. simpl in *. destruct (Rle_dec (at_ x j) (at_ y j));
            pose proof (G2 (at_ x j)); pose proof (G2 (at_ y j)); destruct I2 as [I2|[I2|[]]]; lra.
        * unfold Rmin. simpl in *. destruct (Rle_dec (at_ x j) (at_ y j));
            pose proof (G1 (at_ x j)); pose proof (G1 (at_ y j)); destruct I1 as [I1|[I1|[]]]; lra.
  Qed.

  (** the wrapper that adds only what is new in b: a + alpha * p where p is orthogonal to a - c
      and differs from b - c by a multiple of a - c *)
  Theorem C54_add_perpendicular_wrapper : forall a b c n x y z t key,
    tensor_at a key x -> tensor_at b key y -> tensor_at c key z -> param_at n key [t] ->
    length x = length y -> length x = length z ->
    exists p v, ev (add_perpendicular_w cfg a b c n) key = Ok (VT v) /\ length v = length x /\
      dot (subtract x z) p = 0%R /\
      ((exists j, (j < length x)%nat /\ at_ x j <> at_ z j) ->
         exists k, forall j, (j < length x)%nat -> at_ p j = (at_ y j - at_ z j - k * (at_ x j - at_ z j))%R) /\
      forall j, (j < length x)%nat -> at_ v j = (at_ x j + t * at_ p j)%R.
  Proof.
    intros a b c n x y z t key A B C P L L'.
    assert (length (subtract x z) = length x) as L1 by (apply sub_length; auto).
    assert (length (subtract y z) = length x) as L2 by (rewrite sub_length; congruence).
    set (p := perpendicular_component (subtract x z) (subtract y z)).
    destruct (C52_perpendicular (subtract x z) (subtract y z)) as (Lp & D & M & _); [congruence|]. fold p in Lp, D, M.
    destruct (two_values perpendicular_m (sub a c) (sub b c) (subtract x z) (subtract y z) key eq_refl eq_refl) as [W E]; auto using sub_at.
    assert (tensor_at (NMerge perpendicular_m [sub a c; sub b c] [] cfg) key p) as Tp by (split; auto; rewrite E; reflexivity).
    destruct (plus_at a _ n x p [t] key A Tp P) as [_ Ev].
    exists p, (add_difference x p [t]). split; [exact Ev|]. split; [apply add_length; auto; congruence|]. split; [auto|]. split.
    - intros (j & J & Nz). destruct M as (k & K).
      { exists (at_ (subtract x z) j). split; [apply nth_In; lia|]. rewrite sub_nth by auto. lra. }
      exists k. intros i I. rewrite K, !sub_nth by (auto; lia). reflexivity.
    - intros j J. rewrite add_nth, bcast_one by (auto; congruence). ring.
  Qed.
End Diff.

(** two models given as dicts of tensors; the number 1.0 converts to a one-element tensor *)
Definition nconv (e : ety) (v : value vec) : result (value vec) :=
  match e, v with
  | TTensor, VL (LFloat "1.0") => Ok (VT [1%R])
  | TTensor, VL (LFloat "0.0") => Ok (VT [0%R])
  | _, _ => Err ValueError
  end.
Definition dcfg := Config "c" ["k"] [] [].
Definition dmodel (x : vec) : node vec := NDict [("k", NLit (VT x))] dcfg "weight".

Example C54_case :
  tensor_at nconv (dmodel [1; 2]%R) "k" [1; 2]%R /\ tensor_at nconv (dmodel [5; 7]%R) "k" [5; 7]%R /\
  param_at nconv (NLit (VL (LFloat "1.0"))) "k" [1%R] /\ param_at nconv (NLit (VL (LFloat "0.0"))) "k" [0%R].
Proof.
  assert (forall x, tensor_at nconv (dmodel x) "k" x) as H.
  { intros x. split; [|reflexivity]. constructor. apply Forall_cons; [constructor|constructor]. }
  repeat split; try apply H; try constructor; eexists; split; reflexivity.
Qed.

Print Assumptions C54_difference_algebra.
Print Assumptions C54_add_difference_wrapper.
Print Assumptions C54_add_perpendicular_wrapper.
