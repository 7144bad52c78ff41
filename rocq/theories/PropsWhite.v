(** C119: select_max_white_delta.  C120: copy_distribution *)
From Coq Require Import Reals List Bool Arith Lia Lra Psatz Permutation.
From Verif Require Import Base ModelNum ModelWhite.
Import ListNotations.
Open Scope list_scope.
Open Scope R_scope.

(** what torch.linalg.eigh promises of a symmetric matrix: orthonormal eigenvectors, in columns *)
Definition eigen (n : nat) (c : nat -> nat -> R) (v : nat -> R) (vs : nat -> nat -> R) : Prop :=
  (forall k l, (k < n)%nat -> (l < n)%nat -> rsum_to n (fun i => vs i k * vs i l) = if (k =? l)%nat then 1 else 0) /\
  (forall i k, (i < n)%nat -> (k < n)%nat -> rsum_to n (fun j => c i j * vs j k) = v k * vs i k).

Definition finite (x : ext) : Prop := exists u, x = Fin u.

Lemma xadd_finite : forall x y, finite (xadd x y) -> finite x /\ finite y.
Proof. intros x y (u & H). destruct x, y; simpl in H; try discriminate; split; eexists; eauto. Qed.
Lemma xmul_finite : forall x y, finite (xmul x y) -> finite x /\ finite y.
Proof.
  intros x y (u & H). destruct x, y; simpl in H; repeat (destruct Rlt_dec); simpl in H; try discriminate; split; eexists; eauto.
Qed.

Lemma xsum_list_finite : forall l f, finite (fold_right (fun i s => xadd (f i) s) (Fin 0) l) -> forall i : nat, In i l -> finite (f i).
Proof.
  induction l as [|a l IH]; simpl; intros f H i I; [destruct I|]. apply xadd_finite in H as [H1 H2]. destruct I as [->|I]; auto.
Qed.
Lemma xsum_finite : forall n f, finite (xsum n f) -> forall i, (i < n)%nat -> finite (f i).
Proof. intros n f H i I. eapply xsum_list_finite; [exact H|]. apply in_seq. lia. Qed.

(** sums of terms that are not finite *)
Lemma xsum_list_inf : forall l f, l <> [] -> (forall i : nat, In i l -> ~ finite (f i)) ->
  let s := fold_right (fun i s => xadd (f i) s) (Fin 0) l in
  (s = NaN \/ s = PosInf /\ (forall i, In i l -> f i = PosInf) \/ s = NegInf /\ (forall i, In i l -> f i = NegInf)).
Proof.
  induction l as [|a l IH]; intros f N H; [congruence|]. simpl.
  assert (~ finite (f a)) as Ha by (apply H; left; auto).
  destruct l as [|b l].
  - simpl. destruct (f a) as [u| | |] eqn:F; simpl; auto.
    + exfalso. apply Ha. exists u. auto.
    + right; left. split; auto. intros i [<-|[]]; auto.
    + right; right. split; auto. intros i [<-|[]]; auto.
  - destruct (IH f) as [E|[[E G]|[E G]]]; [discriminate|intros; apply H; right; auto| | |]; rewrite E.
    + left. destruct (f a); reflexivity.
    + destruct (f a) as [u| | |] eqn:F; simpl; auto.
      * exfalso. apply Ha. exists u. auto.
      * right; left. split; auto. intros i [<-|I]; auto.
    + destruct (f a) as [u| | |] eqn:F; simpl; auto.
      * exfalso. apply Ha. exists u. auto.
      * right; right. split; auto. intros i [<-|I]; auto.
Qed.
Lemma xsum_inf : forall n f, (0 < n)%nat -> (forall i, (i < n)%nat -> ~ finite (f i)) ->
  xsum n f = NaN \/ xsum n f = PosInf /\ (forall i, (i < n)%nat -> f i = PosInf) \/ xsum n f = NegInf /\ (forall i, (i < n)%nat -> f i = NegInf).
Proof.
  intros n f N H. destruct (xsum_list_inf (seq 0 n) f) as [E|[[E G]|[E G]]].
  - destruct n; [lia|discriminate].
  - intros i I. apply in_seq in I. apply H. lia.
  - auto.
  - right; left. split; auto. intros i I. apply G, in_seq. lia.
  - right; right. split; auto. intros i I. apply G, in_seq. lia.
Qed.

(** *** the covariance matrix has rank one *)
Lemma cov2_rank1 : forall x y i j, cov2 x y i j = (x i - y i) * (x j - y j) / 4.
Proof. intros. unfold cov2. field. Qed.

Lemma rsum_to_ext : forall n f g, (forall i, (i < n)%nat -> f i = g i) -> rsum_to n f = rsum_to n g.
Proof.
  intros n f g H. unfold rsum_to. assert (forall i, In i (seq 0 n) -> f i = g i) as K by (intros i I; apply in_seq in I; apply H; lia).
  clear H. induction (seq 0 n) as [|a l IH]; simpl; auto. rewrite IH, K; auto; [left; auto|intros; apply K; right; auto].
Qed.
Lemma rsum_to_scale : forall n k f, rsum_to n (fun i => k * f i) = k * rsum_to n f.
Proof. intros. unfold rsum_to. induction (seq 0 n) as [|a l IH]; simpl; [ring|]. rewrite IH. ring. Qed.

Lemma zero_eigenvalue : forall n x y v vs, (2 <= n)%nat -> eigen n (cov2 x y) v vs -> exists k, (k < n)%nat /\ v k = 0.
Proof.
  intros n x y v vs N (O & E). set (c := fun i => (x i - y i) / 2).
  assert (forall i k, (i < n)%nat -> (k < n)%nat -> c i * rsum_to n (fun j => c j * vs j k) = v k * vs i k) as E'.
  { intros i k I K. rewrite <- E by auto. rewrite <- rsum_to_scale. apply rsum_to_ext. intros j _. rewrite cov2_rank1. unfold c. field. }
  destruct (Req_EM_T (v 0%nat) 0) as [Z|Z0]; [exists 0%nat; split; [lia|auto]|].
  destruct (Req_EM_T (v 1%nat) 0) as [Z|Z1]; [exists 1%nat; split; [lia|auto]|]. exfalso.
  assert (forall k, (k < n)%nat -> v k <> 0 -> exists q, forall i, (i < n)%nat -> vs i k = q * c i) as M.
  { intros k K Z. exists (rsum_to n (fun j => c j * vs j k) / v k). intros i I.
    apply Rmult_eq_reg_l with (v k); auto. rewrite <- (E' i k I K). field. auto. }
  destruct (M 0%nat) as (p & P); [lia|auto|]. destruct (M 1%nat) as (q & Q); [lia|auto|].
  assert (forall r s k l, (forall i, (i < n)%nat -> vs i k = r * c i) -> (forall i, (i < n)%nat -> vs i l = s * c i) ->
    rsum_to n (fun i => vs i k * vs i l) = r * s * rsum_to n (fun i => c i * c i)) as S.
  { intros r s k l Hr Hs. rewrite <- rsum_to_scale. apply rsum_to_ext. intros i I. rewrite Hr, Hs by auto. ring. }
  pose proof (O 0%nat 0%nat ltac:(lia) ltac:(lia)) as O1. pose proof (O 1%nat 1%nat ltac:(lia) ltac:(lia)) as O2.
  pose proof (O 0%nat 1%nat ltac:(lia) ltac:(lia)) as O3. simpl in O1, O2, O3.
  rewrite (S p p) in O1 by auto. rewrite (S q q) in O2 by auto. rewrite (S p q) in O3 by auto.
  set (t := rsum_to n (fun i => c i * c i)) in *.
  assert (p * q * t * (p * q * t) = (p * p * t) * (q * q * t)) as Z by ring. rewrite O1, O2, O3 in Z. lra.
Qed.

(** so no entry of the whitening matrix is finite, nor anything it is applied to *)
Lemma whitening_inf : forall n v vs i j, (exists k, (k < n)%nat /\ v k = 0) -> ~ finite (whitening n v vs i j).
Proof.
  intros n v vs i j (k & K & Z) F. unfold whitening in F.
  pose proof (xsum_finite _ _ F k K) as F1. cbv beta in F1. apply xmul_finite in F1 as (F1 & _).
  pose proof (xsum_finite _ _ F1 k K) as F2. cbv beta in F2. rewrite Nat.eqb_refl in F2. apply xmul_finite in F2 as (_ & (u & F2)).
  unfold inv_sqrt in F2. rewrite Z in F2. destruct (Rlt_dec 0 0); [lra|]. rewrite sqrt_0 in F2. unfold fdiv in F2.
  destruct (Req_EM_T 0 0); [|congruence]. destruct (Rlt_dec 0 1); [discriminate|lra].
Qed.

Lemma whitened_inf : forall n w x i, (0 < n)%nat -> (forall i j, ~ finite (w i j)) ->
  whitened n w x i = NaN \/
  exists s : R, s <> 0 /\ (whitened n w x i = PosInf \/ whitened n w x i = NegInf) /\
    forall j, (j < n)%nat -> (w i j = PosInf /\ 0 < x j * s) \/ (w i j = NegInf /\ x j * s < 0).
Proof.
  intros n w x i N H. unfold whitened.
  destruct (xsum_inf n (fun j => xmul (w i j) (Fin (x j))) N) as [E|[[E G]|[E G]]].
  - intros j _ F. apply xmul_finite in F as (F & _). eapply H; eauto.
  - auto.
  - right. exists 1. split; [lra|]. split; [auto|]. intros j J. specialize (G j J). specialize (H i j).
    destruct (w i j) as [u| | |]; simpl in G; repeat destruct Rlt_dec; simpl in G; try discriminate; [left|right]; split; auto; lra.
  - right. exists (-1). split; [lra|]. split; [auto|]. intros j J. specialize (G j J). specialize (H i j).
    destruct (w i j) as [u| | |]; simpl in G; repeat destruct Rlt_dec; simpl in G; try discriminate; [left|right]; split; auto; lra.
Qed.

Section Selection.
  Variable eigh : nat -> (nat -> nat -> R) -> (nat -> R) * (nat -> nat -> R).

  Lemma selected : forall a b alpha r, length a = length b -> (2 <= length a)%nat ->
    eigen (length a) (cov2 (normal a) (normal b)) (fst (eigh (length a) (cov2 (normal a) (normal b)))) (snd (eigh (length a) (cov2 (normal a) (normal b)))) ->
    select_max_white_delta eigh a b alpha = Ok r ->
    exists w, (forall i j, ~ finite (w i j)) /\
      r = map (fun i => if xge (xmul (Fin (1 - alpha)) (xabs (whitened (length a) w (normal a) i)))
                               (xmul (Fin alpha) (xabs (whitened (length a) w (normal b) i))) then nth i a 0 else nth i b 0) (seq 0 (length a)) /\
      forall alpha', select_max_white_delta eigh a b alpha' =
        Ok (map (fun i => if xge (xmul (Fin (1 - alpha')) (xabs (whitened (length a) w (normal a) i)))
                               (xmul (Fin alpha') (xabs (whitened (length a) w (normal b) i))) then nth i a 0 else nth i b 0) (seq 0 (length a))).
  Proof.
    intros a b alpha r L N E H. unfold select_max_white_delta in *.
    destruct (reqb (std0 a) 0 || reqb (std0 b) 0); [discriminate|].
    destruct (eigh (length a) (cov2 (normal a) (normal b))) as [v vs]. simpl in E.
    exists (whitening (length a) v vs). split; [|split; [congruence|reflexivity]].
    intros i j. apply whitening_inf. eapply zero_eigenvalue; eauto.
  Qed.

  Lemma nth_self : forall (b : vec), map (fun i => nth i b 0) (seq 0 (length b)) = b.
  Proof.
    intros b. apply nth_ext with 0 0; [rewrite map_length, seq_length; auto|].
    intros i I. rewrite map_length, seq_length in I. rewrite (nth_indep _ 0 (nth 0 b 0)) by (rewrite map_length, seq_length; auto).
    rewrite (map_nth (fun i => nth i b 0)). rewrite seq_nth by auto. reflexivity.
  Qed.

  Variables a b : vec.
  Hypothesis same : length a = length b.
  Hypothesis two : (2 <= length a)%nat.
  Hypothesis eig : eigen (length a) (cov2 (normal a) (normal b))
    (fst (eigh (length a) (cov2 (normal a) (normal b)))) (snd (eigh (length a) (cov2 (normal a) (normal b)))).

  Lemma all_b : forall (p : nat -> bool), (forall i, (i < length a)%nat -> p i = false) ->
    map (fun i => if p i then nth i a 0 else nth i b 0) (seq 0 (length a)) = b.
  Proof.
    intros p H. transitivity (map (fun i => nth i b 0) (seq 0 (length b))); [|apply nth_self]. rewrite <- same. apply map_ext_in. intros i I. apply in_seq in I. rewrite H by lia. auto.
  Qed.

  (** with alpha 0, which should keep [a], and with alpha 1, the result is [b] *)
  Theorem C119_ends : forall r, select_max_white_delta eigh a b 0 = Ok r \/ select_max_white_delta eigh a b 1 = Ok r -> r = b.
  Proof.
    intros r H. assert (exists alpha, (alpha = 0 \/ alpha = 1) /\ select_max_white_delta eigh a b alpha = Ok r) as (alpha & A & Q) by (destruct H; eauto).
    destruct (selected a b alpha r same two eig Q) as (w & W & -> & _). apply all_b. intros i I.
    assert (forall x, ~ finite (whitened (length a) w x i)) as F.
    { intros x (u & E). destruct (whitened_inf (length a) w x i) as [X|(s & _ & [X|X] & _)]; auto; try lia; congruence. }
    pose proof (F (normal a)) as Fa. pose proof (F (normal b)) as Fb.
    destruct (whitened (length a) w (normal a) i) as [u| | |]; [exfalso; apply Fa; exists u; auto| | |];
    (destruct (whitened (length a) w (normal b) i) as [u| | |]; [exfalso; apply Fb; exists u; auto| | |]);
    destruct A as [-> | ->]; simpl; repeat destruct Rlt_dec; simpl; auto; try lra; repeat destruct Rlt_dec; simpl; auto; lra.
  Qed.

  (** alpha makes no difference in between *)
  Theorem C119_alpha : forall alpha alpha', 0 < alpha < 1 -> 0 < alpha' < 1 ->
    select_max_white_delta eigh a b alpha = select_max_white_delta eigh a b alpha'.
  Proof.
    intros alpha alpha' A A'. destruct (select_max_white_delta eigh a b alpha) as [r|e] eqn:Q.
    - destruct (selected a b alpha r same two eig Q) as (w & W & -> & R). rewrite R. f_equal. apply map_ext. intros i.
      assert (forall x, ~ finite (whitened (length a) w x i)) as F.
      { intros x (u & E). destruct (whitened_inf (length a) w x i) as [X|(s & _ & [X|X] & _)]; auto; try lia; congruence. }
      pose proof (F (normal a)) as Fa. pose proof (F (normal b)) as Fb.
      destruct (whitened (length a) w (normal a) i) as [u| | |]; [exfalso; apply Fa; exists u; auto| | |];
      (destruct (whitened (length a) w (normal b) i) as [u| | |]; [exfalso; apply Fb; exists u; auto| | |]);
      simpl; repeat (destruct Rlt_dec; [|lra]); simpl; auto.
    - unfold select_max_white_delta in *. destruct (reqb (std0 a) 0 || reqb (std0 b) 0); auto.
      destruct (eigh (length a) (cov2 (normal a) (normal b))). discriminate.
  Qed.

  (** unless the two deltas deviate in the same direction everywhere, or in opposite directions everywhere, the result is [b] *)
  Theorem C119_second : forall alpha r, (exists j k, (j < length a)%nat /\ (k < length a)%nat /\
      (nth j a 0 - mean a) * (nth j b 0 - mean b) <= 0 /\ 0 <= (nth k a 0 - mean a) * (nth k b 0 - mean b)) ->
    select_max_white_delta eigh a b alpha = Ok r -> r = b.
  Proof.
    intros alpha r (j & k & J & K & S1 & S2) H.
    assert (0 < std0 a /\ 0 < std0 b) as (Pa & Pb).
    { unfold select_max_white_delta in H. destruct (reqb (std0 a) 0) eqn:Ra; [discriminate|]. destruct (reqb (std0 b) 0) eqn:Rb; [discriminate|].
      unfold reqb in Ra, Rb. destruct (Req_EM_T (std0 a) 0); [discriminate|]. destruct (Req_EM_T (std0 b) 0); [discriminate|].
      split; match goal with |- 0 < std0 ?x => assert (0 <= std0 x) by apply sqrt_pos; lra end. }
    assert (forall i, normal a i * normal b i = (nth i a 0 - mean a) * (nth i b 0 - mean b) * / (std0 a * std0 b)) as Q.
    { intros i. unfold normal. field. split; lra. }
    assert (0 < / (std0 a * std0 b)) as Pi by (apply Rinv_0_lt_compat; nra).
    assert (normal a j * normal b j <= 0) as S1' by (rewrite Q; nra).
    assert (0 <= normal a k * normal b k) as S2' by (rewrite Q; nra).
    destruct (selected a b alpha r same two eig H) as (w & W & -> & _). apply all_b. intros i I.
    destruct (whitened_inf (length a) w (normal a) i) as [X|(s & S & _ & Xs)]; [lia|auto|rewrite X; reflexivity|].
    destruct (whitened_inf (length a) w (normal b) i) as [Y|(s' & S' & _ & Ys)]; [lia|auto| |].
    - rewrite Y. change (xmul (Fin alpha) (xabs NaN)) with NaN. destruct (xmul (Fin (1 - alpha)) (xabs (whitened (length a) w (normal a) i))); reflexivity.
    - exfalso. assert (forall l, (l < length a)%nat -> 0 < (normal a l * normal b l) * (s * s')) as G.
      { intros l Hl. destruct (Xs l Hl) as [[Wl Xl]|[Wl Xl]], (Ys l Hl) as [[Wl' Yl]|[Wl' Yl]]; try congruence.
        - pose proof (Rmult_lt_0_compat _ _ Xl Yl). lra.
        - assert (0 < (- (normal a l * s)) * (- (normal b l * s'))) by (apply Rmult_lt_0_compat; lra). lra. }
      pose proof (G j J) as Gj. pose proof (G k K) as Gk.
      revert Gj Gk S1' S2'. generalize (normal a j * normal b j) (normal a k * normal b k) (s * s'). intros p q t Gj Gk Sp Sq.
      destruct (Rle_lt_dec 0 t); [assert (p * t <= 0) by nra|assert (q * t <= 0) by nra]; lra.
  Qed.
End Selection.

(** *** C119, all cases: a matrix of rank one has so many zero eigenvalues that every whitened value is NaN *)
Lemma two_eigenvalues : forall n x y v vs k l, (k < n)%nat -> (l < n)%nat -> k <> l -> eigen n (cov2 x y) v vs -> v k = 0 \/ v l = 0.
Proof.
  intros n x y v vs k l K L N (O & E). set (c := fun i => (x i - y i) / 2).
  assert (forall i k, (i < n)%nat -> (k < n)%nat -> c i * rsum_to n (fun j => c j * vs j k) = v k * vs i k) as E'.
  { intros i m I M. rewrite <- E by auto. rewrite <- rsum_to_scale. apply rsum_to_ext. intros j _. rewrite cov2_rank1. unfold c. field. }
  destruct (Req_EM_T (v k) 0) as [Z|Z0]; auto. destruct (Req_EM_T (v l) 0) as [Z|Z1]; auto. exfalso.
  assert (forall k, (k < n)%nat -> v k <> 0 -> exists q, forall i, (i < n)%nat -> vs i k = q * c i) as M.
  { intros m Km Z. exists (rsum_to n (fun j => c j * vs j m) / v m). intros i I.
    apply Rmult_eq_reg_l with (v m); auto. rewrite <- (E' i m I Km). field. auto. }
  destruct (M k) as (p & P); auto. destruct (M l) as (q & Q); auto.
  assert (forall r s k l, (forall i, (i < n)%nat -> vs i k = r * c i) -> (forall i, (i < n)%nat -> vs i l = s * c i) ->
    rsum_to n (fun i => vs i k * vs i l) = r * s * rsum_to n (fun i => c i * c i)) as S.
  { intros r s m m' Hr Hs. rewrite <- rsum_to_scale. apply rsum_to_ext. intros i I. rewrite Hr, Hs by auto. ring. }
  pose proof (O k k K K) as O1. pose proof (O l l L L) as O2. pose proof (O k l K L) as O3.
  rewrite Nat.eqb_refl in O1, O2. apply Nat.eqb_neq in N. rewrite N in O3.
  rewrite (S p p) in O1 by auto. rewrite (S q q) in O2 by auto. rewrite (S p q) in O3 by auto.
  set (t := rsum_to n (fun i => c i * c i)) in *.
  assert (p * q * t * (p * q * t) = (p * p * t) * (q * q * t)) as Z by ring. rewrite O1, O2, O3 in Z. lra.
Qed.

Lemma xsum_list_pos : forall l f, fold_right (fun i s => xadd (f i) s) (Fin 0) l = PosInf -> forall i : nat, In i l -> f i = PosInf \/ finite (f i).
Proof.
  assert (forall l f, fold_right (fun (i : nat) s => xadd (f i) s) (Fin 0) l <> NegInf -> fold_right (fun i s => xadd (f i) s) (Fin 0) l <> NaN ->
    forall i, In i l -> f i = PosInf \/ finite (f i)) as G.
  { induction l as [|a l IH]; simpl; intros f H1 H2 i I; [destruct I|].
    set (t := fold_right (fun i s => xadd (f i) s) (Fin 0) l) in *.
    assert ((f a = PosInf \/ finite (f a)) /\ t <> NegInf /\ t <> NaN) as (A & B & C).
    { destruct (f a) as [u| | |], t as [z| | |]; simpl in H1, H2; try congruence; (split; [|split; discriminate]); auto; right; eexists; reflexivity. }
    destruct I as [<-|I]; auto. }
  intros l f H. apply G; rewrite H; discriminate.
Qed.
Lemma xsum_list_neg : forall l f, fold_right (fun i s => xadd (f i) s) (Fin 0) l = NegInf -> forall i : nat, In i l -> f i = NegInf \/ finite (f i).
Proof.
  assert (forall l f, fold_right (fun (i : nat) s => xadd (f i) s) (Fin 0) l <> PosInf -> fold_right (fun i s => xadd (f i) s) (Fin 0) l <> NaN ->
    forall i, In i l -> f i = NegInf \/ finite (f i)) as G.
  { induction l as [|a l IH]; simpl; intros f H1 H2 i I; [destruct I|].
    set (t := fold_right (fun i s => xadd (f i) s) (Fin 0) l) in *.
    assert ((f a = NegInf \/ finite (f a)) /\ t <> PosInf /\ t <> NaN) as (A & B & C).
    { destruct (f a) as [u| | |], t as [z| | |]; simpl in H1, H2; try congruence; (split; [|split; discriminate]); auto; right; eexists; reflexivity. }
    destruct I as [<-|I]; auto. }
  intros l f H. apply G; rewrite H; discriminate.
Qed.

(** one term that is not finite among finite ones *)
Lemma xsum_list_single : forall l k t (f : nat -> ext), NoDup l -> In k l -> f k = t -> ~ finite t -> (forall i, i <> k -> f i = Fin 0) ->
  fold_right (fun i s => xadd (f i) s) (Fin 0) l = t.
Proof.
  intros l k t f ND I F N Z.
  assert (forall l, ~ In k l -> fold_right (fun i s => xadd (f i) s) (Fin 0) l = Fin 0) as Y.
  { induction l0 as [|a l0 IH]; simpl; intros H; auto. rewrite IH by tauto. rewrite Z by (intros ->; tauto). simpl. f_equal. ring. }
  induction l as [|a l IH]; [destruct I|]. inversion ND as [|? ? Na ND']; subst. simpl. destruct I as [->|I].
  - rewrite Y by auto. destruct (f k) as [u| | |]; auto. exfalso. apply N. eexists; reflexivity.
  - rewrite IH by auto. rewrite Z by (intros ->; contradiction).
    destruct (f k) as [u| | |]; auto. exfalso. apply N. eexists; reflexivity.
Qed.

Lemma whitening_sign : forall n v vs i j k, (k < n)%nat -> v k = 0 ->
  (whitening n v vs i j = PosInf -> 0 < vs i k * vs j k) /\ (whitening n v vs i j = NegInf -> vs i k * vs j k < 0).
Proof.
  intros n v vs i j k K Z.
  assert (inv_sqrt (v k) = PosInf) as S.
  { unfold inv_sqrt. rewrite Z. destruct (Rlt_dec 0 0); [lra|]. rewrite sqrt_0. unfold fdiv.
    destruct (Req_EM_T 0 0); [|congruence]. destruct (Rlt_dec 0 1); [reflexivity|lra]. }
  assert (xsum n (fun l => xmul (Fin (vs i l)) (if (l =? k)%nat then inv_sqrt (v k) else Fin 0)) = xmul (Fin (vs i k)) PosInf) as V.
  { unfold xsum. apply xsum_list_single with k; [apply seq_NoDup|apply in_seq; lia| | |].
    - rewrite Nat.eqb_refl, S. reflexivity.
    - intros (u & F). simpl in F. repeat destruct Rlt_dec; discriminate.
    - intros l N. apply Nat.eqb_neq in N. rewrite N. simpl. f_equal. ring. }
  assert (forall t, xmul (xmul (Fin (vs i k)) PosInf) (Fin (vs j k)) = t ->
    (t = PosInf -> 0 < vs i k * vs j k) /\ (t = NegInf -> vs i k * vs j k < 0) /\ ~ finite t) as T.
  { intros t <-. split; [|split].
    - simpl. destruct (Rlt_dec 0 (vs i k)); simpl; [|destruct (Rlt_dec (vs i k) 0); simpl; [|discriminate]];
        (destruct (Rlt_dec 0 (vs j k)); simpl; [|destruct (Rlt_dec (vs j k) 0); simpl]); intros H; try discriminate; nra.
    - simpl. destruct (Rlt_dec 0 (vs i k)); simpl; [|destruct (Rlt_dec (vs i k) 0); simpl; [|discriminate]];
        (destruct (Rlt_dec 0 (vs j k)); simpl; [|destruct (Rlt_dec (vs j k) 0); simpl]); intros H; try discriminate; nra.
    - intros F. apply xmul_finite in F as (F & _). apply xmul_finite in F as (_ & (u & F)). discriminate. }
  destruct (T _ eq_refl) as (T1 & T2 & T3).
  split; intros H; unfold whitening, xsum in H.
  - apply xsum_list_pos with (i := k) in H; [|apply in_seq; lia]. fold (xsum n (fun l => xmul (Fin (vs i l)) (if (l =? k)%nat then inv_sqrt (v k) else Fin 0))) in H.
    rewrite V in H. destruct H as [H|H]; [auto|contradiction].
  - apply xsum_list_neg with (i := k) in H; [|apply in_seq; lia]. fold (xsum n (fun l => xmul (Fin (vs i l)) (if (l =? k)%nat then inv_sqrt (v k) else Fin 0))) in H.
    rewrite V in H. destruct H as [H|H]; [auto|contradiction].
Qed.

Lemma rsum_to_pos : forall n f, (0 < n)%nat -> (forall i, (i < n)%nat -> 0 < f i) -> 0 < rsum_to n f.
Proof.
  intros n f N H. unfold rsum_to. assert (forall i, In i (seq 0 n) -> 0 < f i) as K by (intros i I; apply in_seq in I; apply H; lia).
  assert (seq 0 n <> []) as NE by (destruct n; [lia|discriminate]). revert K NE. clear. induction (seq 0 n) as [|a l IH]; intros K NE; [congruence|].
  simpl. pose proof (K a (or_introl eq_refl)). destruct l as [|b l]; [simpl; lra|].
  assert (0 < fold_right (fun i s => f i + s) 0 (b :: l)) by (apply IH; [intros; apply K; right; auto|discriminate]). lra.
Qed.

(** a row of the whitened deltas is NaN when two eigenvalues are zero, or when there are two elements *)
Lemma whitened_nan : forall n v vs x y i, (2 <= n)%nat -> (i < n)%nat -> eigen n (cov2 x y) v vs ->
  (n = 2%nat -> x 0%nat + x 1%nat = 0 /\ y 0%nat + y 1%nat = 0) -> whitened n (whitening n v vs) x i = NaN.
Proof.
  intros n v vs x y i N I E S.
  destruct (whitened_inf n (whitening n v vs) x i) as [X|(s & Sn & _ & Xs)]; [lia| |auto|].
  { intros i' j'. apply whitening_inf. eapply zero_eigenvalue; eauto. }
  exfalso.
  assert (forall k j, (k < n)%nat -> (j < n)%nat -> v k = 0 -> 0 < vs i k * vs j k * (x j * s)) as P.
  { intros k j K J Z. destruct (whitening_sign n v vs i j k K Z) as (W1 & W2). destruct (Xs j J) as [(W & Q)|(W & Q)].
    - apply Rmult_lt_0_compat; auto.
    - specialize (W2 W). nra. }
  assert (forall k l, (k < n)%nat -> (l < n)%nat -> k <> l -> v k = 0 -> v l = 0 -> False) as Two.
  { intros k l K L D Zk Zl. pose proof (proj1 E k l K L) as O. apply Nat.eqb_neq in D. rewrite D in O.
    assert (0 < rsum_to n (fun j => vs i k * vs i l * (vs j k * vs j l))) as G; [|rewrite rsum_to_scale, O in G; lra].
    apply rsum_to_pos; [lia|]. intros j J. pose proof (P k j K J Zk) as P1. pose proof (P l j L J Zl) as P2.
    pose proof (Rmult_lt_0_compat _ _ P1 P2) as P3.
    assert (vs i k * vs j k * (x j * s) * (vs i l * vs j l * (x j * s)) = vs i k * vs i l * (vs j k * vs j l) * Rsqr (x j * s)) as R by (unfold Rsqr; ring).
    rewrite R in P3. pose proof (Rle_0_sqr (x j * s)) as Q. revert P3 Q. generalize (vs i k * vs i l * (vs j k * vs j l)) (Rsqr (x j * s)). intros p q P3 Q.
    destruct (Rle_lt_dec p 0); [|auto]. exfalso. nra. }
  destruct (Nat.eq_dec n 2) as [->|N3].
  - destruct (S eq_refl) as (Sx & Sy).
    assert (forall k, (k < 2)%nat -> v k = 0 -> (forall l, (l < 2)%nat -> l <> k -> v l <> 0) -> False) as One.
    { intros k K Z O.
      assert (forall i, (i < 2)%nat -> (x i - y i) * ((x 0%nat - y 0%nat) * (vs 0%nat k - vs 1%nat k)) = 0) as Q.
      { intros j J. pose proof (proj2 E j k J K) as C. rewrite Z in C. unfold rsum_to in C. simpl in C. rewrite !cov2_rank1 in C.
        assert (x 1%nat - y 1%nat = - (x 0%nat - y 0%nat)) as R by lra. rewrite R in C. lra. }
      destruct (Req_EM_T (x 0%nat - y 0%nat) 0) as [D|D].
      - assert (forall l, (l < 2)%nat -> v l = 0) as A.
        { intros l L. pose proof (proj2 E) as C.
          assert (forall j, (j < 2)%nat -> v l * vs j l = 0) as V0.
          { intros j J. rewrite <- (C j l J L). unfold rsum_to. simpl. rewrite !cov2_rank1.
            assert (x 1%nat - y 1%nat = 0) as R by lra. rewrite D, R. destruct j as [|[|j]]; [rewrite D|rewrite R|lia]; lra. }
          pose proof (proj1 E l l L L) as U. rewrite Nat.eqb_refl in U. unfold rsum_to in U. simpl in U.
          assert (v l * 1 = 0); [|lra]. rewrite <- U. transitivity ((v l * vs 0%nat l) * vs 0%nat l + (v l * vs 1%nat l) * vs 1%nat l); [ring|].
          rewrite !V0 by lia. ring. }
        destruct k as [|[|k]]; [apply (O 1%nat); auto|apply (O 0%nat); auto|lia].
      - assert (vs 0%nat k = vs 1%nat k) as R.
        { pose proof (Q 0%nat ltac:(lia)) as Q0. apply Rmult_integral in Q0 as [Q0|Q0]; [contradiction|].
          apply Rmult_integral in Q0 as [Q0|Q0]; [contradiction|lra]. }
        pose proof (P k 0%nat K ltac:(lia) Z) as P0. pose proof (P k 1%nat K ltac:(lia) Z) as P1. rewrite <- R in P1.
        assert (x 1%nat = - x 0%nat) as Rx by lra. rewrite Rx in P1. lra. }
    destruct (two_eigenvalues 2 x y v vs 0 1 ltac:(lia) ltac:(lia) ltac:(lia) E) as [Z|Z].
    + destruct (Req_EM_T (v 1%nat) 0) as [Z1|Z1]; [apply (Two 0%nat 1%nat); auto; lia|].
      apply (One 0%nat); auto. intros l L D. destruct l as [|[|l]]; [congruence|auto|lia].
    + destruct (Req_EM_T (v 0%nat) 0) as [Z1|Z1]; [apply (Two 0%nat 1%nat); auto; lia|].
      apply (One 1%nat); auto. intros l L D. destruct l as [|[|l]]; [auto|congruence|lia].
  - destruct (two_eigenvalues n x y v vs 0 1 ltac:(lia) ltac:(lia) ltac:(lia) E) as [Z|Z].
    + destruct (two_eigenvalues n x y v vs 1 2 ltac:(lia) ltac:(lia) ltac:(lia) E) as [Z'|Z']; [apply (Two 0%nat 1%nat)|apply (Two 0%nat 2%nat)]; auto; lia.
    + destruct (two_eigenvalues n x y v vs 0 2 ltac:(lia) ltac:(lia) ltac:(lia) E) as [Z'|Z']; [apply (Two 1%nat 0%nat)|apply (Two 1%nat 2%nat)]; auto; lia.
Qed.

(** whatever the deltas and alpha, the result is [b] *)
Theorem C119_always_second : forall eigh a b alpha r, length a = length b -> (2 <= length a)%nat ->
  eigen (length a) (cov2 (normal a) (normal b)) (fst (eigh (length a) (cov2 (normal a) (normal b)))) (snd (eigh (length a) (cov2 (normal a) (normal b)))) ->
  select_max_white_delta eigh a b alpha = Ok r -> r = b.
Proof.
  intros eigh a b alpha r L N E H.
  assert (forall c : vec, length c = 2%nat -> normal c 0 + normal c 1 = 0) as S.
  { intros c Lc. destruct c as [|p [|q [|]]]; try discriminate. unfold normal, mean, rsum. simpl. unfold Rdiv. rewrite <- Rmult_plus_distr_r.
    replace (_ + _) with 0; [ring|]. field. }
  unfold select_max_white_delta in H. destruct (reqb (std0 a) 0 || reqb (std0 b) 0); [discriminate|].
  destruct (eigh (length a) (cov2 (normal a) (normal b))) as [v vs]. simpl in E.
  injection H as H. rewrite <- H. apply all_b; auto. intros i I.
  rewrite (whitened_nan (length a) v vs (normal a) (normal b) i); auto. intros L2. split; apply S; congruence.
Qed.

Lemma rsum_products : forall (a b : vec) x y, length a = length b ->
  (forall j, (j < length a)%nat -> 0 < (nth j a 0 - x) * (nth j b 0 - y)) -> a <> [] ->
  0 < rsum (map2 (fun u v => (u - x) * (v - y)) a b).
Proof.
  induction a as [|u a IH]; intros [|v b] x y L H N; try discriminate; [congruence|]. simpl.
  pose proof (H 0%nat ltac:(simpl; lia)) as H0. simpl in H0. destruct a as [|u' a].
  - destruct b; [|discriminate]. simpl. lra.
  - assert (0 < rsum (map2 (fun u v => (u - x) * (v - y)) (u' :: a) b)); [|simpl in *; lra].
    apply IH; auto; [|discriminate]. intros j J. apply (H (S j)). simpl in *. lia.
Qed.

(** in particular for uncorrelated deltas, which whitening would leave as they are *)
Theorem C119_uncorrelated : forall eigh a b alpha r, length a = length b -> (2 <= length a)%nat ->
  eigen (length a) (cov2 (normal a) (normal b)) (fst (eigh (length a) (cov2 (normal a) (normal b)))) (snd (eigh (length a) (cov2 (normal a) (normal b)))) ->
  rsum (map2 (fun x y => (x - mean a) * (y - mean b)) a b) = 0 ->
  select_max_white_delta eigh a b alpha = Ok r -> r = b.
Proof.
  intros eigh a b alpha r L N E U H.
  set (f := fun i => (nth i a 0 - mean a) * (nth i b 0 - mean b)).
  assert (forall (p : nat -> Prop) n, (forall i, p i \/ ~ p i) -> (exists i, (i < n)%nat /\ ~ p i) \/ (forall i, (i < n)%nat -> p i)) as D.
  { intros p n Dp. induction n as [|n [(i & I & Q)|Q]]; [right; lia|left; exists i; split; auto|].
    destruct (Dp n) as [Y|Y]; [|left; exists n; split; auto]. right. intros i I. destruct (Nat.eq_dec i n); [subst; auto|apply Q; lia]. }
  assert (a <> []) as NE by (intros ->; simpl in N; lia).
  destruct (D (fun i => 0 < f i) (length a)) as [(j & J & Pj)|P].
  { intros i. destruct (Rlt_dec 0 (f i)); auto. }
  - destruct (D (fun i => f i < 0) (length a)) as [(k & K & Pk)|P].
    { intros i. destruct (Rlt_dec (f i) 0); auto. }
    + eapply (C119_second eigh a b L N E); eauto. exists j, k. repeat split; auto; unfold f in *; lra.
    + exfalso. assert (0 < rsum (map2 (fun u v => (u - mean a) * (v - - mean b)) a (map Ropp b))) as Z.
      { apply rsum_products; [rewrite map_length; auto| |auto]. intros i I. specialize (P i I). unfold f in P.
        rewrite (nth_indep (map Ropp b) 0 (Ropp 0)) by (rewrite map_length; lia). rewrite map_nth. lra. }
      assert (rsum (map2 (fun u v => (u - mean a) * (v - - mean b)) a (map Ropp b)) = - rsum (map2 (fun x y => (x - mean a) * (y - mean b)) a b)) as Q; [|lra].
      generalize (mean a) (mean b). clear. intros x y. revert b. induction a as [|u a IH]; intros [|v b]; simpl; try (unfold rsum; simpl; ring).
      unfold rsum in *. simpl. rewrite IH. ring.
  - exfalso. pose proof (rsum_products a b (mean a) (mean b) L P NE). lra.
Qed.

Lemma sqrt_one : forall x, x = 1 -> sqrt x = 1.
Proof. intros x ->. apply sqrt_1. Qed.

(** *** so it does not keep the first delta when alpha says so *)
Theorem C119_white_refuted : forall eigh,
  (forall n x y, eigen n (cov2 x y) (fst (eigh n (cov2 x y))) (snd (eigh n (cov2 x y)))) ->
  ~ (forall a b r, length a = length b -> (2 <= length a)%nat -> select_max_white_delta eigh a b 0 = Ok r -> r = a).
Proof.
  intros eigh E H.
  assert (std0 [0; 2] = 1 /\ std0 [2; 0] = 1) as (S1 & S2).
  { unfold std0, mean, rsum. simpl. split; apply sqrt_one; lra. }
  assert (exists r, select_max_white_delta eigh [0; 2] [2; 0] 0 = Ok r) as (r & Q).
  { unfold select_max_white_delta. rewrite S1, S2. unfold reqb. destruct (Req_EM_T 1 0); [lra|]. simpl orb. cbv iota.
    destruct (eigh _ _). eexists. reflexivity. }
  pose proof (H [0; 2] [2; 0] r eq_refl ltac:(simpl; lia) Q) as Ra.
  pose proof (C119_ends eigh [0; 2] [2; 0] eq_refl ltac:(simpl; lia) (E _ _ _) r (or_introl Q)) as Rb.
  rewrite Ra in Rb. inversion Rb. lra.
Qed.

(** four places: two uncorrelated deltas, and the eigenvectors of their matrix *)
Definition half2 : R := / sqrt 2.
Definition vals4 (k : nat) : R := match k with 1%nat => 2 | _ => 0 end.
Definition vecs4 (i k : nat) : R :=
  match i, k with
  | 0%nat, 0%nat | 3%nat, 3%nat => 1
  | 1%nat, 1%nat | 1%nat, 2%nat | 2%nat, 2%nat => half2
  | 2%nat, 1%nat => - half2
  | _, _ => 0
  end.
Example C119_case :
  let a := [1; 1; -1; -1] in let b := [1; -1; 1; -1] in
  eigen 4 (cov2 (normal a) (normal b)) vals4 vecs4 /\
  select_max_white_delta (fun _ _ => (vals4, vecs4)) a b (1 / 2) = Ok b.
Proof.
  intros a b.
  assert (std0 a = 1 /\ std0 b = 1) as (S1 & S2).
  { unfold std0, mean, rsum, a, b. simpl. split; apply sqrt_one; lra. }
  assert (mean a = 0 /\ mean b = 0) as (M1 & M2).
  { unfold mean, rsum, a, b. simpl. split; lra. }
  assert (half2 * half2 = / 2) as Hh.
  { unfold half2. rewrite <- Rinv_mult. rewrite sqrt_sqrt; lra. }
  assert (eigen 4 (cov2 (normal a) (normal b)) vals4 vecs4) as E.
  { split.
    - intros k l K L. unfold rsum_to. simpl. destruct k as [|[|[|[|k]]]]; try lia; destruct l as [|[|[|[|l]]]]; try lia; simpl; lra.
    - intros i k I K. unfold rsum_to. simpl. rewrite !cov2_rank1. unfold normal. rewrite S1, S2, M1, M2.
      destruct i as [|[|[|[|i]]]]; try lia; destruct k as [|[|[|[|k]]]]; try lia; simpl; lra. }
  split; auto.
  assert (exists r, select_max_white_delta (fun _ _ => (vals4, vecs4)) a b (1 / 2) = Ok r) as (r & Q).
  { unfold select_max_white_delta. rewrite S1, S2. unfold reqb. destruct (Req_EM_T 1 0); [lra|]. simpl orb. cbv iota. eexists. reflexivity. }
  rewrite Q. f_equal. eapply (C119_uncorrelated (fun _ _ => (vals4, vecs4)) a b); eauto; [simpl; lia|].
  rewrite M1, M2. unfold rsum, a, b. simpl. lra.
Qed.

(** *** C120 *)

Lemma rsum_affine : forall (l : vec) k m, rsum (map (fun g => g * k + m) l) = k * rsum l + INR (length l) * m.
Proof.
  intros l k m. induction l as [|g l IH]; [unfold rsum; simpl; ring|].
  unfold rsum in *. cbn [map fold_right length]. rewrite IH, S_INR. ring.
Qed.
Lemma mean_affine : forall l k m, l <> [] -> mean (map (fun g => g * k + m) l) = mean l * k + m.
Proof.
  intros l k m N. unfold mean. rewrite map_length, rsum_affine. field. apply not_0_INR. destruct l; simpl; [congruence|lia].
Qed.
Lemma rsum_scale : forall (l : vec) (f : R -> R) k, rsum (map (fun x => k * f x) l) = k * rsum (map f l).
Proof. intros l f k. induction l as [|x l IH]; unfold rsum in *; simpl; [ring|]. rewrite IH. ring. Qed.
Lemma std0_affine : forall l k m, l <> [] -> std0 (map (fun g => g * k + m) l) = std0 l * Rabs k.
Proof.
  intros l k m N. unfold std0. rewrite mean_affine, map_length, map_map by auto.
  rewrite (map_ext _ (fun g => (k * k) * ((g - mean l) * (g - mean l)))) by (intros; ring).
  rewrite rsum_scale. rewrite <- (sqrt_Rsqr_abs k). unfold Rsqr.
  assert (0 < INR (length l)) as P by (apply lt_0_INR; destruct l; simpl; [congruence|lia]).
  rewrite <- sqrt_mult.
  - f_equal. field. lra.
  - apply Rmult_le_pos; [|left; apply Rinv_0_lt_compat; auto]. generalize (mean l). clear. intros m.
    induction l as [|x l IH]; unfold rsum in *; simpl; [lra|]. pose proof (Rle_0_sqr (x - m)) as Q. unfold Rsqr in Q. lra.
  - apply Rle_0_sqr.
Qed.

(** the mean and the deviation of the result *)
Theorem C120_moments : forall noise a, noise <> [] ->
  mean (copy_distribution noise a) = mean a + std0 a * mean noise /\
  std0 (copy_distribution noise a) = std0 a * std0 noise.
Proof.
  intros noise a N. unfold copy_distribution. rewrite mean_affine, std0_affine by auto. split; [ring|].
  rewrite Rabs_right by (apply Rle_ge, sqrt_pos). ring.
Qed.

(** they are those of [a] exactly if the noise has mean 0 and deviation 1, or all elements of [a] are equal *)
Lemma sum_squares_0 : forall (l : vec) m, rsum (map (fun x => (x - m) * (x - m)) l) = 0 -> forall x, In x l -> x = m.
Proof.
  intros l m. assert (forall l, 0 <= rsum (map (fun x => (x - m) * (x - m)) l)) as P.
  { clear. intros l. induction l as [|x l IH]; unfold rsum in *; simpl; [lra|]. pose proof (Rle_0_sqr (x - m)) as Q. unfold Rsqr in Q. lra. }
  induction l as [|y l IH]; intros H x I; [destruct I|]. unfold rsum in *. simpl in H.
  pose proof (P l) as Pl. pose proof (Rle_0_sqr (y - m)) as Q. unfold Rsqr in Q.
  destruct I as [<-|I]; [|apply IH; auto; lra].
  assert ((y - m) * (y - m) = 0) as Z by lra. apply Rmult_integral in Z. lra.
Qed.
Theorem C120_same_iff : forall noise a, noise <> [] -> a <> [] ->
  (mean (copy_distribution noise a) = mean a /\ std0 (copy_distribution noise a) = std0 a) <->
  ((mean noise = 0 /\ std0 noise = 1) \/ exists x, forall y, In y a -> y = x).
Proof.
  intros noise a N Na. destruct (C120_moments noise a N) as (-> & ->). split.
  - intros (H1 & H2). destruct (Req_EM_T (std0 a) 0) as [Z|Z].
    + right. exists (mean a). apply sum_squares_0. unfold std0 in Z.
      assert (0 < INR (length a)) as P by (apply lt_0_INR; destruct a; simpl; [congruence|lia]).
      assert (0 <= rsum (map (fun x => (x - mean a) * (x - mean a)) a)) as P2.
      { generalize (mean a). clear. intros m. induction a as [|x l IH]; unfold rsum in *; simpl; [lra|].
        pose proof (Rle_0_sqr (x - m)) as Q. unfold Rsqr in Q. lra. }
      apply sqrt_eq_0 in Z; [|apply Rmult_le_pos; [auto|left; apply Rinv_0_lt_compat; auto]].
      unfold Rdiv in Z. apply Rmult_integral in Z as [Z|Z]; auto. exfalso. apply (Rinv_neq_0_compat (INR (length a))); lra.
    + left. split; apply Rmult_eq_reg_l with (std0 a); auto; lra.
  - intros [(-> & ->)|(x & X)]; [split; ring|].
    assert (mean a = x) as M.
    { unfold mean. assert (rsum a = INR (length a) * x) as ->.
      { clear Na. revert X. clear. intros X. induction a as [|y l IH]; [unfold rsum; simpl; ring|]. unfold rsum in *. cbn [fold_right length].
        rewrite IH by (intros; apply X; right; auto). rewrite (X y) by (left; auto). rewrite S_INR. ring. }
      field. apply not_0_INR. destruct a; simpl; [congruence|lia]. }
    assert (std0 a = 0) as ->; [|split; ring].
    unfold std0. rewrite M. assert (rsum (map (fun y => (y - x) * (y - x)) a) = 0) as ->.
    { revert X. clear. intros X. induction a as [|y l IH]; [reflexivity|]. unfold rsum in *. simpl.
      rewrite IH by (intros; apply X; right; auto). rewrite (X y) by (left; auto). ring. }
    unfold Rdiv. rewrite Rmult_0_l. apply sqrt_0.
Qed.

(** *** C119, tensors without deviation *)
Lemma std0_constant : forall a, a <> [] -> (std0 a = 0 <-> exists x, forall y, In y a -> y = x).
Proof.
  intros a Na. assert (exists noise : vec, noise <> [] /\ ~ (mean noise = 0 /\ std0 noise = 1)) as (noise & N & Z).
  { exists [1]. split; [discriminate|]. unfold mean, rsum. simpl. lra. }
  split.
  - intros S. destruct (proj1 (C120_same_iff noise a N Na)) as [X|X]; auto; [|contradiction].
    destruct (C120_moments noise a N) as (-> & ->). rewrite S. split; ring.
  - intros X. destruct (proj2 (C120_same_iff [0] a ltac:(discriminate) Na) (or_intror X)) as (_ & E).
    rewrite (proj2 (C120_moments [0] a ltac:(discriminate))) in E.
    assert (std0 [0] = 0) as W; [|rewrite W in E; lra].
    unfold std0. replace (rsum _ / _) with 0; [apply sqrt_0|]. unfold mean, rsum. simpl. lra.
Qed.
Theorem C119_constant : forall eigh a b alpha, a <> [] -> b <> [] ->
  (select_max_white_delta eigh a b alpha = Err RuntimeError <->
   (exists x, forall y, In y a -> y = x) \/ (exists x, forall y, In y b -> y = x)).
Proof.
  intros eigh a b alpha Na Nb. rewrite <- (std0_constant a Na), <- (std0_constant b Nb). unfold select_max_white_delta, reqb.
  destruct (Req_EM_T (std0 a) 0), (Req_EM_T (std0 b) 0); simpl; (split; [|auto]); auto; intros H.
  - exfalso. destruct (eigh (length a) (cov2 (normal a) (normal b))). discriminate.
  - exfalso. destruct H; contradiction.
Qed.

(** in expectation over what is drawn they are: [draws] are the possible draws for one element, with their probabilities *)
Definition expect (draws : list (R * R)) (f : R -> R) : R := rsum (map (fun p => fst p * f (snd p)) draws).
Theorem C120_expected : forall draws a, expect draws (fun _ => 1) = 1 -> expect draws (fun g => g) = 0 -> expect draws (fun g => g * g) = 1 ->
  let out g := nth 0 (copy_distribution [g] a) 0 in
  expect draws out = mean a /\ expect draws (fun g => (out g - mean a) * (out g - mean a)) = std0 a * std0 a.
Proof.
  intros draws a H1 H2 H3 out. unfold out, copy_distribution. simpl.
  assert (forall k m q, expect draws (fun g => k * (g * g) + m * g + q) = k * expect draws (fun g => g * g) + m * expect draws (fun g => g) + q * expect draws (fun _ => 1)) as L.
  { intros k m q. unfold expect. clear. induction draws as [|p l IH]; unfold rsum in *; simpl; [ring|]. rewrite IH. ring. }
  assert (forall f g, (forall x, f x = g x) -> expect draws f = expect draws g) as X.
  { intros f g E. unfold expect. f_equal. apply map_ext. intros p. rewrite E. auto. }
  split.
  - rewrite (X _ (fun g => 0 * (g * g) + std0 a * g + mean a)) by (intros; ring). rewrite L, H1, H2. ring.
  - rewrite (X _ (fun g => (std0 a * std0 a) * (g * g) + 0 * g + 0)) by (intros; ring). rewrite L, H3. ring.
Qed.

(** nothing of [a] but these two numbers is kept: not the order of its elements *)
Lemma rsum_perm : forall l l' : vec, Permutation l l' -> rsum l = rsum l'.
Proof. induction 1; unfold rsum in *; simpl; lra. Qed.
Theorem C120_order_lost : forall noise a a', Permutation a a' -> copy_distribution noise a = copy_distribution noise a'.
Proof.
  intros noise a a' P. assert (mean a = mean a') as M by (unfold mean; rewrite (rsum_perm _ _ P), (Permutation_length P); auto).
  unfold copy_distribution, std0. rewrite M, (Permutation_length P).
  rewrite (rsum_perm _ _ (Permutation_map (fun x => (x - mean a') * (x - mean a')) P)). reflexivity.
Qed.

Theorem C120_same_refuted :
  ~ (forall noise a, length noise = length a -> a <> [] -> mean (copy_distribution noise a) = mean a).
Proof.
  intros H. specialize (H [1; 1] [0; 2] eq_refl ltac:(discriminate)).
  rewrite (proj1 (C120_moments [1; 1] [0; 2] ltac:(discriminate))) in H.
  assert (std0 [0; 2] = 1) as S by (unfold std0, mean, rsum; simpl; apply sqrt_one; lra).
  rewrite S in H. unfold mean, rsum in H. simpl in H. lra.
Qed.

Example C120_case : copy_distribution [1; -1] [0; 2] = [2; 0] /\ mean [1; -1] = 0 /\ std0 [1; -1] = 1 /\
  copy_distribution [3; 1] [0; 2] = [4; 2] /\ copy_distribution [3; 1] [5; 5] = [5; 5] /\
  expect [(1 / 2, 1); (1 / 2, -1)] (fun g => g * g) = 1.
Proof.
  assert (std0 [0; 2] = 1) as S by (unfold std0, mean, rsum; simpl; apply sqrt_one; lra).
  assert (std0 [5; 5] = 0) as S5.
  { unfold std0. replace (rsum _ / _) with 0; [apply sqrt_0|]. unfold mean, rsum. simpl. lra. }
  assert (mean [0; 2] = 1 /\ mean [5; 5] = 5) as (M & M5) by (unfold mean, rsum; simpl; split; lra).
  unfold copy_distribution. cbn [map]. rewrite S, S5, M, M5. split; [repeat f_equal; lra|].
  split; [unfold mean, rsum; simpl; lra|]. split; [unfold std0, mean, rsum; simpl; apply sqrt_one; lra|].
  split; [repeat f_equal; lra|]. split; [repeat f_equal; lra|]. unfold expect, rsum. simpl. lra.
Qed.

Print Assumptions C119_ends.
Print Assumptions C119_alpha.
Print Assumptions C119_second.
Print Assumptions C119_uncorrelated.
Print Assumptions C119_white_refuted.
Print Assumptions C119_constant.
Print Assumptions C119_always_second.
Print Assumptions C119_case.
Print Assumptions C120_moments.
Print Assumptions C120_same_iff.
Print Assumptions C120_expected.
Print Assumptions C120_order_lost.
Print Assumptions C120_same_refuted.
Print Assumptions C120_case.
