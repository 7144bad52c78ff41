(** Properties of top-k filtering and ties (C48, C49). *)
From Coq Require Import Reals List Bool Arith ZArith Lia Lra Psatz Permutation Sorted.
From Flocq Require Import Core.
From Verif Require Import Base ModelNum NumProofs PropsNum.
Import ListNotations.
Open Scope list_scope.
Open Scope R_scope.

(** ** sorting *)
Lemma insert_perm : forall x l, Permutation (x :: l) (insert_asc x l).
Proof.
  induction l; simpl; auto. destruct (Rle_dec x a); auto.
  eapply Permutation_trans; [apply perm_swap|]. constructor; auto.
Qed.
Lemma sort_perm : forall l, Permutation l (sort_asc l).
Proof.
  induction l; simpl; auto. eapply Permutation_trans; [|apply insert_perm]. constructor; auto.
Qed.
Lemma insert_sorted : forall x l, StronglySorted Rle l -> StronglySorted Rle (insert_asc x l).
Proof.
  induction l; simpl; intros S; [constructor; auto; constructor|].
  apply StronglySorted_inv in S as [S F]. destruct (Rle_dec x a).
  - constructor; [constructor; auto|]. constructor; auto.
    rewrite Forall_forall in *. intros y Y. specialize (F y Y). lra.
  - constructor; auto. rewrite Forall_forall in *. intros y Y.
    apply (Permutation_in _ (Permutation_sym (insert_perm x l))) in Y as [<-|Y]; [lra|auto].
Qed.
Lemma sort_sorted : forall l, StronglySorted Rle (sort_asc l).
Proof. induction l; simpl; [constructor|apply insert_sorted; auto]. Qed.

Lemma map_nth0 : forall (f : R -> R) l j, (j < length l)%nat -> nth j (map f l) 0 = f (nth j l 0).
Proof.
  intros. rewrite (nth_indep _ 0 (f 0)) by (rewrite map_length; auto). apply map_nth.
Qed.

Definition count (p : R -> bool) (l : list R) : nat := length (filter p l).

Lemma count_perm : forall p a b, Permutation a b -> count p a = count p b.
Proof.
  unfold count. induction 1; simpl; auto; try congruence.
  - destruct (p x); simpl; auto.
  - destruct (p x), (p y); simpl; auto.
Qed.

(** in a sorted list, the elements from position [i] on are at least, and those up to [i] at
    most, the element at [i] *)
Lemma sorted_count_ge : forall l i, StronglySorted Rle l -> (i < length l)%nat ->
  (length l - i <= count (fun x => rleb (nth i l 0%R) x) l)%nat.
Proof.
  unfold count. induction l as [|a l IH]; simpl; intros i S L; [lia|].
  apply StronglySorted_inv in S as [S F]. rewrite Forall_forall in F. destruct i.
  - replace (rleb a a) with true by (symmetry; apply rleb_true; lra). simpl.
    assert (filter (fun x => rleb a x) l = l) as ->; [|lia].
    clear - F. induction l; simpl; auto.
    replace (rleb a a0) with true by (symmetry; apply rleb_true; apply F; left; auto). f_equal. apply IHl. intros; apply F; right; auto.
  - specialize (IH i S ltac:(lia)). destruct (rleb _ a); simpl; lia.
Qed.
Lemma sorted_count_gt : forall l i, StronglySorted Rle l -> (i < length l)%nat ->
  (count (fun x => negb (rleb x (nth i l 0%R))) l <= length l - i - 1)%nat.
Proof.
  unfold count. induction l as [|a l IH]; simpl; intros i S L; [lia|].
  apply StronglySorted_inv in S as [S F]. rewrite Forall_forall in F. destruct i.
  - replace (rleb a a) with true by (symmetry; apply rleb_true; lra). simpl.
    clear. induction l; simpl; [lia|]. destruct (negb (rleb a0 a)); simpl; lia.
  - specialize (IH i S ltac:(lia)).
    replace (rleb a (nth i l 0)) with true; [simpl; lia|].
    symmetry; apply rleb_true. apply F, nth_In. lia.
Qed.

Lemma trunc_bounds : forall x, 0 <= x -> IZR (trunc x) <= x < IZR (trunc x) + 1.
Proof.
  intros x X. unfold trunc. destruct (Rle_dec 0 x); [|contradiction].
  destruct (base_Int_part x). lra.
Qed.

Lemma top_k_rank_bounds : forall k n, 0 <= k <= 1 -> (0 < n)%nat ->
  (1 <= top_k_rank k n <= Z.of_nat n)%Z /\
  k * INR n <= INR n - IZR (top_k_rank k n) + 1 /\ INR n - IZR (top_k_rank k n) < k * INR n + 1.
Proof.
  intros k n K N. unfold top_k_rank.
  assert (1 <= INR n) as N1 by (apply (le_INR 1); lia).
  assert (0 <= (1 - k) * INR n) as P by (apply Rmult_le_pos; lra).
  destruct (trunc_bounds _ P) as [T1 T2]. set (t := trunc _) in *.
  assert (0 <= k * INR n) by (apply Rmult_le_pos; lra).
  assert (k * INR n <= INR n) by nra.
  assert (t <= Z.of_nat n)%Z.
  { apply le_IZR. rewrite <- INR_IZR_INZ. nra. }
  split; [lia|]. destruct (Z.max_spec t 1) as [[A ->]|[A ->]].
  - assert (0 <= t)%Z. { assert (-1 < t)%Z; [|lia]. apply lt_IZR. lra. }
    assert (t = 0)%Z as E by lia. rewrite E in *. lra.
  - lra.
Qed.

Lemma kthvalue_spec : forall l i, (1 <= i <= Z.of_nat (length l))%Z ->
  exists t, kthvalue l i = Ok t /\ In t l /\
    (Z.of_nat (length l) - i + 1 <= Z.of_nat (count (fun x => rleb t x) l))%Z /\
    (Z.of_nat (count (fun x => negb (rleb x t)) l) <= Z.of_nat (length l) - i)%Z.
Proof.
  intros l i I. unfold kthvalue.
  replace ((1 <=? i) && (i <=? Z.of_nat (length l)))%Z with true by (symmetry; apply andb_true_intro; split; apply Z.leb_le; lia).
  eexists; split; [reflexivity|].
  pose proof (sort_perm l) as P. pose proof (Permutation_length P) as L. pose proof (sort_sorted l) as S.
  set (j := (Z.to_nat i - 1)%nat). assert (j < length (sort_asc l))%nat as J by lia.
  split; [apply (Permutation_in _ (Permutation_sym P)); apply nth_In; auto|].
  rewrite !(count_perm _ _ _ P). pose proof (sorted_count_ge _ j S J). pose proof (sorted_count_gt _ j S J). lia.
Qed.

(** ** C48.  [f32] rounds to single precision; the thresholds are compared with the unrounded
    magnitudes, so the claim holds when the magnitudes are single precision numbers. *)
Theorem C48_top_k_partial : forall f32 a k, a <> [] -> 0 <= k <= 1 -> (forall x, In x a -> f32 (Rabs x) = Rabs x) ->
  exists t v, filter_top_k f32 a k = Ok v /\ length v = length a /\
    (forall j, (j < length a)%nat -> t <= Rabs (at_ a j) -> at_ v j = at_ a j) /\
    (forall j, (j < length a)%nat -> Rabs (at_ a j) < t -> at_ v j = 0) /\
    k * INR (length a) <= INR (count (fun x => rleb t (Rabs x)) a) /\
    INR (count (fun x => negb (rleb (Rabs x) t)) a) < k * INR (length a) + 1 /\
    (k = 1 -> v = a).
Proof.
  intros f32 a k N K F.
  assert (0 < length a)%nat as P by (destruct a; [congruence|simpl; lia]).
  assert (map (fun x => f32 (Rabs x)) a = map Rabs a) as E by (apply map_ext_in; auto).
  destruct (top_k_rank_bounds k (length a) K P) as (B & C1 & C2).
  destruct (kthvalue_spec (map Rabs a) (top_k_rank k (length a))) as (t & H1 & H2 & H3 & H4); [rewrite map_length; auto|].
  rewrite map_length in *.
  assert (forall p, count p (map Rabs a) = count (fun x => p (Rabs x)) a) as CM.
  { intros p. unfold count. clear. induction a; simpl; auto. destruct (p (Rabs a)); simpl; auto. }
  rewrite CM in H3, H4. set (v := map (fun x => x * (if rleb t (Rabs x) then 1 else 0)) a).
  assert (forall j, (j < length a)%nat -> t <= Rabs (at_ a j) -> at_ v j = at_ a j) as Q1.
  { intros j J T. unfold v. rewrite map_nth0 by auto. apply rleb_true in T. rewrite T. ring. }
  exists t, v. split; [unfold filter_top_k; rewrite E, H1; reflexivity|].
  split; [apply map_length|]. split; auto. split; [|split; [|split]].
  - intros j J T. unfold v. rewrite map_nth0 by auto. apply rleb_false in T. rewrite T. ring.
  - apply Rle_trans with (1 := C1). rewrite !INR_IZR_INZ, <- minus_IZR, <- (plus_IZR _ 1). apply IZR_le; auto.
  - apply Rle_lt_trans with (2 := C2). rewrite !INR_IZR_INZ, <- minus_IZR. apply IZR_le; auto.
  - intros ->. apply nth_ext0; [apply map_length|]. intros j J. unfold v in J. rewrite map_length in J. apply Q1; auto.
    assert (top_k_rank 1 (length a) = 1%Z) as R.
    { unfold top_k_rank. replace ((1 - 1) * INR (length a)) with 0 by ring.
      destruct (trunc_bounds 0) as [T1 T2]; [lra|]. assert (trunc 0 < 1)%Z by (apply lt_IZR; lra). lia. }
    rewrite R in H3.
    assert (count (fun x => rleb t (Rabs x)) a = length a) as CL.
    { assert (count (fun x => rleb t (Rabs x)) a <= length a)%nat; [|lia].
      unfold count. clear. induction a; simpl; auto. destruct (rleb t (Rabs a)); simpl; lia. }
    assert (forall x, In x a -> rleb t (Rabs x) = true) as All.
    { clear - CL. unfold count in CL.
      assert (forall l, length (filter (fun x => rleb t (Rabs x)) l) <= length l)%nat as LE.
      { induction l; simpl; auto. destruct (rleb t (Rabs a0)); simpl; lia. }
      induction a as [|b a IH]; simpl in *; intros x; [intros []|].
      pose proof (LE a). destruct (rleb t (Rabs b)) eqn:E; simpl in CL.
      - intros [<-|I]; [exact E|apply IH; auto; lia].
      - lia. }
    apply rleb_true, All, nth_In; auto.
Qed.

(** rounding to the nearest IEEE single precision number, ties to even (without overflow) *)
Definition single (x : R) : R := round radix2 (FLT_exp (-149) 24) ZnearestE x.

Definition just_above_one : R := 1 + 3 / 33554432.   (* 1 + 3 * 2^-25 *)

Lemma single_rounds_up : single just_above_one = 1 + 1 / 8388608.
Proof.
  unfold single, round, scaled_mantissa, cexp.
  assert ((mag radix2 just_above_one : Z) = 1%Z) as M.
  { apply mag_unique. unfold just_above_one. rewrite Rabs_pos_eq by lra. simpl. lra. }
  rewrite M. change (FLT_exp (-149) 24 1) with (-23)%Z.
  assert (ZnearestE (just_above_one * bpow radix2 (- -23)) = 8388609%Z) as ->.
  { apply Znearest_imp. simpl. unfold just_above_one. apply Rabs_def1; lra. }
  unfold F2R. simpl. lra.
Qed.

(** Full claim refuted: in double precision, keeping everything drops an element. *)
Theorem C48_top_k_refuted : exists a, a <> [] /\ filter_top_k single a 1 = Ok [0] /\ a <> [0].
Proof.
  exists [just_above_one]. split; [discriminate|]. split.
  - unfold filter_top_k, top_k_rank. simpl length.
    replace ((1 - 1) * INR 1) with 0 by ring.
    assert (trunc 0 <= 0)%Z as T. { destruct (trunc_bounds 0) as [T1 _]; [lra|]. apply le_IZR; auto. }
    rewrite Z.max_r by lia. unfold kthvalue. simpl.
    rewrite (Rabs_pos_eq just_above_one) by (unfold just_above_one; lra).
    rewrite single_rounds_up. unfold rleb.
    destruct (Rle_dec _ _) as [H|H]; [unfold just_above_one in H; lra|]. do 2 f_equal. ring.
  - intros H. injection H as H. unfold just_above_one in H. lra.
Qed.

(** with exactly representable magnitudes; here the identity stands for the rounding *)
Example C48_case : filter_top_k (fun x => x) [1; -4; 2] (1/2) = Ok [1; -4; 2] /\ filter_top_k (fun x => x) [1; -4; 2] (1/4) = Ok [0; -4; 2].
Proof.
  unfold filter_top_k, top_k_rank.
  assert (forall x n, IZR n <= x < IZR n + 1 -> (0 <= n)%Z -> trunc x = n) as T.
  { intros x n H P. apply IZR_le in P. destruct (trunc_bounds x) as [A B]; [lra|].
    assert (trunc x < n + 1)%Z by (apply lt_IZR; rewrite plus_IZR; lra).
    assert (n < trunc x + 1)%Z by (apply lt_IZR; rewrite plus_IZR; lra). lia. }
  simpl length. replace (INR 3) with 3 by (simpl; lra).
  rewrite (T _ 1%Z) by (try lia; lra). rewrite (T _ 2%Z) by (try lia; lra).
  unfold kthvalue. simpl. rewrite (Rabs_pos_eq 1), (Rabs_left (-4)), (Rabs_pos_eq 2) by lra.
  repeat (simpl; match goal with
  | |- context [Rle_dec ?a ?b] => destruct (Rle_dec a b); try lra
  end). simpl. unfold rleb.
  repeat match goal with
  | |- context [Rle_dec ?a ?b] => destruct (Rle_dec a b); try lra
  end. split; repeat f_equal; lra.
Qed.

(** ** C49 *)
Definition positive (x : R) : bool := if Rlt_dec 0 x then true else false.
Definition negative (x : R) : bool := if Rlt_dec x 0 then true else false.

Lemma sign_cases : forall x, (0 < x /\ sign x = 1) \/ (x < 0 /\ sign x = -1) \/ (x = 0 /\ sign x = 0).
Proof.
  intros x. unfold sign. destruct (Rlt_dec 0 x); [left; auto|]. destruct (Rlt_dec x 0); [right; left; auto|].
  right; right; split; auto; lra.
Qed.

Lemma flag_sums : forall (p : R -> bool) col,
  rsum (map (fun x => if p x then 1 else 0) col) = INR (count p col) /\
  rsum (map2 Rmult col (map (fun x => if p x then 1 else 0) col)) = rsum (filter p col).
Proof.
  unfold count. induction col as [|x col [I1 I2]]; [split; reflexivity|].
  simpl. rewrite !rsum_cons, I1, I2. destruct (p x); cbn [length].
  - rewrite S_INR, rsum_cons. lra.
  - lra.
Qed.

Lemma filter_ext' : forall (p q : R -> bool) l, (forall x, In x l -> p x = q x) -> filter p l = filter q l.
Proof. intros; apply filter_ext_in; auto. Qed.

Lemma ties1_value : forall fmax v col (p : R -> bool),
  (forall x, reqb (sign x) (elected v col) = p x) -> filter p col <> [] ->
  ties1 fmax v col = mean (filter p col).
Proof.
  intros fmax v col p P N. unfold ties1, filtered_delta, param_counts, delta_filters.
  rewrite (map_ext _ (fun x => if p x then 1 else 0)) by (intros; rewrite P; auto).
  destruct (flag_sums p col) as [-> ->].
  unfold count. apply fdiv_ok. apply not_0_INR. destruct (filter p col); simpl; congruence.
Qed.

Lemma rsum_sign_some : forall col (s : R), s <> 0 -> 0 < s * rsum col -> exists x, In x col /\ 0 < s * x.
Proof.
  induction col; intros s S H; [unfold rsum in H; simpl in H; lra|].
  rewrite rsum_cons in H. destruct (Rlt_dec 0 (s * a)); [exists a; split; auto; left; auto|].
  destruct (IHcol s S) as (x & I & X); [nra|]. exists x; split; auto; right; auto.
Qed.

(** what is voted with *)
Definition votes (vote_sgn : bool) (col : list R) : list R := if vote_sgn then col else map sign col.

Lemma ties1_spec : forall fmax v col,
  let total := rsum (votes v col) in
  (0 < total -> filter positive col <> [] /\ ties1 fmax v col = mean (filter positive col)) /\
  (total < 0 -> filter negative col <> [] /\ ties1 fmax v col = mean (filter negative col)) /\
  (total = 0 -> ties1 fmax v col = 0).
Proof.
  intros fmax v col total.
  assert (elected v col = sign total) as E by reflexivity.
  assert (forall s, s <> 0 -> 0 < s * total -> exists x, In x col /\ 0 < s * x) as Some'.
  { intros s S H. unfold total, votes in H. destruct v; [apply rsum_sign_some; auto|].
    destruct (rsum_sign_some (map sign col) s S H) as (y & I & Y). apply in_map_iff in I as (x & <- & I).
    exists x. split; auto. destruct (sign_cases x) as [[A B]|[[A B]|[A B]]]; rewrite B in Y; nra. }
  destruct (sign_cases total) as [[T S]|[[T S]|[T S]]]; rewrite S in E.
  - split; [|split; lra]. intros _.
    assert (filter positive col <> []) as N.
    { destruct (Some' 1) as (x & I & X); try lra. intros Q.
      assert (In x (filter positive col)) as Z; [|rewrite Q in Z; auto].
      apply filter_In; split; auto. unfold positive. destruct (Rlt_dec 0 x); auto; lra. }
    split; auto. apply ties1_value; auto. intros x. rewrite E. unfold reqb, positive.
    destruct (sign_cases x) as [[A ->]|[[A ->]|[A ->]]]; destruct (Req_EM_T _ _), (Rlt_dec 0 x); auto; lra.
  - split; [lra|]. split; [|lra]. intros _.
    assert (filter negative col <> []) as N.
    { destruct (Some' (-1)) as (x & I & X); try lra. intros Q.
      assert (In x (filter negative col)) as Z; [|rewrite Q in Z; auto].
      apply filter_In; split; auto. unfold negative. destruct (Rlt_dec x 0); auto; lra. }
    split; auto. apply ties1_value; auto. intros x. rewrite E. unfold reqb, negative.
    destruct (sign_cases x) as [[A ->]|[[A ->]|[A ->]]]; destruct (Req_EM_T _ _), (Rlt_dec x 0); auto; lra.
  - split; [lra|]. split; [lra|]. intros _.
    unfold ties1, filtered_delta, param_counts, delta_filters. rewrite E.
    rewrite (map_ext _ (fun x => if reqb x 0 then 1 else 0)).
    2:{ intros x. unfold reqb. destruct (sign_cases x) as [[A ->]|[[A ->]|[A ->]]];
          destruct (Req_EM_T _ _), (Req_EM_T x 0); auto; lra. }
    destruct (flag_sums (fun x => reqb x 0) col) as [-> ->].
    replace (rsum (filter (fun x => reqb x 0) col)) with 0.
    + unfold fdiv. destruct (Req_EM_T _ 0); [|simpl; unfold Rdiv; ring].
      destruct (Rlt_dec 0 0); [lra|]. reflexivity.
    + rewrite (rsum_const 0); [ring|]. intros y I. apply filter_In in I as [_ I]. apply reqb_true; auto.
Qed.

Lemma mean_abs : forall l m, l <> [] -> (forall x, In x l -> Rabs x <= m) -> Rabs (mean l) <= m.
Proof.
  intros l m N H. destruct (mean_bounds l (- m) m N) as [A B].
  - intros x I. specialize (H x I). split.
    + pose proof (Rle_abs (- x)). rewrite Rabs_Ropp in *. lra.
    + pose proof (Rle_abs x). lra.
  - apply Rabs_le; auto.
Qed.

Lemma filter_top_k_total : forall f32 a k, a <> [] -> 0 <= k <= 1 ->
  exists v, filter_top_k f32 a k = Ok v /\ length v = length a /\
    forall j, (j < length a)%nat -> at_ v j = at_ a j \/ at_ v j = 0.
Proof.
  intros f32 a k N K.
  assert (0 < length a)%nat as P by (destruct a; [congruence|simpl; lia]).
  destruct (top_k_rank_bounds k (length a) K P) as (B & _).
  destruct (kthvalue_spec (map (fun x => f32 (Rabs x)) a) (top_k_rank k (length a))) as (t & H & _); [rewrite map_length; auto|].
  unfold filter_top_k. rewrite H. simpl. eexists; split; [reflexivity|].
  split; [apply map_length|]. intros j J. rewrite map_nth0 by auto.
  destruct (rleb t _); [left|right]; ring.
Qed.

Lemma Forall2_nth_In : forall A B (R : A -> B -> Prop) l l' y, Forall2 R l l' -> In y l' -> exists x, In x l /\ R x y.
Proof. induction 1; simpl; intros []; subst; eauto. destruct (IHForall2 H1) as (z & ? & ?); eauto. Qed.

Lemma mapM_perm : forall A B (f : A -> result B) l l' r, Permutation l l' -> mapM f l = Ok r ->
  exists r', mapM f l' = Ok r' /\ Permutation r r'.
Proof.
  intros A B f l l' r P. revert r. induction P; intros r H.
  - exists []. inversion H; subst; auto.
  - simpl in *. destruct (f x) as [y|]; [|discriminate]. simpl in *.
    destruct (mapM f l) as [ys|]; [|discriminate]. simpl in H. inversion H; subst.
    destruct (IHP _ eq_refl) as (r' & -> & Q). simpl. eexists; split; eauto.
  - simpl in *. destruct (f x) as [x'|]; destruct (f y) as [y'|]; simpl in *; try discriminate.
    destruct (mapM f l) as [ys|]; simpl in *; [|discriminate]. inversion H; subst.
    eexists; split; [reflexivity|]. constructor.
  - destruct (IHP1 _ H) as (r1 & H1 & Q1). destruct (IHP2 _ H1) as (r2 & H2 & Q2).
    exists r2; split; auto. eapply Permutation_trans; eauto.
Qed.

Lemma ties1_perm : forall fmax v a b, Permutation a b -> ties1 fmax v a = ties1 fmax v b.
Proof.
  intros fmax v a b P. unfold ties1, filtered_delta, param_counts, delta_filters.
  assert (elected v a = elected v b) as ->.
  { unfold elected. f_equal. apply rsum_perm. destruct v; auto. apply Permutation_map; auto. }
  set (p := fun x => reqb (sign x) (elected v b)).
  destruct (flag_sums p a) as [E1 E2]. destruct (flag_sums p b) as [E3 E4]. unfold p in *.
  rewrite E1, E2, E3, E4, (count_perm _ _ _ P). do 2 f_equal. apply rsum_perm.
  generalize (elected v b). clear - P. intros e. induction P; simpl; auto.
  - destruct (reqb (sign x) e); auto.
  - destruct (reqb (sign x) e), (reqb (sign y) e); auto using perm_swap.
  - eapply Permutation_trans; eauto.
Qed.

(** [trimmed] are the filtered inputs; [total] is what was voted at element [j] *)
Theorem C49_ties_sum : forall f32 fmax models k vote_sgn n,
  models <> [] -> shaped n models -> (0 < n)%nat -> 0 <= k <= 1 ->
  exists trimmed v,
    Forall2 (fun m d => filter_top_k f32 m k = Ok d) models trimmed /\
    ties_sum f32 fmax models k vote_sgn = Ok v /\ length v = n /\
    (forall j, (j < n)%nat ->
       let inputs := map (fun d => at_ d j) trimmed in
       let total := rsum (votes vote_sgn inputs) in
       (0 < total -> at_ v j = mean (filter positive inputs) /\ 0 <= at_ v j) /\
       (total < 0 -> at_ v j = mean (filter negative inputs) /\ at_ v j <= 0) /\
       (total = 0 -> at_ v j = 0) /\
       (exists m, In m models /\ Rabs (at_ v j) <= Rabs (at_ m j))) /\
    (forall models', Permutation models models' -> ties_sum f32 fmax models' k vote_sgn = Ok v).
Proof.
  intros f32 fmax models k vote n N S Pn K.
  assert (forall m, In m models -> exists d, filter_top_k f32 m k = Ok d /\ length d = n /\
            forall j, (j < n)%nat -> at_ d j = at_ m j \/ at_ d j = 0) as F.
  { intros m I. pose proof (S m I) as L. destruct (filter_top_k_total f32 m k) as (d & D & Ld & H); auto.
    - destruct m; [simpl in L; lia|discriminate].
    - exists d. rewrite <- L. auto. }
  assert (exists trimmed, mapM (fun m => filter_top_k f32 m k) models = Ok trimmed) as (tr & M).
  { clear - F. induction models as [|m ms IH]; simpl; [eauto|].
    destruct (F m) as (d & -> & _); [left; auto|]. simpl.
    destruct IH as (tr & ->); [intros; apply F; right; auto|]. simpl; eauto. }
  assert (Forall2 (fun m d => filter_top_k f32 m k = Ok d) models tr) as F2 by (apply mapM_Ok_Forall2; auto).
  assert (forall d, In d tr -> exists m, In m models /\ length d = n /\ forall j, (j < n)%nat -> at_ d j = at_ m j \/ at_ d j = 0) as TR.
  { intros d I. destruct (Forall2_nth_In _ _ _ _ _ _ F2 I) as (m & Im & E).
    destruct (F m Im) as (d' & E' & L & H). rewrite E in E'. injection E' as <-. eauto. }
  assert (tr <> []) as NT by (inversion F2; subst; congruence).
  assert (forall tr', tr' <> [] -> (forall d, In d tr' -> In d tr) -> length (over0 (ties1 fmax vote) tr') = n /\
            forall j, (j < n)%nat -> at_ (over0 (ties1 fmax vote) tr') j = ties1 fmax vote (column j tr')) as OV.
  { intros [|d ds] Nd Sub; [congruence|]. destruct (TR d) as (_ & _ & L & _); [apply Sub; left; auto|].
    split; [rewrite over0_length; auto|]. intros j J. apply over0_nth. lia. }
  destruct (OV tr NT) as [Lv Hv]; auto.
  exists tr, (over0 (ties1 fmax vote) tr). split; auto. split; [|split; auto; split].
  - unfold ties_sum. rewrite M. simpl. destruct tr; [congruence|reflexivity].
  - intros j J inputs total. rewrite Hv by auto.
    destruct (ties1_spec fmax vote inputs) as (A & B & C). fold total in A, B, C.
    change (column j tr) with inputs.
    split; [|split; [|split]].
    + intros T. destruct (A T) as [Ne ->]. split; auto.
      unfold mean. apply Rmult_le_pos; [|left; apply Rinv_0_lt_compat, lt_0_INR; destruct (filter positive inputs); simpl; [congruence|lia]].
      apply rsum_nonneg. intros x I. apply filter_In in I as [_ I]. unfold positive in I. destruct (Rlt_dec 0 x); [lra|discriminate].
    + intros T. destruct (B T) as [Ne ->]. split; auto.
      assert (0 < INR (length (filter negative inputs))) by (apply lt_0_INR; destruct (filter negative inputs); simpl; [congruence|lia]).
      unfold mean. apply Rmult_le_reg_r with (INR (length (filter negative inputs))); auto.
      unfold Rdiv. rewrite Rmult_assoc, Rinv_l, Rmult_0_l, Rmult_1_r by lra.
      assert (0 <= rsum (map (Rmult (-1)) (filter negative inputs))) as Q.
      { apply rsum_nonneg. intros x I. apply in_map_iff in I as (y & <- & I). apply filter_In in I as [_ I].
        unfold negative in I. destruct (Rlt_dec y 0); [lra|discriminate]. }
      rewrite rsum_scale in Q. lra.
    + exact C.
    + assert (map Rabs inputs <> []) as NI by (unfold inputs; destruct tr; [congruence|discriminate]).
      destruct (list_max _ NI) as (mx & I & Hm). apply in_map_iff in I as (x & <- & I).
      apply in_map_iff in I as (d & <- & I). destruct (TR d I) as (m & Im & L & H).
      assert (forall x, In x inputs -> Rabs x <= Rabs (at_ d j)) as Bd by (intros x Ix; apply Hm, in_map; auto).
      exists m. split; auto. apply Rle_trans with (Rabs (at_ d j)).
      2:{ destruct (H j J) as [->| ->]; [lra|]. rewrite Rabs_R0. apply Rabs_pos. }
      destruct (Rtotal_order total 0) as [T|[T|T]].
      * destruct (B T) as [Ne ->]. apply mean_abs; auto. intros x Ix. apply filter_In in Ix as [Ix _]. auto.
      * rewrite (C T), Rabs_R0. apply Rabs_pos.
      * destruct (A T) as [Ne ->]. apply mean_abs; auto. intros x Ix. apply filter_In in Ix as [Ix _]. auto.
  - intros models' P. destruct (mapM_perm _ _ _ _ _ _ P M) as (tr' & M' & P').
    assert (tr' <> []) as NT' by (intros ->; apply Permutation_sym, Permutation_nil in P'; auto).
    destruct (OV tr' NT') as [Lv' Hv'].
    { intros d I. apply (Permutation_in _ (Permutation_sym P')); auto. }
    unfold ties_sum. rewrite M'. simpl.
    assert (over0 (ties1 fmax vote) tr' = over0 (ties1 fmax vote) tr) as E.
    { apply nth_ext0; [congruence|]. intros j J. rewrite Hv, Hv' by lia. apply ties1_perm.
      unfold column. apply Permutation_map, Permutation_sym; auto. }
    rewrite <- E. destruct tr'; [congruence|reflexivity].
Qed.

(** three models that disagree in sign; no trimming, so the votes are 1, 1, -1 *)
Example C49_case : forall fmax, ties1 fmax false [2; 4; -9] = 3 /\ ties1 fmax true [2; 4; -9] = -9.
Proof.
  intros fmax. destruct (ties1_spec fmax false [2; 4; -9]) as (A & _). destruct (ties1_spec fmax true [2; 4; -9]) as (_ & B & _).
  assert (sign 2 = 1 /\ sign 4 = 1 /\ sign (-9) = -1) as (S1 & S2 & S3).
  { unfold sign. repeat split; repeat (destruct (Rlt_dec _ _)); lra. }
  unfold votes, rsum, mean in *. simpl in A, B. rewrite S1, S2, S3 in A.
  unfold positive, negative in *. repeat (destruct (Rlt_dec _ _) in A, B; try lra).
  split; [destruct A as [_ ->]|destruct B as [_ ->]]; unfold rsum; simpl; lra.
Qed.

Print Assumptions C48_top_k_partial.
Print Assumptions C48_top_k_refuted.
Print Assumptions C49_ties_sum.
