(** C57: the documented modes of the ties methods; C70: model_stock. *)
From Coq Require Import Reals List Bool Arith ZArith Lia Lra Psatz Permutation.
From Verif Require Import Base ModelNum NumProofs PropsNum ModelDrop ModelModes PropsTies.
Import ListNotations.
Open Scope list_scope.
Open Scope R_scope.

(** ** C57: vote_sgn *)

(** The documentation (__init__.py:513-522): the final sign is that of the sum of the deltas, or with vote_sgn that of
    the sum of their signs; the result is the mean of the deltas of that sign. *)
Definition documented_vote (vote_sgn : bool) (deltas : list R) : R :=
  if vote_sgn then rsum (map sign deltas) else rsum deltas.
Definition documented_ties (vote_sgn : bool) (deltas : list R) (x : R) : Prop :=
  (0 < documented_vote vote_sgn deltas -> x = mean (filter positive deltas)) /\
  (documented_vote vote_sgn deltas < 0 -> x = mean (filter negative deltas)) /\
  (documented_vote vote_sgn deltas = 0 -> x = 0).

(** what holds: the two modes exist, but the flag selects the other one *)
Theorem C57_vote_partial : forall f32 fmax models k vote_sgn n,
  models <> [] -> shaped n models -> (0 < n)%nat -> 0 <= k <= 1 ->
  exists trimmed v, Forall2 (fun m d => filter_top_k f32 m k = Ok d) models trimmed /\
    ties_sum f32 fmax models k vote_sgn = Ok v /\ length v = n /\
    forall j, (j < n)%nat -> documented_ties (negb vote_sgn) (map (fun d => at_ d j) trimmed) (at_ v j).
Proof.
  intros f32 fmax models k vote n N S Pn K.
  destruct (C49_ties_sum f32 fmax models k vote n N S Pn K) as (trimmed & v & F & H & L & E & _).
  exists trimmed, v. split; auto. split; auto. split; auto. intros j J.
  destruct (E j J) as (A & B & C & _). unfold documented_ties, documented_vote, votes in *.
  destruct vote; cbn [negb]; (split; [|split]); intros T; auto; try (apply A; auto); apply B; auto.
Qed.

(** three deltas of one element, nothing trimmed *)
Definition three : list vec := [[1]; [1]; [-5]].
Lemma Rltd : forall a b, a < b -> (if Rlt_dec a b then true else false) = true.
Proof. intros. destruct (Rlt_dec a b); auto; lra. Qed.

Lemma trim1 : forall x, filter_top_k (fun y => y) [x] 1 = Ok [x].
Proof.
  intros x. unfold filter_top_k, top_k_rank. simpl length. replace ((1 - 1) * INR 1) with 0 by ring.
  assert (trunc 0 <= 0)%Z as T. { destruct (trunc_bounds 0) as [T1 _]; [lra|]. apply le_IZR; auto. }
  rewrite Z.max_r by lia. unfold kthvalue. simpl. unfold rleb. destruct (Rle_dec _ _); [|lra]. do 2 f_equal. ring.
Qed.

Lemma sums_three : rsum [1; 1; -5] = -3 /\ rsum (map sign [1; 1; -5]) = 1 /\
  filter positive [1; 1; -5] = [1; 1] /\ filter negative [1; 1; -5] = [-5] /\ mean [1; 1] = 1 /\ mean [-5] = -5.
Proof.
  unfold rsum, mean, positive, negative, sign. simpl.
  repeat match goal with |- context [Rlt_dec ?a ?b] => destruct (Rlt_dec a b); try lra end.
  repeat split; try lra; unfold rsum; simpl; lra.
Qed.

Theorem C57_vote_refuted : forall vote_sgn, exists v,
  ties_sum (fun x => x) 1000 three 1 vote_sgn = Ok [v] /\ ~ documented_ties vote_sgn [1; 1; -5] v.
Proof.
  intros vote.
  destruct (ties1_spec 1000 vote [1; 1; -5]) as (A & B & _).
  destruct sums_three as (S1 & S2 & F1 & F2 & M1 & M2).
  exists (ties1 1000 vote [1; 1; -5]). split.
  - unfold ties_sum, three. cbn [mapM]. rewrite !trim1. reflexivity.
  - intros (D1 & D2 & _). unfold documented_vote, votes in *. destruct vote.
    + rewrite S1 in *. rewrite S2 in *. destruct B as [_ B]; [lra|]. rewrite B, F1, F2, M1, M2 in D1. specialize (D1 ltac:(lra)). lra.
    + rewrite S1 in *. rewrite S2 in *. destruct A as [_ A]; [lra|]. rewrite A, F1, F2, M1, M2 in D2. specialize (D2 ltac:(lra)). lra.
Qed.

(** ** C57: apply_stock and apply_median *)

(** Element [j] of the deltas that take part in the election: [trimmed] deltas of another sign count as 0. *)
Definition agreeing (vote_sgn : bool) (trimmed survivors : list vec) : Prop :=
  Forall2 (fun d s => length s = length d /\ forall j, (j < length d)%nat ->
    let col := map (fun u => at_ u j) trimmed in
    at_ s j = if reqb (sign (at_ d j)) (sign (rsum (votes vote_sgn col))) then at_ d j else 0) trimmed survivors.

Lemma map_seq_nth : forall (f : nat -> R) n j, (j < n)%nat -> nth j (map f (seq 0 n)) 0 = f j.
Proof.
  intros f n j J. rewrite (nth_indep _ 0 (f 0%nat)) by (rewrite map_length, seq_length; auto).
  rewrite map_nth, seq_nth; auto.
Qed.
Lemma elect_agreeing : forall vote trimmed, agreeing vote trimmed (elect_deltas vote trimmed).
Proof.
  intros vote trimmed. unfold agreeing, elect_deltas.
  assert (forall l, Forall2 (fun d s => length s = length d /\ forall j, (j < length d)%nat ->
    at_ s j = if reqb (sign (at_ d j)) (sign (rsum (votes vote (map (fun u => at_ u j) trimmed)))) then at_ d j else 0) l
    (map (fun v => map (fun j => nth j v 0 *
      (if reqb (sign (nth j v 0)) (elected vote (map (fun u => nth j u 0) trimmed)) then 1 else 0)) (seq 0 (length v))) l)) as G.
  { induction l; simpl; constructor; auto. rewrite map_length, seq_length. split; auto. intros j J.
    rewrite map_seq_nth by auto. unfold elected, votes. destruct (reqb _ _); ring. }
  apply G.
Qed.

Lemma elect_column : forall vote trimmed n j, shaped n trimmed -> (j < n)%nat ->
  map (fun v => nth j v 0) (elect_deltas vote trimmed) = filtered_delta vote (map (fun v => nth j v 0) trimmed).
Proof.
  intros vote trimmed n j S J. unfold elect_deltas, filtered_delta, delta_filters. rewrite map_map.
  set (e := elected vote (map (fun v => nth j v 0) trimmed)).
  assert (forall l, shaped n l -> map (fun x => nth j (map (fun j0 => nth j0 x 0 *
     (if reqb (sign (nth j0 x 0)) (elected vote (map (fun u => nth j0 u 0) trimmed)) then 1 else 0)) (seq 0 (length x))) 0) l =
    map2 Rmult (map (fun v => nth j v 0) l) (map (fun x => if reqb (sign x) e then 1 else 0) (map (fun v => nth j v 0) l))) as G.
  { induction l; intros Sl; [reflexivity|]. cbn [map map2]. f_equal.
    - rewrite map_seq_nth by (rewrite (Sl a) by (left; auto); auto). reflexivity.
    - apply IHl. intros v I. apply Sl. right; auto. }
  apply G; auto.
Qed.

Lemma mapM_seq_ok : forall (f : nat -> R) n, mapM (fun j => Ok (f j)) (seq 0 n) = Ok (map f (seq 0 n)).
Proof. intros f n. generalize 0%nat. induction n; intros s; [reflexivity|]. cbn [seq mapM bind map]. rewrite IHn. reflexivity. Qed.
Lemma mapM_ext : forall A B (f g : A -> result B) l, (forall x, In x l -> f x = g x) -> mapM f l = mapM g l.
Proof.
  induction l; intros H; [reflexivity|]. cbn [mapM]. rewrite (H a) by (left; auto). rewrite IHl; auto.
  intros x I; apply H; right; auto.
Qed.

Lemma trimmed_exist : forall f32 models k n, shaped n models -> (0 < n)%nat -> 0 <= k <= 1 ->
  exists trimmed, mapM (fun m => filter_top_k f32 m k) models = Ok trimmed /\
    Forall2 (fun m d => filter_top_k f32 m k = Ok d) models trimmed /\ shaped n trimmed /\ length trimmed = length models.
Proof.
  intros f32 models k n S Pn K. induction models as [|m ms IH].
  - exists []. split; [reflexivity|]. split; [constructor|]. split; [intros v []|reflexivity].
  - destruct IH as (tr & E & F & St & L); [intros v I; apply S; right; auto|].
    assert (length m = n) as Lm by (apply S; left; auto).
    destruct (filter_top_k_total f32 m k) as (v & Hv & Lv & _); auto.
    { intros ->. simpl in Lm. lia. }
    exists (v :: tr). cbn [mapM]. rewrite Hv. cbn [bind]. rewrite E. cbn [bind].
    split; [reflexivity|]. split; [constructor; auto|]. split; [|simpl; lia].
    intros u [<-|I]; [lia|auto].
Qed.

(** what holds: apply_median selects the sum, not the median, and there apply_stock leaves the
    model stock factor out *)
Theorem C57_extended_partial : forall f32 fmax d models k vote_sgn apply_stock apply_median cos_eps eps maxiter ftol n,
  models <> [] -> shaped n models -> (0 < n)%nat -> 0 <= k <= 1 ->
  exists trimmed survivors,
    Forall2 (fun m t => filter_top_k f32 m k = Ok t) models trimmed /\ agreeing vote_sgn trimmed survivors /\
    let r := ties_sum_extended f32 fmax d models k vote_sgn apply_stock apply_median cos_eps eps maxiter ftol in
    (apply_median = false -> r = geometric_median survivors eps maxiter ftol) /\
    (apply_median = true -> apply_stock = true -> r = ties_sum f32 fmax models k vote_sgn) /\
    (apply_median = true -> apply_stock = false -> forall plain v, ties_sum f32 fmax models k vote_sgn = Ok plain -> r = Ok v ->
       forall j t, (j < n)%nat -> model_stock_t cos_eps d survivors (j / d) = Ok (Fin t) -> at_ v j = t * at_ plain j).
Proof.
  intros f32 fmax d models k vote stock median cos_eps eps maxiter ftol n N S Pn K.
  destruct (trimmed_exist f32 models k n S Pn K) as (tr & E & F & St & Lt).
  exists tr, (elect_deltas vote tr). split; auto. split; [apply elect_agreeing|].
  cbv zeta. unfold ties_sum_extended, ties_sum. rewrite E. cbn [bind].
  destruct tr as [|t0 ts]; [destruct models; simpl in Lt; congruence|].
  assert (length t0 = n) as L0 by (apply St; left; auto).
  assert (forall j, (j < n)%nat -> rsum (map (fun v => nth j v 0) (elect_deltas vote (t0 :: ts))) =
    rsum (filtered_delta vote (map (fun v => nth j v 0) (t0 :: ts)))) as EC by (intros; rewrite (elect_column _ _ n); auto).
  split; [|split].
  - intros ->. reflexivity.
  - intros -> ->.
    rewrite (mapM_ext _ _ _ (fun j => Ok (ties1 fmax vote (map (fun v => nth j v 0) (t0 :: ts))))).
    + rewrite mapM_seq_ok. reflexivity.
    + intros j I. apply in_seq in I. cbn [bind emul ediv]. rewrite Rmult_1_l, EC by lia. reflexivity.
  - intros -> ->. intros plain v H1 H2 j t J T. assert (plain = over0 (ties1 fmax vote) (t0 :: ts)) as -> by congruence.
    assert (nth j v 0 = nan_to_num fmax (ediv (emul (Fin t) (rsum (map (fun v0 => nth j v0 0) (elect_deltas vote (t0 :: ts)))))
       (param_counts vote (map (fun v0 => nth j v0 0) (t0 :: ts))))) as ->.
    { apply mapM_Ok_Forall2 in H2. 
      assert (forall A (P : nat -> A -> Prop) (dflt : A) l s q, Forall2 P (seq s q) l -> forall i, (i < q)%nat -> P (s + i)%nat (nth i l dflt)) as G.
      { clear. intros A P dflt l s q H. revert l s H. induction q; intros l s H i I; [lia|]. simpl in H. inversion H; subst.
        destruct i; [rewrite Nat.add_0_r; auto|]. rewrite Nat.add_succ_r. apply (IHq l' (Datatypes.S s)); auto. lia. }
      rewrite L0 in H2. specialize (G _ _ 0 _ _ _ H2 j J). simpl in G. rewrite T in G. simpl in G. inversion G; auto. }
    cbn [emul ediv]. rewrite EC by auto. rewrite over0_nth by lia.
    set (c := map (fun v0 => nth j v0 0) (t0 :: ts)). change (column j (t0 :: ts)) with c. unfold ties1.
    set (s := rsum (filtered_delta vote c)).
    destruct (Req_EM_T (param_counts vote c) 0) as [Z|Z].
    + assert (s = 0) as ->.
      { unfold s, filtered_delta. unfold param_counts, delta_filters in *.
        destruct (flag_sums (fun x => reqb (sign x) (elected vote c)) c) as [A B]. rewrite A in Z. rewrite B.
        unfold count in Z. destruct (filter _ c); [reflexivity|]. exfalso. cbn [length] in Z. rewrite S_INR in Z. pose proof (pos_INR (length l)). lra. }
      rewrite Rmult_0_r. unfold fdiv. destruct (Req_EM_T _ 0); [|contradiction]. destruct (Rlt_dec 0 0); [lra|]. simpl. ring.
    + rewrite !fdiv_ok by auto. field. auto.
Qed.

(** Refuted: with apply_stock and apply_median off, the documentation promises plain TIES; here the mean over all three
    models (no iterations of the median) comes out, and TIES with both on. *)
Theorem C57_extended_refuted : exists v,
  ties_sum_extended (fun x => x) 1000 1 three 1 false false false (1 / 1000000) (1 / 1000000) 0 0 = Ok [v] /\
  ties_sum (fun x => x) 1000 three 1 false = Ok [1] /\ v <> 1 /\
  ties_sum_extended (fun x => x) 1000 1 three 1 false true true (1 / 1000000) (1 / 1000000) 0 0 = Ok [1].
Proof.
  destruct (ties1_spec 1000 false [1; 1; -5]) as (A & _).
  destruct sums_three as (S1 & S2 & F1 & _ & M1 & _). unfold votes in A. rewrite S2 in A. destruct A as [_ A]; [lra|].
  rewrite F1, M1 in A.
  assert (ties_sum (fun x => x) 1000 three 1 false = Ok [1]) as T.
  { unfold ties_sum, three. cbn [mapM]. rewrite !trim1. cbn [bind over0 map seq length nth]. rewrite A. reflexivity. }
  exists (2 / 3). split; [|split; [auto|split; [lra|]]].
  - unfold ties_sum_extended, three. cbn [mapM]. rewrite !trim1. cbn [bind].
    unfold geometric_median, elect_deltas. cbn [map seq length nth].
    unfold elected. rewrite S2.
    assert (sign 1 = 1) as -> by (unfold sign; destruct (Rlt_dec 0 1); lra).
    assert (sign (-5) = -1) as -> by (unfold sign; destruct (Rlt_dec 0 (-5)); destruct (Rlt_dec (-5) 0); lra).
    unfold reqb. destruct (Req_EM_T 1 1); [|lra]. destruct (Req_EM_T (-1) 1); [lra|].
    unfold weighted_average_tuple at 1. cbn [Z.to_nat weiszfeld over0 map seq length nth map2]. unfold rsum. simpl. do 2 f_equal. field.
  - destruct (C57_extended_partial (fun x => x) 1000 1 three 1 false true true (1 / 1000000) (1 / 1000000) 0 0 1) as (tr & sv & _ & _ & _ & H & _); try lra; try lia.
    + discriminate.
    + intros v [<-|[<-|[<-|[]]]]; reflexivity.
    + rewrite H; auto.
Qed.

(** ** C57: no_rescale *)

(** what holds: no_rescale rescales; and dropping everything gives zeros *)
Theorem C57_rescale_partial : forall f32 fmax d bernoulli deltas p no_rescale k vote_sgn apply_stock apply_median cos_eps eps maxiter ftol v,
  deltas <> [] -> 0 <= p -> p < 1 - 1 / 100000000 ->
  ties_sum_extended f32 fmax d (map2 (map2 Rmult) deltas bernoulli) k vote_sgn apply_stock apply_median cos_eps eps maxiter ftol = Ok v ->
  exists w, ties_sum_with_dropout f32 fmax d bernoulli deltas p no_rescale k vote_sgn apply_stock apply_median cos_eps eps maxiter ftol = Ok w /\
    length w = length v /\
    forall j, at_ w j * (if no_rescale then 1 - p else 1) = at_ v j.
Proof.
  intros f32 fmax d bern deltas p nr k vote stock median cos_eps eps maxiter ftol v N P0 P1 H.
  unfold ties_sum_with_dropout. destruct deltas as [|d0 ds]; [congruence|]. rewrite H. cbn [bind].
  replace (isclose1 p) with false.
  2:{ symmetry. unfold isclose1. apply rleb_false. rewrite (Rabs_left (p - 1)) by lra. rewrite (Rabs_pos_eq p) by lra. rewrite Rmax_right by lra. lra. }
  destruct nr.
  - eexists. split; [reflexivity|]. split; [apply map_length|]. intros j.
    destruct (Nat.lt_ge_cases j (length v)).
    + rewrite (map_nth0 (fun x => x / (1 - p))) by auto. field. lra.
    + rewrite !nth_overflow by (rewrite ?map_length; auto). ring.
  - exists v. split; auto. split; auto. intros; ring.
Qed.

Theorem C57_rescale_all : forall f32 fmax d bernoulli deltas no_rescale k vote_sgn apply_stock apply_median cos_eps eps maxiter ftol v,
  ties_sum_with_dropout f32 fmax d bernoulli deltas 1 no_rescale k vote_sgn apply_stock apply_median cos_eps eps maxiter ftol = Ok v ->
  forall j, at_ v j = 0.
Proof.
  intros f32 fmax d bern deltas nr k vote stock median cos_eps eps maxiter ftol v H j.
  unfold ties_sum_with_dropout in H. destruct deltas as [|d0 ds]; [discriminate|]. apply bind_Ok in H as (w & _ & H).
  replace (isclose1 1) with true in H.
  2:{ symmetry. unfold isclose1. apply rleb_true. rewrite Rminus_diag_eq, Rabs_R0 by auto. rewrite Rmax_right by (rewrite Rabs_R1; lra). lra. }
  inversion H; subst. destruct (Nat.lt_ge_cases j (length w)).
  - rewrite (map_nth0 (fun x => x * 0)) by auto. ring.
  - apply nth_overflow. rewrite map_length; auto.
Qed.

(** Refuted: the documentation promises no rescaling with no_rescale, and the division by 1 - p without. *)
Theorem C57_rescale_refuted : exists deltas bernoulli, forall no_rescale,
  ties_sum_with_dropout (fun x => x) 1000 1 bernoulli deltas (1 / 2) no_rescale 1 false true true (1 / 1000000) (1 / 1000000) 0 0 =
  Ok [if no_rescale then 2 else 1].
Proof.
  exists [[1]], [[1]]. intros nr. unfold ties_sum_with_dropout. cbn [map2]. rewrite Rmult_1_l.
  assert (ties_sum_extended (fun x => x) 1000 1 [[1]] 1 false true true (1 / 1000000) (1 / 1000000) 0 0 = Ok [1]) as ->.
  { destruct (C57_extended_partial (fun x => x) 1000 1 [[1]] 1 false true true (1 / 1000000) (1 / 1000000) 0 0 1) as (tr & sv & _ & _ & _ & H & _); try lra; try lia.
    - discriminate.
    - intros v [<-|[]]; reflexivity.
    - rewrite H by auto. unfold ties_sum. cbn [mapM]. rewrite trim1. cbn [bind over0 map seq length nth].
      destruct (ties1_spec 1000 false [1]) as (A & _). unfold votes in A. unfold rsum, positive in A. simpl in A.
      assert (sign 1 = 1) as E by (unfold sign; destruct (Rlt_dec 0 1); lra). rewrite E in A.
      destruct A as [_ ->]; [lra|]. destruct (Rlt_dec 0 1); [|lra]. unfold mean, rsum. simpl. do 2 f_equal. field. }
  cbn [bind]. unfold isclose1. rewrite (Rabs_left (1 / 2 - 1)) by lra. rewrite (Rabs_pos_eq (1 / 2)) by lra. rewrite Rmax_right by lra.
  unfold rleb. destruct (Rle_dec _ _); [lra|]. destruct nr; auto. cbn [map]. do 2 f_equal. field.
Qed.

Example C57_case : shaped 1 three /\ three <> [] /\ 0 <= 1 <= 1.
Proof. split; [intros v [<-|[<-|[<-|[]]]]; reflexivity|]. split; [discriminate|lra]. Qed.

Print Assumptions C57_vote_partial.
Print Assumptions C57_vote_refuted.
Print Assumptions C57_extended_partial.
Print Assumptions C57_extended_refuted.
Print Assumptions C57_rescale_partial.
Print Assumptions C57_rescale_all.
Print Assumptions C57_rescale_refuted.
