(** C73: top_k_tensor_sum. *)
From Coq Require Import Reals List Bool Arith ZArith Lia Lra Permutation Sorted.
From Verif Require Import Base ModelNum NumProofs PropsNum PropsTies ModelFilter PropsFilter ModelRegion PropsRegion ModelSelect.
Import ListNotations.
Open Scope list_scope.
Open Scope R_scope.

(** ** sorting places by their values *)
Section Argsort.
  Context {A : Type} (d : A) (le : A -> A -> bool).
  Hypothesis total : forall x y, le x y = false -> le y x = true.
  Hypothesis trans : forall x y z, le x y = true -> le y z = true -> le x z = true.

  (** first by value, then by place *)
  Definition before (p q : A * nat) : Prop :=
    le (fst p) (fst q) = true /\ (le (fst q) (fst p) = true -> (snd p < snd q)%nat).

  Lemma before_trans : forall p q r, before p q -> before q r -> before p r.
  Proof.
    unfold before. intros p q r [A1 A2] [B1 B2]. split; [eauto|]. intros H.
    assert (le (fst q) (fst p) = true) by eauto. assert (le (fst r) (fst q) = true) by eauto.
    specialize (A2 ltac:(auto)). specialize (B2 ltac:(auto)). lia.
  Qed.
  Lemma before_irr : forall p q, before p q -> before q p -> False.
  Proof. intros p q [A1 A2] [B1 B2]. specialize (A2 B1). specialize (B2 A1). lia. Qed.

  Lemma insert_by_perm : forall x l, Permutation (x :: l) (insert_by le x l).
  Proof.
    induction l; simpl; auto. destruct (le (fst x) (fst a)); auto.
    eapply Permutation_trans; [apply perm_swap|]. constructor; auto.
  Qed.
  Lemma sort_by_perm : forall l, Permutation l (fold_right (insert_by le) [] l).
  Proof. induction l; simpl; auto. eapply Permutation_trans; [|apply insert_by_perm]. constructor; auto. Qed.

  Lemma insert_by_sorted : forall x l, (forall y, In y l -> (snd x < snd y)%nat) -> StronglySorted before l ->
    StronglySorted before (insert_by le x l).
  Proof.
    induction l as [|y l IH]; simpl; intros L S; [constructor; auto; constructor|].
    apply StronglySorted_inv in S as [S F]. destruct (le (fst x) (fst y)) eqn:E.
    - assert (before x y) as B by (split; auto). constructor; [constructor; auto|].
      constructor; auto. rewrite Forall_forall in *. intros z Z. eapply before_trans; eauto.
    - constructor; [apply IH; auto|]. rewrite Forall_forall in *. intros z Z.
      apply (Permutation_in _ (Permutation_sym (insert_by_perm x l))) in Z as [<-|Z]; [|auto].
      split; [auto|]. intros H. congruence.
  Qed.
  Lemma sort_by_sorted : forall l s, StronglySorted before (fold_right (insert_by le) [] (combine l (seq s (length l)))).
  Proof.
    induction l; simpl; intros s; [constructor|]. apply insert_by_sorted; auto.
    intros y Y. apply (Permutation_in _ (Permutation_sym (sort_by_perm _))) in Y.
    destruct y as [y k]. apply in_combine_r in Y. apply in_seq in Y. simpl. lia.
  Qed.

  Lemma combine_place : forall (l : list A) s x k, In (x, k) (combine l (seq s (length l))) -> (s <= k)%nat /\ nth (k - s) l d = x.
  Proof.
    induction l; simpl; intros s x k I; [tauto|]. destruct I as [E|I].
    - inversion E; subst. rewrite Nat.sub_diag. split; auto.
    - apply IHl in I as [K <-]. split; [lia|]. replace (k - s)%nat with (S (k - S s)) by lia. auto.
  Qed.

  Lemma sorted_pairs : forall l p, In p (fold_right (insert_by le) [] (combine l (seq 0 (length l)))) -> p = (nth (snd p) l d, snd p).
  Proof.
    intros l [x k] I. apply (Permutation_in _ (Permutation_sym (sort_by_perm _))) in I.
    apply combine_place in I as [_ <-]. simpl. rewrite Nat.sub_0_r. auto.
  Qed.

  Lemma combine_snd : forall (l : list A) s, map snd (combine l (seq s (length l))) = seq s (length l).
  Proof. induction l; simpl; intros; f_equal; auto. Qed.
  Lemma combine_fst : forall (l : list A) s, map fst (combine l (seq s (length l))) = l.
  Proof. induction l; simpl; intros; f_equal; auto. Qed.

  Lemma argsort_perm : forall l, Permutation (seq 0 (length l)) (argsort le l).
  Proof.
    intros l. unfold argsort. rewrite <- (combine_snd l 0) at 1. apply Permutation_map, sort_by_perm.
  Qed.
  Lemma argsort_length : forall l, length (argsort le l) = length l.
  Proof. intros l. rewrite <- (Permutation_length (argsort_perm l)). apply seq_length. Qed.
  Lemma argsort_lt : forall l k, (k < length l)%nat -> (nth k (argsort le l) 0 < length l)%nat.
  Proof.
    intros l k K. assert (In (nth k (argsort le l) 0%nat) (seq 0 (length l))) as I.
    { apply (Permutation_in _ (Permutation_sym (argsort_perm l))), nth_In. rewrite argsort_length. auto. }
    apply in_seq in I. lia.
  Qed.
  Lemma sorted_nth : forall (l : list (A * nat)) dp i j, StronglySorted before l -> (i < j < length l)%nat ->
    before (nth i l dp) (nth j l dp).
  Proof.
    induction l; simpl; intros dp i j S L; [lia|]. apply StronglySorted_inv in S as [S F].
    destruct j; [lia|]. destruct i; [|apply IHl; auto; lia].
    rewrite Forall_forall in F. apply F, nth_In. lia.
  Qed.
  Lemma argsort_before : forall l i j, (i < j < length l)%nat ->
    let p := nth i (argsort le l) 0%nat in let q := nth j (argsort le l) 0%nat in before (nth p l d, p) (nth q l d, q).
  Proof.
    intros l i j L p q. pose proof (sort_by_sorted l 0) as S. pose proof (argsort_length l) as LE.
    unfold argsort in LE, p, q. rewrite map_length in LE.
    set (L0 := fold_right (insert_by le) [] (combine l (seq 0 (length l)))) in *. pose proof (sorted_nth L0 (d, 0%nat) i j S ltac:(lia)) as B.
    assert (forall k, (k < length l)%nat -> nth k L0 (d, 0%nat) = (nth (nth k (map snd L0) 0%nat) l d, nth k (map snd L0) 0%nat)) as E.
    { intros k K. rewrite (sorted_pairs l (nth k L0 (d, 0%nat))) at 1 by (fold L0; apply nth_In; rewrite LE; lia).
      assert (nth k (map snd L0) 0%nat = snd (nth k L0 (d, 0%nat))) as -> by (rewrite <- (map_nth snd); auto). auto. }
    rewrite !E in B by lia. exact B.
  Qed.
  (** the values in the order of [argsort] *)
  Lemma argsort_values : forall l, Permutation l (map (fun k => nth k l d) (argsort le l)) /\
    StronglySorted (fun x y => le x y = true) (map (fun k => nth k l d) (argsort le l)).
  Proof.
    intros l. unfold argsort. rewrite map_map.
    assert (map (fun x : A * nat => nth (snd x) l d) (fold_right (insert_by le) [] (combine l (seq 0 (length l)))) =
            map fst (fold_right (insert_by le) [] (combine l (seq 0 (length l))))) as ->.
    { apply map_ext_in. intros p P. rewrite (sorted_pairs l p P) at 2. auto. }
    split.
    - rewrite <- (combine_fst l 0) at 1. apply Permutation_map, sort_by_perm.
    - pose proof (sort_by_sorted l 0) as S. induction S; simpl; constructor; auto.
      rewrite Forall_map. eapply Forall_impl; [|eassumption]. intros q [Q _]; auto.
  Qed.
End Argsort.

Lemma sorted_unique : forall l l' : list nat, Permutation l l' ->
  StronglySorted (fun x y => Nat.leb x y = true) l -> StronglySorted (fun x y => Nat.leb x y = true) l' -> l = l'.
Proof.
  induction l as [|x l IH]; intros l' P S S'.
  - apply Permutation_nil in P. auto.
  - destruct l' as [|y l']; [apply Permutation_sym, Permutation_nil in P; congruence|].
    apply StronglySorted_inv in S as [S F], S' as [S' F']. rewrite Forall_forall in F, F'.
    assert (x = y) as E.
    { assert (In x (y :: l')) as [I|I] by (apply (Permutation_in _ P); left; auto); auto.
      assert (In y (x :: l)) as [J|J] by (apply (Permutation_in _ (Permutation_sym P)); left; auto); auto.
      apply F' in I. apply F in J. rewrite Nat.leb_le in *. lia. }
    subst y. f_equal. apply IH; auto. eapply Permutation_cons_inv; eauto.
Qed.
Lemma seq_sorted : forall n s, StronglySorted (fun x y => Nat.leb x y = true) (seq s n).
Proof.
  induction n; simpl; intros; constructor; auto. apply Forall_forall. intros x X. apply in_seq in X. apply Nat.leb_le. lia.
Qed.
Lemma leb_total : forall x y, Nat.leb x y = false -> Nat.leb y x = true.
Proof. intros x y H. apply Nat.leb_gt in H. apply Nat.leb_le. lia. Qed.
Lemma leb_trans : forall x y z, Nat.leb x y = true -> Nat.leb y z = true -> Nat.leb x z = true.
Proof. intros x y z A B. rewrite Nat.leb_le in *. lia. Qed.
Lemma rleb_total : forall x y, rleb x y = false -> rleb y x = true.
Proof. intros x y H. apply rleb_false in H. apply rleb_true. lra. Qed.
Lemma rleb_trans : forall x y z, rleb x y = true -> rleb y z = true -> rleb x z = true.
Proof. intros x y z A B. rewrite rleb_true in *. lra. Qed.

(** the second argsort inverts the first *)
Lemma argsort_inverse : forall n p, Permutation (seq 0 n) p -> forall k, (k < n)%nat ->
  (nth k (argsort Nat.leb p) 0 < n)%nat /\ nth (nth k (argsort Nat.leb p) 0%nat) p 0%nat = k.
Proof.
  intros n p P k K. pose proof (Permutation_length P) as L. rewrite seq_length in L.
  split; [rewrite L; apply (argsort_lt Nat.leb); auto; lia|].
  destruct (argsort_values 0%nat Nat.leb leb_total leb_trans p) as [Q S].
  assert (map (fun k => nth k p 0%nat) (argsort Nat.leb p) = seq 0 n) as E.
  { apply sorted_unique; auto using seq_sorted. apply Permutation_sym. eapply Permutation_trans; eauto. }
  apply (f_equal (fun l => nth k l 0%nat)) in E. rewrite seq_nth in E by auto. simpl in E.
  rewrite (nth_indep _ 0%nat (nth (length p) p 0%nat)) in E by (rewrite map_length, argsort_length; lia).
  rewrite (map_nth (fun k => nth k p 0%nat)) in E.
  rewrite (nth_indep _ (length p) 0%nat) in E by (rewrite argsort_length; lia). auto.
Qed.

Definition rank_of (b : vec) : list nat := argsort Nat.leb (argsort rleb b).
Lemma rank_length : forall b, length (rank_of b) = length b.
Proof. intros. unfold rank_of. rewrite !argsort_length. auto. Qed.
Lemma rank_perm : forall b, Permutation (seq 0 (length b)) (rank_of b).
Proof. intros. unfold rank_of. rewrite <- (argsort_length rleb b) at 1. apply argsort_perm. Qed.
Lemma rank_lt : forall b i, (i < length b)%nat -> (nth i (rank_of b) 0 < length b)%nat.
Proof. intros b i I. apply argsort_inverse; auto. apply argsort_perm. Qed.
Lemma rank_mono : forall b i j, (i < length b)%nat -> (j < length b)%nat ->
  at_ b i < at_ b j \/ (at_ b i = at_ b j /\ (i < j)%nat) -> (nth i (rank_of b) 0 < nth j (rank_of b) 0)%nat.
Proof.
  intros b i j I J H.
  destruct (argsort_inverse _ _ (argsort_perm rleb b) i I) as [I1 I2].
  destruct (argsort_inverse _ _ (argsort_perm rleb b) j J) as [J1 J2].
  fold (rank_of b) in *. set (ri := nth i (rank_of b) 0%nat) in *. set (rj := nth j (rank_of b) 0%nat) in *.
  destruct (lt_eq_lt_dec ri rj) as [[?|E]|G]; auto; exfalso.
  - rewrite E in I2. assert (i = j) as IJ by congruence. rewrite IJ in H. destruct H as [H|[_ H]]; [lra|lia].
  - pose proof (argsort_before 0 rleb rleb_total rleb_trans b rj ri ltac:(lia)) as B. simpl in B.
    rewrite I2, J2 in B. destruct B as [B1 B2]. simpl in *. rewrite rleb_true in *.
    destruct H as [H|[H K]]; [lra|]. specialize (B2 ltac:(lra)). lia.
Qed.

Lemma sorted_mono : forall l i j, StronglySorted Rle l -> (i <= j < length l)%nat -> at_ l i <= at_ l j.
Proof.
  induction l; simpl; intros i j S L; [lia|]. apply StronglySorted_inv in S as [S F]. rewrite Forall_forall in F.
  destruct i, j; try lia; try lra.
  - apply F, nth_In. lia.
  - apply IHl; auto. lia.
Qed.

Lemma gather_nth : forall A (d : A) x idx k, (k < length idx)%nat -> nth k (gather d x idx) d = nth (nth k idx 0%nat) x d.
Proof.
  intros. unfold gather. rewrite (nth_indep _ d (nth 0 x d)) by (rewrite map_length; auto).
  apply (map_nth (fun i => nth i x d)).
Qed.

Section Result.
  Variables (f32 : R -> R) (a b : vec) (P : R -> bool).
  Hypothesis L : length a = length b.
  Let v := map2 (fun m xy => (1 - m) * fst xy + m * snd xy) (gather 0 (map b2r (map P (sort_asc a))) (rank_of b))
             (combine a (gather 0 (sort_asc a) (rank_of b))).
  Lemma result_length : length v = length a.
  Proof.
    unfold v. rewrite map2_length; unfold gather; rewrite ?combine_length, ?map_length, ?rank_length; lia.
  Qed.
  Lemma result_nth : forall i, (i < length a)%nat -> let x := at_ (sort_asc a) (nth i (rank_of b) 0%nat) in
    at_ v i = (if P x then x else at_ a i).
  Proof.
    intros i I x. pose proof (Permutation_length (sort_perm a)) as LS. unfold v.
    rewrite (map2_nth _ _ _ _ _ _ i 0 (0, 0) 0); unfold gather; rewrite ?combine_length, ?map_length, ?rank_length; try lia.
    fold (gather 0 (map b2r (map P (sort_asc a))) (rank_of b)). fold (gather 0 (sort_asc a) (rank_of b)).
    rewrite combine_nth by (unfold gather; rewrite map_length, rank_length; lia). simpl.
    rewrite !gather_nth by (rewrite rank_length; lia). fold x.
    rewrite map_map. rewrite (map_nth0 (fun x => b2r (P x))) by (pose proof (rank_lt b i); lia).
    fold x. unfold b2r. destruct (P x); lra.
  Qed.
  Lemma sorted_In : forall i, (i < length a)%nat -> In (at_ (sort_asc a) (nth i (rank_of b) 0%nat)) a.
  Proof.
    intros i I. apply (Permutation_in _ (Permutation_sym (sort_perm a))), nth_In.
    rewrite <- (Permutation_length (sort_perm a)). pose proof (rank_lt b i). lia.
  Qed.
End Result.

Lemma gather_all : forall x b, length x = length b -> Permutation x (gather 0 x (rank_of b)).
Proof.
  intros x b L. unfold gather. eapply Permutation_trans; [|apply Permutation_map, rank_perm].
  rewrite <- L. clear. rewrite <- (map_id x) at 1. induction x; simpl; auto. constructor.
  rewrite <- seq_shift, map_map. simpl. auto.
Qed.

(** ** C73, what holds: every element of the result is an element of [a]; with the default width 1 and
    offset 0 the result holds the elements of [a], arranged in the order of the elements of [b] (equal
    elements of [b] from first to last), provided the magnitudes of [a] are single precision numbers; with
    width 0 and offset 0 it is [a]. *)
Definition ordered_like (b v : vec) : Prop :=
  forall i j, (i < length b)%nat -> (j < length b)%nat -> at_ b i < at_ b j \/ (at_ b i = at_ b j /\ (i < j)%nat) -> at_ v i <= at_ v j.

Lemma exact_region : forall (w : R) n, w = 0 \/ w = 1 ->
  ratio_to_region exact w (0 : R) n = (0%Z, if Req_EM_T w 1 then n else 0%Z, false).
Proof.
  intros w n W. unfold ratio_to_region. simpl.
  replace (trunc 0) with 0%Z by (unfold trunc; destruct (Rle_dec 0 0); [|lra]; symmetry; apply (Int_part_is 0 0); simpl; lra).
  destruct (Rlt_dec w 0); [lra|]. destruct (Rlt_dec 1 w); [lra|]. destruct (Rlt_dec 0 0); [lra|].
  replace (trunc 0) with 0%Z by (unfold trunc; destruct (Rle_dec 0 0); [|lra]; symmetry; apply (Int_part_is 0 0); simpl; lra).
  replace (rleb (w + (0 - 0)) 1) with true by (symmetry; apply rleb_true; lra).
  replace ((0 - 0) * IZR n) with (IZR 0) by ring. rewrite py_round_int.
  destruct W; subst.
  - destruct (Req_EM_T 0 1); [lra|]. replace ((0 + (0 - 0)) * IZR n) with (IZR 0) by ring. rewrite py_round_int. auto.
  - destruct (Req_EM_T 1 1); [|lra]. replace ((1 + (0 - 0)) * IZR n) with (IZR n) by ring. rewrite py_round_int. auto.
Qed.

Lemma last_is_max : forall l x, In x l -> x <= at_ (sort_asc l) (length l - 1).
Proof.
  intros l x I. pose proof (Permutation_length (sort_perm l)) as L.
  apply (Permutation_in _ (sort_perm l)) in I. destruct (In_nth _ _ 0 I) as (k & K & <-).
  apply sorted_mono; [apply sort_sorted|lia].
Qed.

Theorem C73_top_k_partial : forall f32 a b, length a = length b ->
  (forall A (width offset : num A) v, top_k_tensor_sum A f32 a b width offset = Ok v ->
     length v = length a /\ forall x, In x v -> In x a) /\
  ((forall x, In x a -> f32 (Rabs x) = Rabs x) ->
     exists v, top_k_tensor_sum exact f32 a b 1 0 = Ok v /\ Permutation a v /\ ordered_like b v) /\
  top_k_tensor_sum exact f32 a b 0 0 = Ok a.
Proof.
  intros f32 a b L. pose proof (Permutation_length (sort_perm a)) as LS. split; [|split].
  - intros A w o v H. unfold top_k_tensor_sum in H. fold (rank_of b) in H.
    destruct (ratio_to_region A w o _) as [[s e] inv].
    destruct (kth_abs_value f32 (sort_asc a) s) as [st|]; [|discriminate]. simpl in H.
    destruct (kth_abs_value f32 (sort_asc a) e) as [en|]; [|discriminate]. simpl in H.
    inversion H; subst v. split; [apply result_length; auto|].
    intros x I. destruct (In_nth _ _ 0 I) as (k & K & <-). rewrite result_length in K by auto.
    rewrite result_nth by auto. destruct (xorb _ _); [apply sorted_In; auto|apply nth_In; auto].
  - intros F. unfold top_k_tensor_sum. fold (rank_of b).
    change (num exact) with R. rewrite (exact_region 1) by auto. destruct (Req_EM_T 1 1); [|lra].
    unfold kth_abs_value at 1. simpl Z.leb. cbv iota. cbn [bind].
    assert (exists en, kth_abs_value f32 (sort_asc a) (Z.of_nat (length a)) = Ok en /\ forall x, In x a -> Rabs x <= en) as (en & -> & EN).
    { unfold kth_abs_value. destruct (Z.leb_spec (Z.of_nat (length a)) 0) as [Z0|Z0].
      - exists (-1). split; auto. intros x I. destruct a; [contradiction|simpl in Z0; lia].
      - unfold kthvalue. rewrite map_length, <- LS.
        replace ((1 <=? Z.of_nat (length a)) && (Z.of_nat (length a) <=? Z.of_nat (length a)))%Z with true
          by (symmetry; apply andb_true_intro; split; apply Z.leb_le; lia).
        eexists; split; eauto. intros x I. rewrite Nat2Z.id.
        replace (length a) with (length (map (fun x => f32 (Rabs x)) (sort_asc a))) by (rewrite map_length; auto).
        apply last_is_max. rewrite <- F by auto. apply (in_map (fun x => f32 (Rabs x))).
        apply (Permutation_in _ (sort_perm a)). auto. }
    cbn [bind]. eexists; split; [reflexivity|].
    set (P := fun x => xorb false (rleb (-1) (Rabs x) && rleb (Rabs x) en)).
    assert (forall x, In x a -> P x = true) as PT.
    { intros x I. unfold P. rewrite xorb_false_l. apply andb_true_intro. split; apply rleb_true; auto. pose proof (Rabs_pos x). lra. }
    assert (forall i, (i < length a)%nat ->
      at_ (map2 (fun m xy => (1 - m) * fst xy + m * snd xy) (gather 0 (map b2r (map P (sort_asc a))) (rank_of b))
             (combine a (gather 0 (sort_asc a) (rank_of b)))) i = at_ (sort_asc a) (nth i (rank_of b) 0%nat)) as V.
    { intros i I. rewrite result_nth by auto. rewrite PT; auto. apply sorted_In; auto. }
    split.
    + match goal with |- Permutation _ ?v => assert (v = gather 0 (sort_asc a) (rank_of b)) as -> end.
      { apply nth_ext0; [rewrite result_length by auto; unfold gather; rewrite map_length, rank_length; lia|].
        intros j J. rewrite result_length in J by auto. rewrite V by auto. rewrite gather_nth by (rewrite rank_length; lia). auto. }
      eapply Permutation_trans; [apply sort_perm|]. apply gather_all. lia.
    + intros i j I J H. rewrite !V by lia. apply sorted_mono; [apply sort_sorted|].
      pose proof (rank_mono b i j I J H). pose proof (rank_lt b j J). lia.
  - unfold top_k_tensor_sum. fold (rank_of b).
    change (num exact) with R. rewrite (exact_region 0) by auto. destruct (Req_EM_T 0 1); [lra|].
    unfold kth_abs_value. change (0 <=? 0)%Z with true. cbv iota. cbn [bind]. f_equal.
    apply nth_ext0; [apply result_length; auto|]. intros j J. rewrite result_length in J by auto.
    rewrite result_nth by auto. match goal with |- (if xorb false ?c then _ else _) = _ => destruct c eqn:E end; auto.
    apply andb_prop in E as [_ E]. apply rleb_true in E. pose proof (Rabs_pos (at_ (sort_asc a) (nth j (rank_of b) 0%nat))). lra.
Qed.

(** a concrete case: the elements 1, -2, 3 in the order of 5, 7, 6 *)
Example C73_case : exists v, top_k_tensor_sum exact (fun x => x) [1; -2; 3] [5; 7; 6] 1 0 = Ok v /\
  Permutation [1; -2; 3] v /\ at_ v 0 <= at_ v 2 <= at_ v 1.
Proof.
  destruct (C73_top_k_partial (fun x => x) [1; -2; 3] [5; 7; 6] eq_refl) as (_ & H & _).
  destruct H as (v & E & P & O); auto. exists v. repeat split; auto; apply O; simpl; auto; lra.
Qed.

(** ** the claim for every offset is false: a region that does not start at 0 has one element too many,
    so that an empty region is not empty, and its complement not everything. *)
Lemma half_region : forall w : R, w = 0 \/ w = 1 ->
  ratio_to_region exact w (1 / 2 : R) 2 = (1%Z, 1%Z, if Req_EM_T w 1 then true else false).
Proof.
  intros w W. unfold ratio_to_region. simpl.
  assert (trunc (1 / 2) = 0%Z) as T by (unfold trunc; destruct (Rle_dec 0 (1 / 2)); [|lra]; apply (Int_part_is (1 / 2) 0); simpl; lra).
  destruct (Rlt_dec w 0); [lra|]. destruct (Rlt_dec 1 w); [lra|]. destruct (Rlt_dec (1 / 2) 0); [lra|]. rewrite T.
  destruct W; subst.
  - destruct (Req_EM_T 0 1); [lra|]. replace (rleb (0 + (1 / 2 - 0)) 1) with true by (symmetry; apply rleb_true; lra).
    replace ((1 / 2 - 0) * 2) with (IZR 1) by lra. replace ((0 + (1 / 2 - 0)) * 2) with (IZR 1) by lra.
    rewrite py_round_int. auto.
  - destruct (Req_EM_T 1 1); [|lra]. replace (rleb (1 + (1 / 2 - 0)) 1) with false by (symmetry; apply rleb_false; lra).
    replace ((1 / 2 - 0) * 2) with (IZR 1) by lra. replace ((1 + (1 / 2 - 0) - 1) * 2) with (IZR 1) by lra.
    rewrite py_round_int. auto.
Qed.
Lemma small_sort : sort_asc [1; 2] = [1; 2].
Proof. simpl. destruct (Rle_dec 1 2); [auto|lra]. Qed.
Lemma small_rank : argsort Nat.leb (argsort rleb [1; 0]) = [1; 0]%nat.
Proof.
  assert (argsort rleb [1; 0] = [1; 0]%nat) as ->; [|reflexivity].
  unfold argsort. simpl. replace (rleb 1 0) with false by (symmetry; apply rleb_false; lra). auto.
Qed.
Theorem C73_top_k_refuted :
  (exists a b v, length a = length b /\ top_k_tensor_sum exact (fun x => x) a b 0 (1 / 2) = Ok v /\ v <> a) /\
  (exists a b v, length a = length b /\ top_k_tensor_sum exact (fun x => x) a b 1 (1 / 2) = Ok v /\ ~ Permutation a v).
Proof.
  assert (kth_abs_value (fun x => x) [1; 2] 1 = Ok 1) as K.
  { unfold kth_abs_value, kthvalue. simpl. rewrite !Rabs_right by lra. destruct (Rle_dec 1 2); [auto|lra]. }
  split; exists [1; 2], [1; 0]; unfold top_k_tensor_sum; change (num exact) with R; rewrite small_sort, small_rank;
    simpl length; change (Z.of_nat 2) with 2%Z.
  - exists [1; 1]. rewrite (half_region 0) by auto. rewrite K. cbn [bind]. split; auto. split; [|intros H; inversion H; lra].
    destruct (Req_EM_T 0 1); [lra|]. unfold gather. cbn [map nth map2 combine fst snd].
    rewrite !Rabs_right by lra. rewrite !xorb_false_l.
    replace (rleb 1 1) with true by (symmetry; apply rleb_true; lra). replace (rleb 1 2) with true by (symmetry; apply rleb_true; lra).
    replace (rleb 2 1) with false by (symmetry; apply rleb_false; lra). simpl. repeat f_equal; lra.
  - exists [2; 2]. rewrite (half_region 1) by auto. rewrite K. cbn [bind]. split; auto. split.
    + destruct (Req_EM_T 1 1); [|lra]. unfold gather. cbn [map nth map2 combine fst snd].
      rewrite !Rabs_right by lra.
      replace (rleb 1 1) with true by (symmetry; apply rleb_true; lra). replace (rleb 1 2) with true by (symmetry; apply rleb_true; lra).
      replace (rleb 2 1) with false by (symmetry; apply rleb_false; lra). simpl. repeat f_equal; lra.
    + intros P. assert (In 1 [2; 2]) as I by (apply (Permutation_in _ P); left; auto). simpl in I. lra.
Qed.
Print Assumptions C73_top_k_partial.
Print Assumptions C73_top_k_refuted.
