(** C64: the bytes written for a tensor. *)
From Coq Require Import List Bool Arith Ascii Lia.
From Verif Require Import Base ModelBytes.
Import ListNotations.
Open Scope list_scope.
Open Scope nat_scope.

(** the safetensors format: the entries one after the other, the last index running fastest *)
Definition row_major (t : strided) : list ascii := flat_map (entry t) (indices (st_shape t)).

Lemma seq_shift_map : forall P n s, map (fun x => P + x) (seq s n) = seq (P + s) n.
Proof. intros P n; induction n; intros s; simpl; auto. rewrite IHn. f_equal. f_equal. lia. Qed.

Lemma flat_map_seq : forall P s i, flat_map (fun i => map (fun x => P * i + x) (seq 0 P)) (seq i s) = seq (P * i) (s * P).
Proof.
  intros P s; induction s; intros i; [reflexivity|]. cbn [seq flat_map]. rewrite IHs, seq_shift_map.
  replace (P * S i) with (P * i + P) by lia. replace (S s * P) with (P + s * P) by lia.
  rewrite seq_app. f_equal. f_equal. lia.
Qed.

Lemma map_flat_map : forall A B C (f : B -> C) (g : A -> list B) l, map f (flat_map g l) = flat_map (fun x => map f (g x)) l.
Proof. induction l; simpl; auto. rewrite map_app, IHl. reflexivity. Qed.

Lemma flat_map_ext_in : forall A B (f g : A -> list B) l, (forall x, In x l -> f x = g x) -> flat_map f l = flat_map g l.
Proof. induction l; intros H; simpl; auto. rewrite (H a) by (simpl; auto). rewrite IHl; auto. intros; apply H; simpl; auto. Qed.

Lemma row_places : forall shape strides, row_strides shape strides = true ->
  map (place strides) (indices shape) = seq 0 (prod shape).
Proof.
  induction shape as [|n shape IH]; destruct strides as [|s strides]; cbn; intros H; try discriminate; auto.
  apply andb_true_iff in H. destruct H as [H1 H2]. specialize (IH _ H2).
  rewrite map_flat_map. apply orb_true_iff in H1. destruct H1 as [H1|H1]; apply Nat.eqb_eq in H1; subst.
  - simpl. rewrite app_nil_r, map_map. cbn [place]. erewrite map_ext; [|intros; rewrite Nat.mul_0_r; reflexivity].
    simpl. rewrite Nat.add_0_r. exact IH.
  - rewrite (flat_map_ext_in _ _ _ (fun i => map (fun x => prod shape * i + x) (seq 0 (prod shape)))).
    + rewrite flat_map_seq, Nat.mul_0_r. reflexivity.
    + intros i _. rewrite map_map. cbn [place]. rewrite <- IH, map_map. reflexivity.
Qed.

Lemma no_indices : forall shape, prod shape = 0 -> indices shape = [].
Proof.
  induction shape; cbn; intros H; [discriminate|]. apply Nat.mul_eq_0 in H. destruct H as [->|H]; auto.
  rewrite (IHshape H). clear. induction (seq 0 a); simpl; auto.
Qed.

Lemma skip_skip : forall A n m (l : list A), skipn n (skipn m l) = skipn (m + n) l.
Proof. induction m; intros l; simpl; auto. destruct l; auto. rewrite skipn_nil; auto. Qed.

Lemma chunks : forall item n mem o, (o + n) * item <= length mem ->
  flat_map (bytes_at mem item) (seq o n) = firstn (n * item) (skipn (o * item) mem).
Proof.
  intros item n mem; induction n; intros o H; [reflexivity|].
  cbn [seq flat_map]. rewrite IHn by lia. unfold bytes_at.
  replace (S n * item) with (item + n * item) by lia.
  rewrite <- (firstn_skipn item (skipn (o * item) mem)) at 2.
  rewrite firstn_app, firstn_firstn, firstn_length, skipn_length.
  replace (Nat.min item (item + n * item)) with (item) by nia.
  replace (Nat.min (item + n * item) item) with item by nia.
  f_equal. replace (item + n * item - Nat.min item (length mem - o * item)) with (n * item) by nia.
  rewrite skip_skip. f_equal. f_equal. lia.
Qed.

Lemma row_major_chunks : forall t, is_contiguous t = true ->
  row_major t = flat_map (bytes_at (st_mem t) (st_item t)) (seq (st_offset t) (prod (st_shape t))).
Proof.
  intros t C. unfold is_contiguous in C. apply orb_true_iff in C. destruct C as [Z|R].
  - apply Nat.eqb_eq in Z. unfold row_major. rewrite (no_indices _ Z), Z. reflexivity.
  - unfold row_major, entry. pose proof (row_places _ _ R) as P.
    replace (seq (st_offset t) (prod (st_shape t))) with (map (fun x => st_offset t + x) (seq 0 (prod (st_shape t))))
      by (rewrite seq_shift_map, Nat.add_0_r; reflexivity).
    rewrite <- P, map_map, flat_map_concat_map, flat_map_concat_map, map_map. reflexivity.
Qed.

(** a tensor that is contiguous and owns its whole storage is written entry by entry *)
Theorem C64_bytes_partial : forall beyond t,
  is_contiguous t = true -> st_offset t = 0 -> length (st_mem t) = prod (st_shape t) * st_item t ->
  tensor_to_bytes beyond t = row_major t.
Proof.
  intros beyond t C O L. rewrite row_major_chunks by auto. rewrite O. unfold tensor_to_bytes. rewrite O.
  rewrite chunks by lia. simpl. rewrite firstn_app, Nat.sub_diag, firstn_O, app_nil_r, L. reflexivity.
Qed.

Lemma prod_row_fills : forall t, is_contiguous t = true -> fills t = true.
Proof.
  intros t C. unfold fills. apply forallb_forall. intros o Ho. apply existsb_exists. exists o. split; [|apply Nat.eqb_refl].
  unfold is_contiguous in C. apply orb_true_iff in C. destruct C as [Z|R].
  - apply Nat.eqb_eq in Z. rewrite Z in Ho. destruct Ho.
  - rewrite (row_places _ _ R). exact Ho.
Qed.

Lemma find_unique : forall (f : list nat -> nat) l s n o, map f l = seq s n -> In o (seq s n) ->
  exists x, find (fun i => f i =? o) l = Some x /\ f x = o /\ nth_error l (o - s) = Some x.
Proof.
  induction l; intros s n o M I; destruct n; simpl in *; try discriminate; try tauto.
  injection M as M1 M2. destruct (f a =? o) eqn:E.
  - apply Nat.eqb_eq in E. exists a. repeat split; auto. replace (o - s) with 0 by lia. reflexivity.
  - apply Nat.eqb_neq in E. destruct I as [I|I]; [subst; lia|].
    destruct (IHl _ _ _ M2 I) as (x & F & G & N). exists x. repeat split; auto.
    apply in_seq in I. replace (o - s) with (S (o - S s)) by lia. exact N.
Qed.

Lemma flat_map_places : forall B (g : list nat -> list B) (f : list nat -> nat) l s n, map f l = seq s n ->
  flat_map (fun o => match find (fun i => f i =? o) l with Some x => g x | None => [] end) (seq s n) = flat_map g l.
Proof.
  intros B g f l s n M.
  assert (E : forall o, In o (seq s n) -> match find (fun i => f i =? o) l with Some x => g x | None => [] end
                                       = match nth_error l (o - s) with Some x => g x | None => [] end).
  { intros o I. destruct (find_unique _ _ _ _ _ M I) as (x & F & _ & N). rewrite F, N. reflexivity. }
  rewrite (flat_map_ext_in _ _ _ _ _ E).
  assert (L : length l = n) by (rewrite <- (map_length f l), M, seq_length; auto). clear M E. subst n.
  revert s; induction l; intros s; [reflexivity|].
  cbn [length seq flat_map]. rewrite Nat.sub_diag. cbn [nth_error]. f_equal. rewrite <- (IHl (S s)).
  apply flat_map_ext_in. intros o I. apply in_seq in I. replace (o - s) with (S (o - S s)) by lia. reflexivity.
Qed.

Lemma flat_map_const_length : forall A B (g : A -> list B) item l, (forall x, In x l -> length (g x) = item) ->
  length (flat_map g l) = length l * item.
Proof. induction l; intros H; simpl; auto. rewrite app_length, IHl, (H a); simpl; auto. intros; apply H; simpl; auto. Qed.

Lemma indices_length : forall shape, length (indices shape) = prod shape.
Proof.
  induction shape; cbn; auto. rewrite (flat_map_const_length _ _ _ (prod shape)), seq_length; auto.
  intros; rewrite map_length; auto.
Qed.

(** whatever the storage a contiguous tensor is a part of, converting it to another dtype, as [merge] does with
    its output, makes a tensor of the same shape with the converted entries, whose bytes are these entries in order *)
Theorem C64_converted_bytes_partial : forall beyond conv item t, (forall b, length (conv b) = item) -> is_contiguous t = true ->
  exists t', to_dtype conv item t = Some t' /\ st_shape t' = st_shape t /\ st_item t' = item /\
    row_major t' = flat_map (fun idx => conv (entry t idx)) (indices (st_shape t)) /\
    tensor_to_bytes beyond t' = flat_map (fun idx => conv (entry t idx)) (indices (st_shape t)).
Proof.
  intros beyond conv item t Hc C. unfold to_dtype. rewrite (prod_row_fills _ C). eexists; split; [reflexivity|]. split; [reflexivity|]. split; [reflexivity|].
  set (mem := flat_map _ _).
  assert (M : mem = flat_map (fun idx => conv (entry t idx)) (indices (st_shape t))).
  { unfold mem. unfold is_contiguous in C. apply orb_true_iff in C. destruct C as [Z|R].
    - apply Nat.eqb_eq in Z. rewrite Z, (no_indices _ Z). reflexivity.
    - apply flat_map_places with (g := fun idx => conv (entry t idx)). apply row_places; auto. }
  set (t' := Strided mem 0 (st_shape t) (st_strides t) item).
  assert (W : tensor_to_bytes beyond t' = flat_map (fun idx => conv (entry t idx)) (indices (st_shape t))).
  { unfold tensor_to_bytes, t'. cbn [st_mem st_offset st_item]. simpl skipn. rewrite firstn_app, Nat.sub_diag, firstn_O, app_nil_r, firstn_all. exact M. }
  split; auto. rewrite <- W. symmetry. apply C64_bytes_partial; [exact C|reflexivity|].
  cbn [st_mem st_shape st_item t']. rewrite M, (flat_map_const_length _ _ _ item), indices_length; auto.
Qed.

(** a transposed matrix is written in the wrong order, directly and after a conversion of its dtype, although
    the shape recorded is that of the transposed one; a row of a matrix is written as the whole matrix *)
Definition bytes_of (l : list nat) : list ascii := map ascii_of_nat l.
Definition transposed : strided := Strided (bytes_of [1; 2; 3; 4; 5; 6]) 0 [3; 2] [1; 3] 1.
Definition row_of_matrix : strided := Strided (bytes_of [1; 2; 3; 4; 5; 6]) 0 [3] [1] 1.
Theorem C64_bytes_refuted : forall beyond,
  row_major transposed = bytes_of [1; 4; 2; 5; 3; 6] /\
  tensor_to_bytes beyond transposed = bytes_of [1; 2; 3; 4; 5; 6] /\
  (exists t, to_dtype (fun b => b) 1 transposed = Some t /\ row_major t = row_major transposed /\
             tensor_to_bytes beyond t = bytes_of [1; 2; 3; 4; 5; 6]) /\
  row_major row_of_matrix = bytes_of [1; 2; 3] /\ tensor_to_bytes beyond row_of_matrix = bytes_of [1; 2; 3; 4; 5; 6].
Proof.
  intros beyond. split; [reflexivity|]. split; [reflexivity|]. split; [|split; reflexivity].
  eexists. split; [reflexivity|]. split; reflexivity.
Qed.

(** a 2 x 3 tensor of 2-byte elements: the second half of a storage of 12 *)
Example C64_applies : let t := Strided (bytes_of (seq 0 24)) 6 [2; 3] [3; 1] 2 in
  is_contiguous t = true /\ row_major t = bytes_of (seq 12 12) /\
  (exists t', to_dtype (fun b => b) 2 t = Some t' /\ tensor_to_bytes [] t' = bytes_of (seq 12 12) /\
     is_contiguous t' = true /\ st_offset t' = 0 /\ length (st_mem t') = prod (st_shape t') * st_item t').
Proof. cbv zeta. split; [reflexivity|]. split; [reflexivity|]. eexists. repeat split; reflexivity. Qed.

Print Assumptions C64_bytes_partial.
Print Assumptions C64_converted_bytes_partial.
Print Assumptions C64_bytes_refuted.
