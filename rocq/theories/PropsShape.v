(** C80: the merge methods keep the shape of their inputs. *)
From Coq Require Import List Bool Arith Lia.
From Verif Require Import Base ModelShape.
Import ListNotations.
Open Scope list_scope.
Open Scope nat_scope.

Lemma shape_eqb_eq : forall a b, shape_eqb a b = true <-> a = b.
Proof. intros. unfold shape_eqb. destruct (list_eq_dec Nat.eq_dec a b); split; auto; discriminate. Qed.
Lemma shape_eqb_refl : forall a, shape_eqb a a = true.
Proof. intros. apply shape_eqb_eq. auto. Qed.
Lemma bc_rev_same : forall s, bc_rev s s = Ok s.
Proof. induction s as [|x s IH]; simpl; auto. rewrite IH. simpl. rewrite Nat.eqb_refl. auto. Qed.
Lemma bc_same : forall s, bc s s = Ok s.
Proof. intros. unfold bc. rewrite bc_rev_same. simpl. rewrite rev_involutive. auto. Qed.
Lemma bc_nil_l : forall s, bc [] s = Ok s.
Proof. intros. unfold bc. simpl. rewrite rev_involutive. auto. Qed.
Lemma bc_nil_r : forall s, bc s [] = Ok s.
Proof. intros. unfold bc. simpl. assert (forall l, bc_rev l [] = Ok l) as E by (destruct l; auto). rewrite E. simpl. rewrite rev_involutive. auto. Qed.
Lemma bc_rev_app : forall s t, bc_rev s (s ++ t) = Ok (s ++ t) /\ bc_rev (s ++ t) s = Ok (s ++ t).
Proof.
  induction s as [|x s IH]; intros t.
  - destruct t; auto.
  - destruct (IH t) as (A & B). simpl. rewrite A, B. simpl. rewrite Nat.eqb_refl. auto.
Qed.
Lemma bc_tl : forall s, bc (tl s) s = Ok s /\ bc s (tl s) = Ok s.
Proof.
  intros [|x s]; auto. simpl tl. unfold bc. cbn [rev]. destruct (bc_rev_app (rev s) [x]) as (-> & ->). simpl.
  rewrite !rev_app_distr. simpl. rewrite rev_involutive. auto.
Qed.
Lemma bc_ones : forall s, s <> [] -> bc (removelast s ++ [1]) s = Ok s /\ bc s (removelast s ++ [1]) = Ok s.
Proof.
  intros s H. destruct (exists_last H) as (l & x & ->). rewrite removelast_last. unfold bc. rewrite !rev_app_distr. simpl.
  rewrite bc_rev_same. simpl. destruct (x =? 1) eqn:E.
  - apply Nat.eqb_eq in E. subst x. simpl. rewrite rev_involutive. auto.
  - destruct x as [|[|x]]; simpl; try discriminate; rewrite rev_involutive; auto.
Qed.
Lemma inplace_same : forall s, inplace s s = Ok s.
Proof. intros. unfold inplace. rewrite bc_same. simpl. rewrite shape_eqb_refl. auto. Qed.
Lemma inplace_nil : forall s, inplace s [] = Ok s.
Proof. intros. unfold inplace. rewrite bc_nil_r. simpl. rewrite shape_eqb_refl. auto. Qed.
Lemma stack_same : forall n s, n <> 0 -> stack (repeat s n) = Ok (n :: s).
Proof.
  intros [|n] s H; [congruence|]. unfold stack. cbn [repeat]. replace (forallb (shape_eqb s) (repeat s n)) with true.
  - cbn [length]. rewrite repeat_length. auto.
  - clear H. induction n; auto. cbn [repeat forallb]. rewrite shape_eqb_refl, <- IHn. auto.
Qed.
Lemma mapM_same : forall A B (f : A -> result B) x y n, f x = Ok y -> mapM f (repeat x n) = Ok (repeat y n).
Proof. induction n; intros H; cbn [repeat mapM]; auto. rewrite H. simpl. rewrite IHn; auto. Qed.
Lemma fold_same : forall (f : result shape -> shape -> result shape) s n, f (Ok s) s = Ok s -> fold_left f (repeat s n) (Ok s) = Ok s.
Proof. induction n; intros H; cbn [repeat fold_left]; auto. rewrite H. auto. Qed.
Lemma reduce_same : forall s n, n <> 0 -> reduce_bc (repeat s n) = Ok s.
Proof. intros [|x s] [|n] H; try congruence; cbn [repeat reduce_bc]; apply fold_same; cbn [bind]; apply bc_same. Qed.
Lemma neighbours_same : forall s n, neighbours (repeat s n) = repeat (s, s) (n - 1).
Proof. intros s [|n]; auto. simpl. rewrite Nat.sub_0_r. induction n; auto. cbn [repeat] in *. rewrite <- IHn. auto. Qed.
Lemma t_same : forall s n, 2 <= n -> get_model_stock_t (repeat s n) = Ok (removelast s ++ [1]).
Proof.
  intros s n H. unfold get_model_stock_t. rewrite neighbours_same. erewrite mapM_same; [|cbn [fst snd]; rewrite bc_same; simpl; reflexivity].
  cbn [bind]. rewrite stack_same by lia. reflexivity.
Qed.
Lemma numel_flat : forall s, numel (flatten s) = numel s.
Proof. intros. unfold flatten. simpl. lia. Qed.

Ltac shapes := repeat first
  [ rewrite bc_same | rewrite bc_nil_l | rewrite bc_nil_r | rewrite inplace_same | rewrite inplace_nil
  | progress unfold red_all, where_, weighted_sum_impl, red0 | progress cbn [bind fst snd tl] ].

(** All tensors have shape [s]; alpha is a number or a tensor of shape [s]; there are [n] models. *)
Definition keeps (f : shape -> shape -> shape -> result shape) : Prop :=
  forall s alpha, alpha = [] \/ alpha = s -> f s s alpha = Ok s.
Definition keeps_list (least : nat) (f : list shape -> result shape) : Prop :=
  forall s n, least <= n -> f (repeat s n) = Ok s.

Theorem C80_shapes_partial :
  keeps weighted_sum /\ keeps slerp /\ keeps add_difference /\ keeps geometric_sum /\ keeps add_cosine_a /\ keeps add_cosine_b /\
  keeps (fun a b alpha => train_difference_mask a b a alpha) /\ keeps (fun a b alpha => add_opposite_mask a b a alpha) /\
  keeps (fun a b alpha => add_strict_opposite_mask a b a alpha) /\ keeps select_max_delta /\
  keeps (fun a b _ => subtract a b) /\ keeps (fun a b _ => perpendicular_component a b) /\
  (forall inverted wide, keeps (fun a b _ => tensor_sum a b inverted wide)) /\
  keeps (fun a b _ => top_k_tensor_sum a b) /\ (forall f, keeps (fun a b _ => crossover a b f)) /\
  keeps (fun a _ _ => copy_distribution a) /\ (forall q, keeps (fun a _ _ => truncate_rank a q)) /\
  (forall n stiff, n <> 0 -> keeps (fun a b _ => clamp a (repeat b n) stiff)) /\
  keeps_list 1 n_average /\ keeps_list 1 ties_sum /\ keeps_list 1 geometric_median /\ keeps_list 1 dropout /\
  (forall stock, keeps_list 1 (fun l => ties_sum_extended l stock false)) /\
  keeps_list 1 (fun l => ties_sum_extended l true true) /\
  (forall stock, keeps_list 1 (fun l => ties_sum_with_dropout l stock false)) /\
  keeps_list 1 (fun l => ties_sum_with_dropout l true true).
Proof.
  assert (forall s n, 1 <= n -> ties_sum_deltas (repeat s n) = Ok (n :: s, s)) as TD.
  { intros s n H. unfold ties_sum_deltas. erewrite mapM_same.
    2: { unfold filter_top_k. shapes. reflexivity. }
    cbn [bind]. rewrite stack_same by lia. cbn [bind]. unfold red0. cbn [tl].
    destruct (bc_tl (n :: s)) as (_ & E). simpl tl in E. rewrite E. cbn [bind]. rewrite bc_same. reflexivity. }
  assert (keeps_list 1 geometric_median) as GM.
  { intros s n H. unfold geometric_median. rewrite repeat_length. destruct n; [lia|]. cbn [Nat.eqb].
    assert (weighted_average_tuple (repeat s (S n)) = Ok s) as W.
    { unfold weighted_average_tuple. erewrite mapM_same; [|apply bc_nil_r]. cbn [bind]. rewrite stack_same by lia. shapes. auto. }
    rewrite W. cbn [bind]. unfold distances. erewrite mapM_same; [|rewrite bc_same; simpl; reflexivity]. cbn [bind].
    rewrite stack_same by lia. shapes. auto. }
  assert (forall stock, keeps_list 1 (fun l => ties_sum_extended l stock false)) as TE.
  { intros stock s n H. unfold ties_sum_extended. rewrite TD by auto. cbn [bind unbind]. apply GM; auto. }
  assert (keeps_list 1 (fun l => ties_sum_extended l true true)) as TT.
  { intros s n H. unfold ties_sum_extended. rewrite TD by auto. shapes. auto. }
  assert (forall a b, keeps_list 1 (fun l => ties_sum_extended l a b) -> keeps_list 1 (fun l => ties_sum_with_dropout l a b)) as TW.
  { intros a b K s n H. unfold ties_sum_with_dropout. destruct (repeat s n) eqn:E.
    - destruct n; [lia|discriminate].
    - rewrite <- E. erewrite mapM_same; [|apply bc_same]. cbn [bind]. rewrite (K s n H). cbn [bind]. apply bc_nil_r. }
  repeat match goal with |- _ /\ _ => split end; auto.
  all: try (intros s alpha [-> | ->]; unfold weighted_sum, slerp, add_difference, geometric_sum, train_difference_mask, add_opposite_mask,
    add_strict_opposite_mask, select_max_delta, subtract, perpendicular_component, copy_distribution; shapes; reflexivity).
  - intros s alpha [-> | ->]; unfold add_cosine_a, add_cosine_generic; rewrite bc_same; cbn [bind]; unfold red0;
      destruct (bc_tl s) as (E & F); rewrite ?bc_nil_r, ?E; cbn [bind]; unfold weighted_sum_impl; rewrite ?E, ?F; shapes; auto.
  - intros s alpha [-> | ->]; unfold add_cosine_b, add_cosine_generic; rewrite bc_same; cbn [bind]; unfold red0, red_all;
      destruct (bc_tl s) as (E & F); rewrite ?bc_nil_r; cbn [bind]; rewrite ?bc_nil_r, ?E; cbn [bind]; unfold weighted_sum_impl; rewrite ?E, ?F; shapes; auto.
  - intros inverted wide [|n s] alpha _; unfold tensor_sum; [destruct wide; auto|]. rewrite Nat.eqb_refl. simpl negb.
    destruct inverted; rewrite inplace_same; auto.
  - intros s alpha _. unfold top_k_tensor_sum. shapes. rewrite Nat.ltb_irrefl. shapes. unfold reshape. rewrite numel_flat, Nat.eqb_refl. auto.
  - intros f s alpha _. unfold crossover. destruct f; shapes; auto.
  - intros q s alpha _. unfold truncate_rank. destruct s as [|m [|k s]]; auto. unfold matmul, reshape. rewrite !Nat.eqb_refl. cbn [bind].
    rewrite Nat.eqb_refl. cbn [bind]. replace (numel [m; numel (k :: s)]) with (numel (m :: k :: s)); [rewrite Nat.eqb_refl; auto|].
    unfold numel. cbn [fold_right]. lia.
  - intros n stiff H s alpha _. unfold clamp. rewrite reduce_same by auto. destruct stiff; shapes; auto.
    rewrite stack_same by auto. shapes. rewrite fold_same by (shapes; auto). shapes. auto.
  - intros s n H. unfold n_average. rewrite stack_same by lia. reflexivity.
  - intros s n H. unfold ties_sum. rewrite TD by auto. shapes. auto.
  - intros s n H. unfold dropout. destruct (repeat s n) eqn:E; [destruct n; [lia|discriminate]|].
    rewrite <- E. rewrite stack_same by lia. cbn [bind].
    assert (s0 = s) as -> by (destruct n; [lia|inversion E; auto]). rewrite shape_eqb_refl. simpl negb. shapes. auto.
Qed.

(** The methods that use the cosine similarity of the rows need two models, and keep the shape of tensors
    that have a dimension. *)
Theorem C80_stock_partial : forall (s : shape) n, 2 <= n -> s <> [] ->
  model_stock (repeat s n) = Ok s /\ ties_sum_extended (repeat s n) false true = Ok s /\ ties_sum_with_dropout (repeat s n) false true = Ok s.
Proof.
  intros s n H S. assert (model_stock (repeat s n) = Ok s) as M.
  { unfold model_stock, n_average. rewrite stack_same by lia. cbn [bind]. rewrite t_same by auto. cbn [bind red0 tl]. apply bc_ones. auto. }
  assert (ties_sum_extended (repeat s n) false true = Ok s) as T.
  { unfold ties_sum_extended, ties_sum_deltas. erewrite mapM_same.
    2: { unfold filter_top_k. shapes. reflexivity. }
    cbn [bind]. rewrite stack_same by lia. cbn [bind]. unfold red0. cbn [tl].
    destruct (bc_tl (n :: s)) as (_ & E). simpl tl in E. rewrite E. cbn [bind]. rewrite bc_same. cbn [bind unbind tl].
    rewrite t_same by auto. cbn [bind]. destruct (bc_ones s S) as (_ & ->). cbn [bind]. apply bc_same. }
  repeat split; auto. unfold ties_sum_with_dropout. destruct (repeat s n) eqn:E; [destruct n; [lia|discriminate]|].
  rewrite <- E in *. erewrite mapM_same; [|apply bc_same]. cbn [bind]. rewrite T. cbn [bind]. apply bc_nil_r.
Qed.

(** But model_stock makes a vector of one element of a number such as logit_scale; *)
Theorem C80_stock_refuted : forall n, 2 <= n -> model_stock (repeat [] n) = Ok [1] /\ ties_sum_extended (repeat [] n) false true = Ok [1].
Proof.
  intros n H. split.
  - unfold model_stock, n_average. rewrite stack_same by lia. cbn [bind]. rewrite t_same by auto. reflexivity.
  - unfold ties_sum_extended, ties_sum_deltas. erewrite mapM_same; [|reflexivity].
    cbn [bind]. rewrite stack_same by lia. cbn [bind]. unfold red0. cbn [tl]. rewrite bc_nil_r. cbn [bind]. rewrite bc_same. cbn [bind unbind tl].
    rewrite t_same by auto. reflexivity.
Qed.

(** select_max_white_delta raises for every matrix with at least two rows and two columns, and for every
    tensor of one element; on a column it gives a square, on a vector it keeps the shape; *)
Lemma white : forall s alpha, alpha = [] \/ alpha = s -> numel s <> 1 ->
  select_max_white_delta s s alpha = (let* p := bc alpha [numel s] in let* q := bc alpha [numel s] in let* c := bc p q in where_ c s s).
Proof.
  intros s alpha A N. unfold select_max_white_delta. shapes. unfold flatten.
  change (stack [[numel s]; [numel s]]) with (stack (repeat [numel s] 2)). rewrite stack_same by lia.
  cbn [bind rev app]. destruct (numel s) as [|[|k]] eqn:E; [| lia |]; unfold matmul; rewrite ?Nat.eqb_refl; cbn [bind rev app];
    rewrite ?Nat.eqb_refl; cbn [bind rev app]; rewrite ?Nat.eqb_refl; cbn [bind rev app Nat.eqb negb]; auto.
rewrite Nat.eqb_refl. reflexivity.
Qed.
Theorem C80_white_refuted :
  (forall r c, 2 <= r -> 2 <= c -> select_max_white_delta [r; c] [r; c] [] = Err RuntimeError) /\
  (forall s, numel s = 1 -> select_max_white_delta s s [] = Err RuntimeError) /\
  (forall r, 2 <= r -> select_max_white_delta [r; 1] [r; 1] [] = Ok [r; r]) /\
  (forall n, n <> 1 -> select_max_white_delta [n] [n] [] = Ok [n]).
Proof.
  split; [|split; [|split]].
  - intros r c R C. rewrite white; auto; [|simpl; nia]. shapes. cbn [numel fold_right]. unfold bc. cbn [rev app bc_rev bind].
    rewrite Nat.mul_1_r. destruct (r * c =? c) eqn:E; [apply Nat.eqb_eq in E; nia|].
    destruct (r * c =? 1) eqn:E1; [apply Nat.eqb_eq in E1; nia|]. destruct (c =? 1) eqn:E2; [apply Nat.eqb_eq in E2; lia|]. reflexivity.
  - intros s H. unfold select_max_white_delta. shapes. unfold flatten. rewrite H. reflexivity.
  - intros r R. rewrite white; auto; [|simpl; lia]. shapes. cbn [numel fold_right]. rewrite !Nat.mul_1_r. unfold bc. cbn [rev app bc_rev bind].
    destruct (r =? 1) eqn:E; [apply Nat.eqb_eq in E; lia|]. cbn [Nat.eqb bind rev app bc_rev]. rewrite Nat.eqb_refl, E. reflexivity.
  - intros n N. rewrite white; auto; [|simpl; lia]. shapes. cbn [numel fold_right]. rewrite Nat.mul_1_r. shapes. auto.
Qed.

(** and multiply_quotient needs alpha to be a tensor of the shape of the models: with a number it raises
    for every tensor that has dimensions. *)
Theorem C80_quotient_partial : forall s, multiply_quotient s s s s = Ok s.
Proof. intros. unfold multiply_quotient. shapes. auto. Qed.
Theorem C80_quotient_refuted : forall s, s <> [] -> multiply_quotient s s s [] = Err RuntimeError.
Proof.
  intros s H. unfold multiply_quotient. shapes. unfold inplace. rewrite bc_nil_l. cbn [bind].
  unfold shape_eqb. destruct (list_eq_dec Nat.eq_dec s []); [congruence|reflexivity].
Qed.

Example C80_case : slerp [640; 320; 3; 3] [640; 320; 3; 3] [] = Ok [640; 320; 3; 3] /\ model_stock (repeat [640; 320] 3) = Ok [640; 320] /\
  subtract [3; 4] [5; 4] = Err RuntimeError.
Proof. repeat split. Qed.

Print Assumptions C80_shapes_partial.
Print Assumptions C80_stock_partial.
Print Assumptions C80_stock_refuted.
Print Assumptions C80_white_refuted.
Print Assumptions C80_quotient_partial.
Print Assumptions C80_quotient_refuted.
