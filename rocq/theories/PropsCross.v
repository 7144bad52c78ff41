(** C79: crossover mixes a and b. *)
From Coq Require Import Reals List Bool Arith Lia Lra.
From Verif Require Import Base ModelNum ModelFilter ModelCross NumProofs PropsNum PropsFilter.
Import ListNotations.
Open Scope list_scope.
Open Scope R_scope.

(** ** What is known of the transforms: they are additive, and the second one undoes the first *)
Definition cadds (x y : list complex) : list complex := map2 cadd x y.
Record transforms (s : list nat) (F : vec -> list complex) (G : list complex -> vec) : Prop := {
  F_length : forall x, length x = numel s -> length (F x) = numel (dft_shape s);
  G_length : forall X, length X = numel (dft_shape s) -> length (G X) = numel s;
  F_add : forall x y, length x = numel s -> length y = numel s -> F (vadd x y) = cadds (F x) (F y);
  G_add : forall X Y, length X = numel (dft_shape s) -> length Y = numel (dft_shape s) -> G (cadds X Y) = vadd (G X) (G Y);
  G_F : forall x, length x = numel s -> G (F x) = x }.

Lemma map2_eq : forall A B C (f g : A -> B -> C) a b, (forall x y, f x y = g x y) -> map2 f a b = map2 g a b.
Proof. induction a; destruct b; simpl; intros; f_equal; auto. Qed.
Lemma mix_same : forall f A, length f = length A -> mix f A A = A.
Proof.
  unfold mix. induction f as [|k f IH]; destruct A as [|x A]; simpl; intros H; try discriminate; auto.
  rewrite IH by lia. f_equal. destruct x. unfold cadd, cscale. simpl. f_equal; ring.
Qed.
Lemma mix_length : forall f A B, length f = length A -> length A = length B -> length (mix f A B) = length A.
Proof. unfold mix. induction f; destruct A, B; simpl; intros; try discriminate; auto. Qed.
Lemma mix_swap : forall f A B, length f = length A -> length A = length B -> cadds (mix f A B) (mix f B A) = cadds A B.
Proof.
  unfold mix, cadds. induction f as [|k f IH]; destruct A as [|x A], B as [|y B]; simpl; intros H1 H2; try discriminate; auto.
  rewrite IH by lia. f_equal. destruct x, y. unfold cadd, cscale. simpl. f_equal; ring.
Qed.
Lemma mix_shift : forall f A B C, length f = length A -> length A = length B -> length A = length C ->
  mix f (cadds A C) (cadds B C) = cadds (mix f A B) C.
Proof.
  unfold mix, cadds. induction f as [|k f IH]; destruct A as [|x A], B as [|y B], C as [|z C]; simpl; intros H1 H2 H3; try discriminate; auto.
  rewrite IH by lia. f_equal. destruct x, y, z. unfold cadd, cscale. simpl. f_equal; ring.
Qed.
Lemma lerp_same : forall t a, map2 (lerp t) a a = a.
Proof. induction a; simpl; f_equal; auto. unfold lerp. ring. Qed.
Lemma lerp_swap : forall t a b, vadd (map2 (lerp t) a b) (map2 (lerp t) b a) = vadd a b.
Proof. unfold vadd. induction a as [|x a IH]; destruct b as [|y b]; simpl; auto. f_equal; auto. unfold lerp. ring. Qed.
Lemma lerp_shift : forall t a b c, length a = length b -> length a = length c ->
  map2 (lerp t) (vadd a c) (vadd b c) = vadd (map2 (lerp t) a b) c.
Proof.
  unfold vadd. induction a as [|x a IH]; destruct b as [|y b], c as [|z c]; simpl; intros H1 H2; try discriminate; auto.
  f_equal; auto. unfold lerp. ring.
Qed.
Lemma vadd_comm : forall a b, vadd a b = vadd b a.
Proof. unfold vadd. induction a; destruct b; simpl; f_equal; auto. ring. Qed.

Lemma filter_list : forall s alpha tilt l, 0 <= alpha <= 1 -> exists f, mapM (create_filter s alpha tilt) l = Ok f /\ length f = length l.
Proof.
  intros s alpha tilt l H. destruct (C59_filter s alpha tilt) as (E & _). induction l as [|i l (f & IH & L)]; simpl.
  - exists []. auto.
  - destruct (E H i) as (v & -> & _). simpl. rewrite IH. simpl. exists (v :: f). simpl. auto.
Qed.
Lemma flat_length : forall (l : list (list nat)) n, length (flat_map (fun i => map (cons i) l) (seq 0 n)) = (n * length l)%nat.
Proof.
  intros l n. generalize 0%nat. induction n; intros k; simpl; auto. rewrite app_length, map_length, IHn. auto.
Qed.
Lemma all_idx_length : forall s, length (all_idx s) = numel s.
Proof. induction s; simpl; auto. rewrite flat_length, IHs. auto. Qed.
Lemma vadd_length : forall a b, length a = length b -> length (vadd a b) = length a.
Proof. intros. apply map2_length; auto. Qed.

(** crossover gives a for alpha 0 and b for alpha 1, for alphas in between a tensor of the same size; mixing
    a with itself gives a; exchanging a and b exchanges what is taken and what is left; and adding a
    tensor to both adds it to the result. *)
Lemma crossover_laws : forall F G close shape, transforms shape (F shape) (G shape) -> forall a b, length a = numel shape -> length b = numel shape ->
  let cross := crossover close F G shape in
  (forall tilt, cross a b 0 tilt = Ok a /\ cross a b 1 tilt = Ok b) /\
  forall alpha tilt, 0 <= alpha <= 1 ->
    cross a a alpha tilt = Ok a /\
    exists v, cross a b alpha tilt = Ok v /\ length v = length a /\
      (tilt = 1 -> forall j, (j < length a)%nat -> at_ v j = (1 - alpha) * at_ a j + alpha * at_ b j) /\
      (close a b = close b a -> exists w, cross b a alpha tilt = Ok w /\ (alpha <> 0 -> alpha <> 1 -> vadd v w = vadd a b)) /\
      (forall c, length c = numel shape -> close (vadd a c) (vadd b c) = close a b ->
         cross (vadd a c) (vadd b c) alpha tilt = Ok (vadd v c)).
Proof.
  intros F G close shape T a b LA LB cross. unfold cross, crossover. split.
  { intros tilt. destruct (Req_EM_T 0 0); [|lra]. destruct (Req_EM_T 1 0); [lra|]. destruct (Req_EM_T 1 1); [auto|lra]. }
  intros alpha tilt R.
  destruct (Req_EM_T alpha 0) as [A0|A0].
  { split; auto. exists a. split; auto. split; auto. split; [intros _ j _; rewrite A0; ring|]. split; auto. intros _. exists b. split; [auto|intros H; contradiction]. }
  destruct (Req_EM_T alpha 1) as [A1|A1].
  { split; auto. exists b. split; auto. split; [lia|]. split; [intros _ j _; rewrite A1; ring|]. split; auto. intros _. exists a. split; auto. intros _ H; contradiction. }
  destruct (Req_EM_T tilt 1) as [T1|T1].
  { rewrite lerp_same. split; auto. eexists. split; [reflexivity|]. split; [apply map2_length; lia|]. split.
    { intros _ j J. rewrite (map2_nth _ _ _ (lerp alpha) a b j 0 0 0) by lia. unfold lerp. ring. } split.
    - intros _. eexists. split; [reflexivity|]. intros _ _. apply lerp_swap.
    - intros c LC _. f_equal. apply lerp_shift; lia. }
  destruct (filter_list (dft_shape shape) alpha tilt (all_idx (dft_shape shape)) R) as (f & E & L). rewrite all_idx_length in L. rewrite E. cbn [bind].
  pose proof (F_length _ _ _ T a LA) as LFA. pose proof (F_length _ _ _ T b LB) as LFB.
  split.
  { destruct (_ || _); [rewrite lerp_same; auto|]. rewrite mix_same by lia. rewrite (G_F _ _ _ T) by auto. auto. }
  destruct (length shape =? 0)%nat; cbn [orb].
  { eexists. split; [reflexivity|]. split; [apply map2_length; lia|]. split; [intros H; contradiction|]. split.
    - intros _. eexists. split; [reflexivity|]. intros _ _. apply lerp_swap.
    - intros c LC _. f_equal. apply lerp_shift; lia. }
  destruct (close a b) eqn:C.
  { eexists. split; [reflexivity|]. split; [apply map2_length; lia|]. split; [intros H; contradiction|]. split.
    - intros <-. eexists. split; [reflexivity|]. intros _ _. apply lerp_swap.
    - intros c LC ->. f_equal. apply lerp_shift; lia. }
  assert (length (mix f (F shape a) (F shape b)) = numel (dft_shape shape)) as LM by (rewrite mix_length; lia).
  eexists. split; [reflexivity|]. split; [rewrite (G_length _ _ _ T); auto; lia|]. split; [intros H; contradiction|]. split.
  - intros <-. eexists. split; [reflexivity|]. intros _ _.
    rewrite <- (G_add _ _ _ T); [|auto|rewrite mix_length; lia]. rewrite mix_swap by lia.
    rewrite (G_add _ _ _ T) by auto. rewrite !(G_F _ _ _ T); auto.
  - intros c LC ->. f_equal. pose proof (F_length _ _ _ T c LC) as LFC.
    rewrite !(F_add _ _ _ T) by auto. rewrite mix_shift by lia. rewrite (G_add _ _ _ T) by auto. rewrite (G_F _ _ _ T c); auto.
Qed.

(** alphas out of range are refused when a filter is needed *)
Theorem C79_alpha_range : forall F G close shape a b alpha tilt, ~ 0 <= alpha <= 1 -> tilt <> 1 -> shape <> [] -> close a b = false ->
  Forall (fun n => (0 < n)%nat) shape ->
  crossover close F G shape a b alpha tilt = Err ValueError.
Proof.
  intros F G close shape a b alpha tilt N T S C P. unfold crossover.
  destruct (Req_EM_T alpha 0); [lra|]. destruct (Req_EM_T alpha 1); [lra|]. destruct (Req_EM_T tilt 1); [lra|].
  rewrite C. destruct shape as [|d ds]; [congruence|]. cbn [length Nat.eqb orb].
  assert (forall s, Forall (fun n => (0 < n)%nat) s -> (0 < numel (dft_shape s))%nat) as Q.
  { induction s as [|m [|m' s] IH]; intros H; [simpl; lia| |].
    - simpl. lia.
    - inversion H; subst. change (dft_shape (m :: m' :: s)) with (m :: dft_shape (m' :: s)).
      change (numel (m :: dft_shape (m' :: s))) with (m * numel (dft_shape (m' :: s)))%nat. specialize (IH H3). nia. }
  specialize (Q _ P). rewrite <- all_idx_length in Q. destruct (all_idx _) as [|i l]; [simpl in Q; lia|].
  cbn [mapM]. destruct (C59_filter (dft_shape (d :: ds)) alpha tilt) as (_ & E & _). rewrite E by auto. reflexivity.
Qed.

(** ** "For a tensor without dimensions it is the weighted sum by alpha" is false: it is the weighted sum by
    [tilt], so that by default alpha is ignored, and with tilt 2 the result is not between a and b. *)
Theorem C79_crossover_refuted : forall F G close x y alpha tilt, alpha <> 0 -> alpha <> 1 -> tilt <> 1 ->
  crossover close F G [] [x] [y] alpha tilt = Ok [(1 - tilt) * x + tilt * y].
Proof.
  intros. unfold crossover. destruct (Req_EM_T alpha 0); [lra|]. destruct (Req_EM_T alpha 1); [lra|]. destruct (Req_EM_T tilt 1); [lra|].
  reflexivity.
Qed.
Example C79_ignored : forall F G close, crossover close F G [] [3] [5] (1 / 4) 0 = Ok [3] /\ crossover close F G [] [3] [5] (1 / 4) 2 = Ok [7].
Proof. intros. rewrite !C79_crossover_refuted by lra. split; do 2 f_equal; ring. Qed.

Print Assumptions C79_alpha_range.
Print Assumptions C79_crossover_refuted.
