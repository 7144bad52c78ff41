(** C115: on a machine with CUDA, the tensors of a merge are complete when it returns.  Read with ModelCuda.v. *)
From Coq Require Import String List Bool Arith ZArith Lia.
From Verif Require Import Base ModelCuda.
Import ListNotations.
Open Scope list_scope.
Open Scope nat_scope.

(** ** Spec *)
Section Spec.
  Context {V : Type}.
  (** the tensors that the operations write *)
  Definition written (l : list (op V)) : list nat := map o_dst l.
  (** [l] computes on tensors of its own and on tensors that are not among [all] *)
  Definition in_order (all : list nat) (l : list (op V)) : Prop :=
    forall pre o post x, l = pre ++ o :: post -> In x (o_srcs o) -> In x (written pre) \/ ~ In x all.
  (** the value of a task, computed alone and one operation after the other *)
  Definition value_of (m0 : mem V) (c : task V) : V := fold_left run_op (c_ops c) m0 (c_res c).
  (** all the tensors that a merge makes *)
  Definition made (work : list (list (task V))) : list nat :=
    concat (map (fun c => written (c_ops c) ++ [c_copy c; c_flag c]) (concat work)).
  (** every operation makes a tensor of its own, and a task uses what it made before and the inputs *)
  Definition well_formed (work : list (list (task V))) : Prop :=
    NoDup (made work) /\
    forall c, In c (concat work) -> in_order (made work) (c_ops c) /\ (In (c_res c) (written (c_ops c)) \/ ~ In (c_res c) (made work)).
  (** what the tasks use *)
  Definition used (work : list (list (task V))) (x : nat) : Prop :=
    In x (made work) \/ exists c, In c (concat work) /\ (x = c_res c \/ exists o, In o (c_ops c) /\ In x (o_srcs o)).
  (** the streams of the workers are new, and nothing that the tasks use is still being computed on other streams *)
  Definition inputs_ready (work : list (list (task V))) (queues : nat -> list (op V)) : Prop :=
    (forall t, t < length work -> queues t = []) /\
    forall i o, In o (queues i) -> ~ used work (o_dst o).
End Spec.

(** ** Running operations in order *)
Lemma NoDup_app_remove_l : forall A (l l' : list A), NoDup (l ++ l') -> NoDup l'.
Proof. induction l as [|a l IH]; simpl; auto. intros l' H. inversion H; auto. Qed.
Lemma NoDup_app_remove_r : forall A (l l' : list A), NoDup (l ++ l') -> NoDup l.
Proof.
  induction l as [|a l IH]; simpl; intros l' H; constructor; inversion H; subst; eauto. intros Q. apply H2, in_or_app; auto.
Qed.
Section Order.
  Context {V : Type}.
  Lemma run_other : forall (l : list (op V)) m x, ~ In x (written l) -> fold_left run_op l m x = m x.
  Proof.
    induction l as [|o l IH]; intros m x H; simpl; auto. simpl in H. rewrite IH by tauto. unfold run_op.
    destruct (Nat.eqb_spec x (o_dst o)); auto. subst; tauto.
  Qed.
  Lemma run_at : forall (pre : list (op V)) o post m, NoDup (written (pre ++ o :: post)) ->
    (forall x, In x (o_srcs o) -> ~ In x (written (o :: post))) ->
    let F := fold_left run_op (pre ++ o :: post) m in F (o_dst o) = o_fun o (map F (o_srcs o)).
  Proof.
    intros pre o post m N H F. unfold F. rewrite fold_left_app. cbn [fold_left]. set (mp := fold_left run_op pre m).
    unfold written in N. rewrite map_app in N. apply NoDup_app_remove_l in N. inversion N as [|? ? N1 _]; subst.
    rewrite run_other by exact N1. unfold run_op at 1. rewrite Nat.eqb_refl. f_equal. apply map_ext_in. intros x Hx.
    specialize (H x Hx). simpl in H. rewrite run_other by (intros Q; apply H; right; exact Q). unfold run_op.
    destruct (Nat.eqb_spec x (o_dst o)); auto. subst; tauto.
  Qed.
End Order.

(** ** The invariant *)
Section Inv.
  Context {V : Type} (other : V) (finite : V -> V) (to_cpu check_finite : bool).
  Context (m0 : mem V) (q0 : nat -> list (op V)) (work : list (list (task V))).
  Hypothesis WF : well_formed work.
  Hypothesis RD : inputs_ready work q0.
  Notation ops := (task_ops other finite to_cpu check_finite).
  Notation prog := (program other finite to_cpu check_finite).
  Notation res := (result_of to_cpu).

  Definition of_worker (t : nat) : list (op V) := concat (map ops (nth t work [])).
  Definition plan (t : nat) : list (instr V) := concat (map prog (nth t work [])).
  Definition all_ops : list (op V) := concat (map ops (concat work)).
  Definition final : mem V := fold_left run_op all_ops m0.
  Definition launches (p : list (instr V)) : list (op V) := flat_map (fun i => match i with Launch o => [o] | _ => [] end) p.

  Lemma launches_app : forall p q, launches (p ++ q) = launches p ++ launches q.
  Proof. intros. apply flat_map_app. Qed.
  Lemma launches_map : forall l, launches (map Launch l) = l.
  Proof. induction l; simpl; f_equal; auto. Qed.
  Lemma launches_prog : forall c, launches (prog c) = ops c.
  Proof.
    intros c. unfold program, task_ops. rewrite launches_app, launches_map. f_equal. destruct to_cpu, check_finite; reflexivity.
  Qed.
  Lemma launches_plan : forall t, launches (plan t) = of_worker t.
  Proof.
    intros t. unfold plan, of_worker. induction (nth t work []) as [|c l IH]; simpl; auto. rewrite launches_app, launches_prog, IH. reflexivity.
  Qed.

  Lemma ops_written : forall c, incl (written (ops c)) (written (c_ops c) ++ [c_copy c; c_flag c]).
  Proof.
    intros c x. unfold written, task_ops. rewrite !map_app, !in_app_iff. destruct to_cpu, check_finite; simpl; tauto.
  Qed.
  Lemma ops_written_nodup : forall c, NoDup (written (c_ops c) ++ [c_copy c; c_flag c]) -> NoDup (written (ops c)).
  Proof.
    intros c H. unfold written, task_ops in *. rewrite !map_app. destruct to_cpu, check_finite; simpl; auto.
    - change [c_copy c; c_flag c] with ([c_copy c] ++ [c_flag c]) in H. rewrite app_assoc in H. apply NoDup_app_remove_r in H. exact H.
    - change [c_copy c; c_flag c] with ([c_copy c] ++ [c_flag c]) in H. apply NoDup_remove_1 in H. exact H.
    - rewrite app_nil_r. apply NoDup_app_remove_r in H. exact H.
  Qed.
  Lemma NoDup_parts : forall (A B : Type) (f g : A -> list B) l, (forall a, incl (f a) (g a)) -> (forall a, NoDup (g a) -> NoDup (f a)) ->
    NoDup (concat (map g l)) -> NoDup (concat (map f l)).
  Proof.
    intros A B f g l Hi Hn. induction l as [|a l IH]; simpl; auto. intros H.
    assert (N1 := NoDup_app_remove_l _ _ _ H). assert (N2 := NoDup_app_remove_r _ _ _ H).
    assert (D : forall x, In x (g a) -> In x (concat (map g l)) -> False).
    { clear -H. induction (g a) as [|y m IHm]; intros x [] Hx; simpl in H; inversion H as [|? ? Hy Hm]; subst.
      - apply Hy, in_or_app. auto.
      - apply (IHm Hm x); auto. }
    assert (I : incl (concat (map f l)) (concat (map g l))).
    { intros x Hx. apply in_concat in Hx as (u & Hu & Hx). apply in_map_iff in Hu as (b & <- & Hb). apply in_concat. exists (g b).
      split; [apply in_map; auto|apply Hi; auto]. }
    specialize (IH N1). specialize (Hn a N2). clear -IH Hn D I Hi. revert Hn. assert (S : incl (f a) (g a)) by apply Hi. revert S.
    induction (f a) as [|y m IHm]; intros S Hn; simpl; auto. inversion Hn as [|? ? Hy Hm]; subst. constructor.
    - intros Q. apply in_app_or in Q as [Q|Q]; auto. apply (D y); [apply S; left; auto|apply I; auto].
    - apply IHm; auto. intros z Hz. apply S. right; auto.
  Qed.
  Lemma concat_written : forall l, written (concat (map ops l)) = concat (map (fun c => written (ops c)) l).
  Proof. unfold written. induction l; simpl; auto. rewrite map_app. f_equal. auto. Qed.
  Lemma all_nodup : NoDup (written all_ops).
  Proof.
    unfold all_ops. rewrite concat_written. apply (NoDup_parts _ _ _ (fun c => written (c_ops c) ++ [c_copy c; c_flag c])).
    - exact ops_written.
    - exact ops_written_nodup.
    - apply WF.
  Qed.
  Lemma all_made : incl (written all_ops) (made work).
  Proof.
    intros x. unfold all_ops. rewrite concat_written. unfold made. intros H. apply in_concat in H as (u & Hu & Hx).
    apply in_map_iff in Hu as (c & <- & Hc). apply in_concat. eexists. split; [apply in_map_iff; exists c; split; [reflexivity|auto]|apply ops_written; auto].
  Qed.
  (** a task's operations, with the copy and the check, are in order too *)
  Lemma ops_in_order : forall c, In c (concat work) -> in_order (made work) (ops c).
  Proof.
    intros c Hc. destruct WF as (N & W). destruct (W c Hc) as (O & R). clear W.
    assert (A : forall (l : list (op V)) o0, in_order (made work) l -> (forall x, In x (o_srcs o0) -> In x (written l) \/ ~ In x (made work)) -> in_order (made work) (l ++ [o0])).
    { clear. intros l o0 H G pre o post x E Hx. destruct (exists_last (l := o :: post)) as (p' & z & Ez); [discriminate|].
      rewrite Ez, app_assoc in E. apply app_inj_tail in E as (E & <-). destruct p' as [|y p'].
      - rewrite app_nil_r in E. subst pre. simpl in Ez. inversion Ez; subst. auto.
      - simpl in Ez. inversion Ez; subst y post. apply (H pre o p' x); auto. }
    assert (R1 : forall (f : list V -> V) d, in_order (made work) (c_ops c ++ [Op d [c_res c] f])).
    { intros f d. apply A; auto. intros x [<-|[]]. exact R. }
    unfold task_ops. destruct to_cpu, check_finite; simpl.
    - change [copy_op other c; flag_op other finite c (c_copy c)] with ([copy_op other c] ++ [flag_op other finite c (c_copy c)]). rewrite app_assoc.
      apply A; [apply R1|]. intros x [<-|[]]. left. unfold written. rewrite map_app. apply in_or_app. right. left. reflexivity.
    - apply R1.
    - apply R1.
    - rewrite app_nil_r. exact O.
  Qed.

  (** the tensors are the final ones once the operations that make them have run *)
  Lemma src_early : forall pre o post x, all_ops = pre ++ o :: post -> In x (o_srcs o) -> ~ In x (written (o :: post)).
  Proof.
    intros pre o post x E Hx Q.
    assert (G : forall l, incl l (concat work) -> forall pre o post x, concat (map ops l) = pre ++ o :: post -> In x (o_srcs o) -> In x (written pre) \/ ~ In x (made work)).
    { clear pre o post x E Hx Q. induction l as [|c l IH]; intros Hl pre o post x E Hx; [destruct pre; discriminate|]. simpl in E.
      assert (C : (exists q, ops c = pre ++ o :: q) \/ exists p, pre = ops c ++ p /\ concat (map ops l) = p ++ o :: post).
      { revert E. generalize (concat (map ops l)) as r. generalize (ops c) as a. clear. intros a r E. revert pre E. induction a as [|y a IHa]; intros pre E; simpl in *; [right; eauto|].
        destruct pre as [|z pre]; simpl in E; inversion E; subst; [left; exists a; auto|]. destruct (IHa pre H1) as [(q & ->)|(p & -> & Q)]; [left; exists q; auto|right; exists p; auto]. }
      destruct C as [(q & C)|(p & -> & C)].
      - apply (ops_in_order c (Hl c (or_introl eq_refl)) pre o q x C Hx).
      - destruct (IH (fun z Hz => Hl z (or_intror Hz)) p o post x C Hx) as [I|I]; auto. left. unfold written in *. rewrite map_app. apply in_or_app. auto. }
    destruct (G (concat work) (fun _ H => H) pre o post x E Hx) as [I|I].
    - pose proof all_nodup as N. rewrite E in N. unfold written in *. rewrite map_app in N. clear -N I Q.
      induction pre as [|y pre IH]; simpl in *; [tauto|]. inversion N as [|? ? Ny Np]; subst. destruct I as [E1|I]; [apply Ny; rewrite E1; apply in_or_app; auto|auto].
    - apply I, all_made. rewrite E. unfold written in *. rewrite map_app. apply in_or_app. auto.
  Qed.
  Lemma final_at : forall o, In o all_ops -> final (o_dst o) = o_fun o (map final (o_srcs o)).
  Proof.
    intros o H. apply in_split in H as (pre & post & E). unfold final. rewrite E. apply run_at.
    - rewrite <- E. apply all_nodup.
    - intros x Hx. apply (src_early pre o post x E Hx).
  Qed.

  Lemma of_worker_in : forall t o, In o (of_worker t) -> t < length work /\ In o all_ops.
  Proof.
    intros t o H. unfold of_worker in H. destruct (Nat.lt_ge_cases t (length work)) as [L|L]; [|rewrite nth_overflow in H by auto; destruct H].
    split; auto. apply in_concat in H as (u & Hu & Ho). apply in_map_iff in Hu as (c & <- & Hc). unfold all_ops. apply in_concat. exists (ops c). split; auto.
    apply in_map. apply in_concat. exists (nth t work []). split; auto. apply nth_In; auto.
  Qed.
  (** nothing an operation uses is made by a later one of its worker or by another worker *)
  Lemma all_split : forall t, t < length work -> exists A B, all_ops = A ++ of_worker t ++ B /\ forall t', t' <> t -> incl (of_worker t') (A ++ B).
  Proof.
    intros t L. destruct (nth_split work [] L) as (w1 & w2 & E & L1).
    exists (concat (map ops (concat w1))), (concat (map ops (concat w2))). unfold all_ops, of_worker. split.
    - rewrite E at 1. rewrite concat_app. simpl. rewrite !map_app, !concat_app. reflexivity.
    - intros t' N o Ho. apply in_concat in Ho as (u & Hu & Ho). apply in_map_iff in Hu as (c & <- & Hc).
      apply in_or_app. assert (Q : In c (concat w1) \/ In c (concat w2)).
      { rewrite E in Hc. destruct (Nat.lt_ge_cases t' (length w1)) as [M|M].
        - rewrite app_nth1 in Hc by auto. left. apply in_concat. eexists. split; [apply nth_In; exact M|exact Hc].
        - rewrite app_nth2 in Hc by auto. right. destruct (t' - length w1) as [|k] eqn:K; [exfalso; lia|]. simpl in Hc.
          apply in_concat. destruct (Nat.lt_ge_cases k (length w2)) as [M2|M2]; [|rewrite nth_overflow in Hc by auto; destruct Hc].
          eexists. split; [apply nth_In; exact M2|exact Hc]. }
      destruct Q as [Q|Q]; [left|right]; apply in_concat; exists (ops c); auto using in_map.
  Qed.
  Lemma src_done : forall t done o rest x, of_worker t = done ++ o :: rest -> In x (o_srcs o) ->
    forall t' o', (t' <> t -> In o' (of_worker t')) -> (t' = t -> In o' (o :: rest)) -> o_dst o' <> x.
  Proof.
    intros t done o rest x E Hx t' o' H1 H2 D.
    assert (L : t < length work /\ In o all_ops) by (apply of_worker_in; rewrite E; apply in_or_app; right; left; auto). destruct L as (L & _).
    destruct (all_split t L) as (A & B & EA & HO).
    assert (EA' : all_ops = (A ++ done) ++ o :: (rest ++ B)) by (rewrite EA, E, <- !app_assoc; reflexivity).
    destruct (Nat.eq_dec t' t) as [->|N].
    - apply (src_early _ _ _ x EA' Hx). rewrite <- D. unfold written. specialize (H2 eq_refl).
      change (In (o_dst o') (map o_dst ((o :: rest) ++ B))). rewrite map_app. apply in_or_app. left. apply in_map; auto.
    - specialize (H1 N). pose proof (HO t' N o' H1) as Q. apply in_app_or in Q as [Q|Q].
      + (* made by an earlier worker: so not by this task, and it is an input of the task that others make *)
        assert (G : in_order (made work) (of_worker t)).
        { unfold of_worker. assert (I : incl (nth t work []) (concat work)) by (intros c Hc; apply in_concat; eexists; split; [apply nth_In; exact L|exact Hc]).
          revert I. induction (nth t work []) as [|c l IHl]; intros I; simpl; [intros [|? ?] ? ? ? Z; discriminate|].
          intros p y q z Ez Hz.
          assert (C : (exists r, ops c = p ++ y :: r) \/ exists p', p = ops c ++ p' /\ concat (map ops l) = p' ++ y :: q).
          { revert Ez. generalize (concat (map ops l)) as r. generalize (ops c) as a. clear. intros a r E. revert p E. induction a as [|u a IHa]; intros p E; simpl in *; [right; eauto|].
            destruct p as [|v p]; simpl in E; inversion E; subst; [left; exists a; auto|]. destruct (IHa p H1) as [(s & ->)|(s & -> & Q)]; [left; exists s; auto|right; exists s; auto]. }
          destruct C as [(r & C)|(p' & -> & C)].
          - apply (ops_in_order c (I c (or_introl eq_refl)) p y r z C Hz).
          - destruct (IHl (fun u Hu => I u (or_intror Hu)) p' y q z C Hz) as [K|K]; auto. left. unfold written in *. rewrite map_app. apply in_or_app. auto. }
        destruct (G done o rest x E Hx) as [K|K].
        * pose proof all_nodup as ND. rewrite EA, E in ND. unfold written in *. rewrite !map_app in ND. rewrite <- D in K. apply (in_map o_dst) in Q.
          clear -ND K Q. induction (map o_dst A) as [|a l IH]; [destruct Q|]. simpl in ND. inversion ND as [|? ? Na Nl]; subst.
          destruct Q as [E1|Q]; [apply Na; rewrite E1; apply in_or_app; right; apply in_or_app; left; apply in_or_app; auto|auto].
        * apply K. rewrite <- D. apply all_made. rewrite EA. unfold written. apply in_map. apply in_or_app. auto.
      + apply (src_early _ _ _ x EA' Hx). rewrite <- D. unfold written. change (In (o_dst o') (map o_dst ((o :: rest) ++ B))).
        rewrite map_app. apply in_or_app. right. apply in_map; auto.
  Qed.

  (** a launch is followed by a wait before anything is stored *)
  Fixpoint good (p : list (instr V)) : Prop :=
    match p with
    | [] => True
    | Launch _ :: p' => (exists ls q, p' = map Launch ls ++ Sync :: q) /\ good p'
    | _ :: p' => good p'
    end.
  Definition waits (p : list (instr V)) : Prop := exists ls q, p = map Launch ls ++ Sync :: q.

  Record inv (s : state V) : Prop := Inv {
    i_split : forall t, t < length work -> exists done, of_worker t = done ++ st_queue s t ++ launches (st_prog s t);
    i_prog : forall t, exists past, plan t = past ++ st_prog s t /\ forall k l, In (Store k l) past -> In (k, l) (st_out s);
    i_queue : forall t, length work <= t -> incl (st_queue s t) (q0 t);
    i_mem : forall x, used work x -> (exists t o, t < length work /\ In o (st_queue s t ++ launches (st_prog s t)) /\ o_dst o = x) \/ st_mem s x = final x;
    i_out : forall k l, In (k, l) (st_out s) -> exists t, In (Store k l) (plan t);
    i_good : to_cpu || check_finite = true -> forall t, good (st_prog s t) /\ (t < length work -> st_queue s t = [] \/ waits (st_prog s t)) }.

  Lemma good_prog : to_cpu || check_finite = true -> forall c q, good q -> good (prog c ++ q).
  Proof.
    intros H c q Hq. unfold program. induction (c_ops c) as [|o l IH]; simpl.
    - destruct to_cpu, check_finite; simpl in *; try discriminate; repeat split; auto; exists []; eexists; reflexivity.
    - split; auto. clear IH Hq. destruct to_cpu, check_finite; simpl in *; try discriminate.
      + exists (l ++ [copy_op other c]). eexists. rewrite map_app, <- !app_assoc. simpl. reflexivity.
      + exists (l ++ [copy_op other c]). eexists. rewrite map_app, <- !app_assoc. simpl. reflexivity.
      + exists (l ++ [flag_op other finite c (c_res c)]). eexists. rewrite map_app, <- !app_assoc. simpl. reflexivity.
  Qed.
  Lemma plan_out : forall t, length work <= t -> plan t = [].
  Proof. intros t H. unfold plan. rewrite nth_overflow by auto. reflexivity. Qed.
  Lemma inv_start : inv (start other finite to_cpu check_finite m0 q0 work).
  Proof.
    destruct RD as (R1 & R2). constructor; cbn [start st_mem st_queue st_prog st_out].
    - intros t L. exists []. rewrite (R1 t L). simpl. symmetry. apply launches_plan.
    - intros t. exists []. split; [reflexivity|intros k l []].
    - intros t _ o H. exact H.
    - intros x Hx. destruct (in_dec Nat.eq_dec x (written all_ops)) as [Q|Q].
      + left. apply in_map_iff in Q as (o & D & Ho). unfold all_ops in Ho. apply in_concat in Ho as (u & Hu & Ho). apply in_map_iff in Hu as (c & <- & Hc).
        apply in_concat in Hc as (w & Hw & Hc). apply (In_nth _ _ []) in Hw as (t & L & <-). exists t, o. split; auto. split; auto.
        apply in_or_app. right. fold (plan t). rewrite launches_plan. unfold of_worker. apply in_concat. exists (ops c). auto using in_map.
      + right. unfold final. rewrite run_other by auto. reflexivity.
    - intros k l [].
    - intros H t. split; [|intros L; left; auto]. induction (nth t work []) as [|c l IH]; simpl; auto. apply good_prog; auto.
  Qed.

  Lemma upd_same : forall A (f : nat -> A) i x, upd f i x i = x.
  Proof. intros. unfold upd. rewrite Nat.eqb_refl. reflexivity. Qed.
  Lemma upd_other : forall A (f : nat -> A) i x j, j <> i -> upd f i x j = f j.
  Proof. intros A f i x j H. unfold upd. apply Nat.eqb_neq in H. rewrite H. reflexivity. Qed.

  Lemma worker_of : forall s t i p, inv s -> st_prog s t = i :: p -> t < length work.
  Proof.
    intros s t i p I E. destruct (Nat.lt_ge_cases t (length work)) as [L|L]; auto. exfalso.
    destruct (i_prog s I t) as (past & P & _). rewrite plan_out, E in P by auto. destruct past; discriminate.
  Qed.

  Lemma inv_step : forall s s', inv s -> step s s' -> inv s'.
  Proof.
    intros s s' I H. destruct H as [s t o p E|s t p E Q|s t k l p E|s i o q E].
    - pose proof (worker_of s t _ _ I E) as L.
      assert (X : forall t', upd (st_queue s) t (st_queue s t ++ [o]) t' ++ launches (upd (st_prog s) t p t') = st_queue s t' ++ launches (st_prog s t')).
      { intros t'. destruct (Nat.eq_dec t' t) as [->|N]; [|rewrite !upd_other by auto; reflexivity]. rewrite !upd_same, E, <- app_assoc. reflexivity. }
      constructor; cbn [st_mem st_queue st_prog st_out].
      + intros t' L'. rewrite X. apply (i_split s I t' L').
      + intros t'. destruct (i_prog s I t') as (past & P & S). destruct (Nat.eq_dec t' t) as [->|N]; [|rewrite upd_other by auto; eauto].
        rewrite upd_same. exists (past ++ [Launch o]). rewrite P, E, <- app_assoc. split; auto. intros k l Hk. apply in_app_or in Hk as [Hk|[Hk|[]]]; [eauto|discriminate].
      + intros t' L'. rewrite upd_other by lia. apply (i_queue s I t' L').
      + intros x Hx. destruct (i_mem s I x Hx) as [(t' & o' & L' & Ho & D)|M]; auto. left. exists t', o'. rewrite X. auto.
      + apply (i_out s I).
      + intros W t'. destruct (i_good s I W t') as (G & K). destruct (Nat.eq_dec t' t) as [->|N]; [|rewrite !upd_other by auto; auto].
        rewrite !upd_same. rewrite E in G. simpl in G. destruct G as (G1 & G2). split; auto.
    - pose proof (worker_of s t _ _ I E) as L. constructor; cbn [st_mem st_queue st_prog st_out].
      + intros t' L'. destruct (i_split s I t' L') as (done & D). exists done. destruct (Nat.eq_dec t' t) as [->|N]; [|rewrite upd_other by auto; auto].
        rewrite upd_same. rewrite E in D. exact D.
      + intros t'. destruct (i_prog s I t') as (past & P & S). destruct (Nat.eq_dec t' t) as [->|N]; [|rewrite upd_other by auto; eauto].
        rewrite upd_same. exists (past ++ [Sync]). rewrite P, E, <- app_assoc. split; auto. intros k l Hk. apply in_app_or in Hk as [Hk|[Hk|[]]]; [eauto|discriminate].
      + apply (i_queue s I).
      + intros x Hx. destruct (i_mem s I x Hx) as [(t' & o' & L' & Ho & D)|M]; auto. left. exists t', o'. split; auto. split; auto.
        destruct (Nat.eq_dec t' t) as [->|N]; [|rewrite upd_other by auto; auto]. rewrite upd_same. rewrite E in Ho. exact Ho.
      + apply (i_out s I).
      + intros W t'. destruct (i_good s I W t') as (G & K). destruct (Nat.eq_dec t' t) as [->|N]; [|rewrite !upd_other by auto; auto].
        rewrite upd_same. rewrite E in G. simpl in G. split; auto.
    - pose proof (worker_of s t _ _ I E) as L. constructor; cbn [st_mem st_queue st_prog st_out].
      + intros t' L'. destruct (i_split s I t' L') as (done & D). exists done. destruct (Nat.eq_dec t' t) as [->|N]; [|rewrite upd_other by auto; auto].
        rewrite upd_same. rewrite E in D. exact D.
      + intros t'. destruct (i_prog s I t') as (past & P & S). destruct (Nat.eq_dec t' t) as [->|N].
        * rewrite upd_same. exists (past ++ [Store k l]). rewrite P, E, <- app_assoc. split; auto. intros k' l' Hk. apply in_app_or in Hk as [Hk|[Hk|[]]]; [right; auto|].
          left. inversion Hk; auto.
        * rewrite upd_other by auto. exists past. split; auto. intros k' l' Hk. right; auto.
      + apply (i_queue s I).
      + intros x Hx. destruct (i_mem s I x Hx) as [(t' & o' & L' & Ho & D)|M]; auto. left. exists t', o'. split; auto. split; auto.
        destruct (Nat.eq_dec t' t) as [->|N]; [|rewrite upd_other by auto; auto]. rewrite upd_same. rewrite E in Ho. exact Ho.
      + intros k' l' [Hk|Hk]; [|apply (i_out s I); auto]. inversion Hk; subst. exists t. destruct (i_prog s I t) as (past & P & _). rewrite P, E.
        apply in_or_app. right. left. auto.
      + intros W t'. destruct (i_good s I W t') as (G & K). destruct (Nat.eq_dec t' t) as [->|N]; [|rewrite !upd_other by auto; auto].
        rewrite upd_same. rewrite E in G, K. simpl in G. split; auto. intros _. destruct (K L) as [K'|(ls & r & K')]; auto. exfalso. destruct ls; discriminate.
    - constructor; cbn [st_mem st_queue st_prog st_out].
      + intros t' L'. destruct (i_split s I t' L') as (done & D). destruct (Nat.eq_dec t' i) as [->|N]; [|rewrite upd_other by auto; eauto].
        rewrite upd_same. rewrite E in D. exists (done ++ [o]). rewrite D, <- !app_assoc. reflexivity.
      + apply (i_prog s I).
      + intros t' L'. destruct (Nat.eq_dec t' i) as [->|N]; [|rewrite upd_other by auto; apply (i_queue s I); auto].
        rewrite upd_same. intros o' Ho. apply (i_queue s I i L'). rewrite E. right; auto.
      + intros x Hx. destruct (Nat.lt_ge_cases i (length work)) as [L|L].
        * destruct (i_split s I i L) as (done & D). rewrite E in D. simpl in D.
          unfold run_op. destruct (Nat.eqb_spec x (o_dst o)) as [->|N].
          { right. rewrite final_at by (eapply of_worker_in; rewrite D; apply in_or_app; right; left; reflexivity). f_equal. apply map_ext_in. intros y Hy.
            assert (U : used work y).
            { assert (J : In o (of_worker i)) by (rewrite D; apply in_or_app; right; left; auto).
              unfold of_worker in J. apply in_concat in J as (u & Hu & Ho). apply in_map_iff in Hu as (c & <- & Hc).
              assert (Cw : In c (concat work)) by (apply in_concat; eexists; split; [apply nth_In; exact L|exact Hc]).
              unfold task_ops in Ho. apply in_app_or in Ho as [Ho|Ho]; [right; exists c; split; eauto|].
              assert (Z : y = c_res c \/ y = c_copy c).
              { destruct to_cpu, check_finite; simpl in Ho; repeat (destruct Ho as [<-|Ho]; [simpl in Hy; tauto || (destruct Hy as [<-|[]]; auto)|]); destruct Ho. }
              destruct Z as [->| ->]; [right; exists c; auto|left]. unfold made. apply in_concat. exists (written (c_ops c) ++ [c_copy c; c_flag c]).
              split; [apply in_map_iff; exists c; auto|apply in_or_app; right; left; auto]. }
            destruct (i_mem s I y U) as [(t' & o' & L' & Ho & Dy)|M]; auto. exfalso.
            refine (src_done i done o _ y D Hy t' o' _ _ Dy).
            - intros _. destruct (i_split s I t' L') as (d' & D'). rewrite D'. apply in_or_app. auto.
            - intros ->. rewrite E in Ho. exact Ho. }
          { destruct (i_mem s I x Hx) as [(t' & o' & L' & Ho & Dx)|M]; auto. left. exists t', o'. split; auto. split; auto.
            destruct (Nat.eq_dec t' i) as [->|N']; [|rewrite upd_other by auto; auto]. rewrite upd_same. rewrite E in Ho. simpl in Ho. destruct Ho as [->|Ho]; auto. congruence. }
        * assert (K : ~ used work (o_dst o)) by (destruct RD as (_ & R2); apply (R2 i), (i_queue s I i L); rewrite E; left; auto).
          unfold run_op. destruct (Nat.eqb_spec x (o_dst o)) as [->|N]; [tauto|].
          destruct (i_mem s I x Hx) as [(t' & o' & L' & Ho & Dx)|M]; auto. left. exists t', o'. split; auto. split; auto. rewrite upd_other by lia. auto.
      + apply (i_out s I).
      + intros W t'. destruct (i_good s I W t') as (G & K). split; auto. intros L'. destruct (Nat.eq_dec t' i) as [->|N]; [|rewrite upd_other by auto; auto].
        right. destruct (K L') as [K'|K']; auto. congruence.
  Qed.
  Lemma inv_steps : forall s s', steps s s' -> inv s -> inv s'.
  Proof. intros s s' H. induction H; intros I; auto. eapply inv_step; [apply IHsteps, I|eassumption]. Qed.

  Lemma value_final : forall c, In c (concat work) -> value_of m0 c = final (c_res c) /\ final (res c) = final (c_res c).
  Proof.
    intros c Hc. destruct WF as (N & W). destruct (W c Hc) as (O & R).
    assert (IA : incl (c_ops c) all_ops).
    { intros o Ho. unfold all_ops. apply in_concat. exists (ops c). split; [apply in_map; auto|]. unfold task_ops. apply in_or_app. auto. }
    assert (UN : forall x, ~ In x (made work) -> final x = m0 x) by (intros x Hx; apply run_other; intros Q; apply Hx, all_made, Q).
    assert (G : forall l r, c_ops c = l ++ r -> forall x, In x (written l) \/ ~ In x (made work) -> fold_left run_op l m0 x = final x).
    { induction l as [|o l IH] using rev_ind; intros r E x Hx; [destruct Hx as [[]|Hx]; simpl; symmetry; auto|].
      rewrite fold_left_app. cbn [fold_left]. rewrite <- app_assoc in E. simpl in E. unfold run_op at 1. destruct (Nat.eqb_spec x (o_dst o)) as [->|Nx].
      - rewrite final_at by (apply IA; rewrite E; apply in_or_app; right; left; auto). f_equal. apply map_ext_in. intros y Hy.
        apply (IH (o :: r) E). apply (O l o r y E Hy).
      - apply (IH (o :: r) E). destruct Hx as [Hx|Hx]; auto. left. unfold written in Hx. rewrite map_app in Hx. apply in_app_or in Hx as [Hx|[Hx|[]]]; auto. congruence. }
    split; [unfold value_of; apply (G (c_ops c) []); [rewrite app_nil_r; auto|exact R]|].
    unfold result_of. destruct to_cpu eqn:TC; [|reflexivity].
    change (c_copy c) with (o_dst (copy_op other c)). rewrite final_at; [reflexivity|]. unfold all_ops. apply in_concat. exists (ops c). split; [apply in_map; auto|].
    unfold task_ops. rewrite TC. apply in_or_app. right. left. reflexivity.
  Qed.
End Inv.

(** Whatever the order in which workers, streams and the operations that the caller
    launched before take turns: once merge has returned - its results being copied to
    the cpu or checked for infinities, as they are by default - each key is in the output, and holds the
    value of the key's recipe, computed alone; it still does when all other work is done. *)
Theorem C115_complete : forall V other finite to_cpu check_finite m0 queues work (s s' : state V),
  to_cpu || check_finite = true -> well_formed work -> inputs_ready work queues ->
  steps (start other finite to_cpu check_finite m0 queues work) s -> returned s -> steps s s' ->
  (forall c, In c (concat work) -> In (c_key c, result_of to_cpu c) (st_out s) /\ st_mem s' (result_of to_cpu c) = value_of m0 c) /\
  (forall k l, In (k, l) (st_out s) -> exists c, In c (concat work) /\ k = c_key c /\ l = result_of to_cpu c).
Proof.
  intros V other finite to_cpu check_finite m0 queues work s s' HT WF RD H R H'.
  pose proof (inv_steps other finite to_cpu check_finite m0 queues work WF RD _ _ H (inv_start other finite to_cpu check_finite m0 queues work RD)) as I.
  pose proof (inv_steps other finite to_cpu check_finite m0 queues work WF RD _ _ H' I) as I'.
  assert (R' : returned s').
  { clear -H' R. induction H' as [|s s1 s2 _ IH ST]; auto. intros t. specialize (IH R). inversion ST; subst; simpl; auto; rewrite (IH t0) in H; discriminate. }
  split.
  - intros c Hc. pose proof Hc as Hc0. apply in_concat in Hc as (w & Hw & Hc). apply (In_nth _ _ []) in Hw as (t & L & Ew). split.
    + destruct (i_prog _ _ _ _ _ _ _ _ I t) as (past & P & S). rewrite (R t), app_nil_r in P. apply S. rewrite <- P. unfold plan. rewrite Ew.
      apply in_concat. eexists. split; [apply in_map; exact Hc|]. unfold program. rewrite !in_app_iff. right; right; right. left. reflexivity.
    + destruct (value_final other finite to_cpu check_finite m0 work WF c Hc0) as (V1 & V2). rewrite V1, <- V2.
      assert (U : used work (result_of to_cpu c)).
      { unfold result_of. destruct to_cpu; [left|right; exists c; auto]. unfold made. apply in_concat. exists (written (c_ops c) ++ [c_copy c; c_flag c]).
        split; [apply in_map_iff; exists c; auto|apply in_or_app; right; left; auto]. }
      destruct (i_mem _ _ _ _ _ _ _ _ I' _ U) as [(t' & o & L' & Ho & _)|M]; [|exact M]. exfalso. rewrite (R' t') in Ho. simpl in Ho. rewrite app_nil_r in Ho.
      destruct (i_good _ _ _ _ _ _ _ _ I' HT t') as (_ & K). destruct (K L') as [K'|(ls & q & K')]; [rewrite K' in Ho; destruct Ho|].
      rewrite (R' t') in K'. destruct ls; discriminate.
  - intros k l Hk. destruct (i_out _ _ _ _ _ _ _ _ I k l Hk) as (t & Ht). unfold plan in Ht. apply in_concat in Ht as (p & Hp & Ht). apply in_map_iff in Hp as (c & <- & Hc).
    exists c. split.
    + apply in_concat. destruct (Nat.lt_ge_cases t (length work)) as [L|L]; [|rewrite nth_overflow in Hc by auto; destruct Hc]. eexists. split; [apply nth_In; exact L|exact Hc].
    + unfold program in Ht. rewrite !in_app_iff in Ht. destruct Ht as [Ht|[Ht|[Ht|Ht]]].
      * apply in_map_iff in Ht as (o & Q & _). discriminate.
      * destruct to_cpu; simpl in Ht; [|destruct Ht]. destruct Ht as [Q|[Q|[]]]; discriminate.
      * destruct check_finite; simpl in Ht; [|destruct Ht]. destruct Ht as [Q|[Q|[]]]; discriminate.
      * destruct Ht as [Q|[]]. inversion Q; auto.
Qed.

(** Whatever the options: once merge has returned and the streams of the workers are idle, the results hold these values. *)
Theorem C115_idle : forall V other finite to_cpu check_finite m0 queues work (s : state V),
  well_formed work -> inputs_ready work queues ->
  steps (start other finite to_cpu check_finite m0 queues work) s -> returned s -> (forall t, t < length work -> st_queue s t = []) ->
  forall c, In c (concat work) -> st_mem s (result_of to_cpu c) = value_of m0 c.
Proof.
  intros V other finite to_cpu check_finite m0 queues work s WF RD H R Q c Hc.
  pose proof (inv_steps other finite to_cpu check_finite m0 queues work WF RD _ _ H (inv_start other finite to_cpu check_finite m0 queues work RD)) as I.
  destruct (value_final other finite to_cpu check_finite m0 work WF c Hc) as (V1 & V2). rewrite V1, <- V2.
  assert (U : used work (result_of to_cpu c)).
  { unfold result_of. destruct to_cpu; [left|right; exists c; auto]. unfold made. apply in_concat. exists (written (c_ops c) ++ [c_copy c; c_flag c]).
    split; [apply in_map_iff; exists c; auto|apply in_or_app; right; left; auto]. }
  destruct (i_mem _ _ _ _ _ _ _ _ I _ U) as [(t' & o & L' & Ho & _)|M]; [|exact M]. exfalso. rewrite (R t'), (Q t' L') in Ho. destruct Ho.
Qed.

(** As long as merge has not returned, something can be done: no worker waits for ever. *)
Theorem C115_no_deadlock : forall V (s : state V) t i p, st_prog s t = i :: p -> exists s', step s s'.
Proof.
  intros V s t i p E. destruct i as [o| |k l].
  - eexists. eapply s_launch; eauto.
  - destruct (st_queue s t) as [|o q] eqn:Q; eexists; [eapply s_sync; eauto|eapply s_run; eauto].
  - eexists. eapply s_store; eauto.
Qed.

(** ** What is missing *)
(** [Wk t]: worker [t] does what it can; [Rn i]: stream [i] runs an operation *)
Inductive turn := Wk (t : nat) | Rn (i : nat).
Definition take {V} (s : state V) (a : turn) : state V :=
  match a with
  | Wk t =>
      match st_prog s t with
      | Launch o :: p => State (st_mem s) (upd (st_queue s) t (st_queue s t ++ [o])) (upd (st_prog s) t p) (st_out s)
      | Sync :: p => match st_queue s t with [] => State (st_mem s) (st_queue s) (upd (st_prog s) t p) (st_out s) | _ => s end
      | Store k l :: p => State (st_mem s) (st_queue s) (upd (st_prog s) t p) ((k, l) :: st_out s)
      | [] => s
      end
  | Rn i => match st_queue s i with o :: q => State (run_op (st_mem s) o) (upd (st_queue s) i q) (st_prog s) (st_out s) | [] => s end
  end.
Lemma take_steps : forall V l (s0 s : state V), steps s0 s -> steps s0 (fold_left take l s).
Proof.
  intros V. induction l as [|a l IH]; intros s0 s H; simpl; auto. apply IH. destruct a as [t|i]; simpl.
  - destruct (st_prog s t) as [|[o| |k x] p] eqn:E; auto.
    + eapply st_next; [exact H|]. apply s_launch. auto.
    + destruct (st_queue s t) eqn:Q; auto. eapply st_next; [exact H|]. apply s_sync; auto.
    + eapply st_next; [exact H|]. apply s_store. auto.
  - destruct (st_queue s i) as [|o q] eqn:Q; auto. eapply st_next; [exact H|]. apply s_run. auto.
Qed.
Definition double : task Z := Task "w" [Op 1 [0] (fun l => hd 0%Z l * 2)%Z] 1 2 3.
Definition other0 : Z := 0%Z.
Lemma double_ok : well_formed [[double]].
Proof.
  split; [repeat (constructor; [simpl; intuition discriminate|]); constructor|]. intros c [<-|[]]. split; [|left; simpl; auto].
  intros pre o post x E Hx. destruct pre as [|y pre]; simpl in E; inversion E; subst; [|destruct pre; discriminate].
  destruct Hx as [<-|[]]. right. simpl. intuition discriminate.
Qed.
(** With results that stay on the gpu and are not checked, merge returns before they are computed. *)
Theorem C115_gpu_results_refuted : exists m0 (s : state Z), well_formed [[double]] /\ inputs_ready [[double]] (fun _ => []) /\
  steps (start other0 (fun x => x) false false m0 (fun _ => []) [[double]]) s /\ returned s /\
  In ("w"%string, 1) (st_out s) /\ st_mem s 1 <> value_of m0 double.
Proof.
  exists (fun _ => 3%Z). eexists. split; [exact double_ok|]. split; [split; auto; intros i o []|]. split.
  - eapply st_next; [eapply st_next; [apply st_refl|]|].
    + eapply (s_launch _ _ 0). reflexivity.
    + eapply (s_store _ _ 0). reflexivity.
  - split; [|split; [left; reflexivity|discriminate]]. intros [|[|t]]; try reflexivity; cbn; destruct t; reflexivity.
Qed.
(** A model on the gpu that is still being computed when merge is called may be read too early,
    results copied to the cpu and checked or not. *)
Theorem C115_pending_input_refuted : forall check_finite, exists m0 queues (s : state Z), well_formed [[double]] /\ queues 0 = [] /\
  steps (start other0 (fun x => x) true check_finite m0 queues [[double]]) s /\ returned s /\ (forall i, st_queue s i = []) /\
  exists o, queues 1 = [o] /\ st_mem s 2 <> value_of (run_op m0 o) double.
Proof.
  intros b. exists (fun _ => 3%Z), (fun i => if i =? 1 then [Op 0 [] (fun _ => 5%Z)] else []). eexists. split; [exact double_ok|]. split; [reflexivity|].
  split; [apply (take_steps _ [Wk 0; Wk 0; Rn 0; Rn 0; Wk 0; Wk 0; Rn 0; Wk 0; Wk 0; Rn 1]); apply st_refl|]. destruct b.
  - split; [intros [|[|t]]; try reflexivity; cbn; destruct t; reflexivity|]. split; [intros [|[|i]]; reflexivity|]. eexists. split; [reflexivity|]. vm_compute. discriminate.
  - split; [intros [|[|t]]; try reflexivity; cbn; destruct t; reflexivity|]. split; [intros [|[|i]]; reflexivity|]. eexists. split; [reflexivity|]. vm_compute. discriminate.
Qed.

(** Two workers, the first one slow: its operation runs after the second one is done, and the
    caller's stream is still busy with a tensor of its own. *)
Definition incr : task Z := Task "v" [Op 4 [0] (fun l => hd 0%Z l + 1)%Z; Op 5 [4; 0] (fun l => nth 0 l 0 * nth 1 l 0)%Z] 5 6 7.
Example C115_case : exists s : state Z, let q := fun i => if i =? 2 then [Op 9 [] (fun _ => 5%Z)] else [] in
  well_formed [[double]; [incr]] /\ inputs_ready [[double]; [incr]] q /\
  steps (start other0 (fun x => x) true false (fun _ => 3%Z) q [[double]; [incr]]) s /\ returned s /\
  st_out s = [("w"%string, 2); ("v"%string, 6)] /\ st_mem s 2 = 6%Z /\ st_mem s 6 = 12%Z /\ st_queue s 2 <> [].
Proof.
  eexists. cbn zeta. split; [|split; [|split]].
  - split; [repeat (constructor; [simpl; intuition discriminate|]); constructor|]. intros c [<-|[<-|[]]]; (split; [|left; simpl; auto]).
    + intros pre o post x E Hx. destruct pre as [|y pre]; simpl in E; inversion E; subst; [|destruct pre; discriminate].
      destruct Hx as [<-|[]]. right. simpl. intuition discriminate.
    + intros pre o post x E Hx. destruct pre as [|y [|z pre]]; simpl in E; inversion E; subst; [| |destruct pre; discriminate].
      * destruct Hx as [<-|[]]. right. simpl. intuition discriminate.
      * destruct Hx as [<-|[<-|[]]]; [left; simpl; auto|right; simpl; intuition discriminate].
  - split; [intros [|[|t]] L; simpl in L; try reflexivity; lia|]. intros [|[|[|i]]] o Ho; simpl in Ho; try tauto. destruct Ho as [<-|[]]. simpl.
    intros [Q|(c & [<-|[<-|[]]] & [Q|(o & Ho & Q)])]; simpl in *; intuition (subst; simpl in *; intuition discriminate).
  - apply (take_steps _ [Wk 0; Wk 1; Wk 1; Wk 0; Rn 1; Wk 1; Rn 1; Rn 1; Wk 1; Wk 1; Rn 0; Rn 0; Wk 0; Wk 0]). apply st_refl.
  - split; [intros [|[|[|t]]]; try reflexivity; cbn; destruct t; reflexivity|]. repeat split; try reflexivity. discriminate.
Qed.

Print Assumptions C115_complete.
Print Assumptions C115_idle.
Print Assumptions C115_no_deadlock.
Print Assumptions C115_gpu_results_refuted.
Print Assumptions C115_pending_input_refuted.
