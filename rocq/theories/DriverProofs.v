(** Invariants of the pool of ModelDriver.v *)
From Coq Require Import String List Bool Arith Lia Permutation.
From Verif Require Import Base ModelStream SpecStream ModelEval ModelDriver.
Import ListNotations.
Open Scope string_scope.
Open Scope list_scope.
Open Scope nat_scope.

Lemma split_dict : forall A (d : list (nat * A)) tid x,
  dget Nat.eqb tid d = Some x ->
  exists a b, d = a ++ (tid, x) :: b /\ (forall y, dset Nat.eqb tid y d = a ++ (tid, y) :: b) /\ ddel Nat.eqb tid d = a ++ b.
Proof.
  induction d as [|[t y] d IH]; intros tid x H; simpl in H; [discriminate|].
  destruct (Nat.eqb_spec tid t) as [->|N].
  - inversion H; subst. exists [], d. simpl. rewrite Nat.eqb_refl. auto.
  - apply IH in H as (a & b & -> & Hs & Hd). exists ((t, y) :: a), b.
    apply Nat.eqb_neq in N. simpl. rewrite N. split; auto. split; [intros z; rewrite Hs; auto|rewrite Hd; auto].
Qed.

Section Inv.
  Context {V S : Type} (sk : sink V S) (ev : string -> result V) (threads : nat).
  Notation pool := (@pool V S).
  Notation sop := (@sop V).

  Definition calls (l : list sop) : list (string * V) :=
    flat_map (fun o => match o with SCall _ k v => [(k, v)] | SStep _ => [] end) l.
  Fixpoint srun (s : S) (l : list sop) : option S :=
    match l with
    | [] => Some s
    | SCall tid k v :: l' => match sk_call sk tid k v s with Some s' => srun s' l' | None => None end
    | SStep tid :: l' => match sk_step sk tid s with Some s' => srun s' l' | None => None end
    end.

  Lemma calls_app : forall a b, calls (a ++ b) = calls a ++ calls b.
  Proof. intros. unfold calls. apply flat_map_app. Qed.
  Lemma srun_app : forall a b s s', srun s a = Some s' -> srun s (a ++ b) = srun s' b.
  Proof.
    induction a as [|[tid k v|tid] a IH]; intros b s s' H; simpl in *.
    - inversion H; auto.
    - destruct (sk_call sk tid k v s); [eauto|discriminate].
    - destruct (sk_step sk tid s); [eauto|discriminate].
  Qed.

  Definition key_of (x : nat * (string * @phase V)) : string := fst (snd x).

  (** how many more steps a thread needs to be through with the output *)
  Variable left : nat -> S -> nat.
  Record sink_ok : Prop := {
    ok_idle : forall tid s, sk_idle sk tid s = true <-> left tid s = 0;
    ok_call : forall tid k v s, left tid s = 0 -> exists s', sk_call sk tid k v s = Some s' /\ left tid s' <= 3 /\
                forall t, t <> tid -> left t s' = left t s;
    ok_step : forall tid s n, left tid s = Datatypes.S n -> exists s', sk_step sk tid s = Some s' /\ left tid s' = n /\
                forall t, t <> tid -> left t s' = left t s;
    ok_stop : forall tid s, left tid s = 0 -> sk_step sk tid s = None }.
  Hypothesis OK : sink_ok.

  Record inv (keys : list string) (s0 : S) (p : pool) : Prop := {
    i_perm : Permutation keys (p_todo p ++ p_queue p ++ map key_of (p_run p) ++ map fst (p_done p) ++ p_cancelled p);
    i_tids : NoDup (map fst (p_run p));
    i_lt : forall x, In x (p_run p) -> fst x < threads;
    i_got : forall tid k r, In (tid, (k, Got r)) (p_run p) -> r = ev k;
    i_storing : forall tid k, In (tid, (k, Storing)) (p_run p) -> exists v, ev k = Ok v;
    i_done : forall k x, In (k, x) (p_done p) -> x = future_of (ev k);
    i_calls : forall k v, In (k, v) (calls (p_ops p)) ->
      ev k = Ok v /\ (In k (map fst (p_done p)) \/ exists tid, In (tid, (k, Storing)) (p_run p));
    i_calls_all : open_for_results sk p = true -> forall k v, ev k = Ok v ->
      (In k (map fst (p_done p)) \/ exists tid, In (tid, (k, Storing)) (p_run p)) -> In (k, v) (calls (p_ops p));
    i_calls_nodup : NoDup (map fst (calls (p_ops p)));
    i_sink : srun s0 (p_ops p) = Some (p_sink p);
    i_failed : match p_failed p with
               | Some e => p_todo p = [] /\ p_queue p = [] /\ exists k, In (k, Some e) (p_done p)
               | None => p_cancelled p = [] end;
    i_left : open_for_results sk p = true -> forall tid, (forall k, ~ In (tid, (k, Storing)) (p_run p)) -> left tid (p_sink p) = 0;
    i_left3 : forall tid, left tid (p_sink p) <= 3 }.

  Lemma inv_init : forall keys s0, (forall tid, left tid s0 = 0) -> inv keys s0 (pool_init keys s0).
  Proof.
    intros keys s0 Z. constructor; simpl; try tauto; try (intros; contradiction).
    - rewrite app_nil_r; auto.
    - constructor.
    - intros _ k v _ [[]|(t & [])].
    - constructor.
    - intros; auto.
    - intros; rewrite Z; lia.
  Qed.

  Ltac inapp := repeat (rewrite in_app_iff in * || simpl In in * ).

  Lemma inv_step : forall keys s0 p e p', NoDup keys -> inv keys s0 p -> pstep sk ev threads p e = Some p' -> inv keys s0 p'.
  Proof.
    intros keys s0 p e p' ND I H. destruct I as [Ip It Il Ig Is Id Ic Ia In_ Ik If Ile Il3].
    assert (NDp : NoDup (p_todo p ++ p_queue p ++ map key_of (p_run p) ++ map fst (p_done p) ++ p_cancelled p)).
    { eapply Permutation_NoDup; eauto. }
    destruct e as [|tid|tid|tid|tid|tid|k]; simpl in H.
    - (* Submit *)
      destruct (p_todo p) as [|k l] eqn:Et; [discriminate|]. inversion H; subst p'; clear H.
      constructor; simpl; auto.
      + eapply Permutation_trans; [exact Ip|]. simpl. rewrite <- app_assoc. simpl.
        rewrite (app_assoc l (p_queue p) (k :: _)), (app_assoc l (p_queue p) _). apply Permutation_middle.
      + destruct (p_failed p); auto. destruct If as (E & _). discriminate.
    - (* Start *)
      destruct (Nat.ltb_spec tid threads) as [L|]; [|discriminate].
      destruct (dget Nat.eqb tid (p_run p)) as [|] eqn:Eg; [discriminate|].
      destruct (p_queue p) as [|k q] eqn:Eq; [discriminate|]. inversion H; subst p'; clear H.
      apply (proj1 (dget_None Nat.eqb Nat.eqb_spec _ _)) in Eg.
      constructor; simpl; auto.
      + eapply Permutation_trans; [exact Ip|]. apply Permutation_app_head. simpl.
        apply Permutation_cons_app. auto.
      + constructor; auto.
      + intros x [<-|X]; auto.
      + intros t k' r [E|X]; [inversion E|eauto].
      + intros t k' [E|X]; [inversion E|eauto].
      + intros k' v X. apply Ic in X as (A & [B|(t & B)]); split; auto. right; exists t; auto.
      + intros O k' v A [B|(t & [B|B])]; [eapply Ia; eauto|inversion B|]. apply Ia; auto. right; exists t; auto.
      + destruct (p_failed p); auto. destruct If as (_ & E & _). discriminate.
      + intros O t Ht. apply Ile; auto. intros k' X. apply (Ht k'); auto.
    - (* Evaluate *)
      destruct (dget Nat.eqb tid (p_run p)) as [[k ph]|] eqn:Eg; [|discriminate].
      destruct ph; try discriminate. inversion H; subst p'; clear H.
      apply split_dict in Eg as (a & b & Er & Hs & _).
      constructor; simpl; auto; try rewrite Hs.
      + rewrite Er in Ip. rewrite map_app in *. simpl in *. auto.
      + rewrite Er in It. rewrite map_app in *. simpl in *. auto.
      + intros x X. inapp. destruct X as [X|[<-|X]]; simpl.
        * apply Il. rewrite Er. inapp; auto.
        * apply (Il (tid, (k, Working))). rewrite Er. inapp; auto.
        * apply Il. rewrite Er. inapp; auto.
      + intros t k' r X. inapp. destruct X as [X|[X|X]].
        * eapply Ig. rewrite Er. inapp. left; eauto.
        * inversion X; auto.
        * eapply Ig. rewrite Er. inapp. right; right; eauto.
      + intros t k' X. inapp. destruct X as [X|[X|X]]; [|inversion X|]; eapply Is; rewrite Er; inapp; eauto.
      + intros k' v X. apply Ic in X as (A & [B|(t & B)]); split; auto. right; exists t.
        rewrite Er in B. inapp. destruct B as [B|[B|B]]; [auto|inversion B|auto].
      + intros O k' v A [B|(t & B)]; [eapply Ia; eauto|]. apply Ia; auto. right; exists t.
        rewrite Er. inapp. destruct B as [B|[B|B]]; [auto|inversion B|auto].
      + intros O t Ht. apply Ile; auto. intros k' X. apply (Ht k'). rewrite Er in X. inapp.
        destruct X as [X|[X|X]]; [auto|inversion X|auto].
    - (* Store *)
      destruct (dget Nat.eqb tid (p_run p)) as [[k ph]|] eqn:Eg; [|discriminate].
      destruct ph as [|[v|e]|]; try discriminate.
      apply split_dict in Eg as (a & b & Er & Hs & _).
      assert (Ev : ev k = Ok v). { symmetry. eapply (Ig tid k). rewrite Er. inapp; auto. }
      assert (Ntid : forall x, In x a \/ In x b -> fst x <> tid).
      { intros x X E. rewrite Er, map_app in It. simpl in It. apply NoDup_remove_2 in It. apply It.
        rewrite in_app_iff. destruct X as [X|X]; apply (in_map fst) in X; rewrite E in X; auto. }
      assert (Nk : ~ In k (map fst (p_done p)) /\ forall t ph, In (t, (k, ph)) a \/ In (t, (k, ph)) b -> False).
      { rewrite !NoDup_app_iff in NDp. destruct NDp as (_ & (_ & (R & (_ & _ & _) & X) & _) & _).
        split.
        - intros D. apply (X k).
          + rewrite Er, map_app. simpl. unfold key_of at 2. simpl. inapp; auto.
          + inapp; auto.
        - intros t ph Y. rewrite Er, map_app in R. simpl in R. apply NoDup_remove_2 in R. apply R.
          rewrite in_app_iff. destruct Y as [Y|Y]; apply (in_map key_of) in Y; auto. }
      destruct Nk as (Nd & Na).
      assert (Nc : ~ In k (map fst (calls (p_ops p)))).
      { intros X. apply in_map_iff in X as ((k' & v') & E & X). simpl in E; subst k'.
        apply Ic in X as (_ & [D|(t & D)]); [auto|]. rewrite Er in D. inapp.
        destruct D as [D|[D|D]]; [eapply Na; eauto|inversion D|eapply Na; eauto]. }
      assert (L0 : open_for_results sk p = true -> left tid (p_sink p) = 0).
      { intros O. apply Ile; auto. intros k' X. rewrite Er in X. inapp.
        destruct X as [X|[X|X]]; [|inversion X|]; eapply Ntid; eauto. }
      destruct (open_for_results sk p) eqn:O.
      + destruct (ok_call OK tid k v (p_sink p) (L0 eq_refl)) as (s & Es & Ls & Lo).
        rewrite Es in H. inversion H; subst p'; clear H.
        constructor; simpl; auto; try rewrite Hs.
        * rewrite Er in Ip. rewrite map_app in *. simpl in *. auto.
        * rewrite Er in It. rewrite map_app in *. simpl in *. auto.
        * intros x X. inapp. destruct X as [X|[<-|X]]; simpl.
          -- apply Il. rewrite Er. inapp; auto.
          -- apply (Il (tid, (k, Got (Ok v)))). rewrite Er. inapp; auto.
          -- apply Il. rewrite Er. inapp; auto.
        * intros t k' r X. inapp. destruct X as [X|[X|X]]; [|inversion X|]; eapply Ig; rewrite Er; inapp; eauto.
        * intros t k' X. inapp. destruct X as [X|[X|X]]; [|inversion X; subst; eauto|]; eapply Is; rewrite Er; inapp; eauto.
        * intros k' v' X. rewrite calls_app in X. inapp. destruct X as [X|[X|[]]].
          -- apply Ic in X as (A & [B|(t & B)]); split; auto. right; exists t.
             rewrite Er in B. inapp. destruct B as [B|[B|B]]; [auto|inversion B|auto].
          -- inversion X; subst. split; auto. right; exists tid. inapp; auto.
        * intros _ k' v' A [B|(t & B)]; rewrite calls_app; inapp.
          -- left. apply Ia; auto.
          -- destruct B as [B|[B|B]].
             ++ left. apply Ia; auto. right; exists t. rewrite Er. inapp; auto.
             ++ inversion B; subst. right; left. congruence.
             ++ left. apply Ia; auto. right; exists t. rewrite Er. inapp; auto.
        * rewrite calls_app. simpl. rewrite map_app. simpl.
          apply NoDup_app_iff. split; auto. split; [constructor; [auto|constructor]|].
          intros x X [<-|[]]. auto.
        * erewrite srun_app; eauto. simpl. rewrite Es. auto.
        * intros _ t Ht. destruct (Nat.eq_dec t tid) as [->|Nt].
          -- exfalso. apply (Ht k). inapp; auto.
          -- rewrite Lo; auto. apply Ile; auto. intros k' X. apply (Ht k'). rewrite Er in X. inapp.
             destruct X as [X|[X|X]]; [auto|inversion X|auto].
        * intros t. destruct (Nat.eq_dec t tid) as [->|Nt]; auto. rewrite Lo; auto.
      + inversion H; subst p'; clear H.
        assert (O' : open_for_results sk (with_run p (dset Nat.eqb tid (k, Storing) (p_run p))) = false) by exact O.
        constructor; simpl; auto; try (rewrite O'; discriminate); try rewrite Hs.
        * rewrite Er in Ip. rewrite map_app in *. simpl in *. auto.
        * rewrite Er in It. rewrite map_app in *. simpl in *. auto.
        * intros x X. inapp. destruct X as [X|[<-|X]]; simpl.
          -- apply Il. rewrite Er. inapp; auto.
          -- apply (Il (tid, (k, Got (Ok v)))). rewrite Er. inapp; auto.
          -- apply Il. rewrite Er. inapp; auto.
        * intros t k' r X. inapp. destruct X as [X|[X|X]]; [|inversion X|]; eapply Ig; rewrite Er; inapp; eauto.
        * intros t k' X. inapp. destruct X as [X|[X|X]]; [|inversion X; subst; eauto|]; eapply Is; rewrite Er; inapp; eauto.
        * intros k' v' X. apply Ic in X as (A & [B|(t & B)]); split; auto. right; exists t.
          rewrite Er in B. inapp. destruct B as [B|[B|B]]; [auto|inversion B|auto].
    - (* Step *)
      destruct (dget Nat.eqb tid (p_run p)) as [[k ph]|] eqn:Eg; [|discriminate].
      destruct ph; try discriminate.
      apply (dget_In Nat.eqb Nat.eqb_spec) in Eg.
      destruct (open_for_results sk p) eqn:O; [|discriminate].
      destruct (left tid (p_sink p)) as [|n] eqn:El.
      { rewrite (ok_stop OK) in H by auto. discriminate. }
      destruct (ok_step OK _ _ _ El) as (s & Es & Ls & Lo). rewrite Es in H. inversion H; subst p'; clear H.
      constructor; simpl; auto.
      + rewrite calls_app. simpl. rewrite app_nil_r. auto.
      + intros _. rewrite calls_app. simpl. rewrite app_nil_r. apply Ia; auto.
      + rewrite calls_app. simpl. rewrite app_nil_r. auto.
      + erewrite srun_app; eauto. simpl. rewrite Es. auto.
      + intros _ t Ht. destruct (Nat.eq_dec t tid) as [->|Nt]; [exfalso; eapply Ht; eauto|]. rewrite Lo; auto.
      + intros t. destruct (Nat.eq_dec t tid) as [->|Nt]; [|rewrite Lo; auto].
        specialize (Il3 tid). lia.
    - (* Finish *)
      destruct (dget Nat.eqb tid (p_run p)) as [[k ph]|] eqn:Eg; [|discriminate].
      apply split_dict in Eg as (a & b & Er & _ & Hd).
      assert (Ntid : forall x, In x a \/ In x b -> fst x <> tid).
      { intros x X E. rewrite Er, map_app in It. simpl in It. apply NoDup_remove_2 in It. apply It.
        rewrite in_app_iff. destruct X as [X|X]; apply (in_map fst) in X; rewrite E in X; auto. }
      assert (F : exists x, x = future_of (ev k) /\ p' = finish_with p tid k x /\
                  (ph = Storing \/ forall v, ev k <> Ok v) /\
                  (open_for_results sk p = true -> left tid (p_sink p) = 0)).
      { destruct ph as [|[v|e]|]; try discriminate.
        - inversion H; subst. assert (E : Err e = ev k). { eapply (Ig tid k). rewrite Er. inapp; auto. }
          eexists. split; [reflexivity|]. rewrite <- E. split; auto. split; [right; congruence|].
          intros O. apply Ile; auto. intros k' X. rewrite Er in X. inapp.
          destruct X as [X|[X|X]]; [|inversion X|]; eapply Ntid; eauto.
        - assert (E : exists v, ev k = Ok v). { eapply (Is tid k). rewrite Er. inapp; auto. }
          destruct E as (v & E).
          destruct (negb (open_for_results sk p) || sk_idle sk tid (p_sink p)) eqn:B; [|discriminate].
          inversion H; subst. eexists. split; [reflexivity|]. rewrite E. split; auto. split; auto.
          intros O. rewrite O in B. simpl in B. apply (ok_idle OK); auto. }
      destruct F as (x & Ex & -> & Hph & L0). clear H.
      constructor; simpl; auto; try rewrite Hd.
      + eapply Permutation_trans; [exact Ip|]. do 2 apply Permutation_app_head. rewrite Er, !map_app. simpl. unfold key_of at 2. simpl.
        rewrite <- !app_assoc. apply Permutation_app_head. simpl.
        eapply Permutation_trans; [|apply Permutation_app_head, (Permutation_middle (map fst (p_done p)))].
        apply Permutation_middle.
      + rewrite Er, map_app in It. simpl in It. apply NoDup_remove_1 in It. rewrite map_app; auto.
      + intros y Y. apply Il. rewrite Er. inapp. tauto.
      + intros t k' r X. eapply (Ig t). rewrite Er. inapp. destruct X; eauto.
      + intros t k' X. eapply (Is t). rewrite Er. inapp. destruct X; eauto.
      + intros k' y X. inapp. destruct X as [X|[X|[]]]; [auto|]. inversion X; subst; auto.
      + intros k' v X. apply Ic in X as (A & [B|(t & B)]); split; auto.
        * left. rewrite map_app. inapp; auto.
        * rewrite Er in B. inapp. destruct B as [B|[B|B]].
          -- right; exists t; inapp; auto.
          -- inversion B; subst. left. rewrite map_app. inapp; auto.
          -- right; exists t; inapp; auto.
      + intros O k' v A B. apply Ia; auto. destruct B as [B|(t & B)].
        * rewrite map_app in B. inapp. destruct B as [B|[B|[]]]; [auto|]. simpl in B; subst k'.
          destruct Hph as [->|Hph]; [|exfalso; eapply Hph; eauto]. right; exists tid. rewrite Er. inapp; auto.
        * right; exists t. rewrite Er. inapp; tauto.
      + destruct (p_failed p); auto. destruct If as (A & B & k' & C). repeat split; auto. exists k'. inapp; auto.
      + intros O t Ht. destruct (Nat.eq_dec t tid) as [->|Nt]; auto. apply Ile; auto.
        intros k' X. apply (Ht k'). rewrite Er in X. inapp.
        destruct X as [X|[X|X]]; [auto|inversion X; congruence|auto].
    - (* Observe *)
      destruct (p_todo p) as [|] eqn:Et; [|discriminate].
      destruct (p_failed p) as [|] eqn:Ef; [discriminate|].
      destruct (dget String.eqb k (p_done p)) as [[e|]|] eqn:Eg; try discriminate.
      inversion H; subst p'; clear H. apply (dget_In String.eqb String.eqb_spec) in Eg.
      assert (Oo : open_for_results sk p = true) by (unfold open_for_results; rewrite Ef; auto).
      constructor; simpl; auto.
      + eapply Permutation_trans; [exact Ip|]. simpl. rewrite If. simpl. rewrite app_nil_r.
        eapply Permutation_trans; [apply Permutation_app_comm|]. rewrite <- !app_assoc. auto.
      + repeat split; auto. exists k; auto.
  Qed.

  Lemma inv_run : forall keys s0 evs p p', NoDup keys -> inv keys s0 p -> prun sk ev threads p evs = Some p' -> inv keys s0 p'.
  Proof.
    induction evs as [|e evs IH]; intros p p' ND I H; simpl in H.
    - inversion H; subst; auto.
    - destruct (pstep sk ev threads p e) as [q|] eqn:E; [|discriminate].
      apply (IH q); auto. eapply inv_step; eauto.
  Qed.

  (** ** progress *)
  Lemma progress : forall keys s0 p, 0 < threads -> inv keys s0 p -> ~ pool_over p -> exists e p', pstep sk ev threads p e = Some p'.
  Proof.
    intros keys s0 p T I NO. destruct I as [Ip It Il Ig Is Id Ic Ia In_ Ik If Ile Il3].
    destruct (p_todo p) as [|k l] eqn:Et.
    2:{ exists Submit. simpl. rewrite Et. eauto. }
    destruct (p_run p) as [|[tid [k ph]] r] eqn:Er.
    - destruct (p_queue p) as [|k q] eqn:Eq.
      + destruct (p_failed p) as [e|] eqn:Ef.
        * exfalso. apply NO. unfold pool_over. rewrite Et, Eq, Er, Ef. repeat split; auto. discriminate.
        * destruct (find (fun kx => match snd kx with Some _ => true | None => false end) (p_done p)) as [[k x]|] eqn:F.
          -- apply find_some in F as (F1 & F2). simpl in F2.
             assert (ND' : exists e, dget String.eqb k (p_done p) = Some (Some e)).
             { destruct (dget String.eqb k (p_done p)) as [y|] eqn:D.
               - pose proof (dget_In String.eqb String.eqb_spec _ _ D) as D'.
                 apply Id in D'. apply Id in F1. destruct x as [e|]; [|discriminate]. exists e. congruence.
               - apply (proj1 (dget_None String.eqb String.eqb_spec _ _)) in D. exfalso. apply D. apply (in_map fst) in F1. auto. }
             destruct ND' as (e & D). exists (Observe k). simpl. rewrite Et, Ef, D. eauto.
          -- exfalso. apply NO. unfold pool_over. rewrite Et, Eq, Er. repeat split; auto.
             intros _ k x X. eapply find_none in F; eauto. simpl in F. destruct x; [discriminate|auto].
      + exists (Start 0). simpl. apply Nat.ltb_lt in T. rewrite T, Er, Eq. simpl. eauto.
    - assert (D : dget Nat.eqb tid (p_run p) = Some (k, ph)). { rewrite Er. simpl. rewrite Nat.eqb_refl. auto. }
      destruct ph as [|[v|e]|].
      + exists (Evaluate tid). simpl. rewrite D. eauto.
      + exists (Store tid). simpl. rewrite D. destruct (open_for_results sk p) eqn:O; [|eauto].
        assert (L0 : left tid (p_sink p) = 0).
        { apply Ile; auto. intros k' X. simpl in It. inversion It as [|? ? N _]; subst. destruct X as [X|X]; [inversion X|].
          apply N. apply (in_map fst) in X. auto. }
        destruct (ok_call OK tid k v _ L0) as (s & Es & _). rewrite Es. eauto.
      + exists (Finish tid). simpl. rewrite D. eauto.
      + destruct (negb (open_for_results sk p) || sk_idle sk tid (p_sink p)) eqn:B.
        * exists (Finish tid). simpl. rewrite D, B. eauto.
        * apply orb_false_iff in B as (B1 & B2). apply negb_false_iff in B1.
          destruct (left tid (p_sink p)) as [|n] eqn:L.
          -- apply (ok_idle OK) in L. congruence.
          -- exists (Step tid). simpl. rewrite D, B1. destruct (ok_step OK _ _ _ L) as (s & Es & _). rewrite Es. eauto.
  Qed.

  (** ** termination *)
  Definition weight (s : S) (x : nat * (string * @phase V)) : nat :=
    match snd (snd x) with Working => 7 | Got _ => 6 | Storing => 1 + left (fst x) s end.
  Definition sum_weights s l := fold_right (fun x n => weight s x + n) 0 l.
  Definition measure (p : pool) : nat :=
    9 * length (p_todo p) + 8 * length (p_queue p) + sum_weights (p_sink p) (p_run p) +
    match p_failed p with None => 1 | Some _ => 0 end.

  Lemma sum_cons : forall s x l, sum_weights s (x :: l) = weight s x + sum_weights s l.
  Proof. auto. Qed.
  Lemma sum_app : forall s a b, sum_weights s (a ++ b) = sum_weights s a + sum_weights s b.
  Proof. induction a as [|x a IH]; intros b; simpl; auto. rewrite IH. lia. Qed.
  Lemma sum_ext : forall s s' l, (forall x, In x l -> left (fst x) s = left (fst x) s') -> sum_weights s l = sum_weights s' l.
  Proof.
    induction l as [|x l IH]; intros H; simpl; auto. rewrite IH by (intros; apply H; simpl; auto).
    unfold weight. rewrite (H x) by (simpl; auto). auto.
  Qed.

  Lemma measure_step : forall keys s0 p e p', inv keys s0 p -> pstep sk ev threads p e = Some p' -> measure p' < measure p.
  Proof.
    intros keys s0 p e p' I H. destruct I as [Ip It Il Ig Is Id Ic Ia In_ Ik If Ile Il3].
    unfold measure. destruct e as [|tid|tid|tid|tid|tid|k]; simpl in H.
    - destruct (p_todo p) as [|k l]; [discriminate|]. inversion H; subst; simpl. rewrite app_length. simpl. lia.
    - destruct (tid <? threads); [|discriminate].
      destruct (dget Nat.eqb tid (p_run p)); [discriminate|]. destruct (p_queue p) as [|k q]; [discriminate|].
      inversion H; subst; cbn [p_todo p_queue p_run p_sink p_failed length]. rewrite sum_cons. unfold weight; cbn [fst snd]. lia.
    - destruct (dget Nat.eqb tid (p_run p)) as [[k ph]|] eqn:Eg; [|discriminate].
      destruct ph; try discriminate. inversion H; subst; simpl.
      apply split_dict in Eg as (a & b & Er & Hs & _). rewrite Hs, Er, !sum_app, !sum_cons.
      unfold weight; cbn [fst snd]. lia.
    - destruct (dget Nat.eqb tid (p_run p)) as [[k ph]|] eqn:Eg; [|discriminate].
      destruct ph as [|[v|e]|]; try discriminate.
      apply split_dict in Eg as (a & b & Er & Hs & _).
      assert (Ntid : forall x, In x a \/ In x b -> fst x <> tid).
      { intros x X E. rewrite Er, map_app in It. simpl in It. apply NoDup_remove_2 in It. apply It.
        rewrite in_app_iff. destruct X as [X|X]; apply (in_map fst) in X; rewrite E in X; auto. }
      destruct (open_for_results sk p) eqn:O.
      + assert (L0 : left tid (p_sink p) = 0).
        { apply Ile; auto. intros k' X. rewrite Er in X. rewrite in_app_iff in X. simpl in X.
          destruct X as [X|[X|X]]; [|inversion X|]; eapply Ntid; eauto. }
        destruct (ok_call OK tid k v _ L0) as (s & Es & Ls & Lo). rewrite Es in H. inversion H; subst; simpl.
        rewrite Hs, Er, !sum_app, !sum_cons.
        rewrite (sum_ext s (p_sink p) a) by (intros; apply Lo; auto).
        rewrite (sum_ext s (p_sink p) b) by (intros; apply Lo; auto).
        unfold weight; cbn [fst snd]. lia.
      + inversion H; subst; simpl. rewrite Hs, Er, !sum_app, !sum_cons.
        unfold weight; cbn [fst snd]. specialize (Il3 tid). lia.
    - destruct (dget Nat.eqb tid (p_run p)) as [[k ph]|] eqn:Eg; [|discriminate].
      destruct ph; try discriminate.
      destruct (open_for_results sk p) eqn:O; [|discriminate].
      apply split_dict in Eg as (a & b & Er & Hs & _).
      assert (Ntid : forall x, In x a \/ In x b -> fst x <> tid).
      { intros x X E. rewrite Er, map_app in It. simpl in It. apply NoDup_remove_2 in It. apply It.
        rewrite in_app_iff. destruct X as [X|X]; apply (in_map fst) in X; rewrite E in X; auto. }
      destruct (left tid (p_sink p)) as [|n] eqn:El.
      { rewrite (ok_stop OK) in H by auto. discriminate. }
      destruct (ok_step OK _ _ _ El) as (s & Es & Ls & Lo). rewrite Es in H. inversion H; subst; simpl.
      rewrite Er, !sum_app, !sum_cons.
      rewrite (sum_ext s (p_sink p) a) by (intros; apply Lo; auto).
      rewrite (sum_ext s (p_sink p) b) by (intros; apply Lo; auto).
      unfold weight; cbn [fst snd]. rewrite El. lia.
    - destruct (dget Nat.eqb tid (p_run p)) as [[k ph]|] eqn:Eg; [|discriminate].
      apply split_dict in Eg as (a & b & Er & _ & Hd).
      assert (G : exists x, p' = finish_with p tid k x /\ ph <> Working).
      { destruct ph as [|[v|e]|]; try discriminate.
        - inversion H; subst. eexists; split; [reflexivity|discriminate].
        - destruct (negb _ || _); [|discriminate]. inversion H; subst. eexists; split; [reflexivity|discriminate]. }
      destruct G as (x & -> & W). simpl. rewrite Hd, Er, !sum_app, !sum_cons. unfold weight; cbn [fst snd].
      destruct ph; [congruence|lia|lia].
    - destruct (p_todo p) as [|] eqn:Et; [|discriminate].
      destruct (p_failed p) as [|] eqn:Ef; [discriminate|].
      destruct (dget String.eqb k (p_done p)) as [[e|]|] eqn:Eg; try discriminate.
      inversion H; subst; simpl. lia.
  Qed.

  Lemma run_length : forall keys s0 evs p p', NoDup keys -> inv keys s0 p -> prun sk ev threads p evs = Some p' -> length evs + measure p' <= measure p.
  Proof.
    induction evs as [|e evs IH]; intros p p' ND I H; simpl in H.
    - inversion H; subst; simpl; lia.
    - destruct (pstep sk ev threads p e) as [q|] eqn:E; [|discriminate].
      pose proof (measure_step _ _ _ _ _ I E). apply (IH q) in H; auto; [simpl; lia|]. eapply inv_step; eauto.
  Qed.
End Inv.

(** ** the two outputs *)
Lemma mem_ok : forall V, sink_ok (@mem_sink V) (fun _ _ => 0).
Proof.
  intros V. constructor; simpl; auto.
  - tauto.
  - intros. eexists. split; [reflexivity|]. auto.
  - discriminate.
Qed.

Definition file_left (tid : nat) (s : ost) : nat :=
  match dget Nat.eqb tid (o_thr s) with
  | Some ts => match ts_pc ts with Idle => 0 | AtFlush _ _ => 3 | AtPublish _ _ _ => 2 | AtStore _ _ => 1 end
  | None => 0
  end.

Lemma file_ok : forall cap, sink_ok (file_sink cap) file_left.
Proof.
  intros cap. constructor; simpl.
  - intros tid s. unfold file_left. destruct (dget Nat.eqb tid (o_thr s)) as [ts|]; [destruct (ts_pc ts)|]; split; intros; try discriminate; auto.
  - intros tid k v s L. unfold file_left in L.
    assert (E : ts_pc (match dget Nat.eqb tid (o_thr s) with Some ts => ts | None => new_tstate s end) = Idle).
    { destruct (dget Nat.eqb tid (o_thr s)) as [ts|]; auto. destruct (ts_pc ts); auto; discriminate. }
    rewrite E. eexists. split; [reflexivity|]. unfold file_left; simpl. split.
    + rewrite (dget_dset Nat.eqb Nat.eqb_spec), Nat.eqb_refl. simpl. destruct (_ <? _); lia.
    + intros t N. rewrite (dget_dset Nat.eqb Nat.eqb_spec). apply Nat.eqb_neq in N. rewrite N. auto.
  - intros tid s n L. unfold file_left in L. destruct (dget Nat.eqb tid (o_thr s)) as [ts|] eqn:D; [|discriminate].
    destruct (ts_pc ts); try discriminate; inversion L; subst; eexists; (split; [reflexivity|]); unfold file_left; simpl;
      (split; [rewrite (dget_dset Nat.eqb Nat.eqb_spec), Nat.eqb_refl; auto|
               intros t0 N; rewrite (dget_dset Nat.eqb Nat.eqb_spec); apply Nat.eqb_neq in N; rewrite N; auto]).
  - intros tid s L. unfold file_left in L. destruct (dget Nat.eqb tid (o_thr s)) as [ts|] eqn:D; auto.
    destruct (ts_pc ts); try discriminate; auto.
Qed.

(** the log of the file output as a history of ModelStream.v *)
Definition to_ops (l : list (@sop tensor)) : list op :=
  map (fun o => match o with SCall tid k t => Call tid k t | SStep tid => Run tid end) l.
Lemma to_ops_run : forall cap l s, orun cap s (to_ops l) = srun (file_sink cap) s l.
Proof.
  induction l as [|[tid k t|tid] l IH]; intros s.
  - reflexivity.
  - cbn [to_ops map orun srun file_sink sk_call]. destruct (ostep cap s (Call tid k t)); [apply IH|reflexivity].
  - cbn [to_ops map orun srun file_sink sk_step]. destruct (ostep cap s (Run tid)); [apply IH|reflexivity].
Qed.
Lemma to_ops_written : forall l, written (to_ops l) = calls l.
Proof. induction l as [|[tid k t|tid] l IH]; simpl; auto. unfold written in *. simpl. f_equal; auto. Qed.

Lemma mem_run : forall V l (s : list (string * V)) s', srun mem_sink s l = Some s' -> s' = dupdate String.eqb s (calls l).
Proof.
  induction l as [|[tid k v|tid] l IH]; intros s s' H; simpl in *; try discriminate.
  - inversion H; auto.
  - apply IH in H. rewrite H. auto.
Qed.
Lemma dget_dupdate : forall V (l : list (string * V)) s k,
  NoDup (map fst l) -> dget String.eqb k (dupdate String.eqb s l) = match dget String.eqb k l with Some v => Some v | None => dget String.eqb k s end.
Proof.
  induction l as [|[k0 v0] l IH]; intros s k ND; simpl; auto. inversion ND as [|? ? N ND']; subst.
  unfold dupdate in *. simpl. rewrite IH by auto. rewrite (dget_dset String.eqb String.eqb_spec).
  destruct (String.eqb_spec k k0) as [->|]; auto.
  destruct (dget String.eqb k0 l) eqn:D; auto.
  apply (dget_In String.eqb String.eqb_spec) in D. apply (in_map fst) in D. contradiction.
Qed.
