(** C104: the cache of a merge node *)
From Coq Require Import String List Bool Arith Lia.
From Verif Require Import Base ModelCache SpecCache.
Import ListNotations.
Open Scope string_scope.
Open Scope list_scope.
Open Scope nat_scope.

Section Proofs.
  Context {X A M V W R : Type} (whole : A -> bool) (procrustes : X -> bool -> M) (eig : M -> V * W) (inv : W -> W)
    (recompose : V -> W -> W -> A -> M) (other_power : M -> A -> M) (finish : X -> A -> M -> M -> R)
    (half : M -> M) (halfV : V -> V) (halfW : W -> W).
  Notation call := (@call X A).
  Notation cache := (@cache M V W).
  Notation place := (@place M V W).
  Notation thread := (@thread X A M V W R).
  Notation step1 := (step1 whole procrustes eig inv recompose other_power finish half halfV halfW).
  Notation turn := (turn whole procrustes eig inv recompose other_power finish half halfV halfW).
  Notation at_thread := (at_thread whole procrustes eig inv recompose other_power finish half halfV halfW).
  Notation run := (run whole procrustes eig inv recompose other_power finish half halfV halfW).
  Notation uncached := (uncached whole procrustes eig inv recompose other_power finish).

  Notation rot := (rot whole procrustes).
  Notation stored_exactly := (stored_exactly whole procrustes eig inv half halfV halfW).

  Variable all : list call.
  Hypothesis exact : forall q, In q all -> stored_exactly q.
  Hypothesis agree : forall q q', In q all -> In q' all -> k_key q = k_key q' -> rot q = rot q'.

  Definition is_or_none {B} (o : option B) (b : B) : Prop := o = None \/ o = Some b.
  Definition entry (r : M) (d : @inner M V W) : Prop :=
    is_or_none (i_rotation d) r /\ is_or_none (i_values d) (fst (eig r)) /\
    is_or_none (i_vectors d) (snd (eig r)) /\ is_or_none (i_inverse d) (inv (snd (eig r))).
  Definition complete (d : @inner M V W) : Prop := i_values d = None \/ (i_vectors d <> None /\ i_inverse d <> None).

  Definition okk (c : cache) (k : string) : Prop :=
    forall a q, c_outer c k = Some a -> In q all -> k_key q = k -> entry (rot q) (c_heap c a).
  Definition full (c : cache) (k : string) : Prop := forall a, c_outer c k = Some a -> complete (c_heap c a).
  Definition ginv (c : cache) : Prop :=
    (forall k a, c_outer c k = Some a -> a < c_next c) /\
    (forall k k' a, c_outer c k = Some a -> c_outer c k' = Some a -> k = k').
  Definition same_at (c c' : cache) (k : string) : Prop :=
    c_outer c' k = c_outer c k /\ forall a, c_outer c k = Some a -> c_heap c' a = c_heap c a.

  Definition placed (c : cache) (q : call) (p : place) : Prop :=
    match p with
    | Contains => full c (k_key q)
    | Insert => c_outer c (k_key q) = None
    | Lookup => exists a, c_outer c (k_key q) = Some a /\ complete (c_heap c a)
    | HasRotation a | StoreRotation a => c_outer c (k_key q) = Some a /\ complete (c_heap c a)
    | ReadRotation a => c_outer c (k_key q) = Some a /\ complete (c_heap c a) /\ i_rotation (c_heap c a) <> None
    | HasValues a r | StoreValues a r =>
      c_outer c (k_key q) = Some a /\ complete (c_heap c a) /\ r = rot q /\ whole (k_how q) = true
    | ReadValues a r => c_outer c (k_key q) = Some a /\ complete (c_heap c a) /\ r = rot q /\ whole (k_how q) = true /\
        i_values (c_heap c a) <> None
    | ReadVectors a r v => c_outer c (k_key q) = Some a /\ complete (c_heap c a) /\ r = rot q /\ whole (k_how q) = true /\
        i_values (c_heap c a) <> None /\ v = fst (eig r)
    | ReadInverse a r v w => c_outer c (k_key q) = Some a /\ complete (c_heap c a) /\ r = rot q /\ whole (k_how q) = true /\
        i_values (c_heap c a) <> None /\ v = fst (eig r) /\ w = snd (eig r)
    | StoreVectors a r v w u => c_outer c (k_key q) = Some a /\ r = rot q /\ whole (k_how q) = true /\
        v = fst (eig r) /\ w = snd (eig r) /\ u = inv w
    | StoreInverse a r v w u => c_outer c (k_key q) = Some a /\ r = rot q /\ whole (k_how q) = true /\
        v = fst (eig r) /\ w = snd (eig r) /\ u = inv w /\ i_vectors (c_heap c a) <> None
    end.

  Definition good_outcome (c : cache) (q : call) (o : @outcome M V W R) : Prop :=
    match o with
    | Go c' p => ginv c' /\ (forall k, k <> k_key q -> same_at c c' k) /\ okk c' (k_key q) /\ placed c' q p
    | Stop c' r => ginv c' /\ (forall k, k <> k_key q -> same_at c c' k) /\ okk c' (k_key q) /\ full c' (k_key q) /\ r = Ok (uncached q)
    end.

  Lemma same_refl : forall c k, same_at c c k.
  Proof. split; auto. Qed.

  Lemma set_inner_outside : forall c k a f, ginv c -> c_outer c k = Some a ->
    ginv (set_inner c a f) /\ forall k', k' <> k -> same_at c (set_inner c a f) k'.
  Proof.
    intros c k a f [G1 G2] E. split; [split; auto|]. intros k' N. split; auto. intros a' E'. simpl.
    destruct (Nat.eqb_spec a' a); auto. subst. exfalso. apply N. eauto.
  Qed.
  Lemma set_inner_okk : forall c k a f, okk c k -> c_outer c k = Some a ->
    (forall q, In q all -> k_key q = k -> entry (rot q) (c_heap c a) -> entry (rot q) (f (c_heap c a))) -> okk (set_inner c a f) k.
  Proof.
    intros c k a f O E H a' q E' I K. simpl in *. replace a' with a by congruence. rewrite Nat.eqb_refl. apply H; auto.
  Qed.
  Lemma heap_set_inner : forall (c : cache) a f, c_heap (set_inner c a f) a = f (c_heap c a).
  Proof. intros. simpl. rewrite Nat.eqb_refl; auto. Qed.

  Lemma rotated_good : forall c c' q a, ginv c' -> (forall k, k <> k_key q -> same_at c c' k) -> okk c' (k_key q) ->
    c_outer c' (k_key q) = Some a -> complete (c_heap c' a) ->
    good_outcome c q (rotated whole other_power finish c' q a (rot q)).
  Proof.
    intros c c' q a G S O E C. unfold rotated. destruct (whole (k_how q)) eqn:Wh; simpl.
    - auto 10.
    - split; [auto|]. split; [auto|]. split; [auto|]. split.
      + intros a' E'. replace a' with a by congruence. auto.
      + unfold ModelCache.uncached. rewrite Wh. unfold SpecCache.rot. rewrite Wh. auto.
  Qed.
  Lemma raised_good : forall c c' q a r v w u, ginv c' -> (forall k, k <> k_key q -> same_at c c' k) -> okk c' (k_key q) ->
    c_outer c' (k_key q) = Some a -> complete (c_heap c' a) -> whole (k_how q) = true ->
    r = rot q -> v = fst (eig r) -> w = snd (eig r) -> u = inv w ->
    good_outcome c q (raised recompose finish c' q r v w u).
  Proof.
    intros c c' q a r v w u G S O E C Wh -> -> -> ->. simpl. split; [auto|]. split; [auto|]. split; [auto|]. split.
    - intros a' E'. replace a' with a by congruence. auto.
    - unfold ModelCache.uncached. rewrite Wh. unfold SpecCache.rot. rewrite Wh. destruct (eig (procrustes (k_input q) true)); auto.
  Qed.

  Lemma step1_good : forall c q p, In q all -> ginv c -> okk c (k_key q) -> placed c q p -> good_outcome c q (step1 c q p).
  Proof.
    intros c q p I G O P.
    assert (forall k, k <> k_key q -> same_at c c k) as S0 by (intros; apply same_refl).
    destruct (exact q I) as (X1 & X2).
    destruct p; simpl in P; simpl ModelCache.step1.
    - destruct (c_outer c (k_key q)) as [a|] eqn:E; simpl; (split; [auto|]); (split; [auto|]); (split; [auto|]); auto.
      exists a. split; auto.
    - destruct G as [G1 G2]. simpl. split; [|split; [|split]].
      + split; simpl.
        * intros k a. destruct (String.eqb_spec k (k_key q)); intros E.
          -- inversion E; subst. lia.
          -- apply G1 in E. lia.
        * intros k k' a. destruct (String.eqb_spec k (k_key q)), (String.eqb_spec k' (k_key q)); intros E E'; subst; auto.
          -- inversion E; subst. apply G1 in E'. lia.
          -- inversion E'; subst. apply G1 in E. lia.
          -- eauto.
      + intros k N. unfold same_at; simpl. split.
        * destruct (String.eqb_spec k (k_key q)); [contradiction|auto].
        * intros a E. destruct (Nat.eqb_spec a (c_next c)); auto. apply G1 in E. lia.
      + intros a q' E I' K. simpl in *. rewrite String.eqb_refl in E. inversion E; subst. rewrite Nat.eqb_refl.
        unfold entry, is_or_none; simpl; auto 10.
      + exists (c_next c). simpl. rewrite String.eqb_refl, Nat.eqb_refl. split; auto. left; auto.
    - destruct P as (a & E & C). rewrite E. simpl. auto 10.
    - destruct P as (E & C). destruct (i_rotation (c_heap c a)) eqn:Ro; simpl; (split; [auto|]); (split; [auto|]); (split; [auto|]); auto.
      split; [auto|]. split; [auto|]. rewrite Ro. discriminate.
    - destruct P as (E & C & N). destruct (i_rotation (c_heap c a)) as [r|] eqn:Ro; [|congruence]. simpl.
      destruct (O a q E I eq_refl) as ([Q|Q] & _); [congruence|]. replace r with (rot q) by congruence. apply rotated_good; auto.
    - destruct P as (E & C). fold (rot q).
      match goal with |- context [set_inner c a ?f] => set (g := f) end.
      destruct (set_inner_outside c (k_key q) a g G E) as (G' & S'). apply rotated_good; auto.
      + apply set_inner_okk; auto. intros q' I' K (D1 & D2 & D3 & D4). unfold g, entry; simpl. split; [|auto].
        right. rewrite X1. f_equal. apply agree; auto.
      + rewrite heap_set_inner. exact C.
    - destruct P as (E & C & Er & Wh). destruct (i_values (c_heap c a)) eqn:Va; simpl; (split; [auto|]); (split; [auto|]); (split; [auto|]).
      + rewrite Va. repeat split; auto. discriminate.
      + auto.
    - destruct P as (E & C & Er & Wh & N). destruct (i_values (c_heap c a)) as [v|] eqn:Va; [|congruence]. simpl.
      split; [auto|]. split; [auto|]. split; [auto|]. rewrite Va. repeat split; auto.
      destruct (O a q E I eq_refl) as (_ & [Q|Q] & _); congruence.
    - destruct P as (E & C & Er & Wh & N & Ev). destruct (i_vectors (c_heap c a)) as [w|] eqn:Ve.
      + simpl. split; [auto|]. split; [auto|]. split; [auto|]. repeat split; auto.
        destruct (O a q E I eq_refl) as (_ & _ & [Q|Q] & _); congruence.
      + destruct C as [C|[C _]]; contradiction.
    - destruct P as (E & C & Er & Wh & N & Ev & Ew). destruct (i_inverse (c_heap c a)) as [u|] eqn:Iv.
      + simpl get. eapply raised_good; eauto. destruct (O a q E I eq_refl) as (_ & _ & _ & [Q|Q]); congruence.
      + destruct C as [C|[_ C]]; contradiction.
    - destruct P as (E & C & -> & Wh). destruct (eig (rot q)) as [v w] eqn:Eg. destruct (X2 Wh) as (Y1 & Y2 & Y3). simpl in Y1, Y2, Y3.
      match goal with |- context [set_inner c a ?f] => set (g := f) end.
      destruct (set_inner_outside c (k_key q) a g G E) as (G' & S'). simpl good_outcome. split; [auto|]. split; [auto|]. split.
      + apply set_inner_okk; auto. intros q' I' K (D1 & D2 & D3 & D4). unfold g, entry; simpl. split; [auto|]. split; [|auto].
        right. rewrite Y1. rewrite <- (agree q q' I I') by auto. rewrite Eg. auto.
      + rewrite Eg. simpl. auto 10.
    - destruct P as (E & -> & Wh & -> & -> & ->). destruct (X2 Wh) as (Y1 & Y2 & Y3).
      match goal with |- context [set_inner c a ?f] => set (g := f) end.
      destruct (set_inner_outside c (k_key q) a g G E) as (G' & S'). simpl good_outcome. split; [auto|]. split; [auto|]. split.
      + apply set_inner_okk; auto. intros q' I' K (D1 & D2 & D3 & D4). unfold g, entry; simpl. split; [auto|]. split; [auto|]. split; [|auto].
        right. rewrite Y2. rewrite <- (agree q q' I I') by auto. auto.
      + rewrite Nat.eqb_refl. unfold g; simpl. repeat split; auto. discriminate.
    - destruct P as (E & -> & Wh & -> & -> & -> & N). destruct (X2 Wh) as (Y1 & Y2 & Y3).
      match goal with |- context [set_inner c a ?f] => set (g := f) end.
      destruct (set_inner_outside c (k_key q) a g G E) as (G' & S'). eapply raised_good; eauto.
      + apply set_inner_okk; auto. intros q' I' K (D1 & D2 & D3 & D4). unfold g, entry; simpl. split; [auto|]. split; [auto|]. split; [auto|].
        right. rewrite Y3. rewrite <- (agree q q' I I') by auto. auto.
      + rewrite heap_set_inner. unfold g. right. simpl. split; [auto|discriminate].
  Qed.

  Lemma placed_same : forall c c' q p, same_at c c' (k_key q) -> placed c q p -> placed c' q p.
  Proof.
    intros c c' q p [S1 S2] P. destruct p; simpl in *; try rewrite S1; auto.
    - intros a E. rewrite S1 in E. rewrite (S2 a) by auto. apply P; auto.
    - destruct P as (a & E & C). exists a. rewrite (S2 a) by auto. auto.
    - pose proof (proj1 P) as E. rewrite (S2 a E); auto.
    - pose proof (proj1 P) as E. rewrite (S2 a E); auto.
    - pose proof (proj1 P) as E. rewrite (S2 a E); auto.
    - pose proof (proj1 P) as E. rewrite (S2 a E); auto.
    - pose proof (proj1 P) as E. rewrite (S2 a E); auto.
    - pose proof (proj1 P) as E. rewrite (S2 a E); auto.
    - pose proof (proj1 P) as E. rewrite (S2 a E); auto.
    - pose proof (proj1 P) as E. rewrite (S2 a E); auto.
    - pose proof (proj1 P) as E. rewrite (S2 a E); auto.
  Qed.
  Lemma okk_same : forall c c' k, same_at c c' k -> okk c k -> okk c' k.
  Proof. intros c c' k [S1 S2] O a q E I K. rewrite S1 in E. rewrite (S2 a E). apply O; auto. Qed.
  Lemma full_same : forall c c' k, same_at c c' k -> full c k -> full c' k.
  Proof. intros c c' k [S1 S2] O a E. rewrite S1 in E. rewrite (S2 a E). apply O; auto. Qed.

  Definition calls (t : thread) : list call := map fst (t_done t) ++ t_todo t.
  Definition keys (t : thread) : list string := map k_key (calls t).
  Definition tinv (c : cache) (t : thread) : Prop :=
    (forall q r, In (q, r) (t_done t) -> r = Ok (uncached q)) /\
    (forall k, In k (keys t) -> okk c k) /\
    match t_todo t with
    | [] => forall k, In k (keys t) -> full c k
    | q :: _ => placed c q (t_place t) /\ forall k, In k (keys t) -> k <> k_key q -> full c k
    end.

  Lemma tinv_same : forall c c' t, (forall k, In k (keys t) -> same_at c c' k) -> tinv c t -> tinv c' t.
  Proof.
    intros c c' t S (D & O & P). split; [auto|]. split.
    - intros k I. eapply okk_same; eauto.
    - destruct (t_todo t) as [|q l] eqn:T.
      + intros k I. eapply full_same; eauto.
      + destruct P as (P & F). split.
        * eapply placed_same; eauto. apply S. unfold keys, calls. rewrite T. apply in_map, in_or_app. right; left; auto.
        * intros k I N. eapply full_same; eauto.
  Qed.

  Lemma turn_good : forall c t, incl (calls t) all -> ginv c -> tinv c t ->
    ginv (fst (turn c t)) /\ tinv (fst (turn c t)) (snd (turn c t)) /\ calls (snd (turn c t)) = calls t /\
    forall k, ~ In k (keys t) -> same_at c (fst (turn c t)) k.
  Proof.
    intros c t I G (D & O & P). unfold ModelCache.turn. destruct (t_todo t) as [|q l] eqn:T.
    { simpl. split; [auto|]. split; [|split; auto using same_refl]. split; [auto|]. split; [auto|]. rewrite T. auto. }
    destruct P as (P & F).
    assert (In q (calls t)) as Iq by (unfold calls; rewrite T; apply in_or_app; right; left; auto).
    assert (In (k_key q) (keys t)) as Ik by (apply in_map; auto).
    pose proof (step1_good c q (t_place t) (I _ Iq) G (O _ Ik) P) as S.
    destruct (step1 c q (t_place t)) as [c' p|c' r]; simpl in S.
    - destruct S as (G' & S & O' & P'). simpl. split; [auto|]. split; [|split].
      + split; [auto|]. simpl. split.
        * intros k J. destruct (String.string_dec k (k_key q)) as [->|N]; auto. eapply okk_same; [apply S; auto|]. apply O.
          unfold keys, calls in *. simpl in *. rewrite T in *. auto.
        * try rewrite T. split; auto. intros k J N. eapply full_same; [apply S; auto|]. apply F; auto.
          unfold keys, calls in *. simpl in *. rewrite T in *. auto.
      + unfold calls. simpl. rewrite T; auto.
      + intros k N. apply S. intros ->. contradiction.
    - destruct S as (G' & S & O' & F' & ->). simpl. split; [auto|].
      assert (calls (Thread (t_done t ++ [(q, Ok (uncached q))]) Contains l) = calls t) as Ec.
      { unfold calls. simpl. rewrite T, map_app, <- app_assoc. auto. }
      assert (forall k, In k (keys t) -> full c' k) as FF.
      { intros k J. destruct (String.string_dec k (k_key q)) as [->|N]; auto. eapply full_same; [apply S; auto|]. apply F; auto. }
      split; [|split; [auto|]].
      + split; [|split].
        * simpl. intros q' r J. apply in_app_or in J as [J|[J|[]]]; [auto|]. inversion J; subst; auto.
        * unfold keys. rewrite Ec. fold (keys t). intros k J. destruct (String.string_dec k (k_key q)) as [->|N]; auto.
          eapply okk_same; [apply S; auto|]. apply O; auto.
        * unfold keys. rewrite Ec. fold (keys t). simpl. destruct l as [|q' l]; [exact FF|]. split; [|auto].
          simpl. apply FF. unfold keys. apply in_map. unfold calls. rewrite T. apply in_or_app. right; right; left; auto.
      + intros k N. apply S. intros ->. contradiction.
  Qed.

  Lemma at_thread_good : forall l i c, Forall (fun t => incl (calls t) all) l -> apart (map keys l) -> ginv c -> Forall (tinv c) l ->
    ginv (fst (at_thread i c l)) /\ Forall (tinv (fst (at_thread i c l))) (snd (at_thread i c l)) /\
    map calls (snd (at_thread i c l)) = map calls l /\
    forall k, (forall t, In t l -> ~ In k (keys t)) -> same_at c (fst (at_thread i c l)) k.
  Proof.
    induction l as [|t l IH]; intros i c I P G F.
    { destruct i; simpl; auto using same_refl. }
    pose proof (Forall_inv I) as I1. pose proof (Forall_inv_tail I) as I2. pose proof (Forall_inv F) as F1. pose proof (Forall_inv_tail F) as F2.
    simpl in P. destruct P as (P1 & P2). destruct i as [|i]; simpl.
    - destruct (turn_good c t) as (A1 & A2 & A3 & A4); auto. destruct (turn c t) as [c' t']. simpl in *.
      split; [auto|]. split; [|split].
      + constructor; [exact A2|]. rewrite Forall_forall in F2 |- *. intros t0 J. apply tinv_same with c; [|apply F2; exact J].
        intros k K. apply A4. intros K'. exact (P1 k K' (keys t0) (in_map keys _ _ J) K).
      + congruence.
      + intros k N. apply A4. apply N. auto.
    - destruct (IH i c) as (A1 & A2 & A3 & A4); auto. destruct (at_thread i c l) as [c' l']. simpl in *.
      split; [auto|]. split; [|split].
      + constructor; [|exact A2]. apply tinv_same with c; [|exact F1]. intros k K. apply A4. intros t0 J K'.
        exact (P1 k K (keys t0) (in_map keys _ _ J) K').
      + congruence.
      + intros k N. apply A4. intros t0 J. apply N. auto.
  Qed.

  Lemma run_good : forall turns c l, Forall (fun t => incl (calls t) all) l -> apart (map keys l) -> ginv c -> Forall (tinv c) l ->
    exists c', Forall (tinv c') (snd (run turns c l)) /\ map calls (snd (run turns c l)) = map calls l.
  Proof.
    induction turns as [|i turns IH]; intros c l I P G F; simpl; [eauto|].
    destruct (at_thread_good l i c) as (A1 & A2 & A3 & A4); auto. destruct (at_thread i c l) as [c' l']. simpl in *.
    assert (map keys l' = map keys l) as E.
    { transitivity (map (map k_key) (map calls l')); [rewrite map_map; auto|]. rewrite A3, map_map. auto. }
    destruct (IH c' l') as (c'' & B1 & B2); auto.
    - rewrite Forall_forall in *. intros t J. assert (In (calls t) (map calls l)) as K by (rewrite <- A3; apply in_map; auto).
      apply in_map_iff in K as (t0 & K & J0). rewrite <- K. auto.
    - rewrite E; auto.
    - exists c''. split; auto. congruence.
  Qed.
End Proofs.

(** ** the theorems *)
Section Theorems.
  Context {X A M V W R : Type} (whole : A -> bool) (procrustes : X -> bool -> M) (eig : M -> V * W) (inv : W -> W)
    (recompose : V -> W -> W -> A -> M) (other_power : M -> A -> M) (finish : X -> A -> M -> M -> R)
    (half : M -> M) (halfV : V -> V) (halfW : W -> W).
  Notation run := (run whole procrustes eig inv recompose other_power finish half halfV halfW).
  Notation uncached := (uncached whole procrustes eig inv recompose other_power finish).

  (** Calls that share a cache, several threads with their own keys in any order: every call gives what it gives
      without a cache, when the calls for a key have the same rotation and storing loses nothing. *)
  Theorem C104_same_results_partial : forall (work : list (list call)) turns,
    apart (map (map k_key) work) ->
    (forall q, In q (concat work) -> stored_exactly whole procrustes eig inv half halfV halfW q) ->
    one_rotation whole procrustes (concat work) ->
    all_give uncached work (snd (run turns no_entries (map start work))).
  Proof.
    intros work turns P E G.
    destruct (run_good whole procrustes eig inv recompose other_power finish half halfV halfW (concat work) E G turns no_entries (map start work)) as (c & F & Q).
    - apply Forall_forall. intros t I. apply in_map_iff in I as (qs & <- & I). unfold calls. simpl. intros q J. apply in_concat. eauto.
    - rewrite map_map. unfold keys, calls. simpl. auto.
    - split; discriminate.
    - apply Forall_forall. intros t I. apply in_map_iff in I as (qs & <- & I). split; [simpl; contradiction|]. split.
      + intros k _ a q D. discriminate.
      + simpl. destruct qs as [|q0 qs0]; [intros k _ ? D; discriminate|]. split; [intros ? D; discriminate|]. intros k _ _ ? D; discriminate.
    - assert (map calls (snd (run turns no_entries (map start work))) = work) as Q'.
      { etransitivity; [exact Q|]. rewrite map_map. unfold calls. simpl. apply map_id. }
      clear Q P E G. revert F Q'. generalize (snd (run turns no_entries (map start work))) as l.
      generalize (concat work) as all. intros all l F Q'. subst work. induction l as [|t l IH]; simpl; constructor; [|exact (IH (Forall_inv_tail F))].
      apply Forall_inv in F. destruct F as (D & _). exists (length (t_done t)). unfold calls.
      rewrite firstn_app, skipn_app, map_length, Nat.sub_diag. simpl. rewrite app_nil_r.
      rewrite (firstn_all2 (map fst (t_done t))) by (rewrite map_length; auto).
      rewrite (skipn_all2 (map fst (t_done t))) by (rewrite map_length; auto). split; [|reflexivity].
      rewrite map_map. rewrite <- (map_id (t_done t)) at 1. apply map_ext_in. intros [q r] J. simpl. f_equal. auto.
  Qed.

  (** Every call ends: after nine turns per call nothing is left to do, whatever the other threads do. *)
  Definition rank (p : @place M V W) : nat :=
    match p with
    | Contains => 9 | Insert => 8 | Lookup => 7 | HasRotation _ => 6 | ReadRotation _ | StoreRotation _ => 5
    | HasValues _ _ => 4 | ReadValues _ _ | StoreValues _ _ => 3 | ReadVectors _ _ _ | StoreVectors _ _ _ _ _ => 2
    | ReadInverse _ _ _ _ | StoreInverse _ _ _ _ _ => 1
    end.
  Definition left (t : @thread X A M V W R) : nat :=
    match t_todo t with [] => 0 | _ :: l => 9 * length l + rank (t_place t) end.
  Notation turn := (turn whole procrustes eig inv recompose other_power finish half halfV halfW).
  Notation at_thread := (at_thread whole procrustes eig inv recompose other_power finish half halfV halfW).
  Lemma step1_rank : forall c q p,
    match step1 whole procrustes eig inv recompose other_power finish half halfV halfW c q p with
    | Go _ p' => rank p' < rank p
    | Stop _ _ => 1 <= rank p
    end.
  Proof.
    intros c q p. destruct p; simpl; unfold rotated, raised.
    - destruct (c_outer c (k_key q)); simpl; lia.
    - lia.
    - destruct (c_outer c (k_key q)); simpl; lia.
    - destruct (i_rotation (c_heap c a)); simpl; lia.
    - destruct (i_rotation (c_heap c a)); simpl; [|lia]. destruct (whole (k_how q)); simpl; lia.
    - destruct (whole (k_how q)); simpl; lia.
    - destruct (i_values (c_heap c a)); simpl; lia.
    - destruct (i_values (c_heap c a)); simpl; lia.
    - destruct (i_vectors (c_heap c a)); simpl; lia.
    - destruct (i_inverse (c_heap c a)); simpl; lia.
    - destruct (eig r); simpl; lia.
    - lia.
    - lia.
  Qed.
  Lemma turn_left : forall c t, left (snd (turn c t)) <= pred (left t).
  Proof.
    intros c [d p [|q l]]; [simpl; auto|]. unfold ModelCache.turn. cbn [t_todo t_place t_done].
    pose proof (step1_rank c q p) as S. destruct (step1 _ _ _ _ _ _ _ _ _ _ c q p); unfold left; cbn [t_todo t_place snd]; [lia|].
    destruct l; simpl; lia.
  Qed.
  Lemma at_thread_left : forall l i c j t', nth_error (snd (at_thread i c l)) j = Some t' ->
    exists t, nth_error l j = Some t /\ left t' <= (if j =? i then pred (left t) else left t).
  Proof.
    induction l as [|t l IH]; intros i c j t' E; [destruct i, j; discriminate|]. destruct i as [|i]; cbn [ModelCache.at_thread] in E.
    - pose proof (turn_left c t) as L. destruct (turn c t) as [c' t0]. destruct j as [|j]; simpl in *.
      + inversion E; subst. eauto.
      + eauto.
    - specialize (IH i c). destruct (at_thread i c l) as [c' l0]. destruct j as [|j]; simpl in *.
      + inversion E; subst. eauto.
      + apply IH; auto.
  Qed.
  Lemma run_left : forall turns l c j t', nth_error (snd (run turns c l)) j = Some t' ->
    exists t, nth_error l j = Some t /\ left t' <= left t - count_occ Nat.eq_dec turns j.
  Proof.
    induction turns as [|i turns IH]; intros l c j t' E; cbn [ModelCache.run] in E.
    - exists t'. split; auto. simpl. lia.
    - pose proof (at_thread_left l i c) as L. destruct (at_thread i c l) as [c' l']. apply IH in E as (t1 & E & Le). simpl in L.
      apply L in E as (t & E & Le'). exists t. split; auto. simpl. destruct (Nat.eqb_spec j i), (Nat.eq_dec i j); try congruence; lia.
  Qed.
  Theorem C104_calls_end : forall (work : list (list call)) turns j qs t,
    nth_error work j = Some qs -> nth_error (snd (run turns no_entries (map start work))) j = Some t ->
    9 * length qs <= count_occ Nat.eq_dec turns j -> t_todo t = [].
  Proof.
    intros work turns j qs t E1 E2 L. apply run_left in E2 as (t0 & E2 & L2). rewrite (map_nth_error start _ _ E1) in E2.
    inversion E2; subst. assert (left (start qs) <= 9 * length qs) as L3 by (destruct qs; unfold left, start; simpl; lia).
    destruct t as [d p [|q l]]; [reflexivity|]. unfold left at 1 in L2. cbn [t_todo t_place] in L2. destruct p; cbn [rank] in L2; lia.
  Qed.

  Ltac sim := cbn -[String.eqb]; unfold rotated, raised, get; rewrite ?String.eqb_refl; cbn -[String.eqb].
  (** Two calls for the same key, one after the other: the first gives what it gives without a cache; the second works with
      the rotation of the first, as float16, whatever its own tensors are, and with the first's eigenvalues and
      eigenvectors, as complex32, if the first had to compute them. *)
  Theorem C104_second_call : forall k x y a b n,
    let r := half (procrustes x (whole a)) in
    t_done (nth 0 (snd (run (repeat 0 (18 + n)) no_entries [start [Call k x a; Call k y b]])) (start [])) =
    [(Call k x a, Ok (uncached (Call k x a)));
     (Call k y b, Ok (finish y b r
        (if negb (whole b) then other_power r b
         else if whole a then let (v, w) := eig (procrustes x true) in recompose (halfV v) (halfW w) (halfW (inv w)) b
         else let (v, w) := eig r in recompose v w (inv w) b)))].
  Proof.
    intros k x y a b n r.
    assert (forall m c d p q l c' p', step1 whole procrustes eig inv recompose other_power finish half halfV halfW c q p = Go c' p' ->
      run (repeat 0 (S m)) c [Thread d p (q :: l)] = run (repeat 0 m) c' [Thread d p' (q :: l)]) as Go1.
    { intros m c d p q l c' p' E. cbn [repeat ModelCache.run ModelCache.at_thread]. unfold ModelCache.turn. cbn [t_todo t_place t_done]. rewrite E. auto. }
    assert (forall m c d p q l c' o, step1 whole procrustes eig inv recompose other_power finish half halfV halfW c q p = Stop c' o ->
      run (repeat 0 (S m)) c [Thread d p (q :: l)] = run (repeat 0 m) c' [Thread (d ++ [(q, o)]) Contains l]) as Stop1.
    { intros m c d p q l c' o E. cbn [repeat ModelCache.run ModelCache.at_thread]. unfold ModelCache.turn. cbn [t_todo t_place t_done]. rewrite E. auto. }
    assert (forall m c d p, run (repeat 0 m) c [Thread d p []] = (c, [Thread d p []])) as Stay.
    { induction m; intros; cbn [repeat ModelCache.run ModelCache.at_thread]; [auto|]. unfold ModelCache.turn. cbn [t_todo]. auto. }
    unfold start. cbn [plus]. unfold ModelCache.uncached. cbn [k_input k_how].
    destruct (whole a) eqn:Wa, (whole b) eqn:Wb; cbn [negb]; subst r; rewrite ?Wa.
    - destruct (eig (procrustes x true)) as [v w] eqn:Ex.
      repeat first
        [ rewrite Stay
        | erewrite Go1 by (sim; rewrite ?Wa, ?Wb, ?Ex; sim; reflexivity)
        | erewrite Stop1 by (sim; rewrite ?Wa, ?Wb, ?Ex; sim; reflexivity) ].
      reflexivity.
    - destruct (eig (procrustes x true)) as [v w] eqn:Ex.
      repeat first
        [ rewrite Stay
        | erewrite Go1 by (sim; rewrite ?Wa, ?Wb, ?Ex; sim; reflexivity)
        | erewrite Stop1 by (sim; rewrite ?Wa, ?Wb, ?Ex; sim; reflexivity) ].
      reflexivity.
    - destruct (eig (half (procrustes x false))) as [v w] eqn:Ex.
      repeat first
        [ rewrite Stay
        | erewrite Go1 by (sim; rewrite ?Wa, ?Wb, ?Ex; sim; reflexivity)
        | erewrite Stop1 by (sim; rewrite ?Wa, ?Wb, ?Ex; sim; reflexivity) ].
      reflexivity.
    - repeat first
        [ rewrite Stay
        | erewrite Go1 by (sim; rewrite ?Wa, ?Wb; sim; reflexivity)
        | erewrite Stop1 by (sim; rewrite ?Wa, ?Wb; sim; reflexivity) ].
      reflexivity.
  Qed.
End Theorems.

(** ** small cases: tensors, matrices, eigenvalues and eigenvectors are numbers, alignments are whole or not *)
Definition ex_procrustes (x : nat) (cancel : bool) : nat := if cancel then x else S (S x).
Definition ex_eig (m : nat) : nat * nat := (m + 1, m + 2).
Definition ex_recompose (v w u : nat) (a : bool) : nat := v + 2 * w + u.
Definition ex_finish (x : nat) (a : bool) (r p : nat) : list nat := [x; r; p].
Definition ex_run (half : nat -> nat) :=
  run (fun a : bool => a) ex_procrustes ex_eig S ex_recompose (fun m _ => m) ex_finish half half half.
Definition ex_uncached := uncached (fun a : bool => a) ex_procrustes ex_eig S ex_recompose (fun m _ => m) ex_finish.
Definition ex_outcomes half turns work := map (fun t => map snd (t_done t)) (snd (ex_run half turns no_entries (map start work))).

(** without losses, two threads with two keys: both calls of each give what they give without a cache *)
Example C104_example :
  ex_outcomes (fun m => m) (concat (repeat [0; 1; 1] 18)) [[Call "k" 1 true; Call "k" 1 true]; [Call "l" 2 false; Call "m" 3 true]] =
  [[Ok (ex_uncached (Call "k" 1 true)); Ok (ex_uncached (Call "k" 1 true))];
   [Ok (ex_uncached (Call "l" 2 false)); Ok (ex_uncached (Call "m" 3 true))]] /\
  ex_uncached (Call "k" 1 true) = [1; 1; 12].
Proof. split; vm_compute; reflexivity. Qed.

(** What is stored is rounded: the same call made twice does not give the same. *)
Theorem C104_rounding_refuted : ~ forall (half : nat -> nat) (work : list (list call)) turns,
  apart (map (map k_key) work) -> one_rotation (fun a : bool => a) ex_procrustes (concat work) ->
  all_give ex_uncached work (snd (ex_run half turns no_entries (map start work))).
Proof.
  intros H. specialize (H (fun m => m / 2 * 2) [[Call "k" 1 false; Call "k" 1 false]] (repeat 0 18)).
  assert (all_give ex_uncached [[Call "k" 1 false; Call "k" 1 false]]
    (snd (ex_run (fun m => m / 2 * 2) (repeat 0 18) no_entries (map start [[Call "k" 1 false; Call "k" 1 false]])))) as G.
  { apply H; [simpl; tauto|]. intros q q' [<-|[<-|[]]] [<-|[<-|[]]] _; reflexivity. }
  vm_compute in G. inversion G as [|? ? ? ? (n & E & T) _]; subst. destruct n as [|[|[|n]]]; discriminate.
Qed.

(** Nothing lost, the same tensors: a call with an alignment that is not whole before one that is. *)
Theorem C104_alignment_refuted : ~ forall (work : list (list call)) turns,
  apart (map (map k_key) work) ->
  (forall q, In q (concat work) -> stored_exactly (fun a : bool => a) ex_procrustes ex_eig S (fun m => m) (fun m => m) (fun m => m) q) ->
  (forall q q', In q (concat work) -> In q' (concat work) -> k_key q = k_key q' -> k_input q = k_input q') ->
  all_give ex_uncached work (snd (ex_run (fun m => m) turns no_entries (map start work))).
Proof.
  intros H. specialize (H [[Call "k" 1 false; Call "k" 1 true]] (repeat 0 18)).
  assert (all_give ex_uncached [[Call "k" 1 false; Call "k" 1 true]]
    (snd (ex_run (fun m => m) (repeat 0 18) no_entries (map start [[Call "k" 1 false; Call "k" 1 true]])))) as G.
  { apply H; [simpl; tauto| |].
    - intros q _. split; auto.
    - intros q q' [<-|[<-|[]]] [<-|[<-|[]]] _; reflexivity. }
  vm_compute in G. inversion G as [|? ? ? ? (n & E & T) _]; subst. destruct n as [|[|[|n]]]; discriminate.
Qed.

(** Nothing lost, the same call in two threads: one of them finds the eigenvalues before the eigenvectors are stored. *)
Theorem C104_same_key_refuted : exists (q : call) turns,
  stored_exactly (fun a : bool => a) ex_procrustes ex_eig S (fun m => m) (fun m => m) (fun m => m) q /\
  ex_outcomes (fun m => m) turns [[q]; [q]] = [[Ok (ex_uncached q)]; [Err KeyError]].
Proof.
  exists (Call "k" 1 true), (repeat 0 7 ++ repeat 1 7 ++ repeat 0 2). split; [split; auto|]. vm_compute. reflexivity.
Qed.

Print Assumptions C104_same_results_partial.
Print Assumptions C104_calls_end.
Print Assumptions C104_second_call.
Print Assumptions C104_rounding_refuted.
Print Assumptions C104_alignment_refuted.
Print Assumptions C104_same_key_refuted.
