(** C21, C30, C66: what [merge] returns or leaves in a file, for every number of
    threads and every schedule *)
From Coq Require Import String Ascii List Bool Arith NArith ZArith Lia Permutation.
From Verif Require Import Base Json ModelStream SpecStream PropsStreamLemmas PropsStream InProofs InProofs2 ModelEval ModelDriver SpecDriver DriverProofs.
Import ListNotations.
Open Scope string_scope.
Open Scope list_scope.
Open Scope nat_scope.

Lemma future_failing : forall V (ev : string -> result V) k e, future_of (ev k) = Some e <-> failing ev k e.
Proof.
  intros V ev k e. unfold failing. destruct (ev k) as [v|e'] eqn:E; simpl.
  - split; [discriminate|intros [H _]; discriminate].
  - split.
    + destruct e'; simpl; intros H; inversion H; subst; split; auto; discriminate.
    + intros [H N]. inversion H; subst. destruct e; auto. exfalso. eapply N; eauto.
Qed.

(** what holds of every finished run, whatever the output *)
Lemma over_facts : forall V S (sk : sink V S) left ev threads keys s0 evs p,
  sink_ok sk left -> (forall tid, left tid s0 = 0) -> NoDup keys ->
  prun sk ev threads (pool_init keys s0) evs = Some p -> pool_over p ->
  srun sk s0 (p_ops p) = Some (p_sink p) /\ NoDup (map fst (calls (p_ops p))) /\
  (forall k v, In (k, v) (calls (p_ops p)) -> In k keys /\ ev k = Ok v) /\
  match p_failed p with
  | None => (forall k v, In k keys -> ev k = Ok v -> In (k, v) (calls (p_ops p))) /\
            (forall k e, In k keys -> ~ failing ev k e) /\ (forall tid, left tid (p_sink p) = 0)
  | Some e => exists k, In k keys /\ failing ev k e
  end.
Proof.
  intros V S sk left ev threads keys s0 evs p OK Z ND R O.
  pose proof (inv_run _ _ _ _ OK _ _ _ _ _ ND (inv_init _ _ threads left keys s0 Z) R) as I.
  destruct I as [Ip It Il Ig Is Id Ic Ia In_ Ik If Ile Il3].
  destruct O as (O1 & O2 & O3 & O4). rewrite O1, O2, O3 in Ip. simpl in Ip.
  assert (Hd : forall k, In k (map fst (p_done p)) -> In k keys).
  { intros k X. eapply Permutation_in; [apply Permutation_sym; exact Ip|]. rewrite in_app_iff; auto. }
  split; auto. split; auto. split.
  - intros k v X. apply Ic in X as (A & [B|(t & B)]); [auto|]. rewrite O3 in B. contradiction.
  - destruct (p_failed p) as [e|] eqn:F.
    + destruct If as (_ & _ & k & X). exists k. split; [apply Hd; apply (in_map fst) in X; auto|].
      apply future_failing. symmetry. apply Id in X. auto.
    + rewrite If, app_nil_r in Ip. unfold open_for_results in *. rewrite F in *.
      assert (Hk : forall k, In k keys -> In k (map fst (p_done p))) by (intros; eapply Permutation_in; eauto).
      split; [|split].
      * intros k v X A. apply Ia; auto.
      * intros k e X A. apply Hk in X. apply in_map_iff in X as ((k' & x) & E & X). simpl in E; subst k'.
        pose proof (O4 eq_refl _ _ X). subst x. apply Id in X. apply future_failing in A. congruence.
      * intros tid. apply Ile; auto. rewrite O3. simpl. auto.
Qed.

(** ** C21 *)

(** A merge into a dict, with any number of threads and any schedule: if it returns, no
    key failed and the dict holds exactly the values of the keys that have one; if it
    raises, it raises the error of one of the keys. *)
Theorem C21_merge_is_evaluation : forall T conv (r : node T) keys out0 threads evs p,
  NoDup keys ->
  prun mem_sink (eval conv r) threads (pool_init keys out0) evs = Some p -> pool_over p ->
  match p_failed p with
  | None => merged (eval conv r) keys out0 (p_sink p) /\ forall k e, In k keys -> ~ failing (eval conv r) k e
  | Some e => exists k, In k keys /\ failing (eval conv r) k e
  end.
Proof.
  intros T conv r keys out0 threads evs p ND R O.
  destruct (over_facts _ _ _ _ _ _ _ _ _ _ (mem_ok (value T)) (fun _ => eq_refl) ND R O) as (Hs & Nc & Hc & H).
  destruct (p_failed p); auto. destruct H as (Ha & Hf & _). split; auto.
  apply mem_run in Hs. rewrite Hs. intros k v. rewrite dget_dupdate by auto.
  destruct (dget String.eqb k (calls (p_ops p))) as [w|] eqn:D.
  - pose proof (dget_In String.eqb String.eqb_spec _ _ D) as D'. apply Hc in D' as (D1 & D2). split.
    + intros E. inversion E; subst. auto.
    + intros [(_ & E)|(_ & E)]; [congruence|]. exfalso. apply E. eauto.
  - apply (proj1 (dget_None String.eqb String.eqb_spec _ _)) in D.
    assert (N : ~ (In k keys /\ exists w, eval conv r k = Ok w)).
    { intros (X & w & E). apply D. apply (in_map fst) with (x := (k, w)). apply Ha; auto. }
    split; [auto|]. intros [(X & E)|(E & _)]; auto. exfalso; apply N; eauto.
Qed.
Print Assumptions C21_merge_is_evaluation.

(** with [threads=0] the keys are merged in the calling thread, in order *)
Theorem C21_single_thread : forall T conv (r : node T) keys out0,
  NoDup keys ->
  match merge_here (eval conv r) keys out0 with
  | (out, None) => merged (eval conv r) keys out0 out /\ forall k e, In k keys -> ~ failing (eval conv r) k e
  | (_, Some e) => exists a k b, keys = a ++ k :: b /\ failing (eval conv r) k e /\ forall k' e', In k' a -> ~ failing (eval conv r) k' e'
  end.
Proof.
  intros T conv r. set (ev := eval conv r). induction keys as [|k keys IH]; intros out0 ND; simpl.
  - split; [|intros ? ? []]. intros k v. split; [intros H; right; split; auto; intros [[] _]|intros [([] & _)|(H & _)]; auto].
  - inversion ND as [|? ? N ND']; subst.
    assert (Skip : (exists k', ev k = Err (StateDictKeyError k')) \/ (exists e, ev k = Err e /\ is_missing e = false /\ failing ev k e) \/ exists v, ev k = Ok v).
    { destruct (ev k) as [v|e] eqn:E; [right; right; eauto|]. destruct (is_missing e) eqn:M.
      - left. destruct e; try discriminate. eauto.
      - right; left. exists e. repeat split; auto. intros k' ->. discriminate. }
    destruct Skip as [(k' & E)|[(e & E & M & F)|(v & E)]]; rewrite E.
    + simpl. specialize (IH out0 ND'). destruct (merge_here ev keys out0) as [out [e|]].
      * destruct IH as (a & k1 & b & -> & F & G). exists (k :: a), k1, b. repeat split; auto; try (apply F).
        intros k2 e2 [<-|X]; [|eapply G; eauto]. intros (A & B). rewrite E in A. inversion A; subst. eapply B; eauto.
      * destruct IH as (A & B). split.
        -- intros k1 v1. rewrite (A k1 v1). split.
           ++ intros [(X & Y)|(X & Y)]; [left; simpl; auto|]. right. split; auto. intros ([->|Z] & w & W); [congruence|eauto].
           ++ intros [([->|X] & Y)|(X & Y)]; [congruence|auto|]. right. split; auto. intros (Z & W). apply Y. simpl; auto.
        -- intros k1 e1 [<-|X]; [|eauto]. intros (A' & B'). rewrite E in A'. inversion A'; subst. eapply B'; eauto.
    + rewrite M. exists [], k, keys. split; [reflexivity|]. split; [exact F|intros ? ? []].
    + specialize (IH (dset String.eqb k v out0) ND'). destruct (merge_here ev keys _) as [out [e|]].
      * destruct IH as (a & k1 & b & -> & F & G). exists (k :: a), k1, b. repeat split; auto; try (apply F).
        intros k2 e2 [<-|X]; [|eapply G; eauto]. intros (A & B). congruence.
      * destruct IH as (A & B). split.
        -- intros k1 v1. rewrite (A k1 v1), (dget_dset String.eqb String.eqb_spec).
           destruct (String.eqb_spec k1 k) as [->|Nk].
           ++ split.
              ** intros [(X & Y)|(X & Y)]; [contradiction|]. inversion X; subst. left; simpl; auto.
              ** intros [(X & Y)|(X & Y)].
                 --- right. split; [congruence|tauto].
                 --- exfalso. apply Y. simpl; eauto.
           ++ split.
              ** intros [(X & Y)|(X & Y)]; [left; simpl; auto|]. right. split; auto. intros ([->|Z] & w & W); [congruence|eauto].
              ** intros [([->|X] & Y)|(X & Y)]; [congruence|auto|]. right. split; auto. intros (Z & W). apply Y. simpl; auto.
        -- intros k1 e1 [<-|X]; [|eauto]. intros (A' & B'). congruence.
Qed.
Print Assumptions C21_single_thread.

(** the number of threads and the schedule change neither the result nor whether there is one *)
Theorem C21_schedule_independent : forall T conv (r : node T) keys out0 threads1 evs1 p1 threads2 evs2 p2,
  NoDup keys ->
  prun mem_sink (eval conv r) threads1 (pool_init keys out0) evs1 = Some p1 -> pool_over p1 ->
  prun mem_sink (eval conv r) threads2 (pool_init keys out0) evs2 = Some p2 -> pool_over p2 ->
  (p_failed p1 = None <-> p_failed p2 = None) /\
  (p_failed p1 = None -> forall k, dget String.eqb k (p_sink p1) = dget String.eqb k (p_sink p2)).
Proof.
  assert (Half : forall T conv (r : node T) keys out0 threads1 evs1 p1 threads2 evs2 p2, NoDup keys ->
    prun mem_sink (eval conv r) threads1 (pool_init keys out0) evs1 = Some p1 -> pool_over p1 ->
    prun mem_sink (eval conv r) threads2 (pool_init keys out0) evs2 = Some p2 -> pool_over p2 ->
    p_failed p1 = None -> p_failed p2 = None).
  { intros T conv r keys out0 threads1 evs1 p1 threads2 evs2 p2 ND R1 O1 R2 O2 F.
    pose proof (C21_merge_is_evaluation _ _ _ _ _ _ _ _ ND R1 O1) as H1. rewrite F in H1.
    pose proof (C21_merge_is_evaluation _ _ _ _ _ _ _ _ ND R2 O2) as H2.
    destruct (p_failed p2); auto. destruct H2 as (k & X & Y). exfalso. destruct H1 as (_ & H1). eapply H1; eauto. }
  intros T conv r keys out0 threads1 evs1 p1 threads2 evs2 p2 ND R1 O1 R2 O2. split.
  - split; eapply Half; eauto.
  - intros F1. assert (F2 : p_failed p2 = None) by (eapply Half with (p1 := p1); eauto).
    pose proof (C21_merge_is_evaluation _ _ _ _ _ _ _ _ ND R1 O1) as H1. rewrite F1 in H1. destruct H1 as (H1 & _).
    pose proof (C21_merge_is_evaluation _ _ _ _ _ _ _ _ ND R2 O2) as H2. rewrite F2 in H2. destruct H2 as (H2 & _).
    intros k. destruct (dget String.eqb k (p_sink p1)) as [v|] eqn:D1.
    + symmetry. apply H2, H1, D1.
    + destruct (dget String.eqb k (p_sink p2)) as [v|] eqn:D2; auto. apply H2, H1 in D2. congruence.
Qed.
Print Assumptions C21_schedule_independent.

(** the pool never gets stuck, and every schedule ends: with a dict or a file as output *)
Theorem C21_merge_ends : forall V (ev : string -> result V) keys out0 threads evs p,
  0 < threads -> NoDup keys ->
  prun mem_sink ev threads (pool_init keys out0) evs = Some p ->
  length evs <= 9 * length keys + 1 /\
  (pool_over p \/ exists e p', pstep mem_sink ev threads p e = Some p').
Proof.
  intros V ev keys out0 threads evs p T ND R.
  pose proof (inv_init mem_sink ev threads (fun _ _ => 0) keys out0 (fun _ => eq_refl)) as I0.
  split.
  - pose proof (run_length _ _ _ _ (mem_ok V) _ _ _ _ _ ND I0 R) as L. unfold measure at 2 in L. simpl in L. lia.
  - pose proof (inv_run _ _ _ _ (mem_ok V) _ _ _ _ _ ND I0 R) as I.
    destruct (p_todo p) eqn:E1; [|right; eapply progress; eauto using mem_ok; intros (A & _); congruence].
    destruct (p_queue p) eqn:E2; [|right; eapply progress; eauto using mem_ok; intros (_ & A & _); congruence].
    destruct (p_run p) eqn:E3; [|right; eapply progress; eauto using mem_ok; intros (_ & _ & A & _); congruence].
    destruct (p_failed p) eqn:E4.
    + left. repeat split; auto. congruence.
    + destruct (find (fun kx => match snd kx with Some _ => true | None => false end) (p_done p)) as [[k x]|] eqn:F.
      * right. eapply progress; eauto using mem_ok. intros (_ & _ & _ & A).
        apply find_some in F as (F1 & F2). specialize (A E4 k x F1). subst x. discriminate.
      * left. repeat split; auto. intros _ k x X. eapply find_none in F; eauto. simpl in F. destruct x; [discriminate|auto].
Qed.
Print Assumptions C21_merge_ends.

Theorem C21_file_merge_ends : forall cap ev keys declared recipe minbuf threads evs p,
  0 < threads -> NoDup keys ->
  prun (file_sink cap) ev threads (pool_init keys (out_open declared recipe minbuf)) evs = Some p ->
  length evs <= 9 * length keys + 1 /\
  (pool_over p \/ exists e p', pstep (file_sink cap) ev threads p e = Some p').
Proof.
  intros cap ev keys declared recipe minbuf threads evs p T ND R.
  pose proof (inv_init (file_sink cap) ev threads file_left keys (out_open declared recipe minbuf) (fun _ => eq_refl)) as I0.
  split.
  - pose proof (run_length _ _ _ _ (file_ok cap) _ _ _ _ _ ND I0 R) as L. unfold measure at 2 in L. simpl in L. lia.
  - pose proof (inv_run _ _ _ _ (file_ok cap) _ _ _ _ _ ND I0 R) as I.
    destruct (p_todo p) eqn:E1; [|right; eapply progress; eauto using file_ok; intros (A & _); congruence].
    destruct (p_queue p) eqn:E2; [|right; eapply progress; eauto using file_ok; intros (_ & A & _); congruence].
    destruct (p_run p) eqn:E3; [|right; eapply progress; eauto using file_ok; intros (_ & _ & A & _); congruence].
    destruct (p_failed p) eqn:E4.
    + left. repeat split; auto. congruence.
    + destruct (find (fun kx => match snd kx with Some _ => true | None => false end) (p_done p)) as [[k x]|] eqn:F.
      * right. eapply progress; eauto using file_ok. intros (_ & _ & _ & A).
        apply find_some in F as (F1 & F2). specialize (A E4 k x F1). subst x. discriminate.
      * left. repeat split; auto. intros _ k x X. eapply find_none in F; eauto. simpl in F. destruct x; [discriminate|auto].
Qed.
Print Assumptions C21_file_merge_ends.

(** ** C66 *)
Lemma run_tids : forall cap ops s s', NoDup (map fst (o_thr s)) -> orun cap s ops = Some s' -> NoDup (map fst (o_thr s')).
Proof.
  induction ops as [|o ops IH]; intros s s' ND H; simpl in H; [inversion H; subst; auto|].
  destruct (ostep cap s o) as [s1|] eqn:E; [|discriminate]. apply (IH s1); auto.
  destruct o as [tid k t|tid]; simpl in E.
  - destruct (ts_pc _); try discriminate. inversion E; subst; simpl. apply (dset_NoDup Nat.eqb Nat.eqb_spec); auto.
  - destruct (dget Nat.eqb tid (o_thr s)) as [ts|]; [|discriminate].
    destruct (ts_pc ts); try discriminate; inversion E; subst; simpl; apply (dset_NoDup Nat.eqb Nat.eqb_spec); auto.
Qed.

Lemma all_left_quiescent : forall cap ops declared recipe minbuf s,
  orun cap (out_open declared recipe minbuf) ops = Some s -> (forall tid, file_left tid s = 0) -> quiescent s.
Proof.
  intros cap ops declared recipe minbuf s R L tid ts X.
  apply run_tids in R; [|constructor].
  specialize (L tid). unfold file_left in L. rewrite (dget_NoDup_In Nat.eqb Nat.eqb_spec _ _ _ R X) in L.
  destruct (ts_pc ts); auto; discriminate.
Qed.

(** Merging to a file that raises nothing and reading the file back gives the recipe's
    values: exactly the keys that have one, each with its tensor, in any order of
    reading, and the recipe text in the metadata. *)
Theorem C66_merge_to_file : forall cap conv (r : node tensor) keys declared recipe minbuf threads evs p bufsize,
  let ev k := as_tensor (eval conv r k) in
  NoDup ("__metadata__" :: keys) ->
  (forall k t, In k keys -> ev k = Ok t -> wf_tensor t) ->
  (forall l, lists_results ev keys l -> transfers_fit cap declared recipe minbuf l) ->
  0 < minbuf -> bufsize <= cap ->
  prun (file_sink cap) ev threads (pool_init keys (out_open declared recipe minbuf)) evs = Some p ->
  pool_over p -> p_failed p = None ->
  exists f rd,
    out_close cap (p_sink p) = Ok f /\ in_open cap f bufsize = Ok rd /\
    NoDup (in_keys rd) /\
    (forall k, In k (in_keys rd) <-> In k keys /\ exists t, ev k = Ok t) /\
    dget String.eqb "__metadata__" (in_header rd) =
      Some (JObj (match recipe with Some x => [("mecha_recipe", JStr x)] | None => [] end)) /\
    forall reads k t, In k keys -> ev k = Ok t ->
      exists w, fst (in_get cap (in_gets cap rd reads) k) = Ok w /\
                view_tensor (in_heap (snd (in_get cap (in_gets cap rd reads) k))) w = t.
Proof.
  intros cap conv r keys declared recipe minbuf threads evs p bufsize ev ND W TF M B R O F.
  assert (ND' : NoDup keys) by (inversion ND; auto).
  destruct (over_facts _ _ _ _ _ _ _ _ _ _ (file_ok cap) (fun _ => eq_refl : file_left _ (out_open declared recipe minbuf) = 0) ND' R O) as (Hs & Nc & Hc & H).
  rewrite F in H. destruct H as (Ha & Hf & Hl).
  rewrite <- to_ops_run in Hs. rewrite <- to_ops_written in *.
  assert (LR : lists_results ev keys (written (to_ops (p_ops p)))).
  { split; auto. intros k t. split; [apply Hc|]. intros (X & Y). apply Ha; auto. }
  destruct (C05_written_file_reads_back cap declared recipe minbuf (to_ops (p_ops p)) (p_sink p) bufsize) as (f & rd & E1 & E2 & E3 & E4 & E5); auto.
  - eapply all_left_quiescent; eauto.
  - split.
    + constructor; auto. intros X. apply in_map_iff in X as ((k & t) & E & X). simpl in E. subst k. apply Hc in X as (X & _).
      inversion ND; auto.
    + apply Forall_forall. intros (k & t) X. simpl. apply Hc in X as (X & Y). eapply W; eauto.
  - exists f, rd. split; auto. split; auto. split; [|split; [|split]]; auto.
    + eapply Permutation_NoDup; [apply Permutation_sym; exact E3|auto].
    + intros k. split.
      * intros X. eapply Permutation_in in X; [|exact E3]. apply in_map_iff in X as ((k' & t) & E & X). simpl in E; subst k'.
        apply Hc in X as (X & Y). eauto.
      * intros (X & t & Y). eapply Permutation_in; [apply Permutation_sym; exact E3|].
        apply (in_map fst) with (x := (k, t)). apply Ha; auto.
Qed.
Print Assumptions C66_merge_to_file.

(** ** C30 *)
(** What remains of it: if no task is inside [output[key] = ...] when the failure is
    seen, the file left behind holds only keys of the recipe with their tensors. *)
Theorem C30_failed_merge_partial : forall cap conv (r : node tensor) keys declared recipe minbuf threads evs p bufsize,
  let ev k := as_tensor (eval conv r k) in
  NoDup ("__metadata__" :: keys) ->
  (forall k t, In k keys -> ev k = Ok t -> wf_tensor t) ->
  (forall l, NoDup (map fst l) -> (forall k t, In (k, t) l -> In k keys /\ ev k = Ok t) -> transfers_fit cap declared recipe minbuf l) ->
  0 < minbuf -> bufsize <= cap ->
  prun (file_sink cap) ev threads (pool_init keys (out_open declared recipe minbuf)) evs = Some p ->
  pool_over p -> quiescent (p_sink p) ->
  exists f rd,
    out_close cap (p_sink p) = Ok f /\ in_open cap f bufsize = Ok rd /\
    forall reads k, In k (in_keys rd) -> In k keys /\ exists t w, ev k = Ok t /\
      fst (in_get cap (in_gets cap rd reads) k) = Ok w /\
      view_tensor (in_heap (snd (in_get cap (in_gets cap rd reads) k))) w = t.
Proof.
  intros cap conv r keys declared recipe minbuf threads evs p bufsize ev ND W TF M B R O Q.
  assert (ND' : NoDup keys) by (inversion ND; auto).
  destruct (over_facts _ _ _ _ _ _ _ _ _ _ (file_ok cap) (fun _ => eq_refl : file_left _ (out_open declared recipe minbuf) = 0) ND' R O) as (Hs & Nc & Hc & _).
  rewrite <- to_ops_run in Hs. rewrite <- to_ops_written in *.
  destruct (C05_written_file_reads_back cap declared recipe minbuf (to_ops (p_ops p)) (p_sink p) bufsize) as (f & rd & E1 & E2 & E3 & E4 & E5); auto.
  - split.
    + constructor; auto. intros X. apply in_map_iff in X as ((k & t) & E & X). simpl in E. subst k. apply Hc in X as (X & _).
      inversion ND; auto.
    + apply Forall_forall. intros (k & t) X. simpl. apply Hc in X as (X & Y). eapply W; eauto.
  - exists f, rd. split; auto. split; auto. intros reads k X.
    eapply Permutation_in in X; [|exact E3]. apply in_map_iff in X as ((k' & t) & E & X). simpl in E; subst k'.
    destruct (Hc _ _ X) as (X1 & X2). split; auto. destruct (E5 reads _ _ X) as (w & A1 & A2). exists t, w. auto.
Qed.
Print Assumptions C30_failed_merge_partial.

(** a model file in which reading the tensor "bad" fails *)
Definition dCfg := Config "x-y" ["x"; "w"; "bad"; "z"] [] [].
Definition tx := Tensor U8 [2%N] (bys [1; 2]%N).
Definition tw := Tensor U8 [2%N] (bys [3; 4]%N).
Definition tz := Tensor U8 [2%N] (bys [5; 6]%N).
Definition dget_t (k : string) : result tensor :=
  if String.eqb k "x" then Ok tx else if String.eqb k "w" then Ok tw else if String.eqb k "z" then Ok tz
  else if String.eqb k "bad" then Err RuntimeError else Err KeyError.
Definition dRecipe : node tensor := NModel "m.safetensors" dget_t ["x"; "w"; "bad"; "z"] dCfg "weight".
Definition dconv : ety -> value tensor -> result (value tensor) := fun _ v => Ok v.
Definition dEv k := as_tensor (eval dconv dRecipe k).
Definition dDecl : list (string * (option dtype * option (list N))) :=
  map (fun k => (k, (Some U8, Some [2%N]))) ["x"; "w"; "bad"; "z"].

(** thread 0 merges x, thread 1 merges w, thread 2 fails; the main thread sees it *)
Definition dSched1 : list event :=
  [Submit; Submit; Submit; Start 0; Submit; Start 1; Start 2; Evaluate 0; Store 0; Evaluate 2; Evaluate 1; Step 0; Finish 0;
   Store 1; Step 1; Finish 1; Finish 2; Observe "bad"].
(** the same, but thread 0 has gone on to z and is between writing its buffer and
    publishing where *)
Definition dSched2 : list event :=
  [Submit; Submit; Submit; Submit; Start 0; Start 1; Start 2; Evaluate 0; Store 0; Step 0; Finish 0; Start 0;
   Evaluate 1; Store 1; Step 1; Finish 1; Evaluate 0; Store 0; Step 0; Evaluate 2; Finish 2; Observe "bad"; Finish 0].

(** three keys, one of them missing from the file; two threads, interleaved *)
Definition dKeys := ["x"; "nokey"; "w"].
Definition dSched0 : list event :=
  [Submit; Start 1; Submit; Submit; Start 0; Evaluate 0; Evaluate 1; Finish 0; Start 0; Evaluate 0; Store 0; Store 1].
Example ex_C21 : exists p,
  prun mem_sink (eval dconv dRecipe) 2 (pool_init dKeys [("old", VL (LInt 3%Z))]) (dSched0 ++ [Finish 1; Finish 0]) = Some p /\
  pool_over p /\ p_failed p = None /\ p_sink p = [("old", VL (LInt 3%Z)); ("w", VT tw); ("x", VT tx)] /\ NoDup dKeys.
Proof.
  eexists. split; [vm_compute; reflexivity|]. split; [|split; [reflexivity|split; [reflexivity|]]].
  - repeat split; simpl. intros _ k x [H|[H|[H|[]]]]; inversion H; auto.
  - repeat constructor; simpl; intuition discriminate.
Qed.

(** a failing schedule, and one that is not over *)
Example ex_C21_failing : exists p, prun mem_sink (eval dconv dRecipe) 3 (pool_init ["x"; "bad"] [])
  [Submit; Submit; Start 0; Start 1; Evaluate 1; Finish 1; Observe "bad"; Evaluate 0; Store 0; Finish 0] = Some p /\
  pool_over p /\ p_failed p = Some RuntimeError.
Proof. eexists. split; [vm_compute; reflexivity|]. split; [|reflexivity]. repeat split; simpl. discriminate. Qed.

(** A merge can raise and leave a readable file with some of the keys only. *)
Theorem C30_failed_merge_refuted :
  ~ (forall cap conv (r : node tensor) keys declared recipe minbuf threads evs p f,
       NoDup ("__metadata__" :: keys) -> 0 < minbuf ->
       prun (file_sink cap) (fun k => as_tensor (eval conv r k)) threads (pool_init keys (out_open declared recipe minbuf)) evs = Some p ->
       pool_over p -> p_failed p <> None -> out_close cap (p_sink p) = Ok f -> unreadable cap f).
Proof.
  intros H.
  destruct (prun (file_sink 4096) dEv 3 (pool_init (cf_keys dCfg) (out_open dDecl None 2)) dSched1) as [p|] eqn:R; [|vm_compute in R; discriminate].
  destruct (out_close 4096 (p_sink p)) as [f|e] eqn:C.
  2:{ vm_compute in R. inversion R; subst p. vm_compute in C. discriminate. }
  destruct (H 4096 dconv dRecipe (cf_keys dCfg) dDecl None 2 3 dSched1 p f) as (e & U); auto.
  - repeat constructor; simpl; intuition discriminate.
  - vm_compute in R. inversion R; subst p. repeat split; simpl. discriminate.
  - vm_compute in R. inversion R; subst p. discriminate.
  - specialize (U 16). vm_compute in R. inversion R; subst p. vm_compute in C. inversion C; subst f. vm_compute in U. discriminate.
Qed.
Print Assumptions C30_failed_merge_refuted.

(** Worse: since the file is closed while other tasks are still running, the file left
    behind can be readable and hold a wrong tensor under a key: here x reads as w. *)
Theorem C30_wrong_tensor_in_file : exists p f rd w,
  prun (file_sink 4096) dEv 3 (pool_init (cf_keys dCfg) (out_open dDecl None 2)) dSched2 = Some p /\ pool_over p /\
  p_failed p = Some RuntimeError /\ out_close 4096 (p_sink p) = Ok f /\ in_open 4096 f 16 = Ok rd /\
  in_keys rd = ["x"; "w"] /\ dEv "x" = Ok tx /\
  fst (in_get 4096 rd "x") = Ok w /\ view_tensor (in_heap (snd (in_get 4096 rd "x"))) w = tw.
Proof.
  eexists _, _, _, _. split; [vm_compute; reflexivity|]. split; [repeat split; simpl; discriminate|].
  split; [reflexivity|]. split; [vm_compute; reflexivity|]. split; [vm_compute; reflexivity|].
  split; [vm_compute; reflexivity|]. split; [vm_compute; reflexivity|]. split; [vm_compute; reflexivity|].
  vm_compute. reflexivity.
Qed.
Print Assumptions C30_wrong_tensor_in_file.

(** the hypotheses of C66 and of the positive part of C30 are met *)
Example ex_C66 : exists p,
  prun (file_sink 4096) dEv 2 (pool_init dKeys (out_open dDecl (Some "r") 2)) (dSched0 ++ [Step 0; Step 1; Finish 1; Finish 0]) = Some p /\
  pool_over p /\ p_failed p = None /\ NoDup ("__metadata__" :: dKeys) /\
  (forall k t, In k dKeys -> dEv k = Ok t -> wf_tensor t) /\
  (forall l, lists_results dEv dKeys l -> transfers_fit 4096 dDecl (Some "r") 2 l).
Proof.
  eexists. split; [vm_compute; reflexivity|]. split; [|split; [reflexivity|split; [|split]]].
  - repeat split; simpl. intros _ k x [H|[H|[H|[]]]]; inversion H; auto.
  - repeat constructor; simpl; intuition discriminate.
  - intros k t [<-|[<-|[<-|[]]]] H; vm_compute in H; inversion H; reflexivity.
  - intros l (ND & L).
    assert (P : Permutation l [("x", tx); ("w", tw)]).
    { apply NoDup_Permutation.
      - eapply NoDup_map_inv; eauto.
      - repeat constructor; simpl; intuition discriminate.
      - intros (k & t). rewrite L. split.
        + intros ([<-|[<-|[<-|[]]]] & H); vm_compute in H; inversion H; subst; simpl; auto.
        + intros [H|[H|[]]]; inversion H; subst; split; simpl; auto. }
    apply Permutation_sym, Permutation_length_2_inv in P.
    destruct P as [-> | ->]; (repeat split; try (apply leb_le'; vm_compute; reflexivity);
      intros k t [H|[H|[]]]; inversion H; subst; apply leb_le'; vm_compute; reflexivity).
Qed.

Example ex_C30_partial : exists p,
  prun (file_sink 4096) dEv 3 (pool_init (cf_keys dCfg) (out_open dDecl None 2)) dSched1 = Some p /\
  pool_over p /\ p_failed p = Some RuntimeError /\ quiescent (p_sink p) /\
  map fst (calls (p_ops p)) = ["x"; "w"].
Proof.
  eexists. split; [vm_compute; reflexivity|]. split; [repeat split; simpl; discriminate|]. split; [reflexivity|]. split; [|reflexivity].
  intros tid ts H. simpl in H. destruct H as [H|[H|[]]]; inversion H; reflexivity.
Qed.
