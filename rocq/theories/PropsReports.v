(** C110: the progress bar and the warnings of check_finite. *)
From Coq Require Import String List Bool Arith Lia Permutation.
From Verif Require Import Base ModelStream SpecStream ModelEval ModelDriver SpecDriver DriverProofs PropsDriver ModelReports.
Import ListNotations.
Open Scope string_scope.
Open Scope list_scope.
Open Scope nat_scope.

Definition announced (l : list report) : list string := flat_map (fun r => match r with Announce k => [k] | _ => [] end) l.
Definition warned (l : list report) : list string := flat_map (fun r => match r with Warn k => [k] | _ => [] end) l.
Definition updates (l : list report) : list string := flat_map (fun r => match r with Update k => [k] | _ => [] end) l.

Notation cnt l k := (count_occ string_dec l k).
Lemma cnt_filter : forall f (l : list string) k, cnt (filter f l) k = if f k then cnt l k else 0.
Proof.
  intros f l k. induction l as [|x l IH]; [destruct (f k); auto|]. cbn [filter].
  destruct (string_dec x k) as [->|N].
  - destruct (f k) eqn:E; cbn [count_occ]; [destruct (string_dec k k); [lia|congruence]|lia].
  - destruct (f x); cbn [count_occ]; destruct (string_dec x k); try congruence; exact IH.
Qed.

Section Log.
  Context {V S : Type} (sk : sink V S) (ev : string -> result V) (threads : nat) (check : bool) (nonfinite : V -> bool).

  Definition bad (k : string) : bool := match ev k with Ok v => check && nonfinite v | Err _ => false end.
  Definition storing (x : nat * (string * @phase V)) : bool := match snd (snd x) with Storing => true | _ => false end.
  Definition finished (x : string * option exn) : bool := match snd x with None => true | Some _ => false end.

  Record linv (keys : list string) (p : @pool V S) (l : list report) : Prop := {
    l_perm : forall k, cnt keys k = cnt (p_todo p) k + cnt (p_queue p) k + cnt (map key_of (p_run p)) k + cnt (map fst (p_done p)) k + cnt (p_cancelled p) k;
    l_ann : forall k, cnt (announced l) k = cnt (map key_of (p_run p)) k + cnt (map fst (p_done p)) k;
    l_upd : forall k, cnt (updates l) k = cnt (map fst (filter finished (p_done p))) k;
    l_warn : forall k, cnt (warned l) k = if bad k then cnt (map key_of (filter storing (p_run p))) k + cnt (map fst (p_done p)) k else 0;
    l_got : forall tid k r, In (tid, (k, Got r)) (p_run p) -> r = ev k;
    l_storing : forall tid k, In (tid, (k, Storing)) (p_run p) -> exists v, ev k = Ok v;
    l_done : forall k x, In (k, x) (p_done p) -> x = future_of (ev k);
    l_failed : match p_failed p with Some e => exists k, In (k, Some e) (p_done p) | None => p_cancelled p = [] end }.

  Lemma linv_step : forall keys p l e p', linv keys p l -> pstep sk ev threads p e = Some p' ->
    linv keys p' (l ++ reports check nonfinite p e).
  Proof.
    intros keys p l e p' [Lp La Lu Lw Lg Ls Ld Lf] H. unfold announced, updates, warned in *.
    destruct e as [|tid|tid|tid|tid|tid|k]; simpl in H.
    - destruct (p_todo p) as [|k q] eqn:Et; [discriminate|]. inversion H; subst p'; clear H. cbn [reports]. rewrite app_nil_r.
      constructor; cbn [p_todo p_queue p_run p_done p_cancelled p_failed]; auto.
      intros k'. specialize (Lp k'). rewrite count_occ_app. cbn [count_occ] in *. destruct (string_dec k k'); lia.
    - destruct (tid <? threads) eqn:Lt; [|discriminate]. destruct (dget Nat.eqb tid (p_run p)) eqn:Er; [discriminate|].
      destruct (p_queue p) as [|k q] eqn:Eq; [discriminate|]. inversion H; subst p'; clear H. cbn [reports]. rewrite Eq.
      constructor; cbn [p_todo p_queue p_run p_done p_cancelled p_failed]; unfold announced, updates, warned; rewrite ?flat_map_app; cbn [flat_map]; auto.
      + intros k'. specialize (Lp k'). cbn [count_occ map key_of fst snd] in *. destruct (string_dec k k'); lia.
      + intros k'. specialize (La k'). rewrite count_occ_app. cbn [count_occ map key_of fst snd app]. destruct (string_dec k k'); lia.
      + intros k'. rewrite app_nil_r. apply Lu.
      + intros k'. rewrite app_nil_r. cbn [filter storing snd]. apply Lw.
      + intros t k' r [E|I]; [congruence|eauto].
      + intros t k' [E|I]; [congruence|eauto].
    - destruct (dget Nat.eqb tid (p_run p)) as [[k [| |]]|] eqn:Er; try discriminate. inversion H; subst p'; clear H.
      cbn [reports]. rewrite app_nil_r. apply split_dict in Er as (a & b & Er & Hs & _). rewrite Er in *.
      constructor; cbn [p_todo p_queue p_run p_done p_cancelled p_failed with_run]; rewrite ?Hs; auto.
      + intros k'. specialize (Lp k'). rewrite !map_app in *. exact Lp.
      + intros k'. specialize (La k'). rewrite !map_app in *. exact La.
      + intros k'. specialize (Lw k'). rewrite !filter_app in *. exact Lw.
      + intros t k' r I. apply in_app_iff in I as [I|[E|I]]; [eapply Lg; apply in_app_iff; eauto| |eapply Lg; apply in_app_iff; right; right; eauto].
        injection E as <- <- <-. auto.
      + intros t k' I. eapply Ls. apply in_app_iff in I as [I|[E|I]]; [apply in_app_iff; eauto|congruence|apply in_app_iff; right; right; eauto].
    - destruct (dget Nat.eqb tid (p_run p)) as [[k [|[v|e]|]]|] eqn:Er; try discriminate.
      assert (reports check nonfinite p (Store tid) = if check && nonfinite v then [Warn k] else []) as -> by (cbn [reports]; rewrite Er; auto).
      apply split_dict in Er as (a & b & Er & Hs & _). rewrite Er in *.
      assert (ev k = Ok v) as Ev by (symmetry; eapply Lg; apply in_app_iff; right; left; reflexivity).
      assert (p_todo p' = p_todo p /\ p_queue p' = p_queue p /\ p_run p' = a ++ (tid, (k, Storing)) :: b /\ p_done p' = p_done p /\
              p_cancelled p' = p_cancelled p /\ p_failed p' = p_failed p) as (E1 & E2 & E3 & E4 & E5 & E6).
      { destruct (open_for_results sk p); [destruct (sk_call sk tid k v (p_sink p)); [|discriminate]|];
          inversion H; subst p'; cbn [p_todo p_queue p_run p_done p_cancelled p_failed with_run]; rewrite ?Hs; auto 10. }
      constructor; unfold announced, updates, warned; rewrite ?E1, ?E2, ?E3, ?E4, ?E5, ?E6, ?flat_map_app; auto.
      + intros k'. specialize (Lp k'). rewrite !map_app in *. exact Lp.
      + intros k'. specialize (La k'). rewrite !map_app in *. destruct (check && nonfinite v); cbn [flat_map]; rewrite app_nil_r; exact La.
      + intros k'. specialize (Lu k'). destruct (check && nonfinite v); cbn [flat_map]; rewrite app_nil_r; exact Lu.
      + intros k'. specialize (Lw k'). rewrite !filter_app in *. cbn [filter storing snd] in *. rewrite !map_app in *. cbn [map key_of fst snd].
        rewrite !count_occ_app in *. cbn [count_occ]. destruct (string_dec k k') as [<-|N].
        * unfold bad in *. rewrite Ev in *. destruct (check && nonfinite v); cbn [flat_map app count_occ]; [destruct (string_dec k k); [lia|congruence]|lia].
        * assert (cnt (flat_map (fun r => match r with Warn k => [k] | _ => [] end) (if check && nonfinite v then [Warn k] else [])) k' = 0) as ->; [|lia].
          destruct (check && nonfinite v); cbn [flat_map app count_occ]; [destruct (string_dec k k'); [congruence|auto]|auto].
      + intros t k' r I. apply in_app_iff in I as [I|[E|I]]; [eapply Lg; apply in_app_iff; eauto|congruence|eapply Lg; apply in_app_iff; right; right; eauto].
      + intros t k' I. apply in_app_iff in I as [I|[E|I]]; [eapply Ls; apply in_app_iff; eauto| |eapply Ls; apply in_app_iff; right; right; eauto].
        injection E as <- <-. eauto.
    - destruct (dget Nat.eqb tid (p_run p)) as [[k [| |]]|] eqn:Er; try discriminate.
      destruct (open_for_results sk p); [|discriminate]. destruct (sk_step sk tid (p_sink p)); [|discriminate].
      inversion H; subst p'; clear H. cbn [reports]. rewrite app_nil_r. constructor; auto.
    - assert (exists k ph, dget Nat.eqb tid (p_run p) = Some (k, ph) /\ p' = finish_with p tid k (future_of (ev k)) /\
        reports check nonfinite p (Finish tid) = (if finished (k, future_of (ev k)) then [Update k] else []) /\
        (storing (tid, (k, ph)) = true \/ exists e, ev k = Err e)) as (k & ph & Er & -> & -> & St).
      { cbn [reports]. destruct (dget Nat.eqb tid (p_run p)) as [[k [|[v|e]|]]|] eqn:Er; try discriminate; exists k; eexists; split; eauto.
        - assert (ev k = Err e) as Ev.
          { apply split_dict in Er as (a & b & Er & _). rewrite Er in Lg. symmetry. eapply Lg. apply in_app_iff. right; left; reflexivity. }
          rewrite Ev. inversion H. split; [auto|]. cbn [future_of finished snd]. destruct (is_missing e); split; eauto.
        - assert (exists v, ev k = Ok v) as (v & Ev).
          { apply split_dict in Er as (a & b & Er & _). rewrite Er in Ls. eapply Ls. apply in_app_iff. right; left; reflexivity. }
          rewrite Ev. destruct (negb (open_for_results sk p) || sk_idle sk tid (p_sink p)); [|discriminate]. inversion H. cbn. auto. }
      apply split_dict in Er as (a & b & Er & _ & Hd). rewrite Er in Lp, La, Lw, Lg, Ls. unfold finish_with.
      constructor; cbn [p_todo p_queue p_run p_done p_cancelled p_failed]; rewrite ?Hd; unfold announced, updates, warned; rewrite ?flat_map_app; auto.
      + intros k'. specialize (Lp k'). rewrite !map_app, !count_occ_app in *. cbn [map count_occ key_of fst snd] in *. destruct (string_dec k k'); lia.
      + intros k'. specialize (La k'). rewrite !map_app, !count_occ_app in *. cbn [map count_occ key_of fst snd] in *.
        assert (cnt (flat_map (fun r => match r with Announce k => [k] | _ => [] end) (if finished (k, future_of (ev k)) then [Update k] else [])) k' = 0) as ->
          by (destruct (finished _); auto).
        destruct (string_dec k k'); lia.
      + intros k'. specialize (Lu k'). rewrite filter_app, map_app, !count_occ_app, Lu. f_equal. cbn [filter]. destruct (finished _); auto.
      + intros k'. specialize (Lw k'). rewrite !filter_app, !map_app, !count_occ_app in *.
        assert (cnt (flat_map (fun r => match r with Warn k => [k] | _ => [] end) (if finished (k, future_of (ev k)) then [Update k] else [])) k' = 0) as ->
          by (destruct (finished _); auto).
        rewrite Lw. destruct (bad k') eqn:B; [|auto]. cbn [filter]. destruct St as [St|(e & Ee)].
        * rewrite St. cbn [map count_occ key_of fst snd]. destruct (string_dec k k'); lia.
        * assert (k <> k') by (intros ->; unfold bad in B; rewrite Ee in B; discriminate).
          destruct (storing _); cbn [map count_occ key_of fst snd]; destruct (string_dec k k'); try congruence; lia.
      + intros t k' r I. eapply Lg. apply in_app_iff in I as [I|I]; apply in_app_iff; [left; eauto|right; right; eauto].
      + intros t k' I. eapply Ls. apply in_app_iff in I as [I|I]; apply in_app_iff; [left; eauto|right; right; eauto].
      + intros k' x I. apply in_app_iff in I as [I|[E|[]]]; [eauto|]. injection E as <- <-. auto.
      + destruct (p_failed p); [|auto]. destruct Lf as (k' & I). exists k'. apply in_app_iff. auto.
    - destruct (p_todo p) eqn:Et; [|discriminate]. destruct (p_failed p) eqn:Ef; [discriminate|].
      destruct (dget String.eqb k (p_done p)) as [[e|]|] eqn:Eg; try discriminate. inversion H; subst p'; clear H.
      cbn [reports]. rewrite app_nil_r. constructor; cbn [p_todo p_queue p_run p_done p_cancelled p_failed]; auto.
      + intros k'. specialize (Lp k'). rewrite Lf in *. cbn [app count_occ] in *. lia.
      + exists k. clear - Eg. induction (p_done p) as [|[k' x] d IH]; [discriminate|]. cbn [dget] in Eg.
        destruct (String.eqb_spec k k') as [<-|N]; [injection Eg as ->; left; auto|right; auto].
  Qed.

  Lemma linv_run : forall keys evs p l p' l', linv keys p l -> rrun sk ev threads check nonfinite p evs = Some (p', l') -> linv keys p' (l ++ l').
  Proof.
    induction evs as [|e evs IH]; intros p l p' l' I H; simpl in H.
    - inversion H; subst. rewrite app_nil_r. auto.
    - destruct (pstep sk ev threads p e) as [q|] eqn:E; [|discriminate].
      destruct (rrun _ _ _ _ _ q evs) as [[q' m]|] eqn:R; [|discriminate]. inversion H; subst.
      rewrite app_assoc. eapply IH; eauto. eapply linv_step; eauto.
  Qed.
End Log.

Lemma rrun_prun : forall V S (sk : sink V S) ev threads check nonfinite evs p,
  prun sk ev threads p evs = match rrun sk ev threads check nonfinite p evs with Some (q, _) => Some q | None => None end.
Proof.
  induction evs as [|e evs IH]; intros p; cbn [prun rrun]; [reflexivity|].
  destruct (pstep sk ev threads p e); [|reflexivity]. rewrite IH. destruct (rrun _ _ _ _ _ _ _) as [[q l]|]; reflexivity.
Qed.

Lemma filter_le : forall d, length (filter finished d) <= length d.
Proof. induction d as [|x d IH]; [auto|]. cbn [filter]. destruct (finished x); cbn [length]; lia. Qed.

(** C110.  A merge that returns has announced every key once, filled its progress bar exactly, and warned once about each key whose result
    is a tensor with an entry that is not finite, and about no other; one that raises leaves the bar short and warned about nothing else.  For
    every output, number of threads and schedule. *)
Theorem C110_reports : forall V S (sk : sink V S) ev threads check nonfinite keys s0 evs p l,
  rrun sk ev threads check nonfinite (pool_init keys s0) evs = Some (p, l) -> pool_over p ->
  match p_failed p with
  | None =>
      Permutation (announced l) keys /\ Permutation (updates l) keys /\
      Permutation (warned l) (filter (fun k => check && match ev k with Ok v => nonfinite v | Err _ => false end) keys)
  | Some _ =>
      length (updates l) < length keys /\ (NoDup keys -> NoDup (warned l)) /\
      forall k, In k (warned l) -> In k keys /\ check = true /\ exists v, ev k = Ok v /\ nonfinite v = true
  end.
Proof.
  intros V S sk ev threads check nonfinite keys s0 evs p l R (Et & Eq & Er & Hd).
  assert (linv ev check nonfinite keys p l) as [Lp La Lu Lw _ _ Ld Lf].
  { change l with ([] ++ l). eapply linv_run; [|exact R]. constructor; simpl; auto; try contradiction; intros; try contradiction; try lia.
    destruct (bad _ _ _ _); auto. }
  rewrite Et, Eq, Er in *. cbn [map filter count_occ] in *.
  assert (forall k, check && match ev k with Ok v => nonfinite v | Err _ => false end = bad ev check nonfinite k) as B.
  { intros k. unfold bad. destruct (ev k); [auto|]. apply andb_false_r. }
  destruct (p_failed p) as [e|].
  - split; [|split].
    + destruct Lf as (k0 & I).
      assert (Permutation (updates l) (map fst (filter finished (p_done p)))) as Pu by (apply (Permutation_count_occ string_dec); auto).
      assert (Permutation keys (map fst (p_done p) ++ p_cancelled p)) as Pk.
      { apply (Permutation_count_occ string_dec). intros k. rewrite count_occ_app, Lp. lia. }
      apply Permutation_length in Pu. apply Permutation_length in Pk. rewrite app_length in Pk. rewrite map_length in *. rewrite Pu, Pk.
      assert (length (filter finished (p_done p)) < length (p_done p)); [|lia].
      clear - I. induction (p_done p) as [|[k x] d IH]; [contradiction|]. cbn [filter finished snd length]. destruct I as [E|I].
      * injection E as -> ->. pose proof (filter_le d). cbn. lia.
      * specialize (IH I). destruct x; cbn; lia.
    + intros ND. apply (NoDup_count_occ string_dec). intros k. rewrite Lw. destruct (bad _ _ _ _); [|lia].
      pose proof (proj1 (NoDup_count_occ string_dec keys) ND k). specialize (Lp k). lia.
    + intros k I. apply (count_occ_In string_dec) in I. rewrite Lw in I. destruct (bad ev check nonfinite k) eqn:Bk; [|lia].
      split; [apply (count_occ_In string_dec); rewrite Lp; lia|]. unfold bad in Bk. destruct (ev k) as [v|]; [|discriminate].
      apply andb_true_iff in Bk as [C N]. split; [auto|]. eauto.
  - rewrite Lf in *. cbn [count_occ] in *. split; [|split]; apply (Permutation_count_occ string_dec); intros k.
    + rewrite La, Lp. lia.
    + rewrite Lu, Lp. cbn [plus]. rewrite Nat.add_0_r. f_equal. f_equal.
      clear - Hd. specialize (Hd eq_refl). induction (p_done p) as [|[k' x] d IH]; [reflexivity|]. cbn [filter finished snd].
      rewrite (Hd k' x (or_introl eq_refl)). cbn. f_equal. apply IH. intros k'' x' I. eapply Hd. right; eauto.
    + rewrite Lw, cnt_filter, B, Lp. destruct (bad _ _ _ _); lia.
Qed.

(** C110.  In terms of the merged state dict: of the keys it holds, those were warned about whose tensor has an entry that is not finite. *)
Theorem C110_state_dict : forall T conv (r : node T) nf threads keys evs p l k v,
  NoDup keys ->
  rrun mem_sink (eval conv r) threads true (tensor_nonfinite nf) (pool_init keys []) evs = Some (p, l) -> pool_over p -> p_failed p = None ->
  dget String.eqb k (p_sink p) = Some v ->
  (In k (warned l) <-> exists t, v = VT t /\ nf t = true).
Proof.
  intros T conv r nf threads keys evs p l k v ND R O F G.
  pose proof (C110_reports _ _ _ _ _ _ _ _ _ _ _ _ R O) as H. rewrite F in H. destruct H as (_ & _ & W).
  pose proof (rrun_prun _ _ mem_sink (eval conv r) threads true (tensor_nonfinite nf) evs (pool_init keys [])) as P. rewrite R in P.
  pose proof (C21_merge_is_evaluation T conv r keys [] threads evs p ND P O) as M. rewrite F in M. destruct M as (M & _).
  apply M in G as [(I & E)|(G & _)]; [|discriminate].
  split.
  - intros K. apply (Permutation_in _ W) in K. apply filter_In in K as (_ & B). rewrite E in B. destruct v; [eauto|discriminate].
  - intros (t & -> & N). apply (Permutation_in _ (Permutation_sym W)). apply filter_In. rewrite E. auto.
Qed.

(** C110.  With threads=0 the reports come in the order of the keys, up to the key that fails. *)
Theorem C110_single_thread : forall V (ev : string -> result V) check nonfinite keys out0,
  let bad k := check && match ev k with Ok v => nonfinite v | Err _ => false end in
  let l := reports_here ev check nonfinite keys in
  match snd (merge_here ev keys out0) with
  | None => announced l = keys /\ updates l = keys /\ warned l = filter bad keys
  | Some e => exists a k b, keys = a ++ k :: b /\ ev k = Err e /\ announced l = a ++ [k] /\ updates l = a /\ warned l = filter bad a
  end.
Proof.
  intros V ev check nonfinite keys out0 bad l. unfold l. clear l. revert out0. induction keys as [|k keys IH]; intros out0; cbn [merge_here reports_here snd].
  - auto.
  - unfold announced, updates, warned in *. cbn [flat_map app filter]. destruct (ev k) as [v|e] eqn:E.
    + assert (bad k = check && nonfinite v) as B by (unfold bad; rewrite E; auto). rewrite B, !flat_map_app.
      assert (forall X (f : report -> list X) (c : bool) r, flat_map f (if c then [r] else []) = if c then f r else []) as Fm.
      { intros X f c r'. destruct c; cbn [flat_map]; [apply app_nil_r|reflexivity]. }
      rewrite !Fm. specialize (IH (dset String.eqb k v out0)). destruct (snd (merge_here ev keys _)) as [e|].
      * destruct IH as (a & k' & b & -> & E' & H1 & H2 & H3). exists (k :: a), k', b. cbn [flat_map filter app]. rewrite B, H1, H2, H3.
        destruct (check && nonfinite v); repeat split; auto.
      * destruct IH as (H1 & H2 & H3). cbn [flat_map app]. rewrite H1, H2, H3. destruct (check && nonfinite v); auto.
    + assert (bad k = false) as B by (unfold bad; rewrite E; apply andb_false_r). destruct (is_missing e).
      * specialize (IH out0). cbn [flat_map app]. rewrite B. destruct (snd (merge_here ev keys _)) as [e'|].
        -- destruct IH as (a & k' & b & -> & E' & H1 & H2 & H3). exists (k :: a), k', b. cbn [filter app]. rewrite B, H1, H2, H3. auto.
        -- destruct IH as (H1 & H2 & H3). rewrite H1, H2, H3. auto.
      * cbn [snd flat_map app]. exists [], k, keys. cbn. auto.
Qed.

(** C110, violated for numbers: a dict of numbers merges into a state dict with an infinite value without a warning. *)
Definition not_finite {T} (nf : T -> bool) (v : value T) : Prop :=
  match v with VT t => nf t = true | VL (LFloat s) => In s ["inf"; "-inf"; "nan"] | VL _ => False end.
Definition nCfg := Config "c" ["k"] [] [].
Definition nRecipe : node nat := NDict [("k", NLit (VL (LFloat "inf")))] nCfg "weight".
Theorem C110_numbers_refuted : exists p l v,
  rrun mem_sink (eval (fun _ v => Ok v) nRecipe) 1 true (tensor_nonfinite (fun _ => true)) (pool_init ["k"] [])
    [Submit; Start 0; Evaluate 0; Store 0; Finish 0] = Some (p, l) /\ pool_over p /\ p_failed p = None /\
  dget String.eqb "k" (p_sink p) = Some v /\ not_finite (fun _ => true) v /\ warned l = [].
Proof.
  do 3 eexists. split; [vm_compute; reflexivity|]. split; [|split; [reflexivity|split; [reflexivity|split; [|reflexivity]]]].
  - repeat split; simpl. intros _ k x [H|[]]; inversion H; auto.
  - simpl. auto.
Qed.

(** Concretely, the merge of C21's example in two threads, where the tensor of w is taken to have an infinite entry. *)
Example C110_case : exists p,
  rrun mem_sink (eval dconv dRecipe) 2 true (tensor_nonfinite (fun t => match t_bytes t with b :: _ => if Ascii.ascii_dec b (Ascii.ascii_of_nat 3) then true else false | [] => false end)) (pool_init dKeys [])
    (dSched0 ++ [Finish 1; Finish 0]) =
  Some (p, [Announce "x"; Announce "nokey"; Update "nokey"; Announce "w"; Warn "w"; Update "x"; Update "w"]).
Proof. eexists. vm_compute. reflexivity. Qed.

Print Assumptions C110_reports.
Print Assumptions C110_state_dict.
Print Assumptions C110_single_thread.
Print Assumptions C110_numbers_refuted.
