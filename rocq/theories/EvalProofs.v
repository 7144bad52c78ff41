(** Lemmas about the evaluator: ModelEval.v *)
From Coq Require Import String List Bool Arith ZArith Lia Permutation Sorted.
From Verif Require Import Base ModelEval SpecEval.
Import ListNotations.
Open Scope string_scope.
Open Scope list_scope.
Open Scope nat_scope.

Section NodeInd.
  Context {T : Type} (P : node T -> Prop).
  Hypothesis Hlit : forall v, P (NLit v).
  Hypothesis Hdict : forall d c s, Forall (fun p => P (snd p)) d -> P (NDict d c s).
  Hypothesis Hmodel : forall p g k c s, P (NModel p g k c s).
  Hypothesis Hmerge : forall m args kw c, Forall P args -> Forall (fun p => P (snd p)) kw -> P (NMerge m args kw c).
  Fixpoint node_ind' (n : node T) : P n.
  Proof.
    destruct n.
    - apply Hlit.
    - apply Hdict. induction d as [|[x a] d IH]; constructor; [apply node_ind'|exact IH].
    - apply Hmodel.
    - apply Hmerge.
      + induction args; constructor; [apply node_ind'|exact IHargs].
      + induction kw as [|[x a] d IH]; constructor; [apply node_ind'|exact IH].
  Qed.
End NodeInd.

Lemma lmap_map : forall A B (f : A -> B) l, lmap f l = map f l.
Proof. induction l; simpl; congruence. Qed.
Lemma kmap_map : forall A B (f : A -> B) l, kmap f l = map (fun p => (fst p, f (snd p))) l.
Proof. induction l as [|[]]; simpl; congruence. Qed.

(** ** depth *)
Section Depth.
  Context {T : Type}.
  Lemma max_depth_ok : forall l l', Forall2 (fun r d => r = Ok d) l l' -> l <> [] ->
    max_depth l = Ok (fold_right Nat.max 0 l').
  Proof.
    induction 1 as [|r d l l' Hr Hl IH]; intros N; [congruence|].
    subst r. destruct Hl as [|r' d' l l' Hr' Hl].
    - simpl. rewrite Nat.max_0_r; auto.
    - rewrite (IH ltac:(discriminate)) || idtac.
      change (max_depth (Ok d :: r' :: l)) with (let* b := max_depth (r' :: l) in Ok (Nat.max d b)).
      rewrite IH by discriminate. reflexivity.
  Qed.

  Lemma fold_max_app : forall a b, fold_right Nat.max 0 (a ++ b) = Nat.max (fold_right Nat.max 0 a) (fold_right Nat.max 0 b).
  Proof. induction a; intros; simpl; auto. rewrite IHa; lia. Qed.

  Lemma depth_height : forall n : node T, wf n -> depth n = Ok (height n).
  Proof.
    induction n using node_ind'; intros W; auto.
    inversion W as [| | |? ? ? ? W1 W2 N]; subst. simpl.
    rewrite lmap_map, kmap_map, map_map. simpl.
    rewrite (max_depth_ok _ (map height args ++ map (fun p => height (snd p)) kw)).
    - simpl. do 2 f_equal. rewrite fold_max_app. f_equal; clear.
      + induction args; simpl; auto.
      + induction kw as [|[]]; simpl; auto.
    - apply Forall2_app.
      + clear -H W1. induction args; constructor; inversion H; inversion W1; subst; auto.
      + clear -H0 W2. induction kw; constructor; inversion H0; inversion W2; subst; auto.
    - destruct args; [destruct kw; [destruct N; congruence|]|]; simpl; discriminate.
  Qed.
End Depth.

(** ** the order of visits *)
Section Order.
  Context {T : Type}.
  Definition before (x y : nat * @slot T) : Prop :=
    s_depth (snd y) < s_depth (snd x) \/ (s_depth (snd x) = s_depth (snd y) /\ fst x < fst y).

  Lemma insert_perm : forall x l, Permutation (x :: l) (@insert T x l).
  Proof.
    induction l as [|y l IH]; simpl; auto.
    destruct (_ <? _); auto.
    eapply perm_trans; [apply perm_swap|]. constructor; auto.
  Qed.

  Lemma visit_order_perm : forall l, Permutation l (@visit_order T l).
  Proof.
    intros l. unfold visit_order.
    enough (forall acc, Permutation (l ++ acc) (fold_left (fun a x => insert x a) l acc)) as H.
    { rewrite <- (app_nil_r l) at 1. apply H. }
    induction l as [|x l IH]; intros acc; simpl; auto.
    eapply perm_trans; [|apply IH]. eapply perm_trans; [apply Permutation_middle|].
    apply Permutation_app_head, insert_perm.
  Qed.

  Lemma insert_sorted : forall x l, StronglySorted before l -> Forall (fun y => fst y < fst x) l ->
    StronglySorted before (@insert T x l).
  Proof.
    induction l as [|y l IH]; intros S F; simpl; [repeat constructor|].
    inversion S as [|? ? S' FB]; subst. inversion F as [|? ? Fy F']; subst.
    destruct (Nat.ltb_spec (s_depth (snd y)) (s_depth (snd x))).
    - constructor; auto. constructor; [left; auto|].
      eapply Forall_impl; [|exact FB]. intros z [Hz|[Hz _]]; left; lia.
    - constructor; [apply IH; auto|].
      eapply Permutation_Forall; [apply insert_perm|]. constructor; auto.
      destruct (Nat.eq_dec (s_depth (snd x)) (s_depth (snd y))); [right|left]; lia.
  Qed.

  Lemma visit_order_sorted : forall (l : list (@slot T)) from acc,
    StronglySorted before acc -> Forall (fun y => fst y < from) acc ->
    StronglySorted before (fold_left (fun a x => insert x a) (combine (seq from (length l)) l) acc).
  Proof.
    induction l as [|s l IH]; intros from acc S F; simpl; auto.
    apply IH.
    - apply insert_sorted; auto.
    - eapply Permutation_Forall; [apply insert_perm|]. constructor; [simpl; lia|].
      eapply Forall_impl; [|exact F]. simpl; lia.
  Qed.
End Order.

Lemma combine_seq_In : forall A (l : list A) from i x, In (i, x) (combine (seq from (length l)) l) <-> (from <= i /\ nth_error l (i - from) = Some x).
Proof.
  induction l as [|a l IH]; intros from i x; simpl.
  - split; [tauto|]. intros [_ H]. destruct (i - from); discriminate.
  - rewrite IH. split.
    + intros [E|[L N]].
      * inversion E; subst. rewrite Nat.sub_diag; auto.
      * split; [lia|]. replace (i - from) with (S (i - S from)) by lia; auto.
    + intros [L N]. destruct (i - from) eqn:E.
      * left. simpl in N. inversion N; subst. f_equal; lia.
      * right. split; [lia|]. replace (i - S from) with n by lia; auto.
Qed.

Lemma combine_seq_fst : forall A (l : list A) from, map fst (combine (seq from (length l)) l) = seq from (length l).
Proof. induction l; intros; simpl; auto. rewrite IHl; auto. Qed.

(** ** visiting *)
Section Visit.
  Context {T : Type} (conv : ety -> value T -> result (value T)) (key : string).

  Definition fail_of (s : @slot T) : option exn :=
    match s_kind s with
    | KVal _ => match s_eval s key with Err e => Some e | Ok _ => None end
    | KSd _ => None
    end.
  Definition recv (s : @slot T) : inp T :=
    match s_kind s with
    | KSd e => ISd (fun k => let* v := s_eval s k in cast_value conv v e) (s_cfg s)
    | KVal e =>
      match s_eval s key with
      | Ok v => match cast_value conv v e with Ok w => IVal w | Err _ => IVal (VL LNone) end
      | Err _ => IVal (VL LNone)
      end
    end.
  Definition good (s : @slot T) : Prop :=
    forall e v, s_kind s = KVal e -> s_eval s key = Ok v -> exists w, cast_value conv v e = Ok w.

  Lemma visit_one_ok : forall s held, good s ->
    visit_one conv key s held = Ok (recv s, match fail_of s with Some e => Some e | None => held end).
  Proof.
    intros s held G. unfold visit_one, recv, fail_of, good in *.
    destruct (s_kind s) as [e|e]; auto.
    destruct (s_eval s key) as [v|x] eqn:E; simpl; auto.
    destruct (G e v eq_refl eq_refl) as [w Hw]. rewrite Hw; auto.
  Qed.

  Definition last_fail (l : list (nat * @slot T)) (held : option exn) : option exn :=
    fold_left (fun h p => match fail_of (snd p) with Some e => Some e | None => h end) l held.

  Lemma visit_all_ok : forall l held merged, Forall (fun p => good (snd p)) l ->
    visit_all conv key l held merged = Ok (rev (map (fun p => (fst p, recv (snd p))) l) ++ merged, last_fail l held).
  Proof.
    induction l as [|[i s] l IH]; intros held merged F; simpl; auto.
    inversion F; subst. rewrite visit_one_ok by auto. simpl. rewrite IH by auto.
    rewrite <- app_assoc. reflexivity.
  Qed.

  (** a conversion error can be raised before the rest is visited *)
  Lemma visit_all_any : forall l held merged r, visit_all conv key l held merged = r ->
    (exists mg, r = Ok (mg, last_fail l held)) \/
    (exists p e v x, In p l /\ s_kind (snd p) = KVal e /\ s_eval (snd p) key = Ok v /\ cast_value conv v e = Err x /\ r = Err x).
  Proof.
    induction l as [|[i s] l IH]; intros held merged r; simpl; [intros <-; eauto|].
    unfold visit_one at 1. destruct (s_kind s) as [e|e] eqn:K.
    - destruct (s_eval s key) as [v|x] eqn:E.
      + destruct (cast_value conv v e) as [w|x] eqn:C; simpl; intros H.
        * destruct (IH _ _ _ H) as [(mg & ->)|(p & e' & v' & x & Hp & R)].
          -- left. exists mg. unfold fail_of; simpl. rewrite K, E; auto.
          -- right. exists p, e', v', x. auto.
        * right. exists (i, s), e, v, x. auto.
      + simpl. intros H. destruct (IH _ _ _ H) as [(mg & ->)|(p & e' & v' & x' & Hp & R)].
        * left. exists mg. unfold fail_of; simpl. rewrite K, E; auto.
        * right. exists p, e', v', x'. auto.
    - simpl. intros H. destruct (IH _ _ _ H) as [(mg & ->)|(p & e' & v' & x' & Hp & R)].
      + left. exists mg. unfold fail_of; simpl. rewrite K; auto.
      + right. exists p, e', v', x'. auto.
  Qed.

  Lemma last_fail_none : forall l held, (forall p, In p l -> fail_of (snd p) = None) -> last_fail l held = held.
  Proof.
    induction l as [|p l IH]; intros held H; simpl; auto.
    rewrite (H p (or_introl eq_refl)). apply IH. intros; apply H; right; auto.
  Qed.

  Lemma last_fail_some : forall l held, (exists p e, In p l /\ fail_of (snd p) = Some e) ->
    exists p e, In p l /\ fail_of (snd p) = Some e /\ last_fail l held = Some e.
  Proof.
    intros l. induction l as [|p l IH] using rev_ind; intros held (q & e & Hq & Fq); [destruct Hq|].
    unfold last_fail. rewrite fold_left_app. simpl.
    destruct (fail_of (snd p)) as [e'|] eqn:E.
    - exists p, e'. split; [apply in_or_app; right; left; auto|auto].
    - apply in_app_or in Hq. destruct Hq as [Hq|[<-|[]]]; [|congruence].
      destruct (IH held) as (p' & e' & H1 & H2 & H3); [eauto|].
      exists p', e'. split; [apply in_or_app; auto|auto].
  Qed.

  Lemma last_fail_sorted : forall l held, StronglySorted before l -> (exists p e, In p l /\ fail_of (snd p) = Some e) ->
    exists p e, In p l /\ fail_of (snd p) = Some e /\ last_fail l held = Some e /\
      (forall q e', In q l -> fail_of (snd q) = Some e' -> q = p \/ before q p).
  Proof.
    induction l as [|p l IH]; intros held S (q & e & Hq & Fq); [destruct Hq|].
    inversion S as [|? ? S' FB]; subst.
    destruct (existsb (fun p => match fail_of (snd p) with Some _ => true | None => false end) l) eqn:X.
    - apply existsb_exists in X as (z & Hz & Fz). destruct (fail_of (snd z)) as [ez|] eqn:Ez; [|discriminate].
      destruct (IH (match fail_of (snd p) with Some e => Some e | None => held end) S') as (p' & e' & H1 & H2 & H3 & H4); [eauto|].
      exists p', e'. split; [right; auto|]. split; [auto|]. split; [auto|].
      intros q' e'' [<-|Hq'] F'; [|eauto]. right.
      rewrite Forall_forall in FB; auto.
    - assert (forall z, In z l -> fail_of (snd z) = None) as N.
      { intros z Hz. destruct (fail_of (snd z)) eqn:E; auto. exfalso.
        assert (existsb (fun p => match fail_of (snd p) with Some _ => true | None => false end) l = true); [|congruence].
        apply existsb_exists. exists z; rewrite E; auto. }
      destruct Hq as [<-|Hq]; [|rewrite (N _ Hq) in Fq; discriminate].
      exists p, e. split; [left; auto|]. split; [auto|]. split.
      + simpl. rewrite Fq. apply last_fail_none; auto.
      + intros q' e' [<-|Hq'] F'; auto. rewrite (N _ Hq') in F'; discriminate.
  Qed.

  Lemma collect_ok : forall l (merged : list (nat * inp T)) from,
    (forall i x, nth_error l i = Some x -> dget Nat.eqb (from + i) merged = Some x) ->
    collect merged from (length l) = Ok l.
  Proof.
    induction l as [|x l IH]; intros merged from H; simpl; auto.
    pose proof (H 0 x eq_refl) as H0. rewrite Nat.add_0_r in H0. rewrite H0.
    rewrite IH; auto. intros i y Hy. specialize (H (S i) y Hy).
    rewrite Nat.add_succ_r in H. auto.
  Qed.

  Variables (slots : list (@slot T)).
  Let order := visit_order (combine (seq 0 (length slots)) slots).

  Lemma order_In : forall i s, In (i, s) order <-> nth_error slots i = Some s.
  Proof.
    intros i s. unfold order. rewrite <- (Nat.sub_0_r i) at 2.
    pose proof (combine_seq_In _ slots 0 i s) as H. split.
    - intros X. apply H. eapply Permutation_in; [apply Permutation_sym, visit_order_perm|auto].
    - intros X. eapply Permutation_in; [apply visit_order_perm|]. apply H. split; [lia|auto].
  Qed.

  Lemma order_good : (forall s, In s slots -> good s) -> Forall (fun p => good (snd p)) order.
  Proof.
    intros H. apply Forall_forall. intros [i s] X. apply order_In in X. apply H. eapply nth_error_In; eauto.
  Qed.

  Lemma merged_get : forall i s, nth_error slots i = Some s ->
    dget Nat.eqb i (rev (map (fun p => (fst p, recv (snd p))) order) ++ []) = Some (recv s).
  Proof.
    intros i s H. rewrite app_nil_r. apply dget_NoDup_In; [apply Nat.eqb_spec| |].
    - rewrite map_rev. apply NoDup_rev. rewrite map_map; simpl.
      eapply Permutation_NoDup; [apply Permutation_map, visit_order_perm|].
      rewrite combine_seq_fst. apply seq_NoDup.
    - apply -> in_rev. apply in_map_iff. exists (i, s). split; auto. apply order_In; auto.
  Qed.

  Lemma eval_merge_ok : forall m na kws, length slots = na + length kws ->
    (forall s, In s slots -> good s) -> (forall s, In s slots -> fail_of s = None) ->
    eval_merge conv m na kws slots key =
    m_fun m (map recv (firstn na slots)) (combine kws (map recv (skipn na slots))) key.
  Proof.
    intros m na kws L G N. unfold eval_merge. fold order.
    rewrite visit_all_ok by (apply order_good; auto). simpl.
    rewrite last_fail_none.
    2:{ intros [i s] H. apply order_In in H. apply N. eapply nth_error_In; eauto. }
    assert (length (map recv (firstn na slots)) = na) as L1.
    { rewrite map_length, firstn_length; lia. }
    assert (length (map recv (skipn na slots)) = length kws) as L2.
    { rewrite map_length, skipn_length; lia. }
    pose proof (collect_ok (map recv (firstn na slots)) (rev (map (fun p => (fst p, recv (snd p))) order) ++ []) 0) as C1.
    rewrite L1 in C1. rewrite C1.
    2:{ intros i x H. rewrite nth_error_map in H. destruct (nth_error (firstn na slots) i) eqn:E; inversion H; subst.
        apply merged_get. simpl. rewrite <- (firstn_skipn na slots). rewrite nth_error_app1; auto.
        apply nth_error_Some; congruence. }
    pose proof (collect_ok (map recv (skipn na slots)) (rev (map (fun p => (fst p, recv (snd p))) order) ++ []) na) as C2.
    rewrite L2 in C2. simpl. rewrite C2; auto.
    intros i x H. rewrite nth_error_map in H. destruct (nth_error (skipn na slots) i) eqn:E; inversion H; subst.
    apply merged_get. rewrite <- (firstn_skipn na slots).
    assert (length (firstn na slots) = na) as LL by (rewrite map_length in L1; auto).
    rewrite nth_error_app2 by lia. rewrite LL. replace (na + i - na) with i by lia. auto.
  Qed.

  Lemma eval_merge_fail : forall m na kws,
    (forall s, In s slots -> good s) -> (exists s e, In s slots /\ fail_of s = Some e) ->
    exists i s e, nth_error slots i = Some s /\ fail_of s = Some e /\
      eval_merge conv m na kws slots key = Err e /\
      (forall j t e', nth_error slots j = Some t -> fail_of t = Some e' -> j = i \/ before (j, t) (i, s)).
  Proof.
    intros m na kws G (s & e & Hs & Fs). unfold eval_merge. fold order.
    rewrite visit_all_ok by (apply order_good; auto). simpl.
    apply In_nth_error in Hs as [i Hi].
    destruct (last_fail_sorted order None) as ([i' s'] & e' & H1 & H2 & H3 & H4).
    - apply visit_order_sorted; constructor.
    - exists (i, s), e. split; auto. apply order_In; auto.
    - exists i', s', e'. apply order_In in H1. split; [auto|]. split; [auto|]. split.
      + rewrite H3; auto.
      + intros j t e'' Hj Ft. apply order_In in Hj. destruct (H4 _ _ Hj Ft) as [E|B]; auto.
        inversion E; auto.
  Qed.

  (** without assuming conversions succeed *)
  Lemma eval_merge_fail_any : forall m na kws, (exists s e, In s slots /\ fail_of s = Some e) ->
    (exists s e, In s slots /\ fail_of s = Some e /\ eval_merge conv m na kws slots key = Err e) \/
    (exists s t v e, In s slots /\ s_kind s = KVal t /\ s_eval s key = Ok v /\ cast_value conv v t = Err e /\ eval_merge conv m na kws slots key = Err e).
  Proof.
    intros m na kws (s & e & Hs & Fs). unfold eval_merge. fold order.
    apply In_nth_error in Hs as [i Hi].
    destruct (visit_all_any order None [] _ eq_refl) as [(mg & Hm)|([j q] & t & v & x & H1 & H2 & H3 & H4 & H5)].
    - left. rewrite Hm. simpl.
      destruct (last_fail_some order None) as ([i' s'] & e' & H1 & H2 & H3).
      { exists (i, s), e. split; auto. apply order_In; auto. }
      apply order_In in H1. exists s', e'. split; [eapply nth_error_In; eauto|]. split; auto. rewrite H3; auto.
    - right. apply order_In in H1. exists q, t, v, x. split; [eapply nth_error_In; eauto|].
      split; [auto|]. split; [auto|]. split; [auto|]. rewrite H5; auto.
  Qed.
End Visit.

Lemma list_ext : forall A (l l' : list A), (forall i, nth_error l i = nth_error l' i) -> l = l'.
Proof.
  induction l as [|x l IH]; intros [|y l'] H; auto.
  - specialize (H 0); discriminate.
  - specialize (H 0); discriminate.
  - pose proof (H 0) as H0; simpl in H0. inversion H0; subst. f_equal. apply IH. intros i. apply (H (S i)).
Qed.

(** ** slots are inputs *)
Section Slots.
  Context {T : Type} (conv : ety -> value T -> result (value T)).
  Notation ev := (eval conv).
  Definition slot_of (k : kind) (n : node T) : slot := Slot k (height n) (ev n) (node_cfg n).

  Lemma arg_slots_ok : forall m args j,
    Forall wf args -> (j + length args <= length (m_args m) \/ m_vararg m <> None) ->
    exists sa, arg_slots m j (lmap (fun a => (depth a, ev a, node_cfg a)) args) = Ok sa /\ length sa = length args /\
      forall i n, nth_error args i = Some n -> exists k, kind_at m (j + i) = Some k /\ nth_error sa i = Some (slot_of k n).
  Proof.
    intros m args. induction args as [|a args IH]; intros j W L; simpl.
    - exists []. split; [auto|]. split; [auto|]. intros [|i] n H; discriminate.
    - inversion W; subst.
      destruct (IH (S j)) as (sa & E & Ls & H); [auto|simpl in L; destruct L; [left; lia|auto]|].
      assert (exists k, kind_at m j = Some k) as [k Hk].
      { unfold kind_at. destruct (nth_error (m_args m) j) eqn:N; [eauto|].
        destruct L as [L|L]; [apply nth_error_None in N; simpl in L; lia|].
        destruct (m_vararg m); [eauto|congruence]. }
      rewrite Hk, E, depth_height by auto. simpl. exists (slot_of k a :: sa). split; [auto|]. split; [simpl; auto|].
      intros [|i] n N; simpl in N.
      + inversion N; subst. rewrite Nat.add_0_r. eauto.
      + rewrite Nat.add_succ_r. apply H; auto.
  Qed.

  Lemma kw_slots_ok : forall m kw,
    Forall (fun p => wf (snd p)) kw -> (forall x, In x (map fst kw) -> In x (map fst (m_kw m))) -> NoDup (map fst (m_kw m)) ->
    exists sk, kw_slots m (kmap (fun a => (depth a, ev a, node_cfg a)) kw) = Ok sk /\ length sk = length kw /\
      forall i x n, nth_error kw i = Some (x, n) -> exists k, In (x, k) (m_kw m) /\ nth_error sk i = Some (slot_of k n).
  Proof.
    intros m kw. induction kw as [|[x a] kw IH]; intros W L ND; simpl.
    - exists []. split; [auto|]. split; [auto|]. intros [|i] x n H; discriminate.
    - inversion W; subst.
      destruct (IH) as (sa & E & Ls & H); auto; [intros; apply L; right; auto|].
      destruct (dget String.eqb x (m_kw m)) as [k|] eqn:Hk.
      2:{ apply (proj1 (dget_None String.eqb String.eqb_spec x (m_kw m))) in Hk. exfalso. apply Hk, L. left; auto. }
      rewrite E, depth_height by auto. simpl. exists (slot_of k a :: sa). split; [auto|]. split; [simpl; auto|].
      intros [|i] y n N; simpl in N.
      + inversion N; subst. exists k. split; auto. apply (dget_In String.eqb String.eqb_spec); auto.
      + apply H; auto.
  Qed.

  (** the slots of a well-formed merge are exactly its inputs *)
  Lemma merge_slots : forall m args kw c, wf (NMerge m args kw c) ->
    exists slots, length slots = length args + length (map fst kw) /\
      (forall key, ev (NMerge m args kw c) key = eval_merge conv m (length args) (map fst kw) slots key) /\
      (forall i s, nth_error slots i = Some s -> exists k n, input m args kw i k n /\ s = slot_of k n) /\
      (forall i k n, input m args kw i k n -> nth_error slots i = Some (slot_of k n)).
  Proof.
    intros m args kw c W. inversion W as [| | |? ? ? ? W1 W2 N L ND K]; subst.
    destruct (arg_slots_ok m args 0 W1) as (sa & Ea & La & Ha); [simpl; auto|].
    destruct (kw_slots_ok m kw W2 K ND) as (sk & Ek & Lk & Hk).
    exists (sa ++ sk). split; [rewrite app_length, map_length; lia|].
    split; [intros key; simpl; rewrite Ea; simpl; rewrite Ek; reflexivity|].
    assert (forall i k n, input m args kw i k n -> nth_error (sa ++ sk) i = Some (slot_of k n)) as I.
    { intros i k n I. destruct I as [i k n A B|i k n A B C|i x k n A B].
      - destruct (Ha _ _ A) as (k' & K' & S'). rewrite nth_error_app1; [|apply nth_error_Some; congruence].
        simpl in K'. unfold kind_at in K'. rewrite B in K'. inversion K'; subst; auto.
      - destruct (Ha _ _ A) as (k' & K' & S'). rewrite nth_error_app1; [|apply nth_error_Some; congruence].
        simpl in K'. unfold kind_at in K'. apply nth_error_None in B. rewrite B, C in K'. inversion K'; subst; auto.
      - destruct (Hk _ _ _ A) as (k' & K' & S'). rewrite nth_error_app2 by lia.
        replace (length args + i - length sa) with i by lia. rewrite S'. f_equal. f_equal.
        apply (dget_NoDup_In String.eqb String.eqb_spec) in K', B; auto. congruence. }
    split; auto.
    intros i s H. destruct (le_lt_dec (length args) i) as [Hi|Hi].
    - rewrite nth_error_app2 in H by lia.
      destruct (nth_error kw (i - length sa)) as [[x n]|] eqn:E.
      2:{ apply nth_error_None in E. rewrite <- Lk in E. apply nth_error_None in E; congruence. }
      destruct (Hk _ _ _ E) as (k & K1 & K2). exists k, n. split; [|congruence].
      replace i with (length args + (i - length sa)) by lia. eapply input_kw; eauto.
    - rewrite nth_error_app1 in H by lia.
      destruct (nth_error args i) as [n|] eqn:E.
      2:{ apply nth_error_None in E; lia. }
      destruct (Ha _ _ E) as (k & K1 & K2). exists k, n. split; [|congruence].
      simpl in K1. unfold kind_at in K1. destruct (nth_error (m_args m) i) eqn:A.
      + inversion K1; subst. apply input_arg; auto.
      + apply nth_error_None in A. apply input_vararg; auto.
  Qed.

  (** evaluation of a merge whose value inputs succeed, by input *)
  Lemma eval_inputs : forall m args kw c key xs ys, wf (NMerge m args kw c) ->
    length xs = length args -> length ys = length kw ->
    (forall i k n, input m args kw i k n ->
       exists x, nth_error (xs ++ ys) i = Some x /\ handed ev (cast_value conv) key k n x) ->
    ev (NMerge m args kw c) key = m_fun m xs (combine (map fst kw) ys) key.
  Proof.
    intros m args kw c key xs ys W Lx Ly H.
    destruct (merge_slots m args kw c W) as (slots & L & E & Hs & _).
    rewrite E.
    assert (forall i s, nth_error slots i = Some s -> nth_error (xs ++ ys) i = Some (recv conv key s) /\ good conv key s /\ fail_of key s = None) as X.
    { intros i s N. destruct (Hs _ _ N) as (k & n & I & ->). destruct (H _ _ _ I) as (x & Hx & Hh).
      unfold slot_of, recv, good, fail_of; simpl. destruct k as [t|t]; simpl in Hh.
      - destruct Hh as (v & w & E1 & E2 & ->). rewrite E1, E2. split; auto. split; auto.
        intros e v' Q1 Q2. inversion Q1; subst. inversion Q2; subst. eauto.
      - subst x. rewrite Hx. unfold bind. split; [auto|]. split; [|auto]. intros; discriminate. }
    rewrite eval_merge_ok; auto.
    2:{ intros s Hi. apply In_nth_error in Hi as [i Hi]. apply (X _ _ Hi). }
    2:{ intros s Hi. apply In_nth_error in Hi as [i Hi]. apply (X _ _ Hi). }
    assert (map (recv conv key) slots = xs ++ ys) as Q.
    { apply list_ext. intros i. rewrite nth_error_map.
      destruct (nth_error slots i) eqn:N; simpl; [symmetry; apply (X _ _ N)|].
      symmetry. apply nth_error_None. apply nth_error_None in N. rewrite app_length.
      rewrite map_length in L. lia. }
    rewrite <- firstn_map, <- skipn_map, Q, <- Lx, firstn_app_exact, skipn_app_exact. auto.
  Qed.
End Slots.
