(** Properties of evaluating a recipe at a key: fallback (C22), components (C23),
    aliases (C24), which error a merge reports (C25), failures that are swallowed
    (C26), lazy models (C60). *)
From Coq Require Import String List Bool Arith ZArith Lia.
From Verif Require Import Base ModelEval SpecEval EvalProofs.
Import ListNotations.
Open Scope string_scope.
Open Scope list_scope.
Open Scope nat_scope.

Lemma is_missing_iff : forall e, is_missing e = true <-> exists k, e = StateDictKeyError k.
Proof. destruct e; simpl; split; intros H; try discriminate; eauto; destruct H; discriminate. Qed.

Section Generic.
  Context {T : Type} (conv : ety -> value T -> result (value T)).
  Notation ev := (eval conv).

  Lemma cast_any : forall v, cast_value conv v TAny = Ok v.
  Proof. intros [t|[]]; auto. Qed.

  Lemma cast_str : forall s, cast_value conv (VL (LStr s)) TStr = Ok (VL (LStr s)).
  Proof. auto. Qed.

  Lemma input2 : forall (m : mmethod T) k1 k2 a b i k n, m_args m = [k1; k2] -> input m [a; b] [] i k n ->
    (i = 0 /\ k = k1 /\ n = a) \/ (i = 1 /\ k = k2 /\ n = b).
  Proof.
    intros m k1 k2 a b i k n M I. inversion I as [? ? ? A B|? ? ? A B C|j ? ? ? A]; subst.
    - rewrite M in B. destruct i as [|[|i]]; simpl in *.
      + left. inversion A; inversion B; auto.
      + right. inversion A; inversion B; auto.
      + destruct i; discriminate.
    - rewrite M in B. simpl in B. destruct i as [|[|i]]; try lia. destruct i; discriminate.
    - destruct j; discriminate.
  Qed.

  Lemma wf2 : forall (m : mmethod T) k1 k2 a b c, m_args m = [k1; k2] -> m_kw m = [] -> wf a -> wf b -> wf (NMerge m [a; b] [] c).
  Proof.
    intros m k1 k2 a b c M K Wa Wb. constructor; auto.
    - left; discriminate.
    - rewrite M. left; simpl; lia.
    - rewrite K. constructor.
    - intros x [].
  Qed.

  (** *** C22 *)
  Lemma wf_or : forall a b c, wf a -> wf b -> wf (NMerge (@fallback T) [a; b] [] c).
  Proof. intros. eapply wf2; auto; reflexivity. Qed.

  Lemma eval_or : forall a b c key, wf a -> wf b ->
    ev (NMerge fallback [a; b] [] c) key =
    match ev a key with Err e => if is_missing e then ev b key else Err e | Ok v => Ok v end.
  Proof.
    intros a b c key Wa Wb.
    rewrite (eval_inputs conv fallback [a; b] [] c key
      [ISd (fun k' => match ev a k' with Ok v => cast_value conv v TAny | Err e => Err e end) (node_cfg a);
       ISd (fun k' => match ev b k' with Ok v => cast_value conv v TAny | Err e => Err e end) (node_cfg b)] []); auto.
    - simpl. destruct (ev a key) as [v|e]; [rewrite cast_any; auto|].
      destruct (is_missing e); auto. destruct (ev b key); [apply cast_any|auto].
    - apply wf_or; auto.
    - intros i k n I. eapply input2 in I; [|reflexivity].
      destruct I as [(-> & -> & ->)|(-> & -> & ->)]; simpl; eexists; split; reflexivity.
  Qed.

  Theorem C22_fallback : forall a b cfg key, wf a -> wf b ->
    (forall v, ev a key = Ok v -> ev (NMerge fallback [a; b] [] cfg) key = Ok v) /\
    (is_missing_outcome (ev a key) -> ev (NMerge fallback [a; b] [] cfg) key = ev b key) /\
    (forall e, ev a key = Err e -> (forall k, e <> StateDictKeyError k) -> ev (NMerge fallback [a; b] [] cfg) key = Err e).
  Proof.
    intros a b cfg key Wa Wb. rewrite eval_or by auto. split; [|split].
    - intros v ->; auto.
    - intros [k ->]; auto.
    - intros e -> H. destruct (is_missing e) eqn:M; auto.
      apply is_missing_iff in M as [k ->]. exfalso; eapply H; eauto.
  Qed.

  Theorem C22_associative : forall a b c cfg1 cfg2 cfg3 cfg4 key, wf a -> wf b -> wf c ->
    ev (NMerge fallback [NMerge fallback [a; b] [] cfg1; c] [] cfg2) key =
    ev (NMerge fallback [a; NMerge fallback [b; c] [] cfg3] [] cfg4) key.
  Proof.
    intros. repeat rewrite eval_or by (auto using wf_or).
    destruct (ev a key) as [v|e]; auto. destruct (is_missing e) eqn:M; auto.
    rewrite M; auto.
  Qed.

  (** *** C23 *)
  Notation pick a comp cfg := (NMerge pick_component [a; NLit (VL (LStr comp))] [] cfg).
  Notation omit a comp cfg := (NMerge omit_component [a; NLit (VL (LStr comp))] [] cfg).

  Lemma wf_pick : forall (a : node T) comp cfg, wf a -> wf (pick a comp cfg).
  Proof. intros. eapply wf2; auto; try reflexivity. constructor. Qed.
  Lemma wf_omit : forall (a : node T) comp cfg, wf a -> wf (omit a comp cfg).
  Proof. intros. eapply wf2; auto; try reflexivity. constructor. Qed.

  Lemma eval_component : forall m a comp cfg key, m_args m = [KSd TAny; KVal TStr] -> m_kw m = [] -> wf a ->
    ev (NMerge m [a; NLit (VL (LStr comp))] [] cfg) key =
    m_fun m [ISd (fun k' => match ev a k' with Ok v => cast_value conv v TAny | Err e => Err e end) (node_cfg a); IVal (VL (LStr comp))] [] key.
  Proof.
    intros m a comp cfg key M K W.
    rewrite (eval_inputs conv m [a; NLit (VL (LStr comp))] [] cfg key
      [ISd (fun k' => match ev a k' with Ok v => cast_value conv v TAny | Err e => Err e end) (node_cfg a); IVal (VL (LStr comp))] []); auto.
    - eapply wf2; eauto. constructor.
    - intros i k n I. eapply input2 in I; [|exact M].
      destruct I as [(-> & -> & ->)|(-> & -> & ->)]; simpl; eexists; (split; [reflexivity|]); [reflexivity|].
      exists (VL (LStr comp)), (VL (LStr comp)). auto.
  Qed.

  Lemma eval_pick : forall (a : node T) comp cfg key, wf a -> ev (pick a comp cfg) key =
    let* keys := component_of (node_cfg a) (@VL T (LStr comp)) in
    if existsb (String.eqb key) keys then ev a key else Err (StateDictKeyError key).
  Proof.
    intros. rewrite eval_component by auto. simpl. unfold component_of.
    destruct (node_cfg a) as [c|]; simpl; auto.
    destruct (dget String.eqb comp (cf_components c)); simpl; auto.
    destruct (existsb _ _); auto. destruct (ev a key); auto. apply cast_any.
  Qed.
  Lemma eval_omit : forall (a : node T) comp cfg key, wf a -> ev (omit a comp cfg) key =
    let* keys := component_of (node_cfg a) (@VL T (LStr comp)) in
    if existsb (String.eqb key) keys then Err (StateDictKeyError key) else ev a key.
  Proof.
    intros. rewrite eval_component by auto. simpl. unfold component_of.
    destruct (node_cfg a) as [c|]; simpl; auto.
    destruct (dget String.eqb comp (cf_components c)); simpl; auto.
    destruct (existsb _ _); auto. destruct (ev a key); auto. apply cast_any.
  Qed.

  Lemma existsb_In : forall k l, existsb (String.eqb k) l = true <-> In k l.
  Proof.
    intros k l. rewrite existsb_exists. split.
    - intros (x & H & E). apply String.eqb_eq in E; subst; auto.
    - intros H. exists k. split; auto. apply String.eqb_refl.
  Qed.

  Theorem C23_partition : forall (a : node T) c comp keys cfg cfg' key, wf a -> node_cfg a = Some c ->
    NoDup (map fst (cf_components c)) -> In (comp, keys) (cf_components c) ->
    (In key keys -> ev (pick a comp cfg) key = ev a key /\ is_missing_outcome (ev (omit a comp cfg') key)) /\
    (~ In key keys -> ev (omit a comp cfg') key = ev a key /\ is_missing_outcome (ev (pick a comp cfg) key)).
  Proof.
    intros a c comp keys cfg cfg' key W C ND I. rewrite eval_pick, eval_omit by auto. rewrite C. simpl.
    apply (dget_NoDup_In String.eqb String.eqb_spec) in I; auto. rewrite I. simpl.
    split; intros H.
    - apply existsb_In in H. rewrite H. split; auto. exists key; auto.
    - destruct (existsb (String.eqb key) keys) eqn:E; [apply existsb_In in E; tauto|].
      split; auto. exists key; auto.
  Qed.

  Theorem C23_recombined : forall (a : node T) c comp keys cfg cfg' cfg'' key, wf a -> node_cfg a = Some c ->
    In (comp, keys) (cf_components c) ->
    same_outcome (ev (NMerge fallback [pick a comp cfg; omit a comp cfg'] [] cfg'') key) (ev a key) /\
    same_outcome (ev (NMerge fallback [omit a comp cfg; pick a comp cfg'] [] cfg'') key) (ev a key).
  Proof.
    intros a c comp keys cfg cfg' cfg'' key W C I.
    rewrite !eval_or by auto using wf_pick, wf_omit. rewrite !eval_pick, !eval_omit by auto. rewrite C. simpl.
    destruct (dget String.eqb comp (cf_components c)) as [ks|] eqn:D.
    2:{ apply (proj1 (dget_None String.eqb String.eqb_spec _ _)) in D. exfalso. apply D.
        apply in_map_iff. exists (comp, keys); auto. }
    simpl. unfold same_outcome, is_missing_outcome.
    destruct (existsb (String.eqb key) ks); simpl; split; auto;
      destruct (ev a key) as [v|e] eqn:E; auto; destruct (is_missing e) eqn:M; auto;
      apply is_missing_iff in M as [k ->]; right; eauto.
  Qed.

  Theorem C23_unknown_component : forall (a : node T) c comp cfg key, wf a -> node_cfg a = Some c ->
    ~ In comp (map fst (cf_components c)) ->
    ev (pick a comp cfg) key = Err ValueError /\ ev (omit a comp cfg) key = Err ValueError.
  Proof.
    intros a c comp cfg key W C N. rewrite eval_pick, eval_omit by auto. rewrite C; simpl.
    apply (dget_None String.eqb String.eqb_spec) in N. rewrite N; auto.
  Qed.

  (** *** C24: a model file or dict holds [k] under its own name or an alias *)
  Definition absent {A} (get : string -> result A) (k : string) : Prop :=
    get k = Err KeyError \/ exists k', get k = Err (StateDictKeyError k').

  Lemma absent_iff : forall A (get : string -> result A) k, absent get k <-> exists e, get k = Err e /\ is_key_error e = true.
  Proof.
    intros A get k. split.
    - intros [H|[k' H]]; eexists; split; eauto.
    - intros (e & H & M). destruct e; try discriminate; [left; auto|right; eauto].
  Qed.

  Lemma try_keys_found : forall A (get : string -> result A) pre k post key v,
    Forall (absent get) pre -> get k = Ok v -> try_keys get (pre ++ k :: post) key = Ok v.
  Proof.
    induction pre as [|x pre IH]; intros k post key v F H; simpl.
    - rewrite H; auto.
    - inversion F as [|? ? AX F']; subst. apply absent_iff in AX as (e & E & M). rewrite E, M.
      destruct (pre ++ k :: post) eqn:P; [destruct pre; discriminate|]. rewrite <- P. apply IH; auto.
  Qed.

  Lemma try_keys_failed : forall A (get : string -> result A) pre k post key e,
    Forall (absent get) pre -> get k = Err e -> is_key_error e = false -> try_keys get (pre ++ k :: post) key = Err e.
  Proof.
    induction pre as [|x pre IH]; intros k post key v F H M; simpl.
    - rewrite H, M; auto.
    - inversion F as [|? ? AX F']; subst. apply absent_iff in AX as (e & E & M'). rewrite E, M'.
      destruct (pre ++ k :: post) eqn:P; [destruct pre; discriminate|]. rewrite <- P. apply IH; auto.
  Qed.

  Lemma try_keys_missing : forall A (get : string -> result A) ks key,
    ks <> [] -> Forall (absent get) ks -> try_keys get ks key = Err (StateDictKeyError key).
  Proof.
    induction ks as [|x ks IH]; intros key N F; [congruence|]. simpl.
    inversion F as [|? ? AX F']; subst. apply absent_iff in AX as (e & E & M). rewrite E, M.
    destruct ks; auto. apply IH; auto; discriminate.
  Qed.

  Lemma first_not_absent : forall A (get : string -> result A) ks,
    Forall (absent get) ks \/ exists pre k post, ks = pre ++ k :: post /\ Forall (absent get) pre /\ ~ absent get k.
  Proof.
    induction ks as [|x ks IH]; auto.
    assert (absent get x \/ ~ absent get x) as [AX|AX].
    { rewrite absent_iff. destruct (get x) as [v|e]; [right; intros (e & H & _); discriminate|].
      destruct (is_key_error e) eqn:M; [left; eauto|right; intros (e' & H & M'); congruence]. }
    - destruct IH as [F|(pre & k & post & -> & F & N)]; auto.
      right. exists (x :: pre), k, post. auto.
    - right. exists [], x, ks. auto.
  Qed.

  Lemma aliases_of_In : forall c key l, NoDup (map fst (cf_aliases c)) -> In (key, l) (cf_aliases c) -> aliases_of c key = l.
  Proof.
    intros c key l ND I. unfold aliases_of. apply (dget_NoDup_In String.eqb String.eqb_spec) in I; auto. rewrite I; auto.
  Qed.

  (** [names] are the names under which [key] may be stored, in order of preference *)
  Definition names_of (c : config) (key : string) (names : list string) : Prop :=
    (exists l, In (key, l) (cf_aliases c) /\ names = key :: l) \/ (~ In key (map fst (cf_aliases c)) /\ names = [key]).

  Lemma names_of_eq : forall c key names, NoDup (map fst (cf_aliases c)) -> names_of c key names -> key :: aliases_of c key = names.
  Proof.
    intros c key names ND [(l & I & ->)|(N & ->)].
    - erewrite aliases_of_In; eauto.
    - unfold aliases_of. apply (dget_None String.eqb String.eqb_spec) in N. rewrite N; auto.
  Qed.

  Theorem C24_alias_lookup : forall p get hk c sp key names,
    NoDup (map fst (cf_aliases c)) -> names_of c key names ->
    (forall pre k post t, names = pre ++ k :: post -> Forall (absent get) pre -> get k = Ok t ->
       ev (NModel p get hk c sp) key = Ok (VT t)) /\
    (ev (NModel p get hk c sp) key = Err (StateDictKeyError key) <-> Forall (absent get) names) /\
    (forall t, ev (NModel p get hk c sp) key = Ok t ->
       exists pre k post u, names = pre ++ k :: post /\ Forall (absent get) pre /\ get k = Ok u /\ t = VT u).
  Proof.
    intros p get hk c sp key names ND N. simpl. unfold visit_sd.
    pose proof (names_of_eq _ _ _ ND N) as E. rewrite E. clear E.
    assert (names <> []) as NE by (destruct N as [(l & _ & ->)|(_ & ->)]; discriminate).
    split; [|split].
    - intros pre k post t -> F H. rewrite (try_keys_found _ _ _ _ _ _ t); auto.
    - split.
      + intros H. destruct (first_not_absent _ get names) as [F|(pre & k & post & -> & F & A)]; auto. exfalso.
        destruct (get k) as [v|e] eqn:G.
        * rewrite (try_keys_found _ _ _ _ _ _ v) in H; auto; discriminate.
        * destruct (is_key_error e) eqn:M; [apply A, absent_iff; eauto|].
          rewrite (try_keys_failed _ _ _ _ _ _ e) in H; auto. simpl in H. inversion H; subst. discriminate.
      + intros F. rewrite try_keys_missing; auto.
    - intros t H. destruct (first_not_absent _ get names) as [F|(pre & k & post & -> & F & A)].
      + rewrite try_keys_missing in H; auto; discriminate.
      + destruct (get k) as [v|e] eqn:G.
        * rewrite (try_keys_found _ _ _ _ _ _ v) in H; auto. simpl in H. inversion H; subst.
          exists pre, k, post, v. auto.
        * destruct (is_key_error e) eqn:M; [exfalso; apply A, absent_iff; eauto|].
          rewrite (try_keys_failed _ _ _ _ _ _ e) in H; auto. discriminate.
  Qed.

  (** the same for a dict given by the user: entries are looked up by name *)
  Theorem C24_alias_lookup_dict : forall d c sp key names,
    NoDup (map fst (cf_aliases c)) -> names_of c key names ->
    (forall pre k post n, names = pre ++ k :: post -> (forall x, In x pre -> ~ In x (map fst d)) ->
       NoDup (map fst d) -> In (k, n) d -> ev (NDict d c sp) key = ev n key) /\
    ((forall x, In x names -> ~ In x (map fst d)) -> ev (NDict d c sp) key = Err (StateDictKeyError key)).
  Proof.
    intros d c sp key names ND N. simpl. unfold visit_sd.
    rewrite (names_of_eq _ _ _ ND N).
    assert (names <> []) as NE by (destruct N as [(l & _ & ->)|(_ & ->)]; discriminate).
    rewrite kmap_map.
    assert (forall x, ~ In x (map fst d) -> absent (dict_get (map (fun p => (fst p, ev (snd p))) d)) x) as AB.
    { intros x H. left. unfold dict_get.
      replace (map fst d) with (map fst (map (fun p => (fst p, ev (snd p))) d)) in H by (rewrite map_map; auto).
      apply (dget_None String.eqb String.eqb_spec) in H. rewrite H; auto. }
    split.
    - intros pre k post n -> F NDd I. rewrite (try_keys_found _ _ _ _ _ _ (ev n)); auto.
      + apply Forall_forall. auto.
      + unfold dict_get.
        rewrite (dget_NoDup_In String.eqb String.eqb_spec k (ev n)); auto.
        * rewrite map_map; auto.
        * apply in_map_iff. exists (k, n); auto.
    - intros F. rewrite try_keys_missing; auto. apply Forall_forall. auto.
  Qed.

  (** *** C25 *)
  Theorem C25_last_error : forall m args kw cfg key, wf (NMerge m args kw cfg) ->
    convertible ev (cast_value conv) m args kw key ->
    (exists i e, fails ev m args kw key i e) ->
    exists i e, fails ev m args kw key i e /\
      (forall j e', fails ev m args kw key j e' -> j = i \/ evaluated_before m args kw j i) /\
      ev (NMerge m args kw cfg) key = Err e.
  Proof.
    intros m args kw cfg key W C (i & e & t & n & I & F).
    destruct (merge_slots conv m args kw cfg W) as (slots & L & E & Hs & Hi).
    destruct (eval_merge_fail conv key slots m (length args) (map fst kw)) as (i' & s & e' & H1 & H2 & H3 & H4).
    - intros s H. apply In_nth_error in H as [j H]. destruct (Hs _ _ H) as (k' & n' & I' & ->).
      intros t' v K X. simpl in K, X. subst. eapply C; eauto.
    - exists (slot_of conv (KVal t) n), e. split; [eapply nth_error_In; eauto|].
      unfold fail_of, slot_of; simpl. rewrite F; auto.
    - destruct (Hs _ _ H1) as (k' & n' & I' & ->).
      assert (exists t', k' = KVal t' /\ ev n' key = Err e') as (t' & -> & F').
      { unfold fail_of, slot_of in H2; simpl in H2. destruct k'; [|discriminate].
        destruct (ev n' key); inversion H2; subst; eauto. }
      exists i', e'. split; [exists t', n'; auto|]. split.
      + intros j e'' (t2 & n2 & I2 & F2).
        destruct (H4 j (slot_of conv (KVal t2) n2) e'') as [Q|B]; auto.
        * unfold fail_of, slot_of; simpl. rewrite F2; auto.
        * right. exists (KVal t2), n2, (KVal t'), n'. split; [auto|]. split; [auto|].
          unfold before, slot_of in B; simpl in B. destruct B as [B|[B1 B2]]; auto.
      + rewrite E; auto.
  Qed.

  Theorem C25_no_error : forall m args kw cfg key xs ys, wf (NMerge m args kw cfg) ->
    length xs = length args -> length ys = length kw ->
    (forall i k n, input m args kw i k n -> exists x, nth_error (xs ++ ys) i = Some x /\ handed ev (cast_value conv) key k n x) ->
    ev (NMerge m args kw cfg) key = m_fun m xs (combine (map fst kw) ys) key.
  Proof. intros; apply eval_inputs; auto. Qed.

  (** *** C26 *)
  Definition real (e : exn) : Prop := forall k, e <> StateDictKeyError k.

  (** A real failure of a part of the recipe, when no part evaluated for its value
      reports a missing key, makes the recipe fail with a real error. *)
  Theorem C26_real_failure_partial : forall n key p e, wf n ->
    (forall t v x, conv t v = Err x -> real x) ->
    value_part n p -> ev p key = Err e -> real e ->
    (forall q, value_part n q -> ~ is_missing_outcome (ev q key)) ->
    exists e', ev n key = Err e' /\ real e'.
  Proof.
    intros n key p e W RC V E R N.
    assert (forall v t x, cast_value conv v t = Err x -> real x) as RC'.
    { intros v t x. unfold cast_value. destruct v as [u|[]]; try discriminate;
        destruct t; simpl; try discriminate; eauto. }
    enough (forall m args kw c i t n0, wf (NMerge m args kw c) -> input m args kw i (KVal t) n0 ->
      (exists e', ev n0 key = Err e' /\ real e') ->
      (forall q, value_part (NMerge m args kw c) q -> ~ is_missing_outcome (ev q key)) ->
      exists e', ev (NMerge m args kw c) key = Err e' /\ real e') as Step.
    { induction V as [m args kw c i t n I|m args kw c i t n p I V IH].
      - eapply Step; eauto.
      - eapply Step; eauto. apply IH; auto.
        + inversion W as [| | |? ? ? ? W1 W2]; subst. inversion I as [? ? ? A B|? ? ? A B D|? ? ? ? A B]; subst.
          * apply nth_error_In in A. rewrite Forall_forall in W1; auto.
          * apply nth_error_In in A. rewrite Forall_forall in W1; auto.
          * apply nth_error_In in A. rewrite Forall_forall in W2. apply (W2 _ A).
        + intros q Q. apply N. eapply vp_deep; eauto. }
    clear -RC'. intros m args kw c i t n0 W I (e' & E & R) N.
    destruct (merge_slots conv m args kw c W) as (slots & L & Ev & Hs & Hi).
    destruct (eval_merge_fail_any conv key slots m (length args) (map fst kw)) as [(s & x & H1 & H2 & H3)|(s & t' & v & x & H1 & H2 & H3 & H4 & H5)].
    - exists (slot_of conv (KVal t) n0), e'. split; [eapply nth_error_In; eauto|].
      unfold fail_of, slot_of; simpl. rewrite E; auto.
    - exists x. rewrite Ev. split; auto. intros k ->.
      apply In_nth_error in H1 as [j H1]. destruct (Hs _ _ H1) as (k' & n' & I' & ->).
      unfold fail_of, slot_of in H2; simpl in H2. destruct k' as [t'|]; [|discriminate].
      destruct (ev n' key) as [|x'] eqn:E'; inversion H2; subst.
      apply (N n'); [eapply vp_here; eauto|]. rewrite E'. exists k; auto.
    - exists x. rewrite Ev. split; eauto.
  Qed.

  (** *** C60 *)
  Section Weighted.
    Variables (all_zero all_one : T -> bool) (wsum : T -> T -> T -> T).
    Notation wsum_of a b n cfg := (NMerge (weighted_sum all_zero all_one wsum) [a; b; n] [] cfg).

    (** the recipe [n] given for [alpha] has the tensor value [alpha] at the key: it
        is a tensor or a number that converts to it *)
    Definition alpha_value n key alpha : Prop := exists v, ev n key = Ok v /\ cast_value conv v TTensor = Ok (VT alpha).

    Lemma eval_weighted : forall a b n alpha cfg key, wf a -> wf b -> wf n -> alpha_value n key alpha ->
      ev (wsum_of a b n cfg) key =
      m_fun (weighted_sum all_zero all_one wsum)
        [ISd (fun k' => match ev a k' with Ok v => cast_value conv v TTensor | Err e => Err e end) (node_cfg a);
         ISd (fun k' => match ev b k' with Ok v => cast_value conv v TTensor | Err e => Err e end) (node_cfg b);
         IVal (VT alpha)] [] key.
    Proof.
      intros a b n alpha cfg key Wa Wb Wn (v & V1 & V2).
      rewrite (eval_inputs conv (weighted_sum all_zero all_one wsum) [a; b; n] [] cfg key
        [ISd (fun k' => match ev a k' with Ok v => cast_value conv v TTensor | Err e => Err e end) (node_cfg a);
         ISd (fun k' => match ev b k' with Ok v => cast_value conv v TTensor | Err e => Err e end) (node_cfg b);
         IVal (VT alpha)] []); auto.
      - apply wf_merge; [| constructor | left; discriminate | left; simpl; lia | constructor | intros x []].
        constructor; [auto|]. constructor; [auto|]. constructor; [auto|constructor].
      - intros i k n' I. inversion I as [? ? ? A B|? ? ? A B C|j ? ? ? A]; subst.
        + destruct i as [|[|[|i]]]; simpl in *; try (inversion A; inversion B; subst; eexists; split; reflexivity).
          * inversion A; inversion B; subst. eexists; split; [reflexivity|]. exists v, (VT alpha). auto.
          * destruct i; discriminate.
        + discriminate.
        + destruct j; discriminate.
    Qed.

    Theorem C60_weighted_sum_lazy : forall a b n alpha cfg key, wf a -> wf b -> wf n -> alpha_value n key alpha ->
      (forall t, all_zero alpha = true -> ev a key = Ok (VT t) -> ev (wsum_of a b n cfg) key = Ok (VT t)) /\
      (forall t, all_zero alpha = false -> all_one alpha = true -> ev b key = Ok (VT t) -> ev (wsum_of a b n cfg) key = Ok (VT t)) /\
      (all_zero alpha = true -> is_missing_outcome (ev a key) -> is_missing_outcome (ev (wsum_of a b n cfg) key)) /\
      (forall x y, all_zero alpha = false -> all_one alpha = false -> ev a key = Ok (VT x) -> ev b key = Ok (VT y) ->
         ev (wsum_of a b n cfg) key = Ok (VT (wsum x y alpha))).
    Proof.
      intros a b n alpha cfg key Wa Wb Wn V. rewrite (eval_weighted _ _ _ _ _ _ Wa Wb Wn V). simpl.
      split; [|split; [|split]].
      - intros t -> ->; auto.
      - intros t -> -> ->; auto.
      - intros -> [k ->]. exists k; auto.
      - intros x y -> -> -> ->; auto.
    Qed.
  End Weighted.
End Generic.

(** ** concrete cases *)
Definition nconv (t : ety) (v : value nat) : result (value nat) :=
  match t, v with TTensor, VL (LInt z) => Ok (VT (Z.to_nat z)) | _, _ => Err TypeError end.
Definition cfg1 : config := Config "x-y" ["a"; "b"] [("a", ["a_old"; "a_older"])] [("unet", ["a"])].
Definition model1 : node nat := NModel "m.safetensors" (fun k => if String.eqb k "a_older" then Ok 7 else Err (StateDictKeyError k)) ["a_older"] cfg1 "weight".
Definition dict1 : node nat := NDict [("a", NLit (VT 1)); ("b", NLit (VT 2))] cfg1 "weight".
(** a method of two values that adds them, and one that always fails *)
Definition plus : mmethod nat := Method [KVal TTensor; KVal TTensor] None [] (fun args _ _ =>
  match args with [IVal (VT x); IVal (VT y)] => Ok (VT (x + y)) | _ => Err TypeError end).
Definition broken : mmethod nat := Method [KVal TTensor] None [] (fun _ _ _ => Err RuntimeError).

Example C22_case :
  eval nconv (NMerge fallback [model1; dict1] [] (Some cfg1)) "a" = Ok (VT 7) /\
  eval nconv (NMerge fallback [model1; dict1] [] (Some cfg1)) "b" = Ok (VT 2) /\ wf model1 /\ wf dict1.
Proof.
  split; [reflexivity|]. split; [reflexivity|]. split; [constructor|].
  constructor. repeat (constructor; [constructor|]). constructor.
Qed.

Example C23_case :
  eval nconv (NMerge pick_component [dict1; NLit (VL (LStr "unet"))] [] (Some cfg1)) "a" = Ok (VT 1) /\
  eval nconv (NMerge omit_component [dict1; NLit (VL (LStr "unet"))] [] (Some cfg1)) "a" = Err (StateDictKeyError "a") /\
  eval nconv (NMerge omit_component [dict1; NLit (VL (LStr "unet"))] [] (Some cfg1)) "b" = Ok (VT 2) /\
  eval nconv (NMerge omit_component [dict1; NLit (VL (LStr "vae"))] [] (Some cfg1)) "b" = Err ValueError.
Proof. repeat split; reflexivity. Qed.

Example C24_case : names_of cfg1 "a" ["a"; "a_old"; "a_older"] /\ names_of cfg1 "b" ["b"] /\
  eval nconv model1 "a" = Ok (VT 7) /\ eval nconv model1 "b" = Err (StateDictKeyError "b").
Proof.
  split; [left; exists ["a_old"; "a_older"]; simpl; auto|]. split; [right; split; [simpl; intuition discriminate|auto]|].
  split; reflexivity.
Qed.

(** the failing input is deeper than the model that lacks the key: C25 reports the
    latter, whichever position it has *)
Definition model2 : node nat := NModel "n.safetensors" (fun k => Ok 3) ["a"; "b"] cfg1 "weight".
Definition deep_failure : node nat := NMerge broken [model2] [] (Some cfg1).
Example C25_case :
  eval nconv (NMerge plus [deep_failure; model1] [] (Some cfg1)) "b" = Err (StateDictKeyError "b") /\
  eval nconv (NMerge plus [model1; deep_failure] [] (Some cfg1)) "b" = Err (StateDictKeyError "b") /\
  eval nconv (NMerge plus [dict1; NLit (VL (LInt 5))] [] (Some cfg1)) "b" = Ok (VT 7) /\
  wf (NMerge plus [deep_failure; model1] [] (Some cfg1)).
Proof.
  split; [reflexivity|]. split; [reflexivity|]. split; [reflexivity|].
  assert (wf dict1) as W1 by apply C22_case.
  assert (wf model1) as W2 by apply C22_case.
  assert (wf deep_failure) as W3.
  { apply wf_merge; [repeat constructor|constructor|left; discriminate|left; simpl; lia|constructor|intros x []]. }
  eapply wf2; auto; reflexivity.
Qed.

(** A failing computation is replaced by a missing key of another input, so [merge]
    skips the key and carries on. *)
Theorem C26_real_failure_refuted :
  ~ (forall (T : Type) (conv : ety -> value T -> result (value T)) n key p e, wf n ->
       (forall t v x, conv t v = Err x -> real x) ->
       value_part n p -> eval conv p key = Err e -> real e ->
       exists e', eval conv n key = Err e' /\ real e').
Proof.
  intros H. specialize (H nat nconv (NMerge plus [deep_failure; model1] [] (Some cfg1)) "b" deep_failure RuntimeError).
  destruct H as (e & E & R).
  - apply C25_case.
  - intros [] [t|[]] x X; inversion X; intros k Q; discriminate.
  - eapply vp_here with (i := 0). apply input_arg; reflexivity.
  - reflexivity.
  - intros k Q; discriminate.
  - vm_compute in E. inversion E; subst. apply (R "b"); auto.
Qed.

Example C26_partial_case :
  (exists e, eval nconv (NMerge plus [deep_failure; dict1] [] (Some cfg1)) "b" = Err e /\ real e) /\
  value_part (NMerge plus [deep_failure; dict1] [] (Some cfg1)) deep_failure /\
  (forall q, value_part (NMerge plus [deep_failure; dict1] [] (Some cfg1)) q -> ~ is_missing_outcome (eval nconv q "b")).
Proof.
  split; [exists RuntimeError; split; [reflexivity|intros k Q; discriminate]|].
  split; [eapply vp_here with (i := 0); apply input_arg; reflexivity|].
  assert (forall q, value_part deep_failure q -> q = model2) as D.
  { intros q V. inversion V as [? ? ? ? i t n I|? ? ? ? i t n p I V']; subst.
    - inversion I as [? ? ? A B|? ? ? A B C|j ? ? ? A]; subst; try discriminate.
      + destruct i as [|i]; [inversion A; auto|destruct i; discriminate].
      + destruct j; discriminate.
    - inversion I as [? ? ? A B|? ? ? A B C|j ? ? ? A]; subst; try discriminate.
      + destruct i as [|i]; [inversion A; subst; inversion V'|destruct i; discriminate].
      + destruct j; discriminate. }
  intros q V (k & E).
  assert (q = deep_failure \/ q = dict1 \/ q = model2) as [->|[->| ->]]; [|discriminate|discriminate|discriminate].
  inversion V as [? ? ? ? i t n I|? ? ? ? i t n p I V']; subst.
  - eapply input2 in I; [|reflexivity]. destruct I as [(_ & _ & ->)|(_ & _ & ->)]; auto.
  - eapply input2 in I; [|reflexivity]. destruct I as [(_ & _ & ->)|(_ & _ & ->)]; [right; right; auto|inversion V'].
Qed.

Example C60_case :
  let w := weighted_sum (fun t => t =? 0) (fun t => t =? 1) (fun a b _ => (a + b) / 2) in
  eval nconv (NMerge w [dict1; model1; NLit (VL (LInt 0))] [] (Some cfg1)) "b" = Ok (VT 2) /\
  eval nconv (NMerge w [model1; dict1; NLit (VT 1)] [] (Some cfg1)) "b" = Ok (VT 2) /\
  eval nconv (NMerge w [dict1; model1; NLit (VT 3)] [] (Some cfg1)) "b" = Err (StateDictKeyError "b").
Proof. repeat split; reflexivity. Qed.

Print Assumptions C22_fallback.
Print Assumptions C22_associative.
Print Assumptions C23_partition.
Print Assumptions C23_recombined.
Print Assumptions C23_unknown_component.
Print Assumptions C24_alias_lookup.
Print Assumptions C24_alias_lookup_dict.
Print Assumptions C25_last_error.
Print Assumptions C25_no_error.
Print Assumptions C26_real_failure_partial.
Print Assumptions C26_real_failure_refuted.
Print Assumptions C60_weighted_sum_lazy.
