(** Casting the inputs of a recipe (C27) and integer hyperparameters (C28). *)
From Coq Require Import String List Bool Arith ZArith Lia FunctionalExtensionality.
From Verif Require Import Base ModelEval SpecEval EvalProofs PropsEval SpecCast.
Import ListNotations.
Open Scope string_scope.
Open Scope list_scope.
Open Scope nat_scope.

Lemma height_merge : forall T (m : mmethod T) args kw c,
  height (NMerge m args kw c) = S (fold_right Nat.max 0 (map height args ++ map (fun p => height (snd p)) kw)).
Proof.
  intros. simpl. f_equal. rewrite fold_max_app. f_equal.
  - induction args; simpl; auto.
  - induction kw as [|[]]; simpl; auto.
Qed.

(** shifting the non-zero-shifted entries by one shifts the maximum *)
Lemma max_shift : forall l l', Forall2 (fun a b => b = S a \/ (a = 0 /\ b = 0)) l l' ->
  (Exists (fun p => snd p = S (fst p)) (combine l l')) ->
  fold_right Nat.max 0 l' = S (fold_right Nat.max 0 l).
Proof.
  induction 1 as [|a b l l' H F IH]; intros E; [inversion E|]. simpl.
  assert (fold_right Nat.max 0 l' = S (fold_right Nat.max 0 l) \/ (fold_right Nat.max 0 l' = 0 /\ fold_right Nat.max 0 l = 0)) as X.
  { clear -F. induction F as [|a b l l' H F IH]; simpl; [auto|]. lia. }
  inversion E as [? ? E1|? ? E1]; subst; simpl in *.
  - lia.
  - specialize (IH E1). lia.
Qed.

Section Cast.
  Context {T : Type} (conv : ety -> value T -> result (value T)) (to : lit -> lit -> T -> result T) (device dtype : lit).
  Variables (f : T -> T) (g : lit -> T).
  Notation ev := (eval conv).

  Lemma castable_iff : forall v : value T, castable v = true <-> ~ inert (NLit v).
  Proof.
    intros [t|l]; simpl.
    - split; auto. intros _ (l & E & _). inversion E.
    - destruct l; simpl; split; intros H; try discriminate; auto;
        try (intros (l & E & N); inversion E; subst; discriminate);
        exfalso; apply H; eexists; split; reflexivity.
  Qed.

  Hypothesis to_total : forall t, to device dtype t = Ok (f t).
  Hypothesis numbers : forall l, numeric l = true -> conv TTensor (VL l) = Ok (VT (g l)).
  Hypothesis options : numeric device = false /\ numeric dtype = false.

  Lemma option_str : forall l, numeric l = false -> cast_value conv (VL l) TStr = Ok (VL l).
  Proof. intros [] H; try discriminate; auto. Qed.

  Lemma wf_cast_node : forall n, wf n -> wf (cast_node to device dtype n).
  Proof.
    intros n W. apply wf_merge; [|constructor|left; discriminate|left; simpl; lia|constructor|intros x []].
    constructor; [auto|]. constructor; [constructor|]. constructor; [constructor|constructor].
  Qed.

  Lemma eval_cast_node : forall n key, wf n -> (forall v, ev n key = Ok v -> castable v = true) ->
    ev (cast_node to device dtype n) key = match ev n key with Ok v => Ok (precast_value f g v) | Err e => Err e end.
  Proof.
    intros n key W C.
    destruct (ev n key) as [v|e] eqn:E.
    - specialize (C v eq_refl).
      assert (exists t, cast_value conv v TTensor = Ok (VT t) /\ precast_value f g v = VT (f t)) as (t & C1 & C2).
      { destruct v as [t|l]; simpl; [eauto|]. exists (g l). destruct l; try discriminate; simpl; auto. }
      unfold cast_node.
      rewrite (eval_inputs conv (cast to) [n; NLit (VL device); NLit (VL dtype)] [] (node_cfg n) key
        [IVal (VT t); IVal (VL device); IVal (VL dtype)] []); auto.
      + simpl. rewrite to_total, C2. auto.
      + apply wf_cast_node; auto.
      + intros i k n' I. inversion I as [? ? ? A B|? ? ? A B D|j ? ? ? A]; subst.
        * destruct i as [|[|[|i]]]; simpl in *.
          -- inversion A; inversion B; subst. eexists; split; [reflexivity|]. exists v, (VT t). auto.
          -- inversion A; inversion B; subst. eexists; split; [reflexivity|]. exists (VL device), (VL device).
             split; [auto|]. split; [apply option_str, options|auto].
          -- inversion A; inversion B; subst. eexists; split; [reflexivity|]. exists (VL dtype), (VL dtype).
             split; [auto|]. split; [apply option_str, options|auto].
          -- destruct i; discriminate.
        * discriminate.
        * destruct j; discriminate.
    - destruct (C25_last_error conv (cast to) [n; NLit (VL device); NLit (VL dtype)] [] (node_cfg n) key) as (i & x & F & _ & R).
      + apply wf_cast_node; auto.
      + intros i t n' v I V. inversion I as [? ? ? A B|? ? ? A B D|j ? ? ? A]; subst.
        * destruct i as [|[|[|i]]]; simpl in *.
          -- inversion A; subst. congruence.
          -- inversion A; inversion B; subst. simpl in V. inversion V; subst. eexists. apply option_str, options.
          -- inversion A; inversion B; subst. simpl in V. inversion V; subst. eexists. apply option_str, options.
          -- destruct i; discriminate.
        * discriminate.
        * destruct j; discriminate.
      + exists 0, e, TTensor, n. split; auto. apply input_arg; auto.
      + unfold cast_node. rewrite R. destruct F as (t & n' & I & F).
        inversion I as [? ? ? A B|? ? ? A B D|j ? ? ? A]; subst.
        * destruct i as [|[|[|i]]]; simpl in *.
          -- inversion A; subst. congruence.
          -- inversion A; subst. discriminate.
          -- inversion A; subst. discriminate.
          -- destruct i; discriminate.
        * discriminate.
        * destruct j; discriminate.
  Qed.

  Lemma precast_cfg : forall n, node_cfg (precast f g n) = node_cfg n.
  Proof. destruct n; auto. Qed.

  Lemma precast_height : forall n, height (precast f g n) = height n.
  Proof.
    induction n using node_ind'; auto.
    change (precast f g (NMerge m args kw c)) with (NMerge m (lmap (precast f g) args) (kmap (precast f g) kw) c).
    rewrite 2 height_merge, (lmap_map _ _ (precast f g) args), (kmap_map _ _ (precast f g) kw), !map_map. simpl. do 2 f_equal. f_equal.
    - apply map_ext_in. rewrite Forall_forall in H. auto.
    - apply map_ext_in. rewrite Forall_forall in H0. intros [x a] I. simpl. apply (H0 _ I).
  Qed.

  Lemma precast_wf : forall n, wf n -> wf (precast f g n).
  Proof.
    induction n using node_ind'; intros W.
    - constructor.
    - inversion W as [|? ? ? W1| |]; subst. simpl. rewrite (kmap_map _ _ (precast f g) d). constructor. apply Forall_map. simpl.
      rewrite Forall_forall in *. intros p I. auto.
    - constructor.
    - inversion W as [| | |? ? ? ? W1 W2 N L ND K]; subst. simpl.
      rewrite (lmap_map _ _ (precast f g) args), (kmap_map _ _ (precast f g) kw). apply wf_merge; auto.
      + apply Forall_map. rewrite Forall_forall in *. auto.
      + apply Forall_map. rewrite Forall_forall in *. simpl. auto.
      + destruct N as [N|N]; [left; destruct args|right; destruct kw]; simpl; congruence.
      + rewrite map_length; auto.
      + rewrite map_map; simpl; auto.
  Qed.

  (** *** lookups commute with casting the data *)
  Lemma try_keys_map : forall A B (h : A -> B) (get : string -> result A) ks key,
    try_keys (fun k => match get k with Ok v => Ok (h v) | Err e => Err e end) ks key =
    match try_keys get ks key with Ok v => Ok (h v) | Err e => Err e end.
  Proof.
    induction ks as [|k ks IH]; intros key; simpl; auto.
    destruct (get k) as [v|e]; auto. destruct (is_key_error e); auto. destruct ks; auto.
  Qed.

  Lemma eval_dict_lit : forall (d : list (string * node T)) c s key, Forall (fun p => exists v, snd p = NLit v) d ->
    ev (NDict d c s) key =
    try_keys (fun k => match dict_get d k with Ok (NLit v) => Ok v | Ok _ => Err Unmodelled | Err e => Err e end) (key :: aliases_of c key) key.
  Proof.
    intros d c s key F. simpl eval. unfold visit_sd. generalize (key :: aliases_of c key) as ks.
    assert (forall k, dict_get (kmap ev d) k = match dict_get d k with Ok n => Ok (ev n) | Err e => Err e end) as D.
    { intros k. unfold dict_get. clear. induction d as [|[x n] d IH]; simpl; auto.
      destruct (String.eqb k x); auto. }
    induction ks as [|k ks IH]; simpl; auto.
    rewrite D. destruct (dict_get d k) as [n|e] eqn:E.
    - unfold dict_get in E. destruct (dget String.eqb k d) as [n'|] eqn:G; inversion E; subst.
      apply (dget_In String.eqb String.eqb_spec) in G. rewrite Forall_forall in F. destruct (F _ G) as [v V]. simpl in V.
      subst. reflexivity.
    - destruct (is_key_error e); auto. destruct ks; auto.
  Qed.

  Lemma datum_lit : forall n : node T, datum n -> exists v, n = NLit v /\ castable v = true.
  Proof. intros n (v & -> & N). exists v. split; auto. apply castable_iff; auto. Qed.

  Lemma dict_get_precast : forall (d : list (string * node T)) k,
    dict_get (kmap (precast f g) d) k = match dict_get d k with Ok n => Ok (precast f g n) | Err e => Err e end.
  Proof.
    intros d k. unfold dict_get. induction d as [|[x n] d IH]; simpl; auto. destruct (String.eqb k x); auto.
  Qed.

  Lemma eval_data_dict : forall d c s key, Forall (fun p => datum (snd p)) d ->
    (ev (precast f g (NDict d c s)) key = match ev (NDict d c s) key with Ok v => Ok (precast_value f g v) | Err e => Err e end) /\
    (forall v, ev (NDict d c s) key = Ok v -> castable v = true).
  Proof.
    intros d c s key F.
    assert (Forall (fun p => exists v, snd p = NLit v) d) as FL.
    { eapply Forall_impl; [|exact F]. intros p D. destruct (datum_lit _ D) as (v & E & _). eauto. }
    rewrite eval_dict_lit by auto. split.
    - change (precast f g (NDict d c s)) with (NDict (kmap (precast f g) d) c s).
      rewrite eval_dict_lit.
      2:{ rewrite kmap_map. apply Forall_map. simpl. eapply Forall_impl; [|exact FL].
          intros p (v & ->). simpl; eauto. }
      rewrite <- try_keys_map. f_equal. extensionality k. rewrite dict_get_precast.
      destruct (dict_get d k) as [n|e] eqn:E; auto.
      unfold dict_get in E. destruct (dget String.eqb k d) as [n'|] eqn:G; inversion E; subst.
      apply (dget_In String.eqb String.eqb_spec) in G. rewrite Forall_forall in FL. destruct (FL _ G) as [v V]. simpl in V.
      subst. reflexivity.
    - generalize (key :: aliases_of c key) as ks. induction ks as [|k ks IH]; simpl; intros v H; [discriminate|].
      destruct (dict_get d k) as [n|e] eqn:E.
      + unfold dict_get in E. destruct (dget String.eqb k d) as [n'|] eqn:G; inversion E; subst.
        apply (dget_In String.eqb String.eqb_spec) in G. rewrite Forall_forall in F.
        destruct (datum_lit _ (F _ G)) as (w & V & C). simpl in V. subst. inversion H; subst; auto.
      + destruct (is_key_error e); [|discriminate]. destruct ks; [discriminate|auto].
  Qed.

  (** *** the rewriting *)
  Definition rel (n n' : node T) : Prop :=
    wf n' /\ node_cfg n' = node_cfg n /\ (forall key, ev n' key = ev (precast f g n) key) /\
    (height n' = S (height n) \/ inert n /\ n' = n).

  Lemma mapN_rel : forall args args', mapN (cast_inputs to device dtype) args = Ok args' <-> Forall2 (fun n n' => cast_inputs to device dtype n = Ok n') args args'.
  Proof.
    induction args as [|a args IH]; intros args'; simpl; split; intros H.
    - inversion H; constructor.
    - inversion H; auto.
    - apply bind_Ok in H as (y & Hy & H). apply bind_Ok in H as (ys & Hys & H). inversion H; subst.
      constructor; auto. apply IH; auto.
    - inversion H as [|? y ? ys A B]; subst. rewrite A; simpl. apply IH in B. rewrite B; auto.
  Qed.

  Definition all_convertible n : Prop :=
    forall m args kw c, part (precast f g n) (NMerge m args kw c) -> forall key, convertible ev (cast_value conv) m args kw key.

  Lemma input_F2 : forall m args args' kw kw' i k n (R : node T -> node T -> Prop),
    Forall2 R args args' -> Forall2 (fun p q => fst p = fst q /\ R (snd p) (snd q)) kw kw' ->
    input m args kw i k n -> exists n', input m args' kw' i k n' /\ R n n'.
  Proof.
    intros m args args' kw kw' i k n R Fa Fk I.
    assert (forall (A B : Type) (Q : A -> B -> Prop) l l', Forall2 Q l l' -> forall j x, nth_error l j = Some x -> exists y, nth_error l' j = Some y /\ Q x y) as N.
    { clear. induction 1; intros [|j] z E; simpl in *; try discriminate; [inversion E; subst; eauto|eauto]. }
    inversion I as [? ? ? A B|? ? ? A B C|j x ? ? A B]; subst.
    - destruct (N _ _ _ _ _ Fa _ _ A) as (n' & A' & Q). exists n'. split; auto. apply input_arg; auto.
    - destruct (N _ _ _ _ _ Fa _ _ A) as (n' & A' & Q). exists n'. split; auto. apply input_vararg; auto.
    - destruct (N _ _ _ _ _ Fk _ _ A) as ([x' n'] & A' & E & Q). simpl in *. subst x'. exists n'. split; auto.
      assert (length args = length args') as -> by (clear -Fa; induction Fa; simpl; auto).
      eapply input_kw; eauto.
  Qed.

  (** two merges of the same method over inputs with equal outcomes, equally
      ordered where they fail, have equal outcomes *)
  Definition same_slot (s s' : @slot T) : Prop :=
    s_kind s' = s_kind s /\ s_eval s' = s_eval s /\ s_cfg s' = s_cfg s /\
    (s_depth s' = S (s_depth s) \/ forall k, exists v, s_eval s k = Ok v).

  Lemma eval_merge_rel : forall m na kws slots slots' key,
    length slots = na + length kws -> Forall2 same_slot slots slots' -> (forall s, In s slots -> good conv key s) ->
    eval_merge conv m na kws slots' key = eval_merge conv m na kws slots key.
  Proof.
    intros m na kws slots slots' key L F G.
    assert (length slots' = length slots) as L' by (clear -F; induction F; simpl; auto).
    assert (forall s s', same_slot s s' -> fail_of key s' = fail_of key s /\ recv conv key s' = recv conv key s /\ (good conv key s -> good conv key s')) as R.
    { clear. intros s s' (A & B & C & _). unfold fail_of, recv, good. rewrite A, B, C. auto. }
    assert (forall j s', nth_error slots' j = Some s' -> exists s, nth_error slots j = Some s /\ same_slot s s') as N.
    { clear -F. induction F as [|a b l l' Hab F IH]; intros [|j] z E; simpl in *; try discriminate; [inversion E; subst; eauto|eauto]. }
    assert (forall j s, nth_error slots j = Some s -> exists s', nth_error slots' j = Some s' /\ same_slot s s') as N'.
    { clear -F. induction F as [|a b l l' Hab F IH]; intros [|j] z E; simpl in *; try discriminate; [inversion E; subst; eauto|eauto]. }
    assert (forall s', In s' slots' -> good conv key s') as G'.
    { intros s' I. apply In_nth_error in I as [j I]. destruct (N _ _ I) as (s & E & S). apply (R _ _ S). apply G. eapply nth_error_In; eauto. }
    destruct (existsb (fun s => match fail_of key s with Some _ => true | None => false end) slots) eqn:X.
    - apply existsb_exists in X as (s & I & Fs). destruct (fail_of key s) as [e|] eqn:E; [|discriminate].
      destruct (eval_merge_fail conv key slots m na kws G) as (i & si & ei & A1 & A2 & A3 & A4); [eauto|].
      destruct (eval_merge_fail conv key slots' m na kws G') as (i' & si' & ei' & B1 & B2 & B3 & B4).
      { apply In_nth_error in I as [j I]. destruct (N' _ _ I) as (s' & I' & S). exists s', e.
        split; [eapply nth_error_In; eauto|]. rewrite (proj1 (R _ _ S)); auto. }
      rewrite A3, B3.
      destruct (N _ _ B1) as (ti & T1 & S1). destruct (N' _ _ A1) as (ti' & T1' & S1').
      assert (i = i') as ->.
      { destruct (A4 i' ti ei' T1) as [Q|Q]; auto; [rewrite <- (proj1 (R _ _ S1)); auto|].
        destruct (B4 i ti' ei T1') as [Q'|Q']; auto; [rewrite (proj1 (R _ _ S1')); auto|].
        exfalso. unfold before in Q, Q'. simpl in Q, Q'.
        destruct S1 as (_ & _ & _ & [D1|D1]).
        2:{ unfold fail_of in B2. destruct (s_kind si'); [|discriminate].
            destruct (N _ _ B1) as (u & U1 & U2). assert (u = ti) by congruence. subst u.
            destruct U2 as (_ & U2 & _). rewrite U2 in B2. destruct (D1 key) as [v V]. rewrite V in B2. discriminate. }
        destruct S1' as (_ & _ & _ & [D2|D2]).
        2:{ unfold fail_of in A2. destruct (s_kind si); [|discriminate]. destruct (D2 key) as [v V]. rewrite V in A2. discriminate. }
        lia. }
      assert (si = ti) by congruence. subst. rewrite (proj1 (R _ _ S1)) in B2. congruence.
    - assert (forall s, In s slots -> fail_of key s = None) as NF.
      { intros s I. destruct (fail_of key s) eqn:E; auto. exfalso.
        assert (existsb (fun s => match fail_of key s with Some _ => true | None => false end) slots = true); [|congruence].
        apply existsb_exists. exists s. rewrite E; auto. }
      rewrite !eval_merge_ok; auto; try lia.
      + assert (map (recv conv key) slots' = map (recv conv key) slots) as Q.
        { clear -F R. induction F as [|a b l l' H F IH]; simpl; auto. rewrite IH. f_equal. apply (R _ _ H). }
        rewrite <- !firstn_map, <- !skipn_map, Q. auto.
      + intros s' I. apply In_nth_error in I as [j I]. destruct (N _ _ I) as (s & E & S).
        rewrite (proj1 (R _ _ S)). apply NF. eapply nth_error_In; eauto.
  Qed.

  Lemma merge_rel : forall m args args' kw kw' c c' key (R : node T -> node T -> Prop),
    (forall n n', R n n' -> node_cfg n' = node_cfg n /\ (forall k, ev n' k = ev n k) /\ (height n' = S (height n) \/ forall k, exists v, ev n k = Ok v)) ->
    wf (NMerge m args kw c) -> wf (NMerge m args' kw' c') ->
    Forall2 R args args' -> Forall2 (fun p q => fst p = fst q /\ R (snd p) (snd q)) kw kw' ->
    convertible ev (cast_value conv) m args kw key ->
    ev (NMerge m args' kw' c') key = ev (NMerge m args kw c) key.
  Proof.
    intros m args args' kw kw' c c' key R HR W W' Fa Fk C.
    destruct (merge_slots conv m args kw c W) as (slots & L & E & Hs & Hi).
    destruct (merge_slots conv m args' kw' c' W') as (slots' & L' & E' & Hs' & Hi').
    rewrite E, E'.
    assert (length args = length args') as La by (clear -Fa; induction Fa; simpl; auto).
    assert (map fst kw = map fst kw') as Lk.
    { clear -Fk. induction Fk as [|a b l l' [Hab _] F IH]; simpl; congruence. }
    rewrite <- La, <- Lk. apply eval_merge_rel; auto.
    - assert (length slots' = length slots) as LL by (rewrite <- Lk in L'; lia).
      assert (forall j s, nth_error slots j = Some s -> exists s', nth_error slots' j = Some s' /\ same_slot s s') as N.
      { intros j s H. destruct (Hs _ _ H) as (k & n & I & ->).
        destruct (input_F2 _ _ _ _ _ _ _ _ _ Fa Fk I) as (n' & I' & Q).
        exists (slot_of conv k n'). split; [apply Hi'; auto|].
        destruct (HR _ _ Q) as (Q1 & Q2 & Q3). unfold same_slot, slot_of; simpl.
        split; [auto|]. split; [extensionality x; auto|]. auto. }
      clear -N LL. revert slots' LL N. induction slots as [|s slots IH]; intros [|s' slots'] LL N; simpl in LL; try discriminate; constructor.
      + destruct (N 0 s eq_refl) as (x & X & Y). inversion X; subst; auto.
      + apply IH; auto. intros j t H. apply (N (S j) t H).
    - intros s I. apply In_nth_error in I as [j I]. destruct (Hs _ _ I) as (k & n & I' & ->).
      intros t v K V. simpl in K, V. subst. eapply C; eauto.
  Qed.

  Lemma inert_cast : forall n, inert n -> cast_inputs to device dtype n = Ok n /\ precast f g n = n.
  Proof.
    intros n (l & -> & N). simpl. rewrite N. destruct l; try discriminate; auto.
  Qed.
  Lemma not_inert_regular : forall n : node T, regular n -> ~ inert n.
  Proof.
    intros n R (l & -> & N). inversion R as [? D|? ? ? ? ?| |? ? ? ? ? ? ?]; subst.
    destruct D as (v & E & NI). apply NI. exists l; auto.
  Qed.
  Lemma inert_eval : forall n, inert n -> forall k, exists v, ev n k = Ok v.
  Proof. intros n (l & -> & _) k. simpl; eauto. Qed.

  Theorem cast_inputs_rel : forall n, wf n -> regular n -> all_convertible n ->
    exists n', cast_inputs to device dtype n = Ok n' /\ wf n' /\ node_cfg n' = node_cfg n /\
      height n' = S (height n) /\ forall key, ev n' key = ev (precast f g n) key.
  Proof.
    induction n using node_ind'; intros W R C.
    - exists (cast_node to device dtype (NLit v)).
      assert (castable v = true) as CV by (apply castable_iff, (not_inert_regular _ R)).
      simpl cast_inputs. rewrite CV. split; [auto|]. split; [apply wf_cast_node; auto|]. split; [auto|]. split; [auto|].
      intros key. rewrite eval_cast_node; auto. simpl. intros w Q; inversion Q; subst; auto.
    - inversion R as [? D|? ? ? ND D| |]; subst.
      { destruct D as (v & E & _). discriminate. }
      exists (cast_node to device dtype (NDict d c s)).
      split; [|split; [apply wf_cast_node; auto|split; [auto|split; [auto|]]]].
      + destruct d as [|[x n] d]; [congruence|]. simpl. inversion D as [|? ? D1 D2]; subst.
        destruct (datum_lit _ D1) as (v & V & CV). simpl in V. subst. rewrite CV; auto.
      + intros key. destruct (eval_data_dict d c s key D) as (E1 & E2).
        rewrite eval_cast_node; auto.
    - exists (cast_node to device dtype (NModel p g0 k c s)).
      split; [auto|split; [apply wf_cast_node; auto|split; [auto|split; [auto|]]]].
      intros key. rewrite eval_cast_node; auto.
      + simpl. unfold visit_sd. rewrite try_keys_map. destruct (try_keys g0 _ _); auto.
      + simpl. intros v Q. apply bind_Ok in Q as (t & _ & Q). inversion Q; subst; auto.
    - inversion R as [? D| | |? ? ? ? Ra Rk Ex]; subst.
      { destruct D as (v & E & _). discriminate. }
      inversion W as [| | |? ? ? ? W1 W2 NE L ND K]; subst.
      set (Q := fun n n' => cast_inputs to device dtype n = Ok n' /\ wf n' /\ node_cfg n' = node_cfg n /\
                  (forall key, ev n' key = ev (precast f g n) key) /\ (regular n /\ height n' = S (height n) \/ inert n /\ n' = n)).
      assert (forall a, regular a \/ inert a -> wf a -> (wf a -> regular a -> all_convertible a ->
        exists n', cast_inputs to device dtype a = Ok n' /\ wf n' /\ node_cfg n' = node_cfg a /\
          height n' = S (height a) /\ forall key, ev n' key = ev (precast f g a) key) -> all_convertible a -> exists a', Q a a') as Step.
      { intros a [Ra'|Ia] Wa IH Ca.
        - destruct IH as (a' & A1 & A2 & A3 & A4 & A5); auto. exists a'. unfold Q. auto 10.
        - destruct (inert_cast a Ia) as (A1 & A2). exists a. unfold Q. rewrite A2. auto 10. }
      assert (exists args', Forall2 Q args args') as (args' & Fa).
      { assert (forall a, In a args -> all_convertible a) as Ca.
        { intros a I m' x y z P. apply (C m' x y z). simpl. eapply part_arg; [|exact P]. rewrite lmap_map. apply in_map; auto. }
        clear -H Ra W1 Step Ca. induction args as [|a args IH]; [exists []; constructor|].
        inversion H; inversion Ra; inversion W1; subst.
        destruct IH as (l & F); auto; [intros; apply Ca; right; auto|].
        destruct (Step a) as (a' & A); auto; [apply Ca; left; auto|]. exists (a' :: l). constructor; auto. }
      assert (exists kw', Forall2 (fun p q => fst p = fst q /\ Q (snd p) (snd q)) kw kw') as (kw' & Fk).
      { assert (forall x a, In (x, a) kw -> all_convertible a) as Ca.
        { intros x a I m' x' y z P. apply (C m' x' y z). simpl. eapply part_kw; [|exact P]. rewrite kmap_map. apply in_map_iff. exists (x, a); simpl; eauto. }
        clear -H0 Rk W2 Step Ca. induction kw as [|[x a] kw IH]; [exists []; constructor|].
        inversion H0; inversion Rk; inversion W2; subst. simpl in *.
        destruct IH as (l & F); auto; [intros y b I; apply (Ca y b); right; auto|].
        destruct (Step a) as (a' & A); auto; [apply (Ca x); left; auto|]. exists ((x, a') :: l). constructor; auto. }
      exists (NMerge m args' kw' c).
      assert (length args = length args') as La by (clear -Fa; induction Fa; simpl; auto).
      assert (map fst kw = map fst kw') as Lk.
      { clear -Fk. induction Fk as [|a b l l' [Hab _] F IH]; simpl; congruence. }
      assert (wf (NMerge m args' kw' c)) as W'.
      { apply wf_merge; auto.
        - clear -Fa. induction Fa as [|a b l l' Hab F IH]; constructor; auto. apply Hab.
        - clear -Fk. induction Fk as [|a b l l' [_ Hab] F IH]; constructor; auto. apply Hab.
        - destruct NE as [NE|NE]; [left; destruct args'; [destruct args|]|right; destruct kw'; [destruct kw|]]; simpl in *; congruence.
        - rewrite <- La; auto.
        - rewrite <- Lk; auto. }
      split; [|split; [auto|split; [auto|split]]].
      + simpl.
        assert (mapN (cast_inputs to device dtype) args = Ok args') as ->.
        { apply mapN_rel. clear -Fa. induction Fa as [|a b l l' Hab F IH]; constructor; auto. apply Hab. }
        assert (kmapN (cast_inputs to device dtype) kw = Ok kw') as ->; auto.
        clear -Fk. induction Fk as [|[x a] [y b] l l' [E Hab] F IH]; simpl in *; auto. subst.
        destruct Hab as (-> & _). simpl. rewrite IH; auto.
      + rewrite !height_merge. f_equal. apply max_shift.
        * apply Forall2_app.
          -- clear -Fa. induction Fa as [|a b l l' Hab F IH]; constructor; auto.
             destruct Hab as (_ & _ & _ & _ & [(_ & ->)|((l0 & -> & _) & ->)]); auto.
          -- clear -Fk. induction Fk as [|a b l l' [_ Hab] F IH]; constructor; auto.
             destruct Hab as (_ & _ & _ & _ & [(_ & ->)|((l0 & -> & _) & ->)]); auto.
        * assert (forall X Y (a b : list X) (c d : list Y), length a = length c -> combine (a ++ b) (c ++ d) = combine a c ++ combine b d) as CA.
          { clear. induction a; intros b [|y c] d E; simpl in *; try discriminate; auto. rewrite IHa; auto. }
          rewrite CA by (rewrite !map_length; auto). apply Exists_app.
          destruct Ex as [Ex|Ex]; [left|right].
          -- clear -Fa Ex. induction Fa as [|a b l l' Hab F IH]; [inversion Ex|]. simpl.
             inversion Ex as [? ? E|? ? E]; subst; [|right; auto]. left. simpl.
             destruct Hab as (_ & _ & _ & _ & [(_ & ->)|(I & ->)]); auto. exfalso. eapply not_inert_regular; eauto.
          -- clear -Fk Ex. induction Fk as [|a b l l' [_ Hab] F IH]; [inversion Ex|]. simpl.
             inversion Ex as [? ? E|? ? E]; subst; [|right; auto]. left. simpl.
             destruct Hab as (_ & _ & _ & _ & [(_ & ->)|(I & ->)]); auto. exfalso. eapply not_inert_regular; eauto.
      + intros key. change (precast f g (NMerge m args kw c)) with (NMerge m (lmap (precast f g) args) (kmap (precast f g) kw) c).
        apply merge_rel with (R := fun n n' => exists a, n = precast f g a /\ Q a n').
        * intros n n' (a & -> & Q1 & Q2 & Q3 & Q4 & Q5). rewrite precast_cfg. split; [auto|]. split; [auto|].
          destruct Q5 as [(_ & Q5)|(Q5 & ->)]; [left; rewrite precast_height; auto|right].
          destruct (inert_cast a Q5) as (_ & ->). apply inert_eval; auto.
        * apply (precast_wf (NMerge m args kw c)); auto.
        * auto.
        * rewrite (lmap_map _ _ (precast f g) args). clear -Fa. induction Fa as [|a b l l' Hab F IH]; simpl; constructor; [exists a; auto|auto].
        * rewrite (kmap_map _ _ (precast f g) kw). clear -Fk. induction Fk as [|a b l l' [E Hab] F IH]; simpl; constructor; [split; [auto|exists (snd a); auto]|auto].
        * apply (C m _ _ c). simpl. apply part_self.
  Qed.
  (** *** dicts of recipes *)

  (** equal outcomes of the inputs are enough where those that fail fail alike: the order of evaluation does not show *)
  Definition like_slot (s s' : @slot T) : Prop :=
    s_kind s' = s_kind s /\ s_eval s' = s_eval s /\ s_cfg s' = s_cfg s.

  Lemma eval_merge_alike : forall m na kws slots slots' key,
    length slots = na + length kws -> Forall2 like_slot slots slots' -> (forall s, In s slots -> good conv key s) ->
    (forall s t e e', In s slots -> In t slots -> fail_of key s = Some e -> fail_of key t = Some e' -> e = e') ->
    eval_merge conv m na kws slots' key = eval_merge conv m na kws slots key.
  Proof.
    intros m na kws slots slots' key L F G A.
    assert (length slots' = length slots) as L' by (clear -F; induction F; simpl; auto).
    assert (forall s s', like_slot s s' -> fail_of key s' = fail_of key s /\ recv conv key s' = recv conv key s /\ (good conv key s -> good conv key s')) as R.
    { clear. intros s s' (A & B & C). unfold fail_of, recv, good. rewrite A, B, C. auto. }
    assert (forall s', In s' slots' -> exists s, In s slots /\ like_slot s s') as N.
    { clear -F. induction F as [|a b l l' Hab F IH]; intros z E; simpl in *; [destruct E|].
      destruct E as [<-|E]; eauto. destruct (IH z E) as (s & I & Q); eauto. }
    assert (forall s, In s slots -> exists s', In s' slots' /\ like_slot s s') as N'.
    { clear -F. induction F as [|a b l l' Hab F IH]; intros z E; simpl in *; [destruct E|].
      destruct E as [<-|E]; eauto. destruct (IH z E) as (s & I & Q); eauto. }
    assert (forall s', In s' slots' -> good conv key s') as G'.
    { intros s' I. destruct (N _ I) as (s & E & S). apply (R _ _ S). auto. }
    destruct (existsb (fun s => match fail_of key s with Some _ => true | None => false end) slots) eqn:X.
    - apply existsb_exists in X as (s & I & Fs). destruct (fail_of key s) as [e|] eqn:E; [|discriminate].
      destruct (eval_merge_fail conv key slots m na kws G) as (i & si & ei & A1 & A2 & A3 & _); [eauto|].
      destruct (eval_merge_fail conv key slots' m na kws G') as (i' & si' & ei' & B1 & B2 & B3 & _).
      { destruct (N' _ I) as (s' & I' & S). exists s', e. split; auto. rewrite (proj1 (R _ _ S)); auto. }
      rewrite A3, B3. f_equal. destruct (N si') as (t & T1 & T2); [eapply nth_error_In; eauto|].
      rewrite (proj1 (R _ _ T2)) in B2. apply nth_error_In in A1. eauto.
    - assert (forall s, In s slots -> fail_of key s = None) as NF.
      { intros s I. destruct (fail_of key s) eqn:E; auto. exfalso.
        assert (existsb (fun s => match fail_of key s with Some _ => true | None => false end) slots = true); [|congruence].
        apply existsb_exists. exists s. rewrite E; auto. }
      rewrite !eval_merge_ok; auto; try lia.
      + assert (map (recv conv key) slots' = map (recv conv key) slots) as Q.
        { clear -F R. induction F as [|a b l l' H F IH]; simpl; auto. rewrite IH. f_equal. apply (R _ _ H). }
        rewrite <- !firstn_map, <- !skipn_map, Q. auto.
      + intros s' I. destruct (N _ I) as (s & E & S). rewrite (proj1 (R _ _ S)). auto.
  Qed.

  Lemma merge_alike : forall m args args' kw kw' c c' key (R : node T -> node T -> Prop),
    (forall n n', R n n' -> node_cfg n' = node_cfg n /\ forall k, ev n' k = ev n k) ->
    wf (NMerge m args kw c) -> wf (NMerge m args' kw' c') ->
    Forall2 R args args' -> Forall2 (fun p q => fst p = fst q /\ R (snd p) (snd q)) kw kw' ->
    convertible ev (cast_value conv) m args kw key -> fail_alike ev m args kw key ->
    ev (NMerge m args' kw' c') key = ev (NMerge m args kw c) key.
  Proof.
    intros m args args' kw kw' c c' key R HR W W' Fa Fk C A.
    destruct (merge_slots conv m args kw c W) as (slots & L & E & Hs & Hi).
    destruct (merge_slots conv m args' kw' c' W') as (slots' & L' & E' & Hs' & Hi').
    rewrite E, E'.
    assert (length args = length args') as La by (clear -Fa; induction Fa; simpl; auto).
    assert (map fst kw = map fst kw') as Lk.
    { clear -Fk. induction Fk as [|a b l l' [Hab _] F IH]; simpl; congruence. }
    rewrite <- La, <- Lk. apply eval_merge_alike; auto.
    - assert (length slots' = length slots) as LL by (rewrite <- Lk in L'; lia).
      assert (forall j s, nth_error slots j = Some s -> exists s', nth_error slots' j = Some s' /\ like_slot s s') as N.
      { intros j s H. destruct (Hs _ _ H) as (k & n & I & ->).
        destruct (input_F2 _ _ _ _ _ _ _ _ _ Fa Fk I) as (n' & I' & Q).
        exists (slot_of conv k n'). split; [apply Hi'; auto|].
        destruct (HR _ _ Q) as (Q1 & Q2). unfold like_slot, slot_of; simpl.
        split; [auto|]. split; [extensionality x; auto|]. auto. }
      clear -N LL. revert slots' LL N. induction slots as [|s slots IH]; intros [|s' slots'] LL N; simpl in LL; try discriminate; constructor.
      + destruct (N 0 s eq_refl) as (x & X & Y). inversion X; subst; auto.
      + apply IH; auto. intros j t H. apply (N (S j) t H).
    - intros s I. apply In_nth_error in I as [j I]. destruct (Hs _ _ I) as (k & n & I' & ->).
      intros t v K V. simpl in K, V. subst. eapply C; eauto.
    - intros s t e e' I J Fs Ft. apply In_nth_error in I as [i I]. apply In_nth_error in J as [j J].
      destruct (Hs _ _ I) as (k & n & I' & ->). destruct (Hs _ _ J) as (k' & n' & J' & ->).
      unfold fail_of, slot_of in Fs, Ft; simpl in Fs, Ft.
      destruct k as [tk|]; [|discriminate]. destruct k' as [tk'|]; [|discriminate].
      destruct (ev n key) eqn:E1; inversion Fs; subst. destruct (ev n' key) eqn:E2; inversion Ft; subst.
      apply (A i j); eexists; eexists; eauto.
  Qed.

  (** the value of a dict depends on the values of its entries *)
  Lemma eval_dict_rel : forall d d' c s key, Forall2 (fun p q => fst p = fst q /\ forall k, ev (snd q) k = ev (snd p) k) d d' ->
    ev (NDict d' c s) key = ev (NDict d c s) key.
  Proof.
    intros d d' c s key F. simpl eval. replace (kmap ev d') with (kmap ev d); auto.
    induction F as [|[x a] [y b] l l' [E Q] F IH]; simpl; auto. simpl in E, Q. subst. rewrite IH. do 2 f_equal.
    extensionality k. auto.
  Qed.

  Lemma datum_not_inert : forall n : node T, datum n -> ~ inert n.
  Proof. intros n (v & -> & N). auto. Qed.

  Theorem cast_inputs_fit : forall n, wf n -> fit f g ev n -> all_convertible n ->
    exists n', cast_inputs to device dtype n = Ok n' /\ wf n' /\ node_cfg n' = node_cfg n /\
      forall key, ev n' key = ev (precast f g n) key.
  Proof.
    induction n using node_ind'; intros W R C.
    - simpl cast_inputs. destruct (castable v) eqn:CV.
      + exists (cast_node to device dtype (NLit v)). split; [auto|]. split; [apply wf_cast_node; auto|]. split; [auto|].
        intros key. rewrite eval_cast_node; auto. simpl. intros w Q; inversion Q; subst; auto.
      + exists (NLit v). split; [auto|]. split; [auto|]. split; [auto|]. intros key. simpl.
        destruct v as [t|[]]; try discriminate; auto.
    - inversion R as [|? ? ? ND D|? ? ? ND D|x n d' ? ? NL D| |]; subst.
      + destruct (cast_inputs_rel (NDict d c s) W) as (n' & A1 & A2 & A3 & _ & A5); auto; [apply reg_dict; auto|]. eauto 10.
      + exists (NDict d c s). destruct d as [|[x n] d]; [congruence|].
        assert (precast f g (NDict ((x, n) :: d) c s) = NDict ((x, n) :: d) c s) as P.
        { cbn [precast]. f_equal. rewrite kmap_map. rewrite <- (map_id ((x, n) :: d)) at 2. apply map_ext_in. rewrite Forall_forall in D.
          intros [y b] I. simpl. rewrite (proj2 (inert_cast b (D _ I))). auto. }
        rewrite P. split; [|auto]. inversion D as [|? ? D1 D2]; subst. destruct D1 as (l & E & NL). simpl in E. subst.
        destruct l; try discriminate; auto.
      + set (Q := fun n n' => cast_inputs to device dtype n = Ok n' /\ wf n' /\ node_cfg n' = node_cfg n /\
                    forall key, ev n' key = ev (precast f g n) key).
        inversion W as [|? ? ? W1| |]; subst.
        assert (forall y a, In (y, a) ((x, n) :: d') -> all_convertible a) as Ca.
        { intros y a I m' x' y' z P. apply (C m' x' y' z). simpl. eapply (part_dict _ _ _ y); [|exact P].
          change (In (y, precast f g a) (kmap (precast f g) ((x, n) :: d'))).
          rewrite kmap_map. apply in_map_iff. exists (y, a); simpl; eauto. }
        assert (exists e, Forall2 (fun p q => fst p = fst q /\ Q (snd p) (snd q)) ((x, n) :: d') e) as (e & Fe).
        { clear -H D W1 Ca. induction ((x, n) :: d') as [|[y a] l IH]; [exists []; constructor|].
          inversion H; inversion D; inversion W1; subst. simpl in *.
          destruct IH as (l' & F); auto; [intros z b I; apply (Ca z b); auto|].
          assert (exists a', Q a a') as (a' & A) by (unfold Q; eauto). exists ((y, a') :: l'). constructor; auto. }
        exists (NDict e c s). split.
        { assert (kmapN (cast_inputs to device dtype) ((x, n) :: d') = Ok e) as K.
          { clear -Fe. revert e Fe. induction ((x, n) :: d') as [|[y a] l IH]; intros e F; inversion F as [|? [z b] ? e' [E A] F']; subst; auto.
            simpl in E. subst. destruct A as (A & _). simpl in *. rewrite A. simpl. rewrite (IH _ F'). auto. }
          destruct n as [v| | |]; [destruct (NL v eq_refl)| | |]; cbn [cast_inputs]; rewrite K; auto. }
        split; [|split; [auto|]].
        { constructor. clear -Fe. revert e Fe. induction ((x, n) :: d') as [|a l IH]; intros e F; inversion F as [|? q ? e' [E A] F']; subst; constructor; auto.
          apply A. }
        intros key. change (precast f g (NDict ((x, n) :: d') c s)) with (NDict (kmap (precast f g) ((x, n) :: d')) c s).
        apply eval_dict_rel. rewrite kmap_map. clear -Fe. revert e Fe.
        induction ((x, n) :: d') as [|a l IH]; intros e F; inversion F as [|? q ? e' [E A] F']; subst; simpl; constructor; auto.
        split; [auto|]. apply A.
    - destruct (cast_inputs_rel (NModel p g0 k c s) W) as (n' & A1 & A2 & A3 & _ & A5); auto; [apply reg_model|]. eauto 10.
    - inversion R as [| | | | |? ? ? ? Ra Rk Ex]; subst.
      destruct Ex as [Rg|Al].
      { destruct (cast_inputs_rel (NMerge m args kw c) W Rg C) as (n' & A1 & A2 & A3 & _ & A5). eauto 10. }
      inversion W as [| | |? ? ? ? W1 W2 NE L ND K]; subst.
      set (Q := fun n n' => cast_inputs to device dtype n = Ok n' /\ wf n' /\ node_cfg n' = node_cfg n /\
                  forall key, ev n' key = ev (precast f g n) key).
      assert (exists args', Forall2 Q args args') as (args' & Fa).
      { assert (forall a, In a args -> all_convertible a) as Ca.
        { intros a I m' x y z P. apply (C m' x y z). simpl. eapply part_arg; [|exact P]. rewrite lmap_map. apply in_map; auto. }
        clear -H Ra W1 Ca. induction args as [|a args IH]; [exists []; constructor|].
        inversion H; inversion Ra; inversion W1; subst.
        destruct IH as (l & F); auto; [intros; apply Ca; right; auto|].
        assert (exists a', Q a a') as (a' & A) by (unfold Q; apply H2; auto; apply Ca; left; auto). exists (a' :: l). constructor; auto. }
      assert (exists kw', Forall2 (fun p q => fst p = fst q /\ Q (snd p) (snd q)) kw kw') as (kw' & Fk).
      { assert (forall x a, In (x, a) kw -> all_convertible a) as Ca.
        { intros x a I m' x' y z P. apply (C m' x' y z). simpl. eapply part_kw; [|exact P]. rewrite kmap_map. apply in_map_iff. exists (x, a); simpl; eauto. }
        clear -H0 Rk W2 Ca. induction kw as [|[x a] kw IH]; [exists []; constructor|].
        inversion H0; inversion Rk; inversion W2; subst. simpl in *.
        destruct IH as (l & F); auto; [intros y b I; apply (Ca y b); right; auto|].
        assert (exists a', Q a a') as (a' & A) by (unfold Q; apply H2; auto; apply (Ca x); left; auto). exists ((x, a') :: l). constructor; auto. }
      exists (NMerge m args' kw' c).
      assert (length args = length args') as La by (clear -Fa; induction Fa; simpl; auto).
      assert (map fst kw = map fst kw') as Lk.
      { clear -Fk. induction Fk as [|a b l l' [Hab _] F IH]; simpl; congruence. }
      assert (wf (NMerge m args' kw' c)) as W'.
      { apply wf_merge; auto.
        - clear -Fa. induction Fa as [|a b l l' Hab F IH]; constructor; auto. apply Hab.
        - clear -Fk. induction Fk as [|a b l l' [_ Hab] F IH]; constructor; auto. apply Hab.
        - destruct NE as [NE|NE]; [left; destruct args'; [destruct args|]|right; destruct kw'; [destruct kw|]]; simpl in *; congruence.
        - rewrite <- La; auto.
        - rewrite <- Lk; auto. }
      split; [|split; [auto|split; [auto|]]].
      + simpl.
        assert (mapN (cast_inputs to device dtype) args = Ok args') as ->.
        { apply mapN_rel. clear -Fa. induction Fa as [|a b l l' Hab F IH]; constructor; auto. apply Hab. }
        assert (kmapN (cast_inputs to device dtype) kw = Ok kw') as ->; auto.
        clear -Fk. induction Fk as [|[x a] [y b] l l' [E Hab] F IH]; simpl in *; auto. subst.
        destruct Hab as (-> & _). simpl. rewrite IH; auto.
      + intros key. change (precast f g (NMerge m args kw c)) with (NMerge m (lmap (precast f g) args) (kmap (precast f g) kw) c).
        apply merge_alike with (R := fun n n' => exists a, n = precast f g a /\ Q a n').
        * intros n n' (a & -> & Q1 & Q2 & Q3 & Q4). rewrite precast_cfg. auto.
        * apply (precast_wf (NMerge m args kw c)); auto.
        * auto.
        * rewrite (lmap_map _ _ (precast f g) args). clear -Fa. induction Fa as [|a b l l' Hab F IH]; simpl; constructor; [exists a; auto|auto].
        * rewrite (kmap_map _ _ (precast f g) kw). clear -Fk. induction Fk as [|a b l l' [E Hab] F IH]; simpl; constructor; [split; [auto|exists (snd a); auto]|auto].
        * apply (C m _ _ c). simpl. apply part_self.
        * rewrite (lmap_map _ _ (precast f g) args), (kmap_map _ _ (precast f g) kw). apply Al.
  Qed.
End Cast.

(** Casting a recipe's inputs succeeds, keeps its config, and gives at every key the
    outcome of the recipe on cast data. *)
Theorem C27_cast_inputs_partial : forall (T : Type) (conv : ety -> value T -> result (value T))
    (to : lit -> lit -> T -> result T) (device dtype : lit) (f : T -> T) (g : lit -> T) n,
  (forall t, to device dtype t = Ok (f t)) ->
  (forall l, numeric l = true -> conv TTensor (VL l) = Ok (VT (g l))) ->
  numeric device = false -> numeric dtype = false ->
  wf n -> fit f g (eval conv) n ->
  (forall m args kw c, part (precast f g n) (NMerge m args kw c) ->
     forall key, convertible (eval conv) (cast_value conv) m args kw key) ->
  exists n', cast_inputs to device dtype n = Ok n' /\ node_cfg n' = node_cfg n /\
    forall key, eval conv n' key = eval conv (precast f g n) key.
Proof.
  intros T conv to device dtype f g n H1 H2 H3 H4 W R C.
  destruct (cast_inputs_fit conv to device dtype f g H1 H2 (conj H3 H4) n W R C) as (n' & A & _ & B & D).
  exists n'. auto.
Qed.

(** a recipe over a dict of recipes, one of which fails, and a dict lacking the key *)
Definition mixed : node nat := NMerge plus [NDict [("b", deep_failure)] cfg1 "weight"; NDict [("a", NLit (VT 1))] cfg1 "weight"] [] (Some cfg1).
Definition half (_ _ : lit) (t : nat) : result nat := Ok (t / 2).

Theorem C27_cast_inputs_refuted :
  ~ (forall (T : Type) (conv : ety -> value T -> result (value T))
    (to : lit -> lit -> T -> result T) (device dtype : lit) (f : T -> T) (g : lit -> T) n,
  (forall t, to device dtype t = Ok (f t)) ->
  (forall l, numeric l = true -> conv TTensor (VL l) = Ok (VT (g l))) ->
  numeric device = false -> numeric dtype = false -> wf n ->
  exists n', cast_inputs to device dtype n = Ok n' /\ forall key, eval conv n' key = eval conv (precast f g n) key).
Proof.
  intros H.
  destruct (H nat (fun t v => match t, v with TTensor, VL _ => Ok (VT 5) | _, _ => Err TypeError end) half LNone (LStr "float32") (fun t => t / 2) (fun _ => 5) mixed) as (n' & A & B); auto.
  - eapply wf2; auto; try reflexivity.
    + constructor. constructor; [|constructor]. simpl.
      apply wf_merge; [repeat constructor|constructor|left; discriminate|left; simpl; lia|constructor|intros x []].
    + constructor. constructor; [constructor|constructor].
  - specialize (B "b"). vm_compute in A. inversion A; subst. vm_compute in B. discriminate.
Qed.

(** an empty dict makes the rewriting itself fail *)
Theorem C27_empty_dict_raises : forall (T : Type) (to : lit -> lit -> T -> result T) device dtype c s,
  cast_inputs to device dtype (NDict [] c s) = Err StopIteration.
Proof. reflexivity. Qed.

(** a dict whose first value is a tensor is cast as a whole, so the recipes in it are computed before the cast; a dict
    whose first value is a string is not cast at all *)
Theorem C27_mixed_dict_refuted :
  let first_tensor := NDict [("a", NLit (VT 1)); ("b", NMerge plus [NDict [("b", NLit (VT 3))] cfg1 "weight"; NDict [("b", NLit (VT 3))] cfg1 "weight"] [] (Some cfg1))] cfg1 "weight" in
  let first_string := NDict [("a", NLit (VL (LStr "x"))); ("b", NLit (VT 3))] cfg1 "weight" in
  wf first_tensor /\ wf first_string /\
  (exists n', cast_inputs half LNone (LStr "float32") first_tensor = Ok n' /\ eval nconv n' "b" = Ok (VT 3) /\
     eval nconv (precast (fun t => t / 2) (fun _ => 5) first_tensor) "b" = Ok (VT 2)) /\
  (exists n', cast_inputs half LNone (LStr "float32") first_string = Ok n' /\ eval nconv n' "b" = Ok (VT 3) /\
     eval nconv (precast (fun t => t / 2) (fun _ => 5) first_string) "b" = Ok (VT 1)).
Proof.
  cbn zeta. split.
  { constructor. constructor; [constructor|]. constructor; [|constructor]. cbn.
    eapply wf2; auto; try reflexivity; constructor; repeat constructor. }
  split; [constructor; repeat constructor|].
  split; eexists; split; try reflexivity; split; reflexivity.
Qed.

Lemma plus_value : forall args kw c k v, eval nconv (NMerge plus args kw c) k = Ok v -> exists t, v = VT t.
Proof.
  intros args kw c k v H. cbn [eval] in H. apply bind_Ok in H as (sa & _ & H). apply bind_Ok in H as (sk & _ & H).
  unfold eval_merge in H. apply bind_Ok in H as (x & _ & H). destruct (snd x); [discriminate|].
  apply bind_Ok in H as (a & _ & H). apply bind_Ok in H as (b & _ & H). cbn in H.
  destruct a as [|[[?|?]|?] [|[[?|?]|?] [|]]]; try discriminate. inversion H; eauto.
Qed.
Lemma dict_value : forall d c s (P : value nat -> Prop), (forall x n k v, In (x, n) d -> eval nconv n k = Ok v -> P v) ->
  forall k v, eval nconv (NDict d c s) k = Ok v -> P v.
Proof.
  intros d c s P H k v E. cbn [eval] in E. apply bind_Ok in E as (h & E & V). unfold visit_sd in E.
  assert (exists k', dict_get (kmap (eval nconv) d) k' = Ok h) as (k' & G).
  { revert E. generalize (k :: aliases_of c k). induction l as [|k' l IH]; simpl; intros E; [discriminate|].
    destruct (dict_get _ k') as [w|e] eqn:G; [inversion E; subst; eauto|].
    destruct (is_key_error e); [|discriminate]. destruct l; [discriminate|auto]. }
  unfold dict_get in G. destruct (dget _ _ _) as [w|] eqn:Q; inversion G; subst.
  apply (dget_In String.eqb String.eqb_spec) in Q. rewrite kmap_map in Q. apply in_map_iff in Q as ([x n] & X & I).
  simpl in X. inversion X; subst. eauto.
Qed.

(** A dict of a recipe and a tensor, added to a number: on the way 2 and 5 are halved, not 12, the result *)
Example C27_case :
  let n := NMerge plus [dict1; NLit (VL (LInt 5))] [] (Some cfg1) in
  let r := NMerge plus [NDict [("b", n); ("a", NLit (VT 9))] cfg1 "weight"; NLit (VL (LInt 5))] [] (Some cfg1) in
  let f := fun t => t / 2 in
  wf r /\ fit f (fun _ => 5) (eval nconv) r /\ ~ regular r /\
  (forall m args kw c, part (precast f (fun _ => 5) r) (NMerge m args kw c) ->
     forall key, convertible (eval nconv) (cast_value nconv) m args kw key) /\
  exists r', cast_inputs half LNone (LStr "float32") r = Ok r' /\ eval nconv r' "b" = Ok (VT 5) /\
    eval nconv (precast f (fun _ => 5) r) "b" = Ok (VT 5) /\ eval nconv r "b" = Ok (VT 12) /\
    eval nconv r' "a" = Ok (VT 6) /\ eval nconv r' "c" = Err (StateDictKeyError "c").
Proof.
  cbn zeta. assert (forall v : value nat, castable v = true -> datum (NLit v)) as D.
  { intros v H. exists v. split; auto. apply castable_iff; auto. }
  split; [|split; [|split; [|split]]].
  - eapply wf2; auto; try reflexivity; [|constructor]. constructor. constructor; [|repeat constructor]. cbn.
    eapply wf2; auto; try reflexivity; [apply C22_case|constructor].
  - apply fit_merge; [|constructor|right].
    + constructor; [|repeat constructor]. apply fit_recipes; [discriminate|]. constructor; [cbn|repeat constructor].
      apply fit_merge; [|constructor|left].
      * constructor; [|repeat constructor]. apply fit_data; [discriminate|]. repeat (constructor; [apply D; reflexivity|]). constructor.
      * apply reg_merge; [constructor; [left|constructor; [left|constructor]]|constructor|left; constructor].
        -- apply reg_dict; [discriminate|]. repeat (constructor; [apply D; reflexivity|]). constructor.
        -- apply reg_datum, D; auto.
        -- apply reg_dict; [discriminate|]. repeat (constructor; [apply D; reflexivity|]). constructor.
    + intros key i j e e' (t & a & I & E) (t' & a' & I' & E'). cbn [map] in I, I'.
      eapply input2 in I; [|reflexivity]. eapply input2 in I'; [|reflexivity].
      destruct I as [(_ & _ & ->)|(_ & _ & ->)]; [|discriminate]. destruct I' as [(_ & _ & ->)|(_ & _ & ->)]; [congruence|discriminate].
  - intros R. inversion R as [? X| | |? ? ? ? Ra _ _]; subst; [destruct X as (v & X & _); discriminate|].
    inversion Ra as [|? ? [Q|Q] _]; subst.
    + inversion Q as [? X|? ? ? _ X| |]; subst; [destruct X as (v & X & _); discriminate|].
      inversion X as [|? ? (v & Y & _) _]; subst. discriminate.
    + destruct Q as (l & Q & _). discriminate.
  - assert (forall d c s, (forall x n, In (x, n) d -> exists t, n = NLit (VT t)) -> forall k v, eval nconv (NDict d c s) k = Ok v -> exists t, v = VT t) as V1.
    { intros d c s Q k v E. eapply (dict_value d c s (fun v => exists t, v = VT t)); eauto.
      intros x n k' w I E'. destruct (Q _ _ I) as (t & ->). inversion E'; eauto. }
    assert (forall a b k, (forall v, eval nconv a k = Ok v -> exists t, v = VT t) -> (forall v, eval nconv b k = Ok v -> exists t, v = VT t) ->
      convertible (eval nconv) (cast_value nconv) plus [a; b] [] k) as V2.
    { intros a b k A B i t n v I E. eapply input2 in I; [|reflexivity].
      destruct I as [(_ & K & ->)|(_ & K & ->)]; inversion K; subst; [destruct (A _ E) as (w & ->)|destruct (B _ E) as (w & ->)]; eexists; reflexivity. }
    intros m args kw c P key. cbn in P.
    assert (forall v k, eval nconv (NLit (VT v)) k = Ok (VT v)) as L by reflexivity.
    inversion P as [|? ? ? x a ? I P'|? ? ? ? a ? I P'|? ? ? ? x a ? I P']; subst; clear P.
    + apply V2; [|intros v E; inversion E; eauto]. intros v E.
      eapply (dict_value _ _ _ (fun v => exists t, v = VT t)) in E; eauto. intros x n k w [I|[I|[]]] E'; inversion I; subst.
      * eapply plus_value; eauto.
      * inversion E'; eauto.
    + destruct I as [<-|[<-|[]]]; [|inversion P'].
      inversion P' as [|? ? ? x a ? I P''| |]; subst; clear P'. destruct I as [I|[I|[]]]; inversion I; subst; clear I; [|inversion P''].
      inversion P'' as [| |? ? ? ? a ? I P|? ? ? ? x a ? I P]; subst; clear P''.
      * apply V2; [|intros v E; inversion E; eauto]. apply V1. intros x n [I|[I|[]]]; inversion I; eauto.
      * destruct I as [<-|[<-|[]]]; [|inversion P]. inversion P as [|? ? ? x a ? I P'| |]; subst.
        destruct I as [I|[I|[]]]; inversion I; subst; inversion P'.
      * destruct I.
    + destruct I.
  - eexists. split; [reflexivity|]. repeat split; reflexivity.
Qed.

Print Assumptions C27_cast_inputs_partial.
Print Assumptions C27_cast_inputs_refuted.
Print Assumptions C27_mixed_dict_refuted.
