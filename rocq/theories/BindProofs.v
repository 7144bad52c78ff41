(** Proofs for C16-C19. *)
From Coq Require Import String Ascii List Bool Arith Lia.
From Verif Require Import Base ModelRecipe SpecRecipe SpecBind SerialProofs1 SerialProofs2.
Import ListNotations.
Open Scope string_scope.
Open Scope list_scope.
Open Scope nat_scope.

(** ** binding *)
Lemma first_index_spec : forall V names (kw : list (string * V)) i j, first_index names kw i = Some j ->
  i <= j /\ exists n, nth_error names (j - i) = Some n /\ In n (map fst kw).
Proof.
  induction names as [|n names IH]; intros kw i j H; simpl in H; [discriminate|].
  destruct (sdmem n kw) eqn:E.
  - inversion H; subst. split; [lia|]. exists n. rewrite Nat.sub_diag. split; auto. apply (dmem_In String.eqb String.eqb_spec); auto.
  - apply IH in H as (H1 & m & H2 & H3). split; [lia|]. exists m. replace (j - i) with (S (j - S i)) by lia. auto.
Qed.

Lemma first_index_complete : forall V names (kw : list (string * V)) i, first_index names kw i = None ->
  forall n, In n names -> ~ In n (map fst kw).
Proof.
  induction names as [|m names IH]; intros kw i H n []; simpl in H; destruct (sdmem m kw) eqn:E; try discriminate; subst.
  - intros X. apply (dmem_In String.eqb String.eqb_spec) in X. congruence.
  - eapply IH; eauto.
Qed.

Lemma sumb_le : forall l, sumb l <= length l.
Proof. induction l as [|[] l IH]; simpl; lia. Qed.

Lemma sumb_app : forall a b, sumb (a ++ b) = sumb a + sumb b.
Proof. induction a as [|[] a IH]; intros b; simpl; rewrite ?IH; auto. Qed.

Definition not_twice (g : sig) (args : list pyobj) (kwargs : list (string * pyobj)) : Prop :=
  forall i name p, nth_error (g_args g) i = Some (name, p) -> i < length args -> ~ In name (map fst kwargs).

(** when no parameter is given twice, all positional arguments are used *)
Lemma fa_all : forall g args kwargs, not_twice g args kwargs ->
  match first_index (map fst (g_args g)) kwargs 0 with Some i => Nat.min i (length args) | None => length args end = length args.
Proof.
  intros g args kwargs H. destruct (first_index _ _ _) as [i|] eqn:E; auto.
  apply first_index_spec in E as (_ & n & Hn & Hk). rewrite Nat.sub_0_r in Hn.
  destruct (le_lt_dec (length args) i); [lia|]. exfalso.
  rewrite nth_error_map in Hn. destruct (nth_error (g_args g) i) as [(n' & p)|] eqn:En; [|discriminate]. simpl in Hn. inversion Hn; subst.
  eapply H; eauto.
Qed.

Lemma bind_one_spec : forall g args kwargs i name p, nth_error (g_args g) i = Some (name, p) -> not_twice g args kwargs ->
  length (g_defaults g) <= length (g_args g) ->
  match py_positional g args kwargs i name with
  | Some v => bind_one args (g_defaults g) (length (g_args g) - length (g_defaults g)) (length args) kwargs i name = Ok v
  | None => exists e, bind_one args (g_defaults g) (length (g_args g) - length (g_defaults g)) (length args) kwargs i name = Err e
  end.
Proof.
  intros g args kwargs i name p Hp Hn Hd. unfold py_positional, bind_one.
  destruct (Nat.ltb_spec i (length args)) as [Hi|Hi].
  - destruct (nth_error args i) as [v|] eqn:E; [|apply nth_error_None in E; lia].
    destruct (sdget name kwargs) eqn:Ek; auto. exfalso. eapply Hn; eauto.
    apply (dget_In String.eqb String.eqb_spec) in Ek. apply (in_map fst) in Ek; auto.
  - assert (E : nth_error args i = None) by (apply nth_error_None; auto). rewrite E.
    destruct (sdget name kwargs); auto.
    destruct (Nat.leb_spec (length (g_args g) - length (g_defaults g)) i).
    + destruct (Nat.ltb_spec i (length (g_args g) - length (g_defaults g))); [lia|].
      destruct (nth_error (g_defaults g) _); eauto.
    + destruct (Nat.ltb_spec i (length (g_args g) - length (g_defaults g))); [eauto|lia].
Qed.

Lemma bind_args_spec : forall g args kwargs, not_twice g args kwargs -> length (g_defaults g) <= length (g_args g) ->
  forall names i, (forall j n, nth_error names j = Some n -> exists p, nth_error (g_args g) (i + j) = Some (n, p)) ->
  (forall r, bind_args args (g_defaults g) (length (g_args g) - length (g_defaults g)) (length args) kwargs i names = Ok r <->
     length r = length names /\ forall j n, nth_error names j = Some n -> exists v, nth_error r j = Some v /\ py_positional g args kwargs (i + j) n = Some v).
Proof.
  intros g args kwargs Hn Hd. induction names as [|n names IH]; intros i Hp r.
  - simpl. split.
    + intros H; inversion H; subst. split; auto. intros [|j] m X; discriminate.
    + intros (H & _). destruct r; [auto|discriminate].
  - destruct (Hp 0 n eq_refl) as (p & Hp0). rewrite Nat.add_0_r in Hp0.
    pose proof (bind_one_spec g args kwargs i n p Hp0 Hn Hd) as B.
    assert (Hp' : forall j m, nth_error names j = Some m -> exists q, nth_error (g_args g) (S i + j) = Some (m, q)).
    { intros j m Hj. destruct (Hp (S j) m Hj) as (q & Hq). exists q. rewrite <- Hq. f_equal; lia. }
    cbn [bind_args]. destruct (py_positional g args kwargs i n) as [v|] eqn:Ev.
    + rewrite B. cbn [bind]. split.
      * intros H. apply bind_Ok in H as (vs & Hvs & H). inversion H; subst. apply (IH (S i) Hp') in Hvs as (L & A).
        split; [simpl; auto|]. intros [|j] m Hj.
        -- simpl in Hj. inversion Hj; subst. exists v. rewrite Nat.add_0_r. auto.
        -- simpl in Hj. destruct (A j m Hj) as (w & W1 & W2). exists w. split; auto. rewrite <- W2. f_equal; lia.
      * intros (L & A). destruct r as [|v' r]; [discriminate|].
        destruct (A 0 n eq_refl) as (w & W1 & W2). simpl in W1. rewrite Nat.add_0_r in W2. assert (v' = v) by congruence. subst v'.
        assert (Hr : bind_args args (g_defaults g) (length (g_args g) - length (g_defaults g)) (length args) kwargs (S i) names = Ok r).
        { apply (IH (S i) Hp'). split; [simpl in L; lia|]. intros j m Hj. destruct (A (S j) m Hj) as (w' & W1' & W2').
          exists w'. split; auto. rewrite <- W2'. f_equal; lia. }
        rewrite Hr. reflexivity.
    + destruct B as (e & B). rewrite B. cbn [bind]. split; [discriminate|]. intros (_ & A).
      destruct (A 0 n eq_refl) as (w & _ & W). rewrite Nat.add_0_r in W. congruence.
Qed.

Lemma names_nth : forall g j n, nth_error (map fst (g_args g)) j = Some n -> exists p, nth_error (g_args g) (0 + j) = Some (n, p).
Proof. intros g j n H. rewrite nth_error_map in H. simpl. destruct (nth_error (g_args g) j) as [(n' & p)|]; [|discriminate]. inversion H; subst. eauto. Qed.

Lemma map_seq_bind : forall (A : Type) (f : nat -> string -> option A) names i,
  (forall j n, nth_error names j = Some n -> f (i + j) n <> None) ->
  exists r, length r = length names /\ forall j n, nth_error names j = Some n -> exists v, nth_error r j = Some v /\ f (i + j) n = Some v.
Proof.
  induction names as [|n names IH]; intros i H.
  - exists []. split; auto. intros [|j] m X; discriminate.
  - destruct (IH (S i)) as (r & L & Ar).
    { intros j m Hj. specialize (H (S j) m Hj). replace (S i + j) with (i + S j) by lia. auto. }
    destruct (f i n) as [v|] eqn:E; [|exfalso; apply (H 0 n eq_refl); rewrite Nat.add_0_r; auto].
    exists (v :: r). split; [simpl; auto|]. intros [|j] m Hj.
    + simpl in Hj. inversion Hj; subst. exists v. rewrite Nat.add_0_r. auto.
    + simpl in Hj. destruct (Ar j m Hj) as (w & W1 & W2). exists w. split; auto. rewrite <- W2. f_equal; lia.
Qed.

(** counting: the names below [length args] are not keywords, the mandatory ones above are *)
Lemma count_upper : forall g args kwargs, not_twice g args kwargs ->
  length args <= length (g_args g) -> length args + sumb (map (fun n => sdmem n kwargs) (map fst (g_args g))) <= length (g_args g).
Proof.
  intros g args kwargs H Hl.
  assert (E : map fst (g_args g) = firstn (length args) (map fst (g_args g)) ++ skipn (length args) (map fst (g_args g))) by (symmetry; apply firstn_skipn).
  rewrite E, map_app, sumb_app.
  assert (Z : sumb (map (fun n => sdmem n kwargs) (firstn (length args) (map fst (g_args g)))) = 0).
  { apply sumb_zero. intros n Hn. apply In_nth_error in Hn as (j & Hj).
    assert (j < length args).
    { destruct (le_lt_dec (length args) j); auto. rewrite (proj2 (nth_error_None _ _)) in Hj; [discriminate|]. rewrite firstn_length. lia. }
    assert (Hj' : nth_error (map fst (g_args g)) j = Some n).
    { rewrite E, nth_error_app1; auto. apply nth_error_Some. congruence. }
    apply names_nth in Hj' as (p & Hp). eapply H; eauto. }
  rewrite Z. pose proof (sumb_le (map (fun n => sdmem n kwargs) (skipn (length args) (map fst (g_args g))))) as L.
  rewrite map_length, skipn_length, map_length in L. lia.
Qed.

Lemma count_lower : forall g (args : list pyobj) (kwargs : list (string * pyobj)) m, m <= length (g_args g) ->
  (forall i name p, nth_error (g_args g) i = Some (name, p) -> i < m -> i < length args \/ In name (map fst kwargs)) ->
  m <= length args + sumb (map (fun n => sdmem n kwargs) (map fst (g_args g))).
Proof.
  intros g args kwargs m Hm H. destruct (le_lt_dec m (length args)); [lia|].
  assert (G : forall names i, (forall j n, nth_error names j = Some n -> length args <= i + j < m -> In n (map fst kwargs)) ->
    m <= i + length names -> i <= m -> length args <= m -> m <= Nat.max i (length args) + sumb (map (fun n => sdmem n kwargs) names)).
  { induction names as [|n names IH]; intros i Hn H1 H2 H3; simpl in *; [lia|].
    destruct (Nat.eq_dec i m); [lia|].
    specialize (IH (S i)). assert (m <= Nat.max (S i) (length args) + sumb (map (fun n => sdmem n kwargs) names)).
    { apply IH; try lia. intros j n' Hj Hb. apply (Hn (S j) n' Hj). lia. }
    destruct (le_lt_dec (length args) i).
    - assert (Hk : In n (map fst kwargs)) by (apply (Hn 0 n eq_refl); lia).
      apply (dmem_In String.eqb String.eqb_spec) in Hk. rewrite Hk. lia.
    - destruct (sdmem n kwargs); lia. }
  specialize (G (map fst (g_args g)) 0). simpl Nat.max in G. apply G; rewrite ?map_length; try lia.
  intros j n Hj Hb. apply names_nth in Hj as (p & Hp). destruct (H _ _ _ Hp); [lia|lia|auto].
Qed.

Lemma dupdate_get : forall V (e d : list (string * V)) k, NoDup (map fst e) ->
  sdget k (supd d e) = match sdget k e with Some v => Some v | None => sdget k d end.
Proof.
  induction e as [|[k0 v0] e IH]; intros d k H; simpl; auto.
  inversion H; subst. change (supd d ((k0, v0) :: e)) with (supd (dset String.eqb k0 v0 d) e).
  rewrite IH by auto. rewrite (dget_dset String.eqb String.eqb_spec).
  destruct (String.eqb_spec k k0) as [->|]; auto.
  destruct (sdget k0 e) eqn:E; auto. apply (dget_In String.eqb String.eqb_spec) in E. apply (in_map fst) in E. simpl in E. tauto.
Qed.

Lemma filter_get : forall V (f : string -> bool) (l : list (string * V)) k,
  sdget k (filter (fun kv => f (fst kv)) l) = if f k then sdget k l else None.
Proof.
  induction l as [|[k0 v0] l IH]; intros k; simpl; [destruct (f k); auto|].
  destruct (f k0) eqn:E0; simpl.
  - destruct (String.eqb_spec k k0) as [->|]; auto. rewrite E0. auto.
  - rewrite IH. destruct (f k) eqn:E; auto. destruct (String.eqb_spec k k0) as [->|]; auto. congruence.
Qed.

Lemma mem_str_In : forall s l, mem_str s l = true <-> In s l.
Proof.
  intros s l. unfold mem_str. rewrite existsb_exists. split.
  - intros (x & Hx & E). apply String.eqb_eq in E. subst; auto.
  - intros H. exists s. split; auto. apply String.eqb_refl.
Qed.

(** the full characterization when no parameter is given twice *)
Theorem bind_call_spec : forall g args kwargs, sig_ok g -> NoDup (map fst kwargs) -> not_twice g args kwargs ->
  (py_accepts g args kwargs ->
   exists pos kw', bind_call g args kwargs = Ok (pos ++ skipn (length (g_args g)) args, kw') /\
     length pos = length (g_args g) /\
     (forall i name p, nth_error (g_args g) i = Some (name, p) -> nth_error pos i = py_positional g args kwargs i name) /\
     NoDup (map fst kw') /\
     (forall k, In k (map fst kw') <-> In k (map fst (g_kw g))) /\
     (forall k, In k (map fst (g_kw g)) -> sdget k kw' = py_keyword g kwargs k)) /\
  (~ py_accepts g args kwargs -> exists e, bind_call g args kwargs = Err e).
Proof.
  intros g args kwargs Sg ND NT. pose proof Sg as (S1 & S2 & S3 & S4).
  assert (Sh := bind_call_shape g args kwargs).
  assert (Dis : forall k, In k (map fst (g_kw g)) -> mem_str k (map fst (g_args g)) = false).
  { intros k Hk. destruct (mem_str k (map fst (g_args g))) eqn:E; auto. apply mem_str_In in E. apply NoDup_app_iff in S1. destruct S1 as (_ & _ & S1). exfalso; eapply S1; eauto. }
  split.
  - intros (P1 & P2 & P3 & P4).
    destruct (map_seq_bind _ (py_positional g args kwargs) (map fst (g_args g)) 0) as (pos & Lp & Ap).
    { intros j n Hj. apply names_nth in Hj as (p & Hp). eapply P2; eauto. }
    assert (Hb : bind_args args (g_defaults g) (length (g_args g) - length (g_defaults g)) (length args) kwargs 0 (map fst (g_args g)) = Ok pos).
    { apply bind_args_spec; auto. apply names_nth. }
    set (kw := filter (fun kv : string * pyobj => negb (mem_str (fst kv) (map fst (g_args g)))) kwargs).
    assert (E : bind_call g args kwargs = Ok (pos ++ skipn (length (g_args g)) args, supd (g_kwdefaults g) kw)).
    { unfold bind_call. rewrite fa_all by auto. rewrite !map_length.
      assert (Ck : (length args + sumb (map (fun n => sdmem n kwargs) (map fst (g_args g))) <? length (g_args g) - length (g_defaults g))
        || match g_vararg g with None => length (g_args g) <? length args + sumb (map (fun n => sdmem n kwargs) (map fst (g_args g))) | Some _ => false end = false).
      { apply orb_false_iff. split.
        - apply Nat.ltb_ge. apply count_lower; [lia|]. intros i name p Hp Hi. specialize (P2 i name p Hp). unfold py_positional in P2.
          destruct (nth_error args i) eqn:Ea; [left; apply nth_error_Some; congruence|].
          destruct (sdget name kwargs) eqn:Ek; [right; apply (dget_In String.eqb String.eqb_spec) in Ek; apply (in_map fst) in Ek; auto|].
          destruct (Nat.leb_spec (length (g_args g) - length (g_defaults g)) i); [lia|congruence].
        - destruct (g_vararg g); auto. apply Nat.ltb_ge. apply count_upper; auto. }
      rewrite Ck. rewrite Hb. cbn [bind]. fold kw.
      assert (E1 : forallb (fun kv => sdmem (fst kv) (g_kw g)) kw = true).
      { apply forallb_forall. intros (k & v) Hk. apply filter_In in Hk as (Hk & Hm). simpl in *. apply (dmem_In String.eqb String.eqb_spec).
        destruct (P3 k v Hk) as [X|X]; auto. apply mem_str_In in X. rewrite X in Hm. discriminate. }
      rewrite E1. simpl negb. cbv iota.
      assert (E2 : forallb (fun kp => sdmem (fst kp) kw || sdmem (fst kp) (g_kwdefaults g)) (g_kw g) = true).
      { apply forallb_forall. intros (k & p) Hk. simpl. assert (Ik : In k (map fst (g_kw g))) by (apply (in_map fst) in Hk; auto).
        specialize (P4 k Ik). unfold py_keyword in P4. unfold dmem.
        unfold kw. rewrite (filter_get _ (fun x => negb (mem_str x (map fst (g_args g))))). rewrite (Dis k Ik). simpl.
        destruct (sdget k kwargs); auto. destruct (sdget k (g_kwdefaults g)); auto. }
      rewrite E2. reflexivity. }
    exists pos, (supd (g_kwdefaults g) kw). split; [auto|]. split; [rewrite Lp, map_length; auto|]. split.
    + intros i name p Hp. destruct (Ap i name) as (v & V1 & V2); [rewrite nth_error_map, Hp; auto|]. simpl in V2. congruence.
    + specialize (Sh _ _ Sg E). destruct Sh as (_ & _ & H1 & _ & H2). split; auto. split; auto.
      intros k Hk. rewrite dupdate_get by (apply NoDup_filter_fst; auto). unfold kw.
      rewrite (filter_get _ (fun x => negb (mem_str x (map fst (g_args g))))). rewrite (Dis k Hk). reflexivity.
  - intros NA. destruct (bind_call g args kwargs) as [(a' & k')|e] eqn:E; [|eauto]. exfalso. apply NA.
    unfold bind_call in E. rewrite fa_all in E by auto. rewrite !map_length in E.
    destruct (_ || _) eqn:Eb in E; [discriminate|]. apply bind_Ok in E as (bound & Hb & E).
    apply bind_args_spec in Hb as (Lb & Ab); auto; [|apply names_nth].
    set (kw := filter _ kwargs) in E.
    destruct (forallb (fun kv => sdmem (fst kv) (g_kw g)) kw) eqn:E1; [|discriminate]. simpl negb in E. cbv iota in E.
    destruct (forallb (fun kp => sdmem (fst kp) kw || sdmem (fst kp) (g_kwdefaults g)) (g_kw g)) eqn:E2; [|discriminate].
    apply orb_false_iff in Eb as (_ & Eb). split; [|split; [|split]].
    + intros Hv. rewrite Hv in Eb. apply Nat.ltb_ge in Eb. lia.
    + intros i name p Hp. destruct (Ab i name) as (v & _ & V); [rewrite nth_error_map, Hp; auto|]. simpl in V. congruence.
    + intros k v Hk. destruct (mem_str k (map fst (g_args g))) eqn:Em; [left; apply mem_str_In; auto|right].
      rewrite forallb_forall in E1. apply (dmem_In String.eqb String.eqb_spec). apply (E1 (k, v)). apply filter_In. simpl. rewrite Em. auto.
    + intros k Hk. apply in_map_iff in Hk as ((k0 & p) & <- & Hk). rewrite forallb_forall in E2. apply E2 in Hk. simpl in *.
      unfold py_keyword. apply orb_true_iff in Hk as [Hk|Hk].
      * unfold dmem in Hk. unfold kw in Hk. rewrite (filter_get _ (fun x => negb (mem_str x (map fst (g_args g))))) in Hk.
        destruct (negb _) in Hk; [|discriminate]. destruct (sdget k0 kwargs); [discriminate|discriminate].
      * unfold dmem in Hk. destruct (sdget k0 kwargs); [discriminate|]. destruct (sdget k0 (g_kwdefaults g)); discriminate.
Qed.

Lemma py_accepts_not_twice : forall g args kwargs, py_accepts g args kwargs -> not_twice g args kwargs.
Proof.
  intros g args kwargs (_ & P2 & _) i name p Hp Hi Hk. apply (P2 i name p Hp). unfold py_positional.
  destruct (nth_error args i) eqn:E; [|apply nth_error_None in E; lia].
  destruct (sdget name kwargs) eqn:Ek; auto. apply (dget_None String.eqb String.eqb_spec) in Ek. tauto.
Qed.

(** ** merge spaces *)
Lemma arg_spaces_nth : forall g fd l i j, nth_error (arg_spaces g fd i l) j =
  match nth_error l j with Some (_, p) => Some (space_or_default g p (fd <=? i + j)) | None => None end.
Proof.
  induction l as [|[n p] l IH]; intros i [|j]; simpl; auto.
  - rewrite Nat.add_0_r. auto.
  - rewrite IH. replace (S i + j) with (i + S j) by lia. auto.
Qed.

Lemma arg_spaces_length : forall g fd l i, length (arg_spaces g fd i l) = length l.
Proof. induction l as [|[n p] l IH]; intros i; simpl; auto. Qed.

Lemma expected_pos_ok : forall g n i, i < n ->
  nth_error (args_varargs (in_spaces_args g) (in_space_vararg g) n) i = expected_pos g i.
Proof.
  intros g n i Hi. unfold args_varargs, expected_pos, in_spaces_args.
  destruct (nth_error (g_args g) i) as [(m & p)|] eqn:E.
  - assert (i < length (g_args g)) by (apply nth_error_Some; congruence).
    rewrite nth_error_app1 by (rewrite arg_spaces_length; auto). rewrite arg_spaces_nth, E. reflexivity.
  - apply nth_error_None in E. rewrite nth_error_app2 by (rewrite arg_spaces_length; auto). rewrite arg_spaces_length.
    unfold in_space_vararg. destruct (g_vararg g) as [p|].
    + rewrite nth_error_repeat by lia. unfold meaning. destruct (p_space p); auto.
    + destruct (i - length (g_args g)); auto.
Qed.

Lemma expected_kw_ok : forall g k, sdget k (in_spaces_kw g) = expected_kw g k.
Proof.
  intros g k. unfold in_spaces_kw, expected_kw.
  assert (G : forall l, sdget k (map (fun kp => (fst kp, space_or_default g (snd kp) (sdmem (fst kp) (g_kwdefaults g)))) l) =
    match sdget k l with Some p => Some (meaning g p (sdmem k (g_kwdefaults g) || p_literal p)) | None => None end).
  { induction l as [|[k0 p0] l IH]; simpl; auto. destruct (String.eqb_spec k k0) as [->|]; auto. }
  apply G.
Qed.

Lemma space_pairs_input : forall g sargs skw p s, In (p, s) (space_pairs g sargs skw) <-> input g sargs skw p s.
Proof.
  intros g sargs skw p s. unfold space_pairs, input. rewrite in_app_iff, !in_map_iff.
  assert (C : forall (l : list string) a i x, In (i, x) (combine (seq a (length l)) l) <-> a <= i /\ nth_error l (i - a) = Some x).
  { induction l as [|y l IH]; intros a i x; simpl.
    - split; [tauto|]. intros (_ & H). destruct (i - a); discriminate.
    - rewrite IH. split.
      + intros [X|(H1 & H2)]; [inversion X; subst; rewrite Nat.sub_diag; auto|]. split; [lia|]. replace (i - a) with (S (i - S a)) by lia. auto.
      + intros (H1 & H2). destruct (Nat.eq_dec a i) as [->|]; [left; rewrite Nat.sub_diag in H2; inversion H2; auto|].
        right. split; [lia|]. replace (i - a) with (S (i - S a)) in H2 by lia. auto. }
  split.
  - intros [((i & x) & E & H)|((k & x) & E & H)]; simpl in E; inversion E; subst.
    + left. apply C in H as (_ & H). rewrite Nat.sub_0_r in H. exists i. split; auto. apply expected_pos_ok. apply nth_error_Some. congruence.
    + right. exists k. split; auto. apply expected_kw_ok.
  - intros [(i & H & ->)|(k & H & ->)].
    + left. exists (i, s). simpl. split.
      * f_equal. apply expected_pos_ok. apply nth_error_Some. congruence.
      * apply C. split; [lia|]. rewrite Nat.sub_0_r. auto.
    + right. exists (k, s). simpl. split; auto. f_equal. apply expected_kw_ok.
Qed.

(** the loop accepts only allowed and consistent inputs *)
Lemma cs_allowed : forall l b0 b, check_spaces l b0 = Ok b -> forall p s, In (p, s) l -> allowed p s.
Proof.
  induction l as [|(q & a) l IH]; intros b0 b H p s X; [destruct X|]. simpl in H. apply bind_Ok in H as (b1 & H1 & H). destruct X as [X|X].
  - inversion X; subst. unfold check_space in H1. destruct p as [[|m|i m]|]; try discriminate; simpl.
    + destruct (mem_str s m) eqn:E; [|discriminate]. apply mem_str_In; auto.
    + destruct (mem_str s m) eqn:E; [|discriminate]. apply mem_str_In; auto.
  - eapply IH; eauto.
Qed.

Lemma cs_bound : forall l b0 b, check_spaces l b0 = Ok b ->
  forall i m s, In (Some (PSym i m), s) l -> forall r, dget Nat.eqb i b0 = Some r -> s = r.
Proof.
  induction l as [|(q & a) l IH]; intros b0 b H i m s X r Hr; [destruct X|]. simpl in H. apply bind_Ok in H as (b1 & H1 & H). destruct X as [X|X].
  - inversion X; subst. unfold check_space in H1. destruct (negb _); [discriminate|]. rewrite Hr in H1. destruct (String.eqb_spec s r); [auto|discriminate].
  - eapply IH; eauto. unfold check_space in H1. destruct q as [[|m'|j m']|]; try discriminate.
    + destruct (mem_str a m'); inversion H1; subst; auto.
    + destruct (negb _) in H1; [discriminate|]. destruct (dget Nat.eqb j b0) eqn:Ej.
      * destruct (String.eqb a s0); inversion H1; subst; auto.
      * inversion H1; subst. rewrite (dget_dset Nat.eqb Nat.eqb_spec). destruct (Nat.eqb_spec i j) as [->|]; [congruence|auto].
Qed.

Lemma cs_agree : forall l b0 b, check_spaces l b0 = Ok b ->
  forall i m m' s s', In (Some (PSym i m), s) l -> In (Some (PSym i m'), s') l -> s = s'.
Proof.
  induction l as [|(q & a) l IH]; intros b0 b H i m m' s s' X X'; [destruct X|]. simpl in H. apply bind_Ok in H as (b1 & H1 & H).
  assert (K : forall m0 s0 s1 m1, (q, a) = (Some (PSym i m0), s0) -> In (Some (PSym i m1), s1) l -> s1 = s0).
  { intros m0 s0 s1 m1 X0 X1. inversion X0; subst. assert (dget Nat.eqb i b1 = Some s0).
    { unfold check_space in H1. destruct (negb _) in H1; [discriminate|]. destruct (dget Nat.eqb i b0) eqn:Ei.
      - destruct (String.eqb_spec s0 s2); [|discriminate]. inversion H1; subst; auto.
      - inversion H1; subst. rewrite (dget_dset Nat.eqb Nat.eqb_spec), Nat.eqb_refl. auto. }
    eapply cs_bound; eauto. }
  destruct X as [X|X], X' as [X'|X'].
  - congruence.
  - symmetry. eapply K; eauto.
  - eapply K; eauto.
  - eapply IH; eauto.
Qed.

Lemma check_spaces_complete : forall l b0,
  (forall p s, In (p, s) l -> allowed p s) ->
  (forall i m s, In (Some (PSym i m), s) l -> forall r, dget Nat.eqb i b0 = Some r -> s = r) ->
  (forall i m m' s s', In (Some (PSym i m), s) l -> In (Some (PSym i m'), s') l -> s = s') ->
  exists b, check_spaces l b0 = Ok b.
Proof.
  induction l as [|(q & a) l IH]; intros b0 H1 H2 H3; simpl; eauto.
  assert (A : allowed q a) by (apply H1; left; auto).
  assert (H1' : forall p s, In (p, s) l -> allowed p s) by (intros; apply H1; right; auto).
  assert (H3' : forall i m m' s s', In (Some (PSym i m), s) l -> In (Some (PSym i m'), s') l -> s = s') by (intros i m m' s s' X Y; eapply H3; right; eauto).
  unfold check_space. destruct q as [[|m|i m]|]; simpl in A; try tauto.
  - apply mem_str_In in A. rewrite A. cbn [bind]. apply IH; auto. intros i m' s X r Hr. eapply H2; [right; eauto|auto].
  - apply mem_str_In in A. rewrite A. simpl negb. cbv iota. destruct (dget Nat.eqb i b0) as [r|] eqn:Ei.
    + rewrite (H2 i m a (or_introl eq_refl) r Ei), String.eqb_refl. cbn [bind]. apply IH; auto. intros j m' s X r' Hr. eapply H2; [right; eauto|auto].
    + cbn [bind]. apply IH; auto. intros j m' s X r' Hr. rewrite (dget_dset Nat.eqb Nat.eqb_spec) in Hr. destruct (Nat.eqb_spec j i) as [->|].
      * inversion Hr; subst. eapply H3; [right; eauto|left; auto].
      * eapply H2; [right; eauto|auto].
Qed.

Lemma check_spaces_bound : forall l b0 b, check_spaces l b0 = Ok b -> forall i s,
  dget Nat.eqb i b = Some s <-> (dget Nat.eqb i b0 = Some s \/ (dget Nat.eqb i b0 = None /\ exists m, In (Some (PSym i m), s) l)).
Proof.
  induction l as [|(q & a) l IH]; intros b0 b H i s; simpl in H.
  - inversion H; subst. split; auto. intros [X|(_ & m & [])]; auto.
  - pose proof (cs_agree ((q, a) :: l) b0 b H) as Agree.
    apply bind_Ok in H as (b1 & H1 & H). rewrite (IH _ _ H). clear IH. unfold check_space in H1.
    destruct q as [[|m|j m]|]; try discriminate.
    + destruct (mem_str a m); inversion H1; subst. split; (intros [X|(N & m' & X)]; [left; auto|right; split; auto; exists m']).
      * right; auto.
      * destruct X as [X|X]; [discriminate|auto].
    + destruct (negb _) in H1; [discriminate|]. destruct (dget Nat.eqb j b0) as [r|] eqn:Ej.
      * destruct (String.eqb_spec a r) as [->|]; [|discriminate]. inversion H1; subst.
        split; (intros [X|(N & m' & X)]; [left; auto|right; split; auto; exists m']).
        -- right; auto.
        -- destruct X as [X|X]; [inversion X; subst; congruence|auto].
      * inversion H1; subst. rewrite (dget_dset Nat.eqb Nat.eqb_spec). destruct (Nat.eqb_spec i j) as [->|Hij].
        -- split.
           ++ intros [X|(N & _)]; [|discriminate]. inversion X; subst. right. split; auto. exists m. left; auto.
           ++ intros [X|(N & m' & X)]; [congruence|]. left. f_equal. eapply Agree; [left; reflexivity|exact X].
        -- split; (intros [X|(N & m' & X)]; [left; auto|right; split; auto; exists m']).
           ++ right; auto.
           ++ destruct X as [X|X]; [inversion X; subst; congruence|auto].
Qed.

Theorem check_spaces_iff : forall g sargs skw,
  (exists b, check_spaces (space_pairs g sargs skw) [] = Ok b) <-> spaces_ok g sargs skw.
Proof.
  intros g sargs skw. split.
  - intros (b & H). split.
    + intros p s X. eapply cs_allowed; eauto. apply space_pairs_input; auto.
    + intros i l l' s s' X Y. eapply cs_agree; eauto; apply space_pairs_input; eauto.
  - intros (H1 & H2). apply check_spaces_complete.
    + intros p s X. apply H1. apply space_pairs_input; auto.
    + discriminate.
    + intros i m m' s s' X Y. apply space_pairs_input in X, Y. eapply H2; eauto.
Qed.

(** ** configs *)
Lemma config_pos_ok : forall g n i, i < n ->
  nth_error (args_varargs (map (fun kp : string * param => p_config (snd kp)) (g_args g))
    (match g_vararg g with Some p => Some (p_config p) | None => None end) n) i = config_pos g i.
Proof.
  intros g n i Hi. unfold args_varargs, config_pos.
  destruct (nth_error (g_args g) i) as [(m & p)|] eqn:E.
  - assert (i < length (g_args g)) by (apply nth_error_Some; congruence).
    rewrite nth_error_app1 by (rewrite map_length; auto). rewrite nth_error_map, E. reflexivity.
  - apply nth_error_None in E. rewrite nth_error_app2 by (rewrite map_length; auto). rewrite map_length.
    destruct (g_vararg g) as [p|].
    + rewrite nth_error_repeat by lia. auto.
    + destruct (i - length (g_args g)); auto.
Qed.

Lemma config_kw_ok : forall g k, sdget k (map (fun kp : string * param => (fst kp, p_config (snd kp))) (g_kw g)) = config_kw g k.
Proof. intros g k. unfold config_kw. induction (g_kw g) as [|[k0 p0] l IH]; simpl; auto. destruct (String.eqb_spec k k0); auto. Qed.

Lemma config_pairs_cinput : forall g cargs ckw d c, In (d, Some c) (config_pairs g cargs ckw) <-> cinput g cargs ckw d c.
Proof.
  intros g cargs ckw p s. unfold config_pairs, cinput. rewrite in_app_iff, !in_map_iff.
  assert (C : forall (l : list (option string)) a i x, In (i, x) (combine (seq a (length l)) l) <-> a <= i /\ nth_error l (i - a) = Some x).
  { induction l as [|y l IH]; intros a i x; simpl.
    - split; [tauto|]. intros (_ & H). destruct (i - a); discriminate.
    - rewrite IH. split.
      + intros [X|(H1 & H2)]; [inversion X; subst; rewrite Nat.sub_diag; auto|]. split; [lia|]. replace (i - a) with (S (i - S a)) by lia. auto.
      + intros (H1 & H2). destruct (Nat.eq_dec a i) as [->|]; [left; rewrite Nat.sub_diag in H2; inversion H2; auto|].
        right. split; [lia|]. replace (i - a) with (S (i - S a)) in H2 by lia. auto. }
  split.
  - intros [((i & x) & E & H)|((k & x) & E & H)]; simpl in E; inversion E; subst.
    + left. apply C in H as (_ & H). rewrite Nat.sub_0_r in H. exists i. split; auto. apply config_pos_ok. apply nth_error_Some. congruence.
    + right. exists k. split; auto. apply config_kw_ok.
  - intros [(i & H & ->)|(k & H & ->)].
    + left. exists (i, Some s). simpl. split.
      * f_equal. apply config_pos_ok. apply nth_error_Some. congruence.
      * apply C. split; [lia|]. rewrite Nat.sub_0_r. auto.
    + right. exists (k, Some s). simpl. split; auto. f_equal. apply config_kw_ok.
Qed.

(** undeclared parameters *)
Lemma check_configs_spec : forall l def r,
  check_configs l def = Ok r <->
  (forall d c, In (d, Some c) l -> d = Some (Some c) \/ (d = Some None /\ r = Some c)) /\
  (forall c, def = Some c -> r = Some c) /\
  (def = None -> (forall c, ~ In (Some None, Some c) l) -> r = None) .
Proof.
  induction l as [|(d & a) l IH]; intros def r.
  - simpl. split.
    + intros H; inversion H; subst. repeat split; auto. tauto.
    + intros (_ & H2 & H3). destruct def as [c|]; [rewrite (H2 c); auto|rewrite H3; auto].
  - destruct a as [a|].
    2: { assert (Q0 : check_configs ((d, None) :: l) def = check_configs l def) by (destruct d as [[]|]; auto). rewrite Q0, IH. simpl In.
         split; intros (H1 & H2 & H3); (split; [|split; [exact H2|]]).
         - intros d' c [X|X]; [congruence|auto].
         - intros Hd H. apply H3; auto. intros c X. apply (H c). right; auto.
         - intros d' c X. apply H1. right; auto.
         - intros Hd H. apply H3; auto. intros c [X|X]; [congruence|apply (H c); auto]. }
    simpl. destruct d as [[c|]|].
    + destruct (String.eqb_spec c a) as [->|Hne].
      * rewrite IH. split; intros (H1 & H2 & H3); (split; [|split; [exact H2|]]).
        -- intros d' c [X|X]; [inversion X; auto|auto].
        -- intros Hd H. apply H3; auto. intros c X. apply (H c). right; auto.
        -- intros d' c X. apply H1. right; auto.
        -- intros Hd H. apply H3; auto. intros c [X|X]; [congruence|apply (H c); auto].
      * split; [discriminate|]. intros (H1 & _). destruct (H1 (Some (Some c)) a (or_introl eq_refl)) as [X|(X & _)]; congruence.
    + destruct def as [c|].
      * destruct (String.eqb_spec c a) as [->|Hne].
        -- rewrite IH. split; intros (H1 & H2 & H3); (split; [|split; [exact H2|discriminate]]).
           ++ intros d' c [X|X]; [inversion X; subst; right; auto|auto].
           ++ intros d' c X. apply H1. right; auto.
        -- split; [discriminate|]. intros (H1 & H2 & _). destruct (H1 (Some None) a (or_introl eq_refl)) as [X|(_ & X)]; [discriminate|]. rewrite (H2 c) in X; congruence.
      * rewrite IH. split; intros (H1 & H2 & H3); (split; [|split]).
        -- intros d' c [X|X]; [inversion X; subst; right; auto|auto].
        -- discriminate.
        -- intros _ H. exfalso. apply (H a). left; auto.
        -- intros d' c X. apply H1. right; auto.
        -- intros c Hc. inversion Hc; subst. destruct (H1 (Some None) c (or_introl eq_refl)) as [X|(_ & X)]; [discriminate|auto].
        -- discriminate.
    + split; [discriminate|]. intros (H1 & _). destruct (H1 None a (or_introl eq_refl)) as [X|(X & _)]; discriminate.
Qed.
