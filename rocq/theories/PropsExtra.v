(** C61: forwarding of keys the recipe's config does not list *)
From Coq Require Import String List Bool Arith ZArith Lia.
From Verif Require Import Base ModelEval SpecEval EvalProofs PropsEval.
Import ListNotations.
Open Scope string_scope.
Open Scope list_scope.
Open Scope nat_scope.

Section Spec.
  Context {T : Type}.
  (** the model files a recipe reads, in the order in which they occur *)
  Fixpoint files (n : node T) : list (node T) :=
    match n with
    | NLit _ => []
    | NDict d _ _ => flat_map (fun p => match p with (_, a) => files a end) d
    | NModel _ _ _ _ _ => [n]
    | NMerge _ args kw _ => flat_map files args ++ flat_map (fun p => match p with (_, a) => files a end) kw
    end.

  Definition of_config (target : config) (n : node T) : bool :=
    match node_cfg n with Some c => String.eqb (cf_id c) (cf_id target) | None => false end.

  (** dicts hold either data or recipes, and no in-memory data is of the target config *)
  Inductive data_only_in_files (target : config) : node T -> Prop :=
  | do_lit : forall v, data_only_in_files target (NLit v)
  | do_data : forall d c s, (forall p, In p d -> exists v, snd p = NLit v) -> cf_id c <> cf_id target -> data_only_in_files target (NDict d c s)
  | do_recipes : forall d c s, Forall (fun p => (forall v, snd p <> NLit v) /\ data_only_in_files target (snd p)) d -> data_only_in_files target (NDict d c s)
  | do_model : forall p g k c s, data_only_in_files target (NModel p g k c s)
  | do_merge : forall m args kw c, Forall (data_only_in_files target) args -> Forall (fun p => data_only_in_files target (snd p)) kw ->
      data_only_in_files target (NMerge m args kw c).

  (** a key name stands for a key of the config: as one of its aliases, or itself *)
  Definition stands_for (c : config) (name k : string) : Prop :=
    (exists l, In (k, l) (cf_aliases c) /\ In name l) \/
    ((forall k' l, In (k', l) (cf_aliases c) -> ~ In name l) /\ k = name).
  Definition unambiguous (c : config) : Prop :=
    forall name k k' l l', In (k, l) (cf_aliases c) -> In name l -> In (k', l') (cf_aliases c) -> In name l' -> k = k'.
End Spec.

Section Proofs.
  Context {T : Type} (conv : ety -> value T -> result (value T)) (same : T -> T -> bool).
  Notation ev := (eval conv).
  Variables (target : config) (space : string).

  Definition path_of (n : node T) : string := match n with NModel p _ _ _ _ => p | _ => "" end.
  Definition is_model (n : node T) : Prop := match n with NModel _ _ _ _ _ => True | _ => False end.
  Fixpoint addl (l acc : list (node T)) : list (node T) :=
    match l with
    | [] => acc
    | n :: l' => addl l' (if existsb (fun q => String.eqb (path_of n) (path_of q)) acc then acc else acc ++ [n])
    end.

  Lemma addl_app : forall a b acc, addl (a ++ b) acc = addl b (addl a acc).
  Proof. induction a; intros; simpl; auto. Qed.
  Lemma addl_models : forall l acc, Forall is_model l -> Forall is_model acc -> Forall is_model (addl l acc).
  Proof.
    induction l as [|n l IH]; intros acc F G; simpl; auto. inversion F; subst. apply IH; auto.
    destruct (existsb _ acc); auto. apply Forall_app; auto.
  Qed.
  Lemma any_in_model : forall n acc, is_model n -> Forall is_model acc ->
    any_in same n acc = Ok (existsb (fun q => String.eqb (path_of n) (path_of q)) acc).
  Proof.
    induction acc as [|q acc IH]; intros M F; simpl; auto. inversion F; subst.
    destruct n; try destruct M. destruct q; try contradiction. simpl.
    destruct (String.eqb path path0); simpl; auto.
  Qed.
  Lemma files_models : forall n : node T, Forall is_model (files n).
  Proof.
    induction n using node_ind'; simpl; auto.
    - apply Forall_flat_map. rewrite Forall_forall in *. intros [x a] I. apply (H _ I).
    - constructor; simpl; auto.
    - apply Forall_app. split; apply Forall_flat_map; rewrite Forall_forall in *; [auto|]. intros [x a] I. apply (H0 _ I).
  Qed.

  Lemma filter_flat_map : forall A B (p : B -> bool) (h : A -> list B) l, filter p (flat_map h l) = flat_map (fun x => filter p (h x)) l.
  Proof.
    induction l; simpl; auto. rewrite <- IHl.
    clear. generalize (flat_map h l) as y. induction (h a) as [|z t IH]; intros y; simpl; auto.
    destruct (p z); simpl; rewrite IH; auto.
  Qed.
  Lemma filter_app' : forall A (p : A -> bool) a b, filter p (a ++ b) = filter p a ++ filter p b.
  Proof. induction a; intros; simpl; auto. destruct (p a); simpl; rewrite IHa; auto. Qed.

  Lemma Forall_filter : forall A (P : A -> Prop) p l, Forall P l -> Forall P (filter p l).
  Proof. intros. rewrite Forall_forall in *. intros x I. apply filter_In in I. apply H, I. Qed.

  Lemma forwardable_files : forall n acc, data_only_in_files target n -> Forall is_model acc ->
    forwardable same target space n acc = Ok (addl (filter (of_config target) (files n)) acc).
  Proof.
    induction n using node_ind'; intros acc D M; auto.
    - inversion D as [|? ? ? F NE|? ? ? F| |]; subst.
      + assert (flat_map (fun p => match p with (_, a) => files a end) d = []) as E.
        { clear -F. induction d as [|[x a] d IH]; simpl; auto. rewrite IH by (intros; apply F; right; auto).
          destruct (F (x, a)) as (v & V); [left; auto|]. simpl in V. subst; auto. }
        simpl files. rewrite E. simpl. destruct d as [|[x a] d]; auto.
        destruct (F (x, a)) as (v & V); [left; auto|]. simpl in V. subst a. destruct v; auto.
        unfold cfg_eqb. destruct (String.eqb_spec (cf_id c) (cf_id target)); [congruence|]. auto.
      + assert (forall acc, Forall is_model acc -> visit_entries (forwardable same target space) d acc =
          Ok (addl (flat_map (fun p => filter (of_config target) (match p with (_, a) => files a end)) d) acc)) as V.
        { clear -H F. induction d as [|[x a] d IH]; intros acc M; simpl; auto.
          inversion H; subst. inversion F as [|? ? [_ F1] F2]; subst. simpl in *.
          rewrite (H2 acc F1 M). simpl. rewrite IH; auto.
          - rewrite addl_app; auto.
          - apply addl_models; auto. apply Forall_filter, files_models. }
        simpl files. rewrite filter_flat_map. rewrite <- V by auto.
        destruct d as [|[x a] d]; auto. inversion F as [|? ? [F1 _] F2]; subst. simpl in F1.
        simpl. destruct a; auto. exfalso. eapply F1; eauto.
    - simpl. unfold of_config; simpl. unfold cfg_eqb.
      destruct (String.eqb (cf_id c) (cf_id target)); auto.
      rewrite any_in_model; simpl; auto.
    - inversion D as [| | | |? ? ? ? Da Dk]; subst.
      assert (forall acc, Forall is_model acc -> visit_nodes (forwardable same target space) args acc =
          Ok (addl (flat_map (fun a => filter (of_config target) (files a)) args) acc)) as Va.
      { clear -H Da. induction args as [|a d IH]; intros acc M; simpl; auto.
        inversion H; subst. inversion Da as [|? ? F1 F2]; subst. simpl in *.
        rewrite (H2 acc F1 M). simpl. rewrite IH; auto.
        - rewrite addl_app; auto.
        - apply addl_models; auto. apply Forall_filter, files_models. }
      assert (forall acc, Forall is_model acc -> visit_entries (forwardable same target space) kw acc =
          Ok (addl (flat_map (fun p => filter (of_config target) (match p with (_, a) => files a end)) kw) acc)) as Vk.
      { clear -H0 Dk. induction kw as [|[x a] d IH]; intros acc M; simpl; auto.
        inversion H0; subst. inversion Dk as [|? ? F1 F2]; subst. simpl in *.
        rewrite (H2 acc F1 M). simpl. rewrite IH; auto.
        - rewrite addl_app; auto.
        - apply addl_models; auto. apply Forall_filter, files_models. }
      simpl. rewrite Va by auto. simpl. rewrite Vk.
      + rewrite filter_app', !filter_flat_map, addl_app. auto.
      + apply addl_models; auto. apply Forall_flat_map. apply Forall_forall. intros a _. apply Forall_filter, files_models.
  Qed.

  (** the outcome of trying several sources in turn *)
  Fixpoint first_found (r : result (value T)) (l : list (result (value T))) : result (value T) :=
    match r, l with
    | Err e, s :: l' => if is_missing e then first_found s l' else Err e
    | _, _ => r
    end.

  Lemma or_all_ok : forall l r, wf r -> Forall is_model l -> Forall (fun n => node_space n = Some space) l ->
    exists r', or_all r target space l = Ok r' /\ wf r' /\
      forall key, ev r' key = first_found (ev r key) (map (fun n => ev n key) l).
  Proof.
    induction l as [|n l IH]; intros r W M S; simpl.
    - exists r. split; [auto|split; [auto|]]. intros key. destruct (ev r key); auto.
    - inversion M; inversion S; subst. rewrite H5, String.eqb_refl.
      assert (wf n) as Wn by (destruct n; try contradiction; constructor).
      destruct (IH (NMerge fallback [r; n] [] (Some target))) as (r' & A & B & C); auto using wf_or.
      exists r'. split; [auto|split; [auto|]]. intros key. rewrite C, eval_or by auto. simpl.
      destruct (ev r key) as [v|e]; simpl.
      + destruct l; auto.
      + destruct (is_missing e) eqn:Q; auto. destruct l; simpl; auto. rewrite Q; auto.
  Qed.

  Lemma first_found_spec : forall l x,
    (forall pre y post, x :: l = pre ++ y :: post -> Forall is_missing_outcome pre -> ~ is_missing_outcome y -> first_found x l = y) /\
    (Forall is_missing_outcome (x :: l) -> is_missing_outcome (first_found x l)).
  Proof.
    induction l as [|z l IH]; intros x; split.
    - intros [|p pre] y post E F N.
      + inversion E; subst. destruct y; auto.
      + destruct pre; discriminate.
    - intros F. inversion F; subst. destruct H1 as [k ->]. exists k; auto.
    - intros [|p pre] y post E F N.
      + inversion E; subst. destruct y as [v|e]; auto. simpl. destruct (is_missing e) eqn:M; auto.
        apply is_missing_iff in M as [k ->]. exfalso; apply N; exists k; auto.
      + inversion E; subst. inversion F as [|? ? [k ->] F']; subst. simpl. eapply IH; eauto.
    - intros F. inversion F as [|? ? [k ->] F']; subst. simpl. apply IH; auto.
  Qed.

  (** removing later copies of a file changes nothing *)
  Lemma so_refl : forall r : result (value T), same_outcome r r.
  Proof. left; auto. Qed.
  Lemma so_trans : forall a b c : result (value T), same_outcome a b -> same_outcome b c -> same_outcome a c.
  Proof.
    intros a b c [->|[A B]] [->|[C D]]; unfold same_outcome; auto.
  Qed.
  Lemma missing_dec : forall r : result (value T), is_missing_outcome r \/ ~ is_missing_outcome r.
  Proof.
    intros [v|e]; [right; intros [k K]; discriminate|].
    destruct (is_missing e) eqn:M; [left; apply is_missing_iff in M as [k ->]; exists k; auto|].
    right. intros [k K]. inversion K; subst. discriminate.
  Qed.
  Lemma ff_miss : forall x y l, is_missing_outcome x -> first_found x (y :: l) = first_found y l.
  Proof. intros x y l [k ->]. auto. Qed.
  Lemma ff_stop : forall x l, ~ is_missing_outcome x -> first_found x l = x.
  Proof.
    intros [v|e] [|y l] N; auto. simpl. destruct (is_missing e) eqn:M; auto.
    apply is_missing_iff in M as [k ->]. exfalso; apply N; exists k; auto.
  Qed.
  Lemma ff_missing : forall A x y B, is_missing_outcome y -> same_outcome (first_found x (A ++ y :: B)) (first_found x (A ++ B)).
  Proof.
    induction A as [|a A IH]; intros x y B My; destruct (missing_dec x) as [M|M]; simpl app;
      try (rewrite !ff_stop by auto; apply so_refl).
    - rewrite ff_miss by auto. destruct B as [|b B].
      + right. destruct M as [k ->]. destruct My as [k' ->]. split; eexists; reflexivity.
      + rewrite !ff_miss by auto. apply so_refl.
    - rewrite !ff_miss by auto. apply IH; auto.
  Qed.
  Lemma ff_dup : forall A x y B, In y (x :: A) -> same_outcome (first_found x (A ++ y :: B)) (first_found x (A ++ B)).
  Proof.
    induction A as [|a A IH]; intros x y B I; destruct (missing_dec x) as [M|M];
      try (rewrite !ff_stop by auto; apply so_refl).
    - destruct I as [<-|[]]. apply ff_missing; auto.
    - destruct I as [<-|I]; [apply ff_missing; auto|]. simpl app. rewrite !ff_miss by auto. apply IH; auto.
  Qed.

  Lemma first_found_addl : forall key l acc x,
    (forall n q, In n l -> In q (acc ++ l) -> path_of n = path_of q -> ev n key = ev q key) ->
    same_outcome (first_found x (map (fun n => ev n key) (addl l acc))) (first_found x (map (fun n => ev n key) (acc ++ l))).
  Proof.
    induction l as [|n l IH]; intros acc x H; simpl addl.
    - rewrite app_nil_r. apply so_refl.
    - destruct (existsb _ acc) eqn:X.
      + apply existsb_exists in X as (q & Iq & Eq). apply String.eqb_eq in Eq.
        assert (ev n key = ev q key) as Enq by (apply H; [left; auto|apply in_or_app; auto|auto]).
        eapply so_trans; [apply IH|].
        * intros n' q' I I' P. apply H; auto; [right; auto|].
          apply in_app_or in I' as [I'|I']; apply in_or_app; [left|right; right]; auto.
        * rewrite !map_app. simpl map.
          assert (same_outcome (first_found x (map (fun n0 => ev n0 key) acc ++ ev n key :: map (fun n0 => ev n0 key) l))
                    (first_found x (map (fun n0 => ev n0 key) acc ++ map (fun n0 => ev n0 key) l))) as Q.
          { apply ff_dup. right. rewrite Enq. apply in_map_iff; eauto. }
          destruct Q as [Q|[Q1 Q2]]; [left; auto|right; auto].
      + eapply so_trans; [apply IH|].
        * intros n' q' I I' P. apply H; auto; [right; auto|]. rewrite <- app_assoc in I'; auto.
        * rewrite <- app_assoc. apply so_refl.
  Qed.

  Lemma addl_In : forall l acc n, In n (addl l acc) -> In n acc \/ In n l.
  Proof.
    induction l as [|m l IH]; intros acc n I; simpl in *; auto.
    apply IH in I as [I|I]; auto. destruct (existsb _ acc); auto. apply in_app_or in I as [I|[->|[]]]; auto.
  Qed.
  Lemma addl_covers : forall l acc n, In n acc \/ In n l -> exists q, In q (addl l acc) /\ path_of q = path_of n.
  Proof.
    induction l as [|m l IH]; intros acc n I; simpl in *.
    - destruct I as [I|[]]. eauto.
    - destruct I as [I|[->|I]].
      + apply IH. left. destruct (existsb _ acc); auto. apply in_or_app; auto.
      + destruct (existsb _ acc) eqn:X.
        * apply existsb_exists in X as (q & Iq & Eq). apply String.eqb_eq in Eq.
          destruct (IH acc q (or_introl Iq)) as (q' & A & B). exists q'. split; auto. congruence.
        * apply IH. left. apply in_or_app; right; left; auto.
      + apply IH; auto.
  Qed.

  Lemma dedup_spec : forall l seen, NoDup (dedup l seen) /\ forall k, In k (dedup l seen) <-> In k l /\ ~ In k seen.
  Proof.
    induction l as [|x l IH]; intros seen; simpl; [split; [constructor|tauto]|].
    destruct (existsb (String.eqb x) seen) eqn:X.
    - apply existsb_In in X. destruct (IH seen) as (A & B). split; auto. intros k. rewrite B. split.
      + intros [H1 H2]; auto.
      + intros [[->|H1] H2]; tauto.
    - assert (~ In x seen) as NX by (intros Q; apply existsb_In in Q; congruence).
      destruct (IH (x :: seen)) as (A & B). split.
      + constructor; auto. rewrite B. simpl. tauto.
      + intros k. simpl. rewrite B. simpl. destruct (String.string_dec x k); subst; tauto.
  Qed.

  Lemma canonical_spec : forall name k, unambiguous target -> (canonical target name = k <-> stands_for target name k).
  Proof.
    intros name k U. unfold canonical, stands_for.
    assert (forall k', In (name, k') (rev (alias_pairs target)) <-> exists l, In (k', l) (cf_aliases target) /\ In name l) as P.
    { intros k'. rewrite <- in_rev. unfold alias_pairs. rewrite in_flat_map. split.
      - intros ([c l] & I & J). apply in_map_iff in J as (a & E & J). simpl in *. inversion E; subst. eauto.
      - intros (l & I & J). exists (k', l). split; auto. apply in_map_iff. eauto. }
    destruct (dget String.eqb name (rev (alias_pairs target))) as [k'|] eqn:D.
    - apply (dget_In String.eqb String.eqb_spec) in D. apply P in D as (l & I & J). split.
      + intros <-. left; eauto.
      + intros [(l' & I' & J')|(N & _)]; [eapply U; eauto|]. exfalso. eapply N; eauto.
    - apply (proj1 (dget_None String.eqb String.eqb_spec _ _)) in D.
      assert (forall k' l, In (k', l) (cf_aliases target) -> ~ In name l) as N.
      { intros k' l I J. apply D. apply in_map_iff. exists (name, k'). split; auto. apply P; eauto. }
      split; [intros <-; right; auto|]. intros [(l & I & J)|(_ & ->)]; auto. exfalso; eapply N; eauto.
  Qed.
End Proofs.

(** In-memory inputs of the recipe's config, and inputs in another merge space,
    make the forwarding raise. *)
Theorem C61_extra_keys_partial : forall (T : Type) (conv : ety -> value T -> result (value T)) (same : T -> T -> bool) r target space,
  wf r -> data_only_in_files target r -> unambiguous target ->
  (** two nodes of the same path read the same file *)
  (forall n q, In n (files r) -> In q (files r) -> path_of n = path_of q -> node_keys n = node_keys q /\ forall key, eval conv n key = eval conv q key) ->
  (forall n, In n (files r) -> of_config target n = true -> node_space n = Some space) ->
  exists r' keys, copy_extra_keys same r target space = Ok (r', keys) /\
    NoDup keys /\
    (forall k, In k keys <-> In k (cf_keys target) \/
       exists n name, In n (files r) /\ of_config target n = true /\ In name (node_keys n) /\ stands_for target name k) /\
    (forall key, let sources := map (fun n => eval conv n key) (r :: filter (of_config target) (files r)) in
       (forall pre x post, sources = pre ++ x :: post -> Forall is_missing_outcome pre -> ~ is_missing_outcome x -> eval conv r' key = x) /\
       (Forall is_missing_outcome sources -> is_missing_outcome (eval conv r' key))).
Proof.
  intros T conv same r target space W D U H S. unfold copy_extra_keys.
  rewrite forwardable_files by auto. simpl.
  set (L := filter (of_config target) (files r)).
  assert (Forall is_model (addl L [])) as M.
  { apply addl_models; auto. apply Forall_filter, files_models. }
  assert (forall n, In n (addl L []) -> In n L) as IL.
  { intros n I. apply addl_In in I as [[]|I]; auto. }
  destruct (or_all_ok conv target space (addl L []) r) as (r' & A & B & C); auto.
  { apply Forall_forall. intros n I. apply IL in I. unfold L in I. apply filter_In in I as [I1 I2]. auto. }
  rewrite A. simpl. eexists r', _. split; [reflexivity|].
  match goal with |- NoDup (dedup ?l []) /\ _ => destruct (dedup_spec l []) as (N1 & N2) end.
  split; [auto|]. split.
  - intros k. rewrite N2, in_app_iff, in_flat_map. split.
    + intros [[(n & I & J)|I] _]; auto. right. apply in_map_iff in J as (name & E & J).
      apply IL in I. unfold L in I. apply filter_In in I as [I1 I2]. exists n, name.
      split; [auto|]. split; [auto|]. split; [auto|]. apply canonical_spec; auto.
    + intros [I|(n & name & I1 & I2 & J & E)]; [auto|]. split; [|auto]. left.
      destruct (addl_covers L [] n) as (q & Q1 & Q2).
      { right. unfold L. apply filter_In; auto. }
      exists q. split; auto. apply in_map_iff. exists name. split; [apply canonical_spec; auto|].
      pose proof (IL _ Q1) as Q3. unfold L in Q3. apply filter_In in Q3 as [Q3 _].
      destruct (H q n Q3 I1 Q2) as (-> & _). auto.
  - intros key. rewrite C.
    assert (same_outcome (first_found (eval conv r key) (map (fun n => eval conv n key) (addl L [])))
              (first_found (eval conv r key) (map (fun n => eval conv n key) ([] ++ L)))) as Q.
    { apply first_found_addl. intros n q I I' P. simpl in I'. unfold L in I, I'.
      apply filter_In in I as [I _]. apply filter_In in I' as [I' _]. apply H; auto. }
    destruct (first_found_spec (map (fun n => eval conv n key) ([] ++ L)) (eval conv r key)) as (F1 & F2).
    split.
    + intros pre x post E F N. specialize (F1 _ _ _ E F N). rewrite F1 in Q.
      destruct Q as [Q|[_ Q]]; [auto|contradiction].
    + intros F. specialize (F2 F). destruct Q as [Q|[Q _]]; [rewrite Q|]; auto.
Qed.

(** two in-memory models of the same config and keys *)
Definition two_dicts : node nat :=
  NMerge plus [NDict [("a", NLit (VT 1)); ("extra", NLit (VT 2))] cfg1 "weight"; NDict [("a", NLit (VT 3)); ("extra", NLit (VT 4))] cfg1 "weight"] [] (Some cfg1).

Theorem C61_extra_keys_refuted :
  ~ (forall (T : Type) (same : T -> T -> bool) (r : node T) target space, wf r -> unambiguous target ->
       (forall t, same t t = true) -> exists r' keys, copy_extra_keys same r target space = Ok (r', keys)).
Proof.
  intros H. destruct (H nat Nat.eqb two_dicts cfg1 "weight") as (r' & keys & E).
  - eapply wf2; auto; try reflexivity; constructor; repeat (constructor; [constructor|]); constructor.
  - intros name k k' l l' [A|[]] _ [B|[]] _. congruence.
  - apply Nat.eqb_refl.
  - vm_compute in E. discriminate.
Qed.

Example C61_case :
  let m1 := NModel "p" (fun k => if String.eqb k "a" then Ok 1 else if String.eqb k "x" then Ok 5 else Err (StateDictKeyError k)) ["a"; "x"] cfg1 "weight" in
  let m2 := NModel "q" (fun k => if String.eqb k "a_old" then Ok 2 else if String.eqb k "x" then Ok 6 else if String.eqb k "y" then Ok 7 else Err (StateDictKeyError k)) ["a_old"; "x"; "y"] cfg1 "weight" in
  let r := NMerge plus [m1; NMerge plus [m2; m1] [] (Some cfg1)] [] (Some cfg1) in
  data_only_in_files cfg1 r /\
  exists r', copy_extra_keys Nat.eqb r cfg1 "weight" = Ok (r', ["a"; "x"; "y"; "b"]) /\
    eval nconv r' "a" = Ok (VT 4) /\ eval nconv r' "x" = Ok (VT 16) /\ eval nconv r' "y" = Ok (VT 7).
Proof.
  simpl. split.
  - repeat (first [apply do_model | apply do_merge | apply Forall_cons | apply Forall_nil]).
  - eexists. split; [reflexivity|]. vm_compute. auto.
Qed.

Print Assumptions C61_extra_keys_partial.
Print Assumptions C61_extra_keys_refuted.
