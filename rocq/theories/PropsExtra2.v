(** C61 with in-memory models: forwarding of keys the recipe's config does not list *)
From Coq Require Import String List Bool Arith ZArith Lia.
From Verif Require Import Base ModelEval SpecEval EvalProofs PropsEval PropsExtra.
Import ListNotations.
Open Scope string_scope.
Open Scope list_scope.
Open Scope nat_scope.

Section Spec.
  Context {T : Type}.

  (** the inputs of a recipe, model files and in-memory models, in the order in
      which they occur: a dict is an in-memory model when its first value is a
      tensor, a dict of recipes when it is a recipe *)
  Fixpoint inputs (n : node T) : list (node T) :=
    match n with
    | NLit _ => []
    | NDict d _ _ =>
      match d with
      | (_, NLit (VT _)) :: _ => [n]
      | (_, NLit (VL _)) :: _ => []
      | _ => flat_map (fun p => match p with (_, a) => inputs a end) d
      end
    | NModel _ _ _ _ _ => [n]
    | NMerge _ args kw _ => flat_map inputs args ++ flat_map (fun p => match p with (_, a) => inputs a end) kw
    end.

  Definition in_memory (n : node T) : Prop := match n with NDict _ _ _ => True | _ => False end.

  (** an input whose keys are to be forwarded: of the target config and, when it is
      in memory, in the merge space of the recipe *)
  Definition forwarded (target : config) (space : string) (n : node T) : bool :=
    of_config target n && match n with NDict _ _ s => String.eqb s space | _ => true end.

  (** a dict of tensors *)
  Definition tensors (n : node T) : Prop :=
    match n with
    | NDict d _ _ => NoDup (map fst d) /\ Forall (fun p => exists t, snd p = NLit (VT t)) d
    | _ => True
    end.
End Spec.

Section Proofs.
  Context {T : Type} (conv : ety -> value T -> result (value T)) (same : T -> T -> bool).
  Notation ev := (eval conv).
  Variables (target : config) (space : string).

  (** what the visitor does with the inputs it meets *)
  Fixpoint addm (l acc : list (node T)) : result (list (node T)) :=
    match l with
    | [] => Ok acc
    | n :: l' => let* b := any_in same n acc in addm l' (if b then acc else acc ++ [n])
    end.
  Lemma addm_app : forall a b acc, addm (a ++ b) acc = let* acc' := addm a acc in addm b acc'.
  Proof. induction a as [|n a IH]; intros; simpl; auto. destruct (any_in same n acc); simpl; auto. Qed.
  Notation fw := (forwarded target space).

  Lemma entries_inputs : forall d,
    Forall (fun p => forall acc, forwardable same target space (snd p) acc = addm (filter fw (inputs (snd p))) acc) d ->
    forall acc, visit_entries (forwardable same target space) d acc =
      addm (filter fw (flat_map (fun p => match p with (_, a) => inputs a end) d)) acc.
  Proof.
    induction d as [|[x a] d IH]; intros F acc; simpl; auto. inversion F; subst. simpl in *.
    rewrite filter_app', addm_app, H1. destruct (addm (filter fw (inputs a)) acc); simpl; auto.
  Qed.
  Lemma nodes_inputs : forall d,
    Forall (fun p => forall acc, forwardable same target space p acc = addm (filter fw (inputs p)) acc) d ->
    forall acc, visit_nodes (forwardable same target space) d acc = addm (filter fw (flat_map inputs d)) acc.
  Proof.
    induction d as [|a d IH]; intros F acc; simpl; auto. inversion F; subst. simpl in *.
    rewrite filter_app', addm_app, H1. destruct (addm (filter fw (inputs a)) acc); simpl; auto.
  Qed.

  Lemma forwardable_inputs : forall n acc, forwardable same target space n acc = addm (filter fw (inputs n)) acc.
  Proof.
    induction n using node_ind'; intros acc; auto.
    - pose proof (entries_inputs d H acc) as V. destruct d as [|[x a] d]; auto.
      destruct a as [[t|l]| | |]; auto.
      change (inputs (NDict ((x, NLit (VT t)) :: d) c s)) with [NDict ((x, NLit (VT t)) :: d) c s].
      simpl filter. unfold forwarded at 1, of_config; simpl node_cfg; cbv iota.
      unfold forwardable. unfold cfg_eqb. destruct (String.eqb (cf_id c) (cf_id target) && String.eqb s space); auto.
    - change (inputs (NModel p g k c s)) with [NModel p g k c s].
      simpl filter. unfold forwarded at 1, of_config; simpl node_cfg; cbv iota.
      unfold forwardable. unfold cfg_eqb. rewrite andb_true_r. destruct (String.eqb (cf_id c) (cf_id target)); auto.
    - simpl. rewrite filter_app', addm_app, (nodes_inputs _ H).
      destruct (addm (filter fw (flat_map inputs args)) acc); simpl; auto. apply entries_inputs; auto.
  Qed.

  (** two inputs the visitor takes to be the same *)
  Definition sameb (n q : node T) : bool :=
    match n, q with
    | NModel p _ _ _ _, NModel p' _ _ _ _ => String.eqb p p'
    | NDict d _ _, NDict e _ _ => length d =? length e
    | _, _ => false
    end.
  Fixpoint addg (l acc : list (node T)) : list (node T) :=
    match l with
    | [] => acc
    | n :: l' => addg l' (if existsb (sameb n) acc then acc else acc ++ [n])
    end.

  Lemma any_in_same : forall n acc, (forall q, In q acc -> node_in same n q = Ok (sameb n q)) ->
    any_in same n acc = Ok (existsb (sameb n) acc).
  Proof.
    induction acc as [|q acc IH]; intros H; simpl; auto. rewrite (H q) by (left; auto). simpl.
    destruct (sameb n q); simpl; auto. apply IH. intros; apply H; right; auto.
  Qed.
  Lemma addm_addg : forall l acc, (forall n q, In n l -> In q (acc ++ l) -> node_in same n q = Ok (sameb n q)) ->
    addm l acc = Ok (addg l acc).
  Proof.
    induction l as [|n l IH]; intros acc H; simpl; auto.
    rewrite any_in_same by (intros q I; apply H; [left; auto|apply in_or_app; auto]). simpl.
    apply IH. intros m q I J. apply H; [right; auto|].
    destruct (existsb (sameb n) acc); apply in_app_or in J as [J|J];
      try (apply in_app_or in J as [J|[J|[]]]); apply in_or_app; simpl; auto.
  Qed.
  Lemma addg_In : forall l acc n, In n (addg l acc) -> In n acc \/ In n l.
  Proof.
    induction l as [|m l IH]; intros acc n I; simpl in *; auto.
    apply IH in I as [I|I]; auto. destruct (existsb _ acc); auto. apply in_app_or in I as [I|[->|[]]]; auto.
  Qed.
  Lemma addg_covers : forall l acc n, In n acc \/ In n l -> (forall q, In q l -> sameb q q = true) ->
    exists q, In q (addg l acc) /\ (q = n \/ sameb n q = true).
  Proof.
    induction l as [|m l IH]; intros acc n I R; simpl in *.
    - destruct I as [I|[]]. eauto.
    - destruct I as [I|[->|I]].
      + apply IH; auto. left. destruct (existsb _ acc); auto. apply in_or_app; auto.
      + destruct (existsb _ acc) eqn:X.
        * apply existsb_exists in X as (q & Iq & Eq).
          assert (forall l acc q, In q acc -> In q (addg l acc)) as K.
          { clear. induction l as [|m l IH]; intros acc q I; simpl; auto. apply IH. destruct (existsb _ acc); auto. apply in_or_app; auto. }
          exists q. split; auto.
        * apply IH; auto. left. apply in_or_app; right; left; auto.
      + apply IH; auto.
  Qed.

  Lemma first_found_addg : forall key l acc x,
    (forall n q, In n l -> In q (acc ++ l) -> sameb n q = true -> ev n key = ev q key) ->
    same_outcome (first_found x (map (fun n => ev n key) (addg l acc))) (first_found x (map (fun n => ev n key) (acc ++ l))).
  Proof.
    induction l as [|n l IH]; intros acc x H; simpl addg.
    - rewrite app_nil_r. apply so_refl.
    - destruct (existsb _ acc) eqn:X.
      + apply existsb_exists in X as (q & Iq & Eq).
        assert (ev n key = ev q key) as Enq by (apply H; [left; auto|apply in_or_app; auto|auto]).
        eapply so_trans; [apply IH|].
        * intros n' q' I I' P. apply H; auto; [right; auto|].
          apply in_app_or in I' as [I'|I']; apply in_or_app; [left|right; right]; auto.
        * rewrite !map_app. simpl map.
          assert (same_outcome (first_found x (map (fun n0 => ev n0 key) acc ++ ev n key :: map (fun n0 => ev n0 key) l))
                    (first_found x (map (fun n0 => ev n0 key) acc ++ map (fun n0 => ev n0 key) l))) as Q.
          { apply ff_dup. right. rewrite Enq. apply in_map_iff; eauto. }
          destruct Q as [Q|[Q1 Q2]]; [left; auto|right; auto].
      + eapply so_trans; [apply IH|].
        * intros n' q' I I' P. apply H; auto; [right; auto|]. rewrite <- app_assoc in I'; auto.
        * rewrite <- app_assoc. apply so_refl.
  Qed.

  Lemma inputs_wf : forall n : node T, wf n -> Forall wf (inputs n).
  Proof.
    induction n using node_ind'; intros W; simpl; auto.
    - assert (Forall wf (flat_map (fun p => match p with (_, a) => inputs a end) d)) as K.
      { apply Forall_flat_map. inversion W; subst. rewrite Forall_forall in *. intros [x a] I. apply (H _ I). apply (H1 _ I). }
      destruct d as [|[x a] d]; auto. destruct a as [[t|l]| | |]; auto.
    - inversion W as [| | |? ? ? ? W1 W2]; subst. apply Forall_app. split; apply Forall_flat_map.
      + rewrite Forall_forall in *. auto.
      + rewrite Forall_forall in *. intros [x a] I. apply (H0 _ I). apply (W2 _ I).
  Qed.
  Lemma inputs_shape : forall n q : node T, In q (inputs n) -> is_model q \/ in_memory q.
  Proof.
    induction n using node_ind'; intros q I; simpl in I; try contradiction.
    - assert (In q (flat_map (fun p => match p with (_, a) => inputs a end) d) -> is_model q \/ in_memory q) as K.
      { intros J. apply in_flat_map in J as ([x a] & J & J'). rewrite Forall_forall in H. apply (H _ J); auto. }
      destruct d as [|[x a] d]; [destruct I|]. destruct a as [[t|l]| | |]; auto; try contradiction.
      destruct I as [<-|[]]. right; simpl; auto.
    - destruct I as [<-|[]]. left; simpl; auto.
    - rewrite Forall_forall in *. apply in_app_or in I as [J|J].
      + apply in_flat_map in J as (a & J & J'). eapply H; eauto.
      + apply in_flat_map in J as ([x a] & J & J'). apply (H0 _ J); auto.
  Qed.

  Lemma dict_eq_refl : (forall t, same t t = true) -> forall d e : list (string * node T),
    NoDup (map fst e) -> incl d e -> Forall (fun p => exists t, snd p = NLit (VT t)) d -> dict_eq same d e = Ok true.
  Proof.
    intros R. induction d as [|[k n] d IH]; intros e N I F; simpl; auto.
    inversion F as [|? ? [t E] F']; subst. simpl in E. subst n.
    rewrite (dget_NoDup_In String.eqb String.eqb_spec k (NLit (VT t)) e); auto; [|apply I; left; auto].
    rewrite R. apply IH; auto. intros p J. apply I; right; auto.
  Qed.

  Lemma or_all_gen : forall l r, wf r -> Forall wf l -> Forall (fun n => node_space n = Some space) l ->
    exists r', or_all r target space l = Ok r' /\ wf r' /\
      forall key, ev r' key = first_found (ev r key) (map (fun n => ev n key) l).
  Proof.
    induction l as [|n l IH]; intros r W M S; simpl.
    - exists r. split; [auto|split; [auto|]]. intros key. destruct (ev r key); auto.
    - inversion M; inversion S; subst. rewrite H5, String.eqb_refl.
      destruct (IH (NMerge fallback [r; n] [] (Some target))) as (r' & A & B & C); auto using wf_or.
      exists r'. split; [auto|split; [auto|]]. intros key. rewrite C, eval_or by auto. simpl.
      destruct (ev r key) as [v|e]; simpl.
      + destruct l; auto.
      + destruct (is_missing e) eqn:Q; auto. destruct l; simpl; auto. rewrite Q; auto.
  Qed.
End Proofs.

(** Model files and in-memory models of the recipe's config, the same in-memory model
    any number of times.  Two different in-memory models of the config are only
    allowed when they have different numbers of keys: with the same keys the
    comparison raises (C61_extra_keys_refuted). *)
Theorem C61_in_memory_partial : forall (T : Type) (conv : ety -> value T -> result (value T)) (same : T -> T -> bool) r target space,
  wf r -> unambiguous target -> (forall t, same t t = true) ->
  (** two nodes of the same path read the same file *)
  (forall n q, In n (inputs r) -> In q (inputs r) -> is_model n -> is_model q -> path_of n = path_of q ->
     node_keys n = node_keys q /\ forall key, eval conv n key = eval conv q key) ->
  (** the files of the config are in the merge space of the recipe *)
  (forall n, In n (inputs r) -> is_model n -> of_config target n = true -> node_space n = Some space) ->
  (** the in-memory models to be forwarded are dicts of tensors, and two with the
      same number of keys are one and the same *)
  (forall n, In n (inputs r) -> forwarded target space n = true -> tensors n) ->
  (forall n q, In n (inputs r) -> In q (inputs r) -> in_memory n -> in_memory q ->
     forwarded target space n = true -> forwarded target space q = true ->
     length (node_keys n) = length (node_keys q) -> n = q) ->
  exists r' keys, copy_extra_keys same r target space = Ok (r', keys) /\
    NoDup keys /\
    (forall k, In k keys <-> In k (cf_keys target) \/
       exists n name, In n (inputs r) /\ forwarded target space n = true /\ In name (node_keys n) /\ stands_for target name k) /\
    (forall key, let sources := map (fun n => eval conv n key) (r :: filter (forwarded target space) (inputs r)) in
       (forall pre x post, sources = pre ++ x :: post -> Forall is_missing_outcome pre -> ~ is_missing_outcome x -> eval conv r' key = x) /\
       (Forall is_missing_outcome sources -> is_missing_outcome (eval conv r' key))).
Proof.
  intros T conv same r target space W U R H S TD SD. unfold copy_extra_keys.
  rewrite forwardable_inputs.
  set (L := filter (forwarded target space) (inputs r)).
  assert (forall n, In n L -> In n (inputs r) /\ forwarded target space n = true) as InL by (intros n I; apply filter_In in I; auto).
  assert (forall n q, In n L -> In q L -> sameb n q = true ->
    node_keys n = node_keys q /\ forall key, eval conv n key = eval conv q key) as SB.
  { intros n q I J E. apply InL in I as [I1 I2]. apply InL in J as [J1 J2].
    destruct n, q; simpl in E; try discriminate.
    - apply Nat.eqb_eq in E. rewrite <- (SD _ _ I1 J1); simpl; auto. rewrite !map_length; auto.
    - apply String.eqb_eq in E. apply H; simpl; auto. }
  assert (forall n q, In n L -> In q L -> node_in same n q = Ok (sameb n q)) as NI.
  { intros n q I J. apply InL in I as [I1 I2]. apply InL in J as [J1 J2].
    destruct n as [|d c s| |], q as [|d' c' s'| |]; simpl; auto.
    destruct (length d =? length d') eqn:E; auto.
    apply Nat.eqb_eq in E. assert (NDict d c s = NDict d' c' s') as Q.
    { apply SD; simpl; auto. rewrite !map_length; auto. }
    inversion Q; subst. destruct (TD _ J1 J2) as (N & F). apply dict_eq_refl; auto. apply incl_refl. }
  rewrite addm_addg by auto. simpl.
  assert (forall n, In n (addg L []) -> In n L) as IL.
  { intros n I. apply addg_In in I as [[]|I]; auto. }
  destruct (or_all_gen conv target space (addg L []) r) as (r' & A & B & C); auto.
  { apply Forall_forall. intros n I. apply IL, InL in I as [I _]. pose proof (inputs_wf r W) as Q. rewrite Forall_forall in Q; auto. }
  { apply Forall_forall. intros n I. apply IL, InL in I as [I1 I2].
    unfold forwarded in I2. apply andb_true_iff in I2 as [I2 I3].
    destruct (inputs_shape _ _ I1) as [M|M]; [apply S; auto|].
    destruct n; try contradiction. apply String.eqb_eq in I3. simpl. congruence. }
  rewrite A. simpl. eexists r', _. split; [reflexivity|].
  match goal with |- NoDup (dedup ?l []) /\ _ => destruct (dedup_spec l []) as (N1 & N2) end.
  split; [auto|]. split.
  - intros k. rewrite N2, in_app_iff, in_flat_map. split.
    + intros [[(n & I & J)|I] _]; auto. right. apply in_map_iff in J as (name & E & J).
      apply IL, InL in I as [I1 I2]. exists n, name.
      split; [auto|]. split; [auto|]. split; [auto|]. apply canonical_spec; auto.
    + intros [I|(n & name & I1 & I2 & J & E)]; [auto|]. split; [|auto]. left.
      assert (In n L) as InN by (unfold L; apply filter_In; auto).
      destruct (addg_covers L [] n) as (q & Q1 & Q2); auto.
      { intros q Iq. apply InL in Iq as [Iq _].
        destruct (inputs_shape _ _ Iq) as [M|M]; destruct q; try contradiction; simpl; auto using String.eqb_refl, Nat.eqb_refl. }
      exists q. split; auto. apply in_map_iff. exists name. split; [apply canonical_spec; auto|].
      destruct Q2 as [->|Q2]; auto. destruct (SB n q) as (<- & _); auto.
  - intros key. rewrite C.
    assert (same_outcome (first_found (eval conv r key) (map (fun n => eval conv n key) (addg L [])))
              (first_found (eval conv r key) (map (fun n => eval conv n key) ([] ++ L)))) as Q.
    { apply first_found_addg. intros n q I I' P. simpl in I'. apply SB; auto. }
    destruct (first_found_spec (map (fun n => eval conv n key) ([] ++ L)) (eval conv r key)) as (F1 & F2).
    split.
    + intros pre x post E F N. specialize (F1 _ _ _ E F N). rewrite F1 in Q.
      destruct Q as [Q|[_ Q]]; [auto|contradiction].
    + intros F. specialize (F2 F). destruct Q as [Q|[Q _]]; [rewrite Q|]; auto.
Qed.

(** Inputs of no known architecture each get a config object of their own, of the keys
    they all have (merging.py:442-453), and the recipe has that of the first: the extra
    keys of the other inputs are dropped. *)
Definition cfg_of_first : config := Config "structural of the first input" ["k1"] [] [].
Definition cfg_of_second : config := Config "structural of the second input" ["k1"] [] [].
Definition two_structural : node nat :=
  NMerge plus [NDict [("k1", NLit (VT 1)); ("k2", NLit (VT 2))] cfg_of_first "weight";
               NDict [("k1", NLit (VT 3)); ("k3", NLit (VT 4))] cfg_of_second "weight"] []
         (Some cfg_of_first).

Theorem C61_structural_refuted :
  ~ (forall (T : Type) (conv : ety -> value T -> result (value T)) (same : T -> T -> bool) (r : node T) target space r' keys,
       wf r -> (forall t, same t t = true) -> copy_extra_keys same r target space = Ok (r', keys) ->
       (forall n, In n (inputs r) -> node_space n = Some space /\ exists c, node_cfg n = Some c /\ cf_aliases c = [] /\
          forall k, In k (cf_keys c) <-> forall q, In q (inputs r) -> In k (node_keys q)) ->
       forall n k, In n (inputs r) -> In k (node_keys n) -> In k keys).
Proof.
  intros H.
  assert (exists r' keys, copy_extra_keys Nat.eqb two_structural cfg_of_first "weight" = Ok (r', keys) /\ ~ In "k3" keys) as (r' & keys & E & N).
  { eexists _, _. split; [vm_compute; reflexivity|]. simpl. intuition discriminate. }
  apply N. eapply (H nat nconv Nat.eqb two_structural cfg_of_first "weight" r' keys); auto using Nat.eqb_refl.
  - eapply wf2; auto; try reflexivity; constructor; repeat (constructor; [constructor|]); constructor.
  - assert (forall k, In k ["k1"] <-> forall q, In q (inputs two_structural) -> In k (node_keys q)) as K.
    { intros k. split.
      - intros [<-|[]] q [<-|[<-|[]]]; simpl; auto.
      - intros Q. pose proof (Q _ (or_introl eq_refl)) as Q1. pose proof (Q _ (or_intror (or_introl eq_refl))) as Q2.
        simpl in Q1, Q2. destruct Q1 as [<-|[<-|[]]]; simpl; auto. destruct Q2 as [Q2|[Q2|[]]]; discriminate. }
    intros n [<-|[<-|[]]]; (split; [reflexivity|eexists; split; [reflexivity|auto]]).
  - right; left; reflexivity.
  - right; left; reflexivity.
Qed.

(** a file and one in-memory model used twice, another in-memory model in a different
    merge space *)
Example C61_memory_case :
  let m1 := NModel "p" (fun k => if String.eqb k "a" then Ok 1 else if String.eqb k "x" then Ok 5 else Err (StateDictKeyError k)) ["a"; "x"] cfg1 "weight" in
  let d1 := NDict [("a_old", NLit (VT 2)); ("x", NLit (VT 6)); ("y", NLit (VT 7))] cfg1 "weight" in
  let d2 := NDict [("a", NLit (VT 9)); ("z", NLit (VT 8)); ("w", NLit (VT 8))] cfg1 "delta" in
  let r := NMerge plus [d1; NMerge plus [m1; NMerge plus [d1; d2] [] (Some cfg1)] [] (Some cfg1)] [] (Some cfg1) in
  exists r', copy_extra_keys Nat.eqb r cfg1 "weight" = Ok (r', ["a"; "x"; "y"; "b"]) /\
    eval nconv r' "x" = Ok (VT 6) /\ eval nconv r' "y" = Ok (VT 7).
Proof. simpl. eexists. split; [reflexivity|]. vm_compute. auto. Qed.

Print Assumptions C61_in_memory_partial.
Print Assumptions C61_structural_refuted.
