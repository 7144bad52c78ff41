(** C121: parameters declared as state dicts, used as mappings *)
From Coq Require Import String List Bool Arith Lia ZArith.
From Verif Require Import Base ModelEval ModelConfigs ModelMapping SpecEval EvalProofs PropsEval PropsDtype.
Import ListNotations.
Open Scope string_scope.
Open Scope list_scope.

(** a key is missing when reading it raises a KeyError *)
Definition lacks {A} (r : result A) : Prop := r = Err KeyError \/ exists k, r = Err (StateDictKeyError k).

Lemma key_error_lacks : forall A (e : exn), is_key_error e = true <-> @lacks A (Err e).
Proof.
  intros A e. unfold lacks. split.
  - destruct e; simpl; intros; try discriminate; eauto.
  - intros [H|(k & H)]; inversion H; reflexivity.
Qed.

Section Mappings.
  Context {V : Type} (get : string -> result V) (cfg : option config).

  (** [k in sd], for any state dict: exactly what subscripting says; other exceptions come through *)
  Theorem C121_contains : forall k,
    (sd_contains get k = Ok true <-> exists v, get k = Ok v) /\
    (sd_contains get k = Ok false <-> lacks (get k)) /\
    (forall e, sd_contains get k = Err e <-> get k = Err e /\ ~ @lacks V (Err e)).
  Proof.
    intros k. unfold sd_contains. destruct (get k) as [v|e] eqn:G.
    - split; [split; eauto|]. split; [split; [discriminate|intros [H|(x & H)]; discriminate]|].
      intros e. split; [discriminate|intros (H & _); discriminate].
    - destruct (is_key_error e) eqn:K.
      + apply (key_error_lacks V) in K. split; [split; [discriminate|intros (v & H); discriminate]|]. split; [split; auto|].
        intros e'. split; [discriminate|intros (H & N); inversion H; subst; contradiction].
      + assert (~ @lacks V (Err e)) as N by (intros H; apply key_error_lacks in H; congruence).
        split; [split; [discriminate|intros (v & H); discriminate]|]. split; [split; [discriminate|contradiction]|].
        intros e'. split; [intros H; inversion H; subst; auto|intros (H & _); inversion H; reflexivity].
  Qed.

  (** [sd.get(k, default)] *)
  Theorem C121_get : forall k d r,
    sd_get get k d = Ok r <-> get k = Ok r \/ lacks (get k) /\ r = d.
  Proof.
    intros k d r. unfold sd_get. destruct (get k) as [v|e] eqn:G.
    - split; [intros H; left; auto|]. intros [H|([H|(x & H)] & _)]; [auto|discriminate|discriminate].
    - destruct (is_key_error e) eqn:K.
      + apply (key_error_lacks V) in K. split; [intros H; inversion H; auto|]. intros [H|(_ & ->)]; [discriminate|reflexivity].
      + split; [discriminate|]. intros [H|(H & _)]; [discriminate|]. apply key_error_lacks in H. congruence.
  Qed.

  Lemma take_ok : forall ks l, take get ks = Ok l <-> map fst l = ks /\ (forall k v, In (k, v) l -> get k = Ok v).
  Proof.
    induction ks as [|k ks IH]; simpl; intros l.
    - split; [intros H; inversion H; split; [auto|intros ? ? []]|]. intros (H & _). destruct l; [reflexivity|discriminate].
    - destruct (get k) as [v|e] eqn:G; simpl.
      + destruct (take get ks) as [r|e] eqn:Tk; simpl.
        * destruct (proj1 (IH r) eq_refl) as (M & R). split.
          -- intros H; inversion H; subst. split; [reflexivity|]. intros k' v' [E|I]; [inversion E; subst; auto|auto].
          -- intros (M' & R'). destruct l as [|[k' v'] l]; [discriminate|]. simpl in M'. inversion M' as [[E1 E2]].
             pose proof (R' k' v' (or_introl eq_refl)) as Q. rewrite E1, G in Q. inversion Q; subst.
             assert (Ok r = Ok l) as X by (apply IH; split; auto; intros; apply R'; right; auto). inversion X; reflexivity.
        * split; [discriminate|]. intros (M' & R'). destruct l as [|[k' v'] l]; [discriminate|]. simpl in M'. inversion M'.
          assert (Err e = Ok l) as X by (apply IH; split; auto; intros; apply R'; right; auto). discriminate.
      + split; [discriminate|]. intros (M' & R'). destruct l as [|[k' v'] l]; [discriminate|]. simpl in M'. inversion M'; subst.
        rewrite (R' k v' (or_introl eq_refl)) in G. discriminate.
  Qed.
  Lemma take_err : forall ks e, take get ks = Err e <->
    exists pre k post, ks = pre ++ k :: post /\ get k = Err e /\ (forall k', In k' pre -> exists v, get k' = Ok v).
  Proof.
    induction ks as [|k ks IH]; simpl; intros e.
    - split; [discriminate|]. intros ([|] & k & post & H & _); discriminate.
    - destruct (get k) as [v|e'] eqn:G; simpl.
      + destruct (take get ks) as [r|e'] eqn:Tk; simpl.
        * split; [discriminate|]. intros (pre & k' & post & E & Gk & P). destruct pre as [|p pre]; simpl in E; inversion E; subst; [congruence|].
          assert (Ok r = Err e) as X; [|discriminate]. apply IH. exists pre, k', post. split; auto. split; auto. intros; apply P; right; auto.
        * split.
          -- intros H; inversion H; subst. destruct (proj1 (IH e) eq_refl) as (pre & k' & post & -> & Gk & P).
             exists (k :: pre), k', post. split; auto. split; auto. intros x [<-|I]; eauto.
          -- intros (pre & k' & post & E & Gk & P). destruct pre as [|p pre]; simpl in E; inversion E; subst; [congruence|].
             assert (Err e' = @Err (list (string * V)) e) as X; [|congruence]. apply IH. exists pre, k', post. split; auto. split; auto. intros; apply P; right; auto.
      + split.
        * intros H; inversion H; subst. exists [], k, ks. split; auto. split; auto. intros ? [].
        * intros (pre & k' & post & E & Gk & P). destruct pre as [|p pre]; simpl in E; inversion E; subst; [congruence|].
          destruct (P p (or_introl eq_refl)) as (v & Q). congruence.
  Qed.

  (** the listed keys are those of the config, whether they are there or not; without config there is no list *)
  Theorem C121_listed :
    (forall c, cfg = Some c -> sd_keys cfg = Ok (cf_keys c) /\ sd_len cfg = Ok (length (cf_keys c))) /\
    (cfg = None -> sd_keys cfg = Err AttributeError /\ sd_len cfg = Err AttributeError /\ sd_items get cfg = Err AttributeError /\ sd_values get cfg = Err AttributeError).
  Proof. split; [intros c ->|intros ->]; repeat split. Qed.

  (** [items()] and [values()] pair every listed key with what subscripting gives; a listed key that
      is missing makes them raise, the first one in order *)
  Theorem C121_items : forall c, cfg = Some c ->
    (forall l, sd_items get cfg = Ok l <-> map fst l = cf_keys c /\ forall k v, In (k, v) l -> get k = Ok v) /\
    (forall l, sd_items get cfg = Ok l -> sd_values get cfg = Ok (map snd l) /\ sd_len cfg = Ok (length l)) /\
    (forall e, sd_items get cfg = Err e <->
      exists pre k post, cf_keys c = pre ++ k :: post /\ get k = Err e /\ forall k', In k' pre -> sd_contains get k' = Ok true) /\
    (forall e, sd_items get cfg = Err e <-> sd_values get cfg = Err e).
  Proof.
    intros c ->. unfold sd_values, sd_len, sd_items, sd_keys. simpl. split; [apply take_ok|]. split; [|split].
    - intros l H. rewrite H. split; auto. f_equal. apply take_ok in H as (<- & _). apply map_length.
    - intros e. rewrite take_err. split; intros (pre & k & post & E & G & P); exists pre, k, post; split; auto; split; auto; intros k' I.
      + apply C121_contains. auto.
      + apply C121_contains. apply P. auto.
    - intros e. destruct (take get (cf_keys c)); simpl; split; intros H; congruence.
  Qed.

  (** so a state dict can be iterated exactly if every key it lists is in it *)
  Theorem C121_consistent : forall c, cfg = Some c ->
    ((exists l, sd_items get cfg = Ok l) <-> forall k, In k (cf_keys c) -> sd_contains get k = Ok true).
  Proof.
    intros c E. destruct (C121_items c E) as (O & _ & R & _). split.
    - intros (l & H) k I. apply O in H as (M & G). rewrite <- M in I. apply in_map_iff in I as ([k' v] & <- & I).
      apply C121_contains. exists v. apply G; auto.
    - intros H. destruct (sd_items get cfg) as [l|e] eqn:Q; [eauto|]. exfalso.
      destruct (proj1 (R e) eq_refl) as (pre & k & post & F & G & _).
      assert (sd_contains get k = Ok true) as X by (apply H; rewrite F; apply in_or_app; right; left; auto).
      apply C121_contains in X as (v & X). congruence.
  Qed.
End Mappings.

(** a file gives the tensors of the keys in its header and raises KeyErrors for other keys (C01, C02) *)
Definition reads {T} (file : string -> result T) (keys : list string) : Prop :=
  forall k, (In k keys /\ exists t, file k = Ok t) \/ (~ In k keys /\ lacks (file k)).

Lemma nth_some_lt : forall A (l : list A) i x, nth_error l i = Some x -> i < length l.
Proof. intros A l i x H. apply nth_error_Some. congruence. Qed.

Section Recipes.
  Context {T : Type} (conv : ety -> value T -> result (value T)).
  Notation ev := (eval conv).

  (** the mapping handed to a method for the input [n] of a parameter declared StateDict[e] (C25: [handed]) *)
  Definition as_dict (e : ety) (n : node T) : string -> result (value T) :=
    fun k => match ev n k with Ok v => cast_value conv v e | Err x => Err x end.

  (** methods are handed these *)
  Theorem C121_handed : forall m args kw c key v i e n, wf (NMerge m args kw c) -> ev (NMerge m args kw c) key = Ok v ->
    input m args kw i (KSd e) n -> (forall k n', input m args kw i k n' -> k = KSd e /\ n' = n) ->
    exists xs ys, nth_error (xs ++ ys) i = Some (ISd (as_dict e n) (node_cfg n)) /\ m_fun m xs (combine (map fst kw) ys) key = Ok v.
  Proof.
    intros m args kw c key v i e n W E I U. destruct (eval_handed conv m args kw c key v W E) as (xs & ys & Lx & Ly & H & F).
    exists xs, ys. split; auto.
    assert (i < length (xs ++ ys)) as B.
    { rewrite app_length, Lx, Ly. inversion I as [? ? ? N _|? ? ? N _ _|j ? ? ? N _]; subst.
      - apply nth_some_lt in N. lia.
      - apply nth_some_lt in N. lia.
      - apply nth_some_lt in N. lia. }
    destruct (nth_error (xs ++ ys) i) as [x|] eqn:X; [|apply nth_error_None in X; lia].
    destruct (H _ _ X) as (k & n' & I' & Hd). destruct (U _ _ I') as (-> & ->). simpl in Hd. subst x. reflexivity.
  Qed.

  (** a model: a key is in it when the file has it or one of its aliases; in the list when the config has it *)
  Lemma try_in : forall (file : string -> result T) keys ks key, reads file keys -> ks <> [] ->
    ((exists k, In k ks /\ In k keys) /\ exists t, try_keys file ks key = Ok t) \/
    ((forall k, In k ks -> ~ In k keys) /\ lacks (try_keys file ks key)).
  Proof.
    intros file keys ks key R. induction ks as [|k ks IH]; intros N; [congruence|]. simpl.
    destruct (R k) as [(I & t & ->)|(I & L)].
    - left. split; [exists k; auto|eauto].
    - assert (exists e, file k = Err e /\ is_key_error e = true) as (e & -> & K).
      { destruct L as [->|(x & ->)]; eauto. }
      rewrite K. destruct ks as [|k' ks].
      + right. split; [intros x [<-|[]]; auto|right; eauto].
      + destruct (IH ltac:(discriminate)) as [((x & I1 & I2) & Q)|(A & Q)].
        * left. split; auto. exists x. split; [right|]; auto.
        * right. split; auto. intros x [<-|Ix]; auto.
  Qed.
  Theorem C121_model : forall e p file keys c sp k, (e = TAny \/ e = TTensor) -> reads file keys ->
    let sd := as_dict e (NModel p file keys c sp) in
    (sd_contains sd k = Ok true <-> exists x, (x = k \/ In x (aliases_of c k)) /\ In x keys) /\
    (sd_contains sd k = Ok false <-> forall x, x = k \/ In x (aliases_of c k) -> ~ In x keys).
  Proof.
    intros e p file keys c sp k E R sd.
    assert (forall t, cast_value conv (VT t) e = Ok (VT t)) as Cv by (intros t; destruct E as [-> | ->]; reflexivity).
    assert (forall x, (x = k \/ In x (aliases_of c k)) <-> In x (k :: aliases_of c k)) as Eq by (intros x; simpl; split; intros [H|H]; auto).
    destruct (try_in file keys (k :: aliases_of c k) k R ltac:(discriminate)) as [((x & I1 & I2) & t & Q)|(A & Q)].
    - assert (sd k = Ok (VT t)) as G by (unfold sd, as_dict; simpl eval; unfold visit_sd; rewrite Q; simpl; apply Cv).
      split; split.
      + intros _. exists x. rewrite Eq. auto.
      + intros _. apply C121_contains. eauto.
      + intros H. apply C121_contains in H. rewrite G in H. destruct H as [H|(y & H)]; discriminate.
      + intros H. exfalso. apply (H x); auto. apply Eq; auto.
    - assert (lacks (sd k)) as G.
      { unfold sd, as_dict. simpl eval. unfold visit_sd. destruct Q as [->|(y & ->)]; simpl; [left|right; exists y]; reflexivity. }
      split; split.
      + intros H. apply C121_contains in H as (v & H). rewrite H in G. destruct G as [G|(y & G)]; discriminate.
      + intros (x & Ix & I). exfalso. apply (A x); auto. apply Eq; auto.
      + intros _ x Ix. apply A, Eq; auto.
      + intros _. apply C121_contains. auto.
  Qed.

  (** with check_mandatory_keys, the keys of the config that are not optional are in every model that is opened *)
  Theorem C121_mandatory : forall e p file keys c sp mks, (e = TAny \/ e = TTensor) -> reads file keys ->
    check_mandatory keys mks = Ok tt ->
    let sd := as_dict e (NModel p file keys c sp) in
    (forall x, In x mks -> mk_optional x = false -> mk_aliases x = aliases_of c (mk_name x) -> sd_contains sd (mk_name x) = Ok true) /\
    ((forall k, In k (cf_keys c) -> exists x, In x mks /\ mk_name x = k /\ mk_optional x = false /\ mk_aliases x = aliases_of c k) ->
     exists l, sd_items sd (Some c) = Ok l).
  Proof.
    intros e p file keys c sp mks E R Ck sd.
    assert (forall x, In x mks -> mk_optional x = false -> mk_aliases x = aliases_of c (mk_name x) -> sd_contains sd (mk_name x) = Ok true) as H.
    { intros x Ix Ox Ax. apply (C121_model e p file keys c sp); auto.
      unfold check_mandatory in Ck. destruct (missing_keys keys mks) as [|y l] eqn:M; [|discriminate].
      assert (mem (effective_name keys x) keys = true) as Q.
      { destruct (mem (effective_name keys x) keys) eqn:Q; auto. exfalso.
        assert (In (effective_name keys x) (missing_keys keys mks)) as Z; [|rewrite M in Z; destruct Z].
        apply in_flat_map. exists x. split; auto. rewrite Ox, Q. left; auto. }
      exists (effective_name keys x). split.
      - unfold effective_name. destruct (find (fun a => mem a keys) (mk_aliases x)) as [a|] eqn:F; auto.
        right. rewrite <- Ax. apply find_some in F. tauto.
      - unfold mem in Q. apply existsb_In in Q. auto. }
    split; auto. intros K. apply C121_consistent with c; auto.
    intros k I. destruct (K k I) as (x & Ix & <- & Ox & Ax). apply H; auto.
  Qed.

  (** a literal given for a state dict is there at every key, and lists none *)
  Theorem C121_literal : forall v e k w, cast_value conv v e = Ok w ->
    as_dict e (NLit v) k = Ok w /\ sd_contains (as_dict e (NLit v)) k = Ok true /\ sd_keys (node_cfg (NLit v)) = Err AttributeError.
  Proof. intros v e k w C. unfold sd_contains, as_dict. simpl. rewrite C. auto. Qed.

  (** a merge has a key only if each input wanted at that key has it *)
  Theorem C121_merge : forall m args kw c k i e n e', wf (NMerge m args kw c) -> input m args kw i (KVal e) n ->
    (forall k' n', input m args kw i k' n' -> k' = KVal e /\ n' = n) ->
    sd_contains (as_dict e' (NMerge m args kw c)) k = Ok true -> sd_contains (as_dict e n) k = Ok true.
  Proof.
    intros m args kw c k i e n e' W I U H. apply C121_contains in H as (w & H). unfold as_dict in H.
    destruct (ev (NMerge m args kw c) k) as [v|x] eqn:E; [|discriminate].
    destruct (eval_handed conv m args kw c k v W E) as (xs & ys & Lx & Ly & Hh & F).
    assert (i < length (xs ++ ys)) as B.
    { rewrite app_length, Lx, Ly. inversion I as [? ? ? N _|? ? ? N _ _|j ? ? ? N _]; subst; apply nth_some_lt in N; lia. }
    destruct (nth_error (xs ++ ys) i) as [x|] eqn:X; [|apply nth_error_None in X; lia].
    destruct (Hh _ _ X) as (k' & n' & I' & Hd). destruct (U _ _ I') as (-> & ->). simpl in Hd.
    destruct Hd as (v1 & w1 & E1 & C1 & _). apply C121_contains. exists w1. unfold as_dict. rewrite E1. auto.
  Qed.

  (** [a | b] has the keys of both, when reading [a] raises nothing but StateDictKeyError *)
  Theorem C121_fallback : forall a b c k, wf a -> wf b -> (forall x, ev a k = Err x -> exists y, x = StateDictKeyError y) ->
    (sd_contains (as_dict TAny (NMerge fallback [a; b] [] c)) k = Ok true <->
     sd_contains (as_dict TAny a) k = Ok true \/ sd_contains (as_dict TAny b) k = Ok true).
  Proof.
    intros a b c k Wa Wb M.
    assert (forall n, sd_contains (as_dict TAny n) k = Ok true <-> exists v, ev n k = Ok v) as S.
    { intros n. rewrite (proj1 (C121_contains (as_dict TAny n) k)). unfold as_dict. split.
      - intros (v & H). destruct (ev n k); [eauto|discriminate].
      - intros (v & ->). exists v. apply cast_any. }
    rewrite !S, eval_or by auto. destruct (ev a k) as [v|x] eqn:Ea.
    - split; eauto.
    - destruct (M x eq_refl) as (y & ->). simpl. split; [auto|]. intros [(v & H)|H]; [discriminate|auto].
  Qed.

  (** picking a component leaves the list of keys as it is: a config with a key outside the component
      makes items() and values() raise *)
  Theorem C121_component : forall a c comp ks k, wf a -> node_cfg a = Some c -> NoDup (map fst (cf_components c)) ->
    In (comp, ks) (cf_components c) -> In k (cf_keys c) -> ~ In k ks ->
    let sd := as_dict TAny (NMerge pick_component [a; NLit (VL (LStr comp))] [] (Some c)) in
    sd_contains sd k = Ok false /\ sd_keys (Some c) = Ok (cf_keys c) /\ exists e, sd_items sd (Some c) = Err e.
  Proof.
    intros a c comp ks k W C ND I Ik N sd.
    assert (lacks (sd k)) as L.
    { destruct (C23_partition conv a c comp ks (Some c) (Some c) k W C ND I) as (_ & P). destruct (P N) as (_ & x & Q).
      unfold sd, as_dict. rewrite Q. right; eauto. }
    assert (sd_contains sd k = Ok false) as F by (apply C121_contains; auto).
    split; auto. split; [reflexivity|].
    destruct (sd_items sd (Some c)) as [l|e] eqn:Q; [|eauto]. exfalso.
    assert (sd_contains sd k = Ok true) as X; [|congruence].
    apply (proj1 (C121_consistent sd (Some c) c eq_refl)); eauto.
  Qed.
End Recipes.

(** listed keys need not be there, and keys that are there need not be listed *)
Theorem C121_listed_refuted :
  ~ (forall (T : Type) conv p (file : string -> result T) keys c sp k, reads file keys ->
      In k (cf_keys c) -> sd_contains (as_dict conv TTensor (NModel p file keys c sp)) k = Ok true) /\
  ~ (forall (T : Type) conv p (file : string -> result T) keys c sp k, reads file keys ->
      sd_contains (as_dict conv TTensor (NModel p file keys c sp)) k = Ok true -> In k (cf_keys c)).
Proof.
  set (c := Config "c" ["a"] [] []).
  set (file := fun k => if String.eqb k "b" then Ok 1 else Err (StateDictKeyError k)).
  assert (reads file ["b"]) as R.
  { intros k. unfold file. destruct (String.eqb k "b") eqn:E.
    - apply String.eqb_eq in E as ->. left. split; [left; auto|eauto].
    - right. split; [intros [<-|[]]; rewrite String.eqb_refl in E; discriminate|right; eauto]. }
  split; intros H.
  - specialize (H nat (fun _ v => Ok v) "m" file ["b"] c "weight" "a" R (or_introl eq_refl)). discriminate.
  - specialize (H nat (fun _ v => Ok v) "m" file ["b"] c "weight" "b" R eq_refl). destruct H as [H|[]]. discriminate.
Qed.

(** a file with the keys a (under an alias) and x, for a config with the keys a and b *)
Example C121_case :
  let c := Config "c" ["a"; "b"] [("a", ["old.a"])] [("unet", ["a"])] in
  let file := fun k => if String.eqb k "old.a" then Ok 1 else if String.eqb k "x" then Ok 2 else Err (StateDictKeyError k) in
  let n := NModel "m" file ["old.a"; "x"] c "weight" in
  let sd := as_dict (fun _ v => Ok v) TTensor n in
  sd_keys (node_cfg n) = Ok ["a"; "b"] /\ sd_len (node_cfg n) = Ok 2 /\
  map (sd_contains sd) ["a"; "b"; "old.a"; "x"; "y"] = [Ok true; Ok false; Ok true; Ok true; Ok false] /\
  sd_get sd "a" (VT 7) = Ok (VT 1) /\ sd_get sd "b" (VT 7) = Ok (VT 7) /\
  sd_items sd (node_cfg n) = Err (StateDictKeyError "b") /\
  sd_items sd (Some (Config "d" ["x"; "a"] [] [])) = Ok [("x", VT 2); ("a", VT 1)] /\
  check_mandatory ["old.a"; "x"] [MKey "a" ["old.a"] false; MKey "b" [] true] = Ok tt /\
  check_mandatory ["old.a"; "x"] [MKey "a" ["old.a"] false; MKey "b" [] false] = Err RuntimeError /\
  sd_items (as_dict (fun _ v => Ok v) TAny (NMerge pick_component [NModel "m" (fun k => Ok 3) ["a"; "b"] c "weight"; NLit (VL (LStr "unet"))] [] (Some c))) (Some c) = Err (StateDictKeyError "b").
Proof. repeat split. Qed.

Print Assumptions C121_contains.
Print Assumptions C121_get.
Print Assumptions C121_listed.
Print Assumptions C121_items.
Print Assumptions C121_consistent.
Print Assumptions C121_handed.
Print Assumptions C121_model.
Print Assumptions C121_mandatory.
Print Assumptions C121_literal.
Print Assumptions C121_merge.
Print Assumptions C121_fallback.
Print Assumptions C121_component.
Print Assumptions C121_listed_refuted.
Print Assumptions C121_case.
