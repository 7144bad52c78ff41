(** C98: merging leaves configs on the nodes of a recipe *)
From Coq Require Import String List Bool Arith Lia.
From Verif Require Import Base ModelConfigs ModelReuse SpecReuse ReuseProofs.
Import ListNotations.
Open Scope string_scope.
Open Scope list_scope.
Open Scope nat_scope.

Section Reuse.
  Variable configs : list cfg.
  Variable meta : nat -> list (string * kmeta).
  Variable check : nat -> conf -> list (string * kmeta) -> option exn.
  Notation open_leaf := (open_leaf configs meta check).
  Notation open_list := (open_list configs meta check).
  Notation open_recipe := (open_recipe configs meta check).
  Notation merge_keys_of := (merge_keys_of configs meta check).
  Notation reopen := (reopen configs meta check).

  Lemma open_list_checked : forall d l st, d < length (rs_dicts st) -> snd (open_list d l st) = None ->
    forall p id i, In (p, id) l -> dget Nat.eqb id (rs_conf (fst (open_list d l st))) = Some (Known i) -> check id (Known i) [] = None.
  Proof.
    induction l as [|[q j] l IH]; intros st L N p id i I E; [destruct I|]. simpl in *.
    destruct (open_leaf_grows configs meta check d q st j L) as (G & D).
    destruct (open_leaf d q st j) as [s [e|]] eqn:O; simpl in *; [discriminate|].
    assert (d < length (rs_dicts s)) as L' by (destruct G; lia).
    destruct I as [I|I]; [|eapply IH; eauto]. inversion I; subst.
    destruct (open_list_grows configs meta check d l s L') as ((_ & _ & G' & _) & _). rewrite G' in E by (apply D; auto).
    unfold ModelReuse.open_leaf in O.
    assert (forall st0 c, (let st' := assign st0 id c in (st', check id c (dict_of st' c))) = (s, None) -> check id (Known i) [] = None) as F.
    { intros st0 c X. inversion X as [[X1 X2]]. rewrite <- X1 in E. unfold assign in E. simpl in E. rewrite dget_dset_same in E.
      inversion E; subst c. auto. }
    destruct (dget Nat.eqb id (rs_conf st)) as [[|k|e]|]; try (eapply F; exact O).
    - destruct (determine _ _ _ _) as [[k|]|e]; [eapply F; exact O| |discriminate].
      destruct (join _ _) as [x [e|]]; [discriminate|eapply F; exact O].
    - destruct (determine _ _ _ _) as [[k|]|e]; [eapply F; exact O| |discriminate].
      destruct (join _ _) as [x [e|]]; [discriminate|eapply F; exact O].
  Qed.

  Lemma open_list_decided : forall d l st,
    (forall p id, In (p, id) l -> exists c, dget Nat.eqb id (rs_conf st) = Some c /\ c <> Infer /\ check id c (dict_of st c) = None) ->
    snd (open_list d l st) = None /\ rs_dicts (fst (open_list d l st)) = rs_dicts st /\
    forall id, dget Nat.eqb id (rs_conf (fst (open_list d l st))) = dget Nat.eqb id (rs_conf st).
  Proof.
    induction l as [|[q j] l IH]; intros st H; simpl; auto.
    destruct (H q j) as (c & E & N & C); [left; auto|].
    rewrite (open_leaf_decided configs meta check d q st j c E N), C. simpl.
    assert (forall id, dget Nat.eqb id (rs_conf (assign st j c)) = dget Nat.eqb id (rs_conf st)) as A.
    { intros id. unfold assign; simpl. destruct (Nat.eq_dec j id) as [<-|X]; [rewrite dget_dset_same; auto|apply dget_dset_other; auto]. }
    destruct (IH (assign st j c)) as (I1 & I2 & I3).
    { intros p id I. rewrite A. destruct (H p id) as (c' & H1 & H2 & H3); [right; auto|]. exists c'. split; [auto|]. split; [auto|].
      destruct c'; auto. }
    split; [auto|]. split; [auto|]. intros id. rewrite I3. auto.
  Qed.

  Lemma merged_again : forall st r ks h, sane st -> (forall id d s, check id (Struct d) s = None) ->
    snd (merge_keys_of st r) = Ok ks ->
    snd (merge_keys_of (reopen (fst (merge_keys_of st r)) h) r) = Ok ks.
  Proof.
    intros st r ks h S C H. rewrite merge_state. unfold ModelReuse.merge_keys_of in H |- *.
    destruct (open_recipe_grows configs meta check st r) as (G & D).
    assert (L0 : length (rs_dicts st) < length (rs_dicts (RS (rs_conf st) (rs_dicts st ++ [[]])))).
    { cbn. rewrite app_length. simpl. lia. }
    pose proof (open_list_checked _ (occ None r) _ L0) as K. rewrite <- open_recipe_list in K.
    destruct (open_recipe st r) as [st1 [e|]]; [discriminate|]. simpl in *. specialize (D eq_refl). specialize (K eq_refl).
    set (st2 := reopen st1 h). pose proof (reopen_grows configs meta check h st1) as G2. fold st2 in G2.
    destruct G2 as (_ & G2 & G3 & _).
    destruct G as (G1 & _ & _ & G4).
    apply bind_Ok in H as (o & O & H). destruct o as [c|]; [|discriminate].
    rewrite open_recipe_list.
    destruct (open_list_decided (length (rs_dicts st2)) (occ None r) (RS (rs_conf st2) (rs_dicts st2 ++ [[]]))) as (I1 & I2 & I3).
    { intros p id I. cbn [rs_conf]. specialize (D _ _ I). rewrite (G3 id D). destruct D as [(i & E)|(d & E)].
      - exists (Known i). split; [auto|]. split; [discriminate|]. simpl. eapply K; eauto.
      - exists (Struct d). split; [auto|]. split; [discriminate|]. apply C. }
    destruct (open_list _ (occ None r) _) as [st3 e3]. simpl in *. subst e3.
    assert (config_of st3 r = config_of st1 r) as ->.
    { apply (config_of_same r st1 st3 None). intros q id I. rewrite I3. apply G3. eauto. }
    rewrite O. simpl. rewrite <- H. destruct c as [|i|d]; auto. unfold conf_keys. f_equal. rewrite I2.
    destruct (config_of_in r st1 None (Struct d) O) as [(q & id & I & E)|(i & E)]; [|discriminate].
    assert (d < length (rs_dicts st1)) as L.
    { destruct (G4 _ _ E) as [X|X]; [specialize (S _ _ X)|]; lia. }
    rewrite app_nth1; [apply G2; auto|].
    pose proof (reopen_grows configs meta check h st1) as (Y & _). fold st2 in Y. lia.
  Qed.

  (** *** nodes whose config is clear *)
  Variables (st0 : rstate) (rs : list rnode).
  Notation settled := (settled configs meta st0 rs).

  (** a settled node is as it was or has its config *)
  Definition on_track (st : rstate) : Prop :=
    forall id i, settled id i -> dget Nat.eqb id (rs_conf st) = dget Nat.eqb id (rs_conf st0) \/ dget Nat.eqb id (rs_conf st) = Some (Known i).

  Lemma open_leaf_settled : forall d p st id i r, on_track st -> settled id i -> In r rs -> occurs r p id ->
    open_leaf d p st id = (assign st id (Known i), check id (Known i) []).
  Proof.
    intros d p st id i r T S R O. unfold ModelReuse.open_leaf, SpecReuse.settled in *.
    destruct (T id i S) as [E|E]; rewrite E; [|reflexivity].
    destruct (dget Nat.eqb id (rs_conf st0)) as [[|j|e]|].
    - rewrite (S r p R O). reflexivity.
    - subst. reflexivity.
    - destruct S.
    - rewrite (S r p R O). reflexivity.
  Qed.

  Lemma settled_unique : forall id i j r p, settled id i -> settled id j -> In r rs -> occurs r p id -> i = j.
  Proof.
    intros id i j r p S S' R O. unfold SpecReuse.settled in *. destruct (dget Nat.eqb id (rs_conf st0)) as [[|k|e]|].
    - specialize (S r p R O). specialize (S' r p R O). congruence.
    - congruence.
    - destruct S.
    - specialize (S r p R O). specialize (S' r p R O). congruence.
  Qed.

  Lemma open_leaf_on_track : forall d p st id r, on_track st -> In r rs -> occurs r p id -> on_track (fst (open_leaf d p st id)).
  Proof.
    intros d p st id r T R O id' i S. destruct (Nat.eq_dec id id') as [<-|N].
    - rewrite (open_leaf_settled d p st id i r T S R O). right. apply dget_dset_same.
    - replace (dget Nat.eqb id' (rs_conf (fst (open_leaf d p st id)))) with (dget Nat.eqb id' (rs_conf st)); [apply T; auto|].
      unfold ModelReuse.open_leaf.
      destruct (dget Nat.eqb id (rs_conf st)) as [[|k|e]|]; try (cbn; rewrite dget_dset_other; auto; fail).
      + destruct (determine _ _ _ _) as [[k|]|e]; try (cbn; rewrite ?dget_dset_other; auto; fail).
        destruct (join _ _) as [x [e|]]; cbn; rewrite ?dget_dset_other; auto.
      + destruct (determine _ _ _ _) as [[k|]|e]; try (cbn; rewrite ?dget_dset_other; auto; fail).
        destruct (join _ _) as [x [e|]]; cbn; rewrite ?dget_dset_other; auto.
  Qed.

  Lemma open_list_on_track : forall d r l st, on_track st -> In r rs -> (forall p id, In (p, id) l -> occurs r p id) -> on_track (fst (open_list d l st)).
  Proof.
    induction l as [|[p id] l IH]; intros st T R O; simpl; auto.
    pose proof (open_leaf_on_track d p st id r T R (O _ _ (or_introl eq_refl))) as T'.
    destruct (open_leaf d p st id) as [s [e|]]; simpl in *; auto.
  Qed.

  Lemma reopen_on_track : forall h st, on_track st -> (forall r, In r h -> In r rs) -> on_track (reopen st h).
  Proof.
    induction h as [|r h IH]; intros st T Sub; simpl; auto. apply IH; [|intros; apply Sub; right; auto].
    rewrite merge_state, open_recipe_list. apply (open_list_on_track _ r); auto; [apply Sub; left; auto|].
    intros p id. apply occ_occurs.
  Qed.

  Lemma open_list_settled : forall r l d d' a b, on_track a -> on_track b -> In r rs ->
    (forall p id, In (p, id) l -> occurs r p id /\ exists i, settled id i) ->
    snd (open_list d l a) = snd (open_list d' l b) /\
    (snd (open_list d l a) = None -> forall p id, In (p, id) l -> exists i,
       dget Nat.eqb id (rs_conf (fst (open_list d l a))) = Some (Known i) /\ dget Nat.eqb id (rs_conf (fst (open_list d' l b))) = Some (Known i)).
  Proof.
    induction l as [|[p id] l IH]; intros d d' a b Ta Tb R O; simpl.
    - split; auto. intros _ p id [].
    - destruct (O p id) as (Oc & i & S); [left; auto|].
      rewrite (open_leaf_settled d p a id i r Ta S R Oc), (open_leaf_settled d' p b id i r Tb S R Oc).
      pose proof (open_leaf_on_track d p a id r Ta R Oc) as Ta'. pose proof (open_leaf_on_track d' p b id r Tb R Oc) as Tb'.
      rewrite (open_leaf_settled d p a id i r Ta S R Oc) in Ta'. rewrite (open_leaf_settled d' p b id i r Tb S R Oc) in Tb'. simpl in Ta', Tb'.
      destruct (check id (Known i) []) as [e|]; simpl.
      { split; auto. discriminate. }
      destruct (IH d d' _ _ Ta' Tb' R) as (E & F); [intros; apply O; right; auto|]. split; auto. intros N q j [I|I]; [|eapply F; eauto].
      inversion I; subst.
      assert (forall (dd : nat) (st : rstate), on_track st -> dget Nat.eqb j (rs_conf st) = Some (Known i) -> forall l',
        (forall p id, In (p, id) l' -> occurs r p id /\ exists i, settled id i) -> dget Nat.eqb j (rs_conf (fst (open_list dd l' st))) = Some (Known i)) as Keep.
      { intros dd st Ts Es l'. revert st Ts Es. induction l' as [|[q' k] l' IHl]; intros st Ts Es O'; simpl; auto.
        destruct (O' q' k) as (Ok' & m & Sk); [left; auto|].
        pose proof (open_leaf_on_track dd q' st k r Ts R Ok') as Tk.
        rewrite (open_leaf_settled dd q' st k m r Ts Sk R Ok') in Tk |- *. simpl in Tk.
        assert (dget Nat.eqb j (rs_conf (assign st k (Known m))) = Some (Known i)) as Ej.
        { unfold assign; simpl. destruct (Nat.eq_dec k j) as [->|X]; [|rewrite dget_dset_other; auto].
          rewrite dget_dset_same. f_equal. f_equal. eapply settled_unique; eauto. }
        destruct (check k (Known m) []); simpl; auto. apply IHl; auto. intros; apply O'; right; auto. }
      exists i. split; apply Keep; auto; try (intros; apply O; right; auto); apply dget_dset_same.
  Qed.

  Lemma settled_keys : forall r h, In r rs -> (forall x, In x h -> In x rs) -> (forall p id, occurs r p id -> exists i, settled id i) ->
    snd (merge_keys_of (reopen st0 h) r) = snd (merge_keys_of st0 r).
  Proof.
    intros r h R Sub S. unfold ModelReuse.merge_keys_of. rewrite !open_recipe_list.
    assert (on_track st0) as T0 by (intros id i _; auto).
    pose proof (reopen_on_track h st0 T0 Sub) as T1.
    destruct (open_list_settled r (occ None r) (length (rs_dicts (reopen st0 h))) (length (rs_dicts st0))
      (RS (rs_conf (reopen st0 h)) (rs_dicts (reopen st0 h) ++ [[]])) (RS (rs_conf st0) (rs_dicts st0 ++ [[]]))) as (E & F); auto.
    { intros p id I. apply occ_occurs in I. eauto. }
    destruct (open_list _ (occ None r) (RS (rs_conf (reopen st0 h)) _)) as [a e]. destruct (open_list _ (occ None r) (RS (rs_conf st0) _)) as [b e'].
    simpl in *. subst e'. destruct e as [e|]; auto. specialize (F eq_refl).
    assert (config_of a r = config_of b r) as ->.
    { apply (config_of_same r b a None). intros q id I. destruct (F _ _ I) as (i & F1 & F2). congruence. }
    destruct (config_of b r) as [[c|]|] eqn:C; simpl; auto.
    destruct (config_of_in r b None c C) as [(q & id & I & Q)|(i & ->)]; auto.
    destruct (F _ _ I) as (i & _ & F2). rewrite F2 in Q. inversion Q; subst. auto.
  Qed.
End Reuse.

(** A recipe that was merged can be merged again, after any other merges, with the same keys: what a merge leaves on
    the nodes is not changed by later ones.  [check] on structural configs: those of in-memory dicts pass. *)
Theorem C98_again : forall configs meta check st r ks h, sane st -> (forall id d s, check id (Struct d) s = None) ->
  snd (merge_keys_of configs meta check st r) = Ok ks ->
  snd (merge_keys_of configs meta check (reopen configs meta check (fst (merge_keys_of configs meta check st r)) h) r) = Ok ks.
Proof. exact merged_again. Qed.

(** The keys of a first merge are those of a fresh process if the config of each of its nodes is clear from the node's
    keys and the parameters it was and is given for. *)
Theorem C98_first_partial : forall configs meta check st r h,
  (forall p id, occurs r p id -> exists i, settled configs meta st (r :: h) id i) ->
  snd (merge_keys_of configs meta check (reopen configs meta check st h) r) = snd (merge_keys_of configs meta check st r).
Proof. intros configs meta check st r h S. apply (settled_keys configs meta check st (r :: h)); auto; [left; auto|intros; right; auto]. Qed.

(** Without that the keys depend on what was merged before.  [a] has keys x and y, [b] has only x: merging [a] gives
    x and y, but only x after [a + b] was merged; and [a + b] gets the key y, which [b] lacks, after [a] was merged. *)
Definition ab_meta (id : nat) : list (string * kmeta) :=
  if id =? 0 then in_memory [("x", 4); ("y", 4)] else in_memory [("x", 4)].
Definition no_check : nat -> conf -> list (string * kmeta) -> option exn := fun _ _ _ => None.
Definition add_ab : rnode := RMerge None [(None, RLeaf 0); (None, RLeaf 1)].

Theorem C98_keys_refuted :
  snd (merge_keys_of [] ab_meta no_check (RS [] []) (RLeaf 0)) = Ok ["x"; "y"] /\
  snd (merge_keys_of [] ab_meta no_check (reopen [] ab_meta no_check (RS [] []) [add_ab]) (RLeaf 0)) = Ok ["x"] /\
  snd (merge_keys_of [] ab_meta no_check (RS [] []) add_ab) = Ok ["x"] /\
  snd (merge_keys_of [] ab_meta no_check (reopen [] ab_meta no_check (RS [] []) [RLeaf 0]) add_ab) = Ok ["x"; "y"].
Proof. repeat split; vm_compute; reflexivity. Qed.

(** The parameter a node is first given for decides between configs its keys fit: afterwards it is refused where the
    other one is asked for. *)
Definition two : list cfg := [Cfg "one" ["p"; "q"; "s"] []; Cfg "two" ["p"; "q"; "r"; "t"] []].
Definition pq_meta (_ : nat) : list (string * kmeta) := in_memory [("p", 4); ("q", 4)].
Theorem C98_config_refuted :
  snd (merge_keys_of two pq_meta no_check (RS [] []) (RMerge (Some "two") [(Some "two", RLeaf 0)])) = Ok ["p"; "q"; "r"; "t"] /\
  snd (merge_keys_of two pq_meta no_check (reopen two pq_meta no_check (RS [] []) [RMerge (Some "one") [(Some "one", RLeaf 0)]])
         (RMerge (Some "two") [(Some "two", RLeaf 0)])) = Err ValueError.
Proof. repeat split; vm_compute; reflexivity. Qed.

(** the second merge of [a + b], after other merges of its parts and after one that fails *)
Definition wrong : rnode := RMerge (Some "one") [(None, RLeaf 1)].
Example C98_again_case : sane (RS [] []) /\ (forall id d s, no_check id (Struct d) s = None) /\
  snd (merge_keys_of [] ab_meta no_check (RS [] []) wrong) = Err ValueError /\
  snd (merge_keys_of [] ab_meta no_check (reopen [] ab_meta no_check (RS [] []) [add_ab; RLeaf 0; wrong; RLeaf 1]) add_ab) = Ok ["x"].
Proof. split; [intros id d H; discriminate|]. split; [reflexivity|]. split; vm_compute; reflexivity. Qed.

(** two nodes of a known architecture, one said to be of it and one inferred *)
Definition uv_meta (_ : nat) : list (string * kmeta) := in_memory [("u", 4); ("v", 4)].
Definition uv : list cfg := [Cfg "uv" ["u"; "v"] []; Cfg "pq" ["p"; "q"] []].
Definition uv_st : rstate := RS [(0, Known "uv"); (1, Infer)] [].
Definition uv_sum : rnode := RMerge None [(None, RLeaf 0); (None, RMerge None [(Some "pq", RLeaf 1)])].
Ltac unwind := unfold occurs, add_ab, uv_sum in *; repeat match goal with
  | H : within _ (RMerge _ _) _ _ |- _ => inversion H; clear H; subst; simpl in *
  | H : within _ (RLeaf _) _ _ |- _ => inversion H; clear H; subst; simpl in *
  | H : _ \/ _ |- _ => destruct H | H : (_, _) = (_, _) |- _ => inversion H; clear H; subst | H : False |- _ => destruct H end.
Example C98_first_case :
  (forall p id, occurs add_ab p id -> exists i, settled uv uv_meta uv_st [add_ab; uv_sum; RLeaf 2] id i) /\
  snd (merge_keys_of uv uv_meta no_check (reopen uv uv_meta no_check uv_st [uv_sum; RLeaf 2]) add_ab) = Ok ["u"; "v"].
Proof.
  split; [|vm_compute; reflexivity]. intros p id O. exists "uv".
  assert (id = 0 \/ id = 1) as [->| ->].
  { unwind; auto. }
  - reflexivity.
  - unfold settled; simpl. intros r q [<-|[<-|[<-|[]]]] H; unwind; vm_compute; reflexivity.
Qed.

(** *** dicts of recipes *)
Lemma join_none : forall s, join_all s [] (map fst s) = ([], None).
Proof. induction s as [|[k x] s IH]; auto. simpl. unfold join_key. simpl. rewrite String.eqb_refl. exact IH. Qed.
Lemma join_empty : forall s, join s [] = ([], None).
Proof. intros [|x s]; auto. apply (join_none (x :: s)). Qed.

Lemma affinities_empty : forall configs, (forall c, In c configs -> c_keys c <> []) -> affinities 0 [] configs = map (fun c => (c, 0)) configs.
Proof.
  induction configs as [|c l IH]; intros H; auto. simpl. unfold matched. simpl.
  destruct (c_keys c) as [|k ks] eqn:E; [destruct (H c); simpl; auto|]. simpl. f_equal. apply IH. intros; apply H; right; auto.
Qed.
(** nothing can be inferred from no keys if the registry has several configs *)
Lemma determine_empty : forall c c' l, (forall x, In x (c :: c' :: l) -> c_keys x <> []) -> determine (c :: c' :: l) [] None false = Ok None.
Proof.
  intros c c' l H. unfold determine, infer_model_configs. change (length (nodup string_dec [])) with 0. rewrite affinities_empty by auto.
  assert (forall m, sort_desc_set (map snd (map (fun x : cfg => (x, 0)) (m :: l))) = [0]) as S.
  { intros m. rewrite map_map. simpl. induction l as [|y l IH]; auto. simpl. rewrite IH; auto. intros x [<-|[<-|I]]; apply H; simpl; auto. }
  change (c :: c' :: l) with ([c] ++ (c' :: l)). rewrite map_app, map_app. simpl (map snd (map _ [c])).
  change (sort_desc_set ([0] ++ ?x)) with (insert_nat 0 (sort_desc_set x)).
  rewrite S. simpl. reflexivity.
Qed.

Lemma open_leaf_other : forall configs meta check d p st id j, id <> j ->
  dget Nat.eqb j (rs_conf (fst (open_leaf configs meta check d p st id))) = dget Nat.eqb j (rs_conf st).
Proof.
  intros configs meta check d p st id j N. unfold open_leaf.
  destruct (dget Nat.eqb id (rs_conf st)) as [[|k|e]|]; try (cbn; rewrite dget_dset_other; auto; fail).
  - destruct (determine _ _ _ _) as [[k|]|e]; try (cbn; rewrite ?dget_dset_other; auto; fail).
    destruct (join _ _) as [x [e|]]; cbn; rewrite ?dget_dset_other; auto.
  - destruct (determine _ _ _ _) as [[k|]|e]; try (cbn; rewrite ?dget_dset_other; auto; fail).
    destruct (join _ _) as [x [e|]]; cbn; rewrite ?dget_dset_other; auto.
Qed.
Lemma open_list_other : forall configs meta check d j l st, (forall p, ~ In (p, j) l) ->
  dget Nat.eqb j (rs_conf (fst (open_list configs meta check d l st))) = dget Nat.eqb j (rs_conf st).
Proof.
  induction l as [|[p id] l IH]; intros st H; simpl; auto.
  assert (id <> j) as N by (intros ->; apply (H p); left; auto).
  pose proof (open_leaf_other configs meta check d p st id j N) as E.
  destruct (open_leaf configs meta check d p st id) as [s [e|]]; simpl in *; auto.
  rewrite IH; auto. intros q I. apply (H q). right; auto.
Qed.

(** Violated further: a dict of recipes without config loses all keys.  Its own keys do not count as its values are
    recipes, so it takes every key from the structural config that its values have just been given. *)
Theorem C98_dict_refuted : forall configs meta check st id values,
  (forall c, In c configs -> c_keys c <> []) -> length configs <> 1 ->
  meta id = [] -> dget Nat.eqb id (rs_conf st) = None -> (forall n p, In n values -> ~ occurs n p id) ->
  snd (open_recipe configs meta check st (RDict id values)) = None ->
  snd (merge_keys_of configs meta check st (RDict id values)) = Ok [].
Proof.
  intros configs meta check st id values Hc Hn Hm Hd Hv. unfold merge_keys_of. rewrite open_recipe_list. cbn [occ]. rewrite open_list_app.
  set (d := length (rs_dicts st)). set (st0 := RS (rs_conf st) (rs_dicts st ++ [[]])).
  assert (d < length (rs_dicts st0)) as L. { unfold st0, d. cbn. rewrite app_length. simpl. lia. }
  destruct (open_list_grows configs meta check d (flat_map (occ None) values) st0 L) as ((G & _) & _).
  pose proof (Nat.lt_le_trans _ _ _ L G) as L'. clear G.
  assert (dget Nat.eqb id (rs_conf (fst (open_list configs meta check d (flat_map (occ None) values) st0))) = None) as E.
  { rewrite open_list_other; auto. intros p I. apply in_flat_map in I as (n & I & O). apply occ_occurs in O. apply (Hv n p I O). }
  destruct (open_list configs meta check d (flat_map (occ None) values) st0) as [s [e|]]; [discriminate|]. cbn [fst] in E, L'.
  assert (determine configs [] None false = Ok None) as D.
  { destruct configs as [|c [|c' l]]; [reflexivity|simpl in Hn; lia|apply determine_empty; auto]. }
  cbn [seq_open open_list]. unfold open_leaf. rewrite E, Hm. cbn [map]. rewrite D, join_empty.
  cbn [assign rs_conf rs_dicts dict_of].
  destruct (check id _ _) as [e|]; [discriminate|]. intros _. cbn [seq_open config_of bind rs_conf]. unfold assign. cbn [rs_conf rs_dicts]. rewrite dget_dset_same. cbn.
  rewrite set_nth_same by exact L'. reflexivity.
Qed.

(** [{"x": a, "y": a + b}], where [b] has only x: alone, [a] has x and y *)
Definition ab_dict : rnode := RDict 2 [RLeaf 0; add_ab].
Definition ab2_meta (id : nat) : list (string * kmeta) := match id with 2 => [] | _ => ab_meta id end.
Example C98_dict_case : snd (open_recipe two ab2_meta no_check (RS [] []) ab_dict) = None /\
  snd (merge_keys_of two ab2_meta no_check (RS [] []) ab_dict) = Ok [] /\
  snd (merge_keys_of two ab2_meta no_check (RS [] []) (RLeaf 0)) = Ok ["x"; "y"] /\
  snd (merge_keys_of two ab2_meta no_check (RS [(2, Known "one")] []) ab_dict) = Ok ["p"; "q"; "s"] /\
  snd (merge_keys_of two ab2_meta no_check (reopen two ab2_meta no_check (RS [(2, Known "one")] []) [ab_dict; RLeaf 0; wrong]) ab_dict) = Ok ["p"; "q"; "s"].
Proof. repeat split; vm_compute; reflexivity. Qed.

Print Assumptions C98_again.
Print Assumptions C98_first_partial.
Print Assumptions C98_keys_refuted.
Print Assumptions C98_config_refuted.
Print Assumptions C98_dict_refuted.
