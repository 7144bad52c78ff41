(** C29, C34, C62: which keys [merge] works on *)
From Coq Require Import String Ascii List Bool Arith Lia.
From Verif Require Import Base ModelConfigs PropsConfigs.
Import ListNotations.
Open Scope string_scope.
Open Scope list_scope.
Open Scope nat_scope.

(** ** C34 *)
Lemma ddel_In : forall A (d : list (string * A)) k x, NoDup (map fst d) ->
  In x (ddel String.eqb k d) <-> In x d /\ fst x <> k.
Proof.
  induction d as [|[k' v'] d IH]; intros k x ND; simpl; [tauto|]. simpl in ND. inversion ND as [|? ? N ND']; subst.
  destruct (String.eqb_spec k k') as [->|Nk].
  - split.
    + intros H. split; auto. intros E. apply N. rewrite <- E. apply in_map; auto.
    + intros ([H|H] & E); auto. subst x. simpl in E. congruence.
  - simpl. rewrite IH by auto. split.
    + intros [H|(H1 & H2)]; [subst x; split; [auto|simpl; congruence]|auto].
    + intros ([H|H] & E); auto.
Qed.
Lemma ddel_NoDup : forall A (d : list (string * A)) k, NoDup (map fst d) -> NoDup (map fst (ddel String.eqb k d)).
Proof.
  induction d as [|[k' v'] d IH]; intros k ND; simpl; auto. simpl in ND. inversion ND as [|? ? N ND']; subst.
  destruct (String.eqb k k'); auto. simpl. constructor; auto. intros H. apply N.
  apply in_map_iff in H as (x & E & H). apply ddel_In in H as (H & _); auto. rewrite <- E. apply in_map; auto.
Qed.
Lemma ddel_keys : forall A (d : list (string * A)) k x, NoDup (map fst d) ->
  In x (map fst (ddel String.eqb k d)) <-> In x (map fst d) /\ x <> k.
Proof.
  intros A d k x ND. rewrite !in_map_iff. split.
  - intros (y & E & H). apply ddel_In in H as (H & N); auto. subst x. eauto.
  - intros ((y & E & H) & N). exists y. split; auto. apply ddel_In; auto. split; congruence.
Qed.
Lemma dset_keys_same : forall A (d : list (string * A)) k v, In k (map fst d) -> map fst (dset String.eqb k v d) = map fst d.
Proof. intros A d k v H. rewrite (dset_keys String.eqb String.eqb_spec). apply (dmem_In String.eqb String.eqb_spec) in H. rewrite H; auto. Qed.

Definition all_km (s : list (string * kmeta)) : Prop := forall k x, In (k, x) s -> exists n, x = KM (Some n).
Lemma in_memory_km : forall d, all_km (in_memory d).
Proof. intros d k x H. apply in_map_iff in H as (p & E & _). inversion E; eauto. Qed.
Lemma in_memory_keys : forall d, map fst (in_memory d) = map fst d.
Proof. intros. unfold in_memory. rewrite map_map. reflexivity. Qed.
Lemma dset_km : forall s k n, all_km s -> all_km (dset String.eqb k (KM (Some n)) s).
Proof. intros s k n H k' x X. apply (dset_In String.eqb String.eqb_spec) in X as [(_ & ->)|X]; eauto. Qed.

Lemma join_key_km : forall s m k, NoDup (map fst s) -> In k (map fst s) -> all_km s -> all_km m ->
  exists s', join_key s m k = Ok s' /\ all_km s' /\ NoDup (map fst s') /\
    (In k (map fst m) -> map fst s' = map fst s) /\ (~ In k (map fst m) -> s' = ddel String.eqb k s).
Proof.
  intros s m k ND K Hs Hm. unfold join_key. destruct (dget String.eqb k m) as [new|] eqn:E.
  - pose proof (dget_In String.eqb String.eqb_spec _ _ E) as E'. assert (Km : In k (map fst m)) by (apply (in_map fst) in E'; auto).
    destruct (Hm _ _ E') as (n & ->).
    destruct (dget String.eqb k s) as [old|] eqn:D.
    2:{ apply (proj1 (dget_None String.eqb String.eqb_spec _ _)) in D. contradiction. }
    pose proof (dget_In String.eqb String.eqb_spec _ _ D) as D'. destruct (Hs _ _ D') as (o & ->). simpl.
    destruct (o <? n).
    + eexists. split; [reflexivity|]. split; [apply dset_km; auto|]. rewrite dset_keys_same by auto. repeat split; auto. contradiction.
    + eexists. split; [reflexivity|]. repeat split; auto. contradiction.
  - apply (proj1 (dget_None String.eqb String.eqb_spec _ _)) in E. eexists. split; [reflexivity|]. split; [|split; [apply ddel_NoDup; auto|split; [contradiction|auto]]].
    intros k' x X. apply ddel_In in X as (X & _); eauto.
Qed.

Lemma join_keys_km : forall ks s m, NoDup (map fst s) -> NoDup ks -> (forall k, In k ks -> In k (map fst s)) -> all_km s -> all_km m ->
  exists s', join_keys s m ks = Ok s' /\ all_km s' /\ NoDup (map fst s') /\
    forall x, In x (map fst s') <-> In x (map fst s) /\ (In x ks -> In x (map fst m)).
Proof.
  induction ks as [|k ks IH]; intros s m ND NDk Sub Hs Hm.
  - exists s. simpl. repeat split; auto; tauto.
  - inversion NDk as [|? ? Nk NDk']; subst. cbn [join_keys].
    destruct (join_key_km s m k ND (Sub k (or_introl eq_refl)) Hs Hm) as (s1 & E & H1 & N1 & A & B). rewrite E. cbn [bind].
    assert (Keys : forall x, In x (map fst s1) <-> In x (map fst s) /\ (x = k -> In x (map fst m))).
    { intros x. destruct (in_dec string_dec k (map fst m)) as [Y|Y].
      - rewrite A by auto. split; [intros; split; auto; intros ->; auto|tauto].
      - rewrite B by auto. rewrite ddel_keys by auto. split.
        + intros (X & N). split; auto. congruence.
        + intros (X & N). split; auto. intros ->. apply Y. auto. }
    destruct (IH s1 m N1 NDk') as (s' & E' & H' & N' & K'); auto.
    { intros x X. apply Keys. split; [apply Sub; simpl; auto|]. intros ->. contradiction. }
    exists s'. split; auto. split; auto. split; auto. intros x. rewrite K', Keys. simpl. split.
    + intros ((P & Q) & R). split; auto. intros [<-|X]; auto.
    + intros (P & Q). repeat split; auto.
Qed.

Lemma dupdate_nil : forall A (m : list (string * A)), NoDup (map fst m) -> dupdate String.eqb [] m = m.
Proof. intros. apply (dupdate_fresh String.eqb String.eqb_spec). auto. Qed.

Lemma check_ok : forall s strip, all_km s -> check_structural s strip = Ok tt.
Proof.
  intros s strip H. unfold check_structural. destruct strip; auto.
  assert (E : exists l, mapM (fun p => km_aliases (snd p)) s = Ok l).
  { induction s as [|[k x] s IH]; simpl; eauto. destruct (H k x) as (n & ->); [simpl; auto|]. simpl.
    destruct IH as (l & ->); [intros k' x' X; eapply H; simpl; eauto|]. simpl. eauto. }
  destruct E as (l & ->). auto.
Qed.
Lemma keys_ok : forall s, all_km s -> structural_keys s = Ok (map fst s).
Proof.
  intros s H. unfold structural_keys.
  assert (E : exists l, mapM (fun p => match snd p with KM _ => Ok tt | TM _ => Err AttributeError end) s = Ok l).
  { induction s as [|[k x] s IH]; simpl; eauto. destruct (H k x) as (n & ->); [simpl; auto|]. simpl.
    destruct IH as (l & ->); [intros k' x' X; eapply H; simpl; eauto|]. simpl. eauto. }
  destruct E as (l & ->). auto.
Qed.

Lemma load_common : forall strip ds s k0, NoDup (map fst s) -> all_km s -> In k0 (map fst s) ->
  Forall (fun d => NoDup (map fst d) /\ In k0 (map fst d)) ds ->
  exists s', load_structural strip s (map in_memory ds) = Ok s' /\ all_km s' /\ NoDup (map fst s') /\
    forall x, In x (map fst s') <-> In x (map fst s) /\ forall d, In d ds -> In x (map fst d).
Proof.
  induction ds as [|d ds IH]; intros s k0 ND Hs K F; simpl.
  - exists s. repeat split; auto; tauto.
  - inversion F as [|? ? (NDd & Kd) F']; subst. unfold join_structural.
    destruct s as [|p s0] eqn:Es; [contradiction|]. rewrite <- Es in *.
    destruct (join_keys_km (map fst s) s (in_memory d)) as (s1 & E & H1 & N1 & K1); auto; [apply in_memory_km|].
    rewrite E. cbn [bind]. rewrite check_ok by auto. cbn [bind].
    destruct (IH s1 k0) as (s' & E' & H' & N' & K'); auto.
    { apply K1. rewrite in_memory_keys. auto. }
    exists s'. split; auto. split; auto. split; auto. intros x. rewrite K', K1, in_memory_keys. split.
    + intros ((A & B) & C). split; auto. intros d' [<-|X]; auto.
    + intros (A & B). repeat split; auto.
Qed.

(** The in-memory inputs of a recipe of unknown config, provided they have a key in
    common: the keys merged are exactly the common ones. *)
Theorem C34_structural_keys_partial : forall strip ds k0,
  ds <> [] -> Forall (fun d => NoDup (map fst d)) ds -> (forall d, In d ds -> In k0 (map fst d)) ->
  exists ks, merge_structural strip (map in_memory ds) = Ok ks /\ NoDup ks /\
    forall k, In k ks <-> forall d, In d ds -> In k (map fst d).
Proof.
  intros strip ds k0 NE F K. destruct ds as [|d ds]; [congruence|]. clear NE. inversion F as [|? ? ND F']; subst.
  unfold merge_structural. simpl. rewrite dupdate_nil by (rewrite in_memory_keys; auto).
  rewrite check_ok by apply in_memory_km. cbn [bind].
  destruct (load_common strip ds (in_memory d) k0) as (s' & E & H & N & K'); auto.
  - rewrite in_memory_keys; auto.
  - apply in_memory_km.
  - rewrite in_memory_keys. apply K; simpl; auto.
  - apply Forall_forall. intros x X. rewrite Forall_forall in F'. split; auto. apply K; simpl; auto.
  - rewrite E. cbn [bind]. rewrite keys_ok by auto. exists (map fst s'). split; auto. split; auto.
    intros k. rewrite K', in_memory_keys. split.
    + intros (A & B) x [<-|X]; auto.
    + intros A. split; [apply A; simpl; auto|]. intros; apply A; simpl; auto.
Qed.
Print Assumptions C34_structural_keys_partial.

(** Without a common key it fails: the third input restarts the intersection. *)
Theorem C34_structural_keys_refuted :
  ~ (forall strip ds, ds <> [] -> Forall (fun d => NoDup (map fst d)) ds ->
     exists ks, merge_structural strip (map in_memory ds) = Ok ks /\
       forall k, In k ks <-> forall d, In d ds -> In k (map fst d)).
Proof.
  intros H. destruct (H true [[("a", 1)]; [("b", 1)]; [("c", 1)]]) as (ks & E & K); [discriminate|repeat constructor; simpl; tauto|].
  vm_compute in E. inversion E; subst ks. destruct (proj1 (K "c")) with (d := [("a", 1)]) as [X|[]]; simpl; auto. discriminate.
Qed.
Print Assumptions C34_structural_keys_refuted.

Example ex_C34 : merge_structural true (map in_memory [[("a", 1); ("b", 4); ("c", 2)]; [("c", 2); ("b", 8)]; [("b", 1); ("a", 1)]]) = Ok ["b"].
Proof. reflexivity. Qed.

(** ** C62 *)
Definition all_tm (s : list (string * kmeta)) : Prop := forall k x, In (k, x) s -> exists n, x = TM n.
Lemma from_file_tm : forall d, all_tm (from_file d).
Proof. intros d k x H. apply in_map_iff in H as (p & E & _). inversion E; eauto. Qed.

Lemma join_key_tm : forall s m k s', all_tm s -> all_tm m -> join_key s m k = Ok s' -> all_tm s'.
Proof.
  intros s m k s' Hs Hm H. unfold join_key in H. destruct (dget String.eqb k m) as [new|] eqn:E.
  - destruct (dget String.eqb k s) as [old|] eqn:D; [|discriminate].
    pose proof (dget_In String.eqb String.eqb_spec _ _ E) as E'. destruct (Hm _ _ E') as (n & ->).
    destruct (km_shape old) eqn:So; [destruct n|].
    + simpl in H. discriminate.
    + simpl in H. inversion H; subst; auto.
    + inversion H; subst. intros k' x X. apply (dset_In String.eqb String.eqb_spec) in X as [(_ & ->)|X]; eauto.
  - inversion H; subst. clear -Hs. induction s as [|[k' x'] s IH]; simpl; [intros ? ? []|].
    destruct (String.eqb k k'); [intros ? ? X; eapply Hs; simpl; eauto|].
    intros k2 x2 [X|X]; [inversion X; subst; eapply Hs; simpl; eauto|]. eapply IH; eauto. intros ? ? Y; eapply Hs; simpl; eauto.
Qed.
Lemma join_keys_tm : forall ks s m s', all_tm s -> all_tm m -> join_keys s m ks = Ok s' -> all_tm s'.
Proof.
  induction ks as [|k ks IH]; intros s m s' Hs Hm H; simpl in H; [inversion H; subst; auto|].
  apply bind_Ok in H as (s1 & H1 & H). eapply IH; [|exact Hm|exact H]. eapply join_key_tm; [exact Hs|exact Hm|exact H1].
Qed.
Lemma load_tm : forall strip ds s s', all_tm s -> load_structural strip s (map from_file ds) = Ok s' -> all_tm s'.
Proof.
  induction ds as [|d ds IH]; intros s s' Hs H; simpl in H; [inversion H; subst; auto|].
  apply bind_Ok in H as (s1 & H1 & H). apply bind_Ok in H as (u & _ & H). eapply IH; [|exact H].
  unfold join_structural in H1. destruct s as [|p s].
  - inversion H1; subst. clear. intros k x X.
    assert (G : forall l acc, all_tm l -> all_tm acc -> all_tm (dupdate String.eqb acc l)).
    { induction l as [|[k1 x1] l IHl]; intros acc Hl Ha; [exact Ha|]. unfold dupdate in *. simpl. apply IHl.
      - intros ? ? Y; eapply Hl; simpl; eauto.
      - intros k2 x2 Y. apply (dset_In String.eqb String.eqb_spec) in Y as [(_ & ->)|Y]; eauto. eapply Hl; simpl; eauto. }
    eapply G; [apply from_file_tm| |exact X]. intros ? ? [].
  - eapply join_keys_tm; [exact Hs|apply from_file_tm|exact H1].
Qed.

(** No key of model files of unknown config is ever merged: either the merge raises, or
    (files without common keys, [omit_extra_keys=False]) the result is empty. *)
Theorem C62_unknown_files_refuted :
  (forall strip files ks, merge_structural strip (map from_file files) = Ok ks -> ks = []) /\
  (forall strip file, file <> [] -> NoDup (map fst file) -> merge_structural strip [from_file file] = Err AttributeError).
Proof.
  split.
  - intros strip files ks H. unfold merge_structural in H. apply bind_Ok in H as (s & H1 & H).
    apply load_tm in H1; [|intros ? ? []]. unfold structural_keys in H. apply bind_Ok in H as (l & H & E).
    destruct s as [|[k x] s]; [inversion E; auto|]. destruct (H1 k x (or_introl eq_refl)) as (n & ->). discriminate.
  - intros strip file NE ND. unfold merge_structural. simpl.
    assert (NDf : NoDup (map fst (from_file file))) by (unfold from_file; rewrite map_map; exact ND).
    rewrite dupdate_nil by auto. destruct file as [|[k n] file]; [congruence|]. destruct strip; reflexivity.
Qed.
Print Assumptions C62_unknown_files_refuted.

(** ** C29 *)
Lemma add_key_In : forall k l x, In x (add_key k l) <-> x = k \/ In x l.
Proof.
  intros k l x. unfold add_key. destruct (mem k l) eqn:E.
  - apply mem_In in E. split; [auto|]. intros [->|H]; auto.
  - rewrite in_app_iff. simpl. intuition.
Qed.
Lemma add_all_In : forall l acc x, In x (fold_left (fun acc k => add_key k acc) l acc) <-> In x l \/ In x acc.
Proof.
  induction l as [|k l IH]; intros acc x; simpl; [tauto|]. rewrite IH, add_key_In. intuition.
Qed.
Lemma without_In : forall l del x, In x (without l del) <-> In x l /\ ~ In x del.
Proof. intros. unfold without. rewrite filter_In, negb_true_iff, mem_false. tauto. Qed.

(** earlier merges only ever take EMA keys out of a config's metadata, and only merges with
    both options do *)
Lemma cache_keys : forall h c, (forall x, In x h -> m_id (mc_cfg x) = m_id c -> mc_cfg x = c) ->
  (forall k, In k (metadata (after h) c) -> In k (all_keys c)) /\
  (forall k, In k (all_keys c) -> ~ In k (ema_keys c) -> In k (metadata (after h) c)) /\
  ((forall x, In x h -> mc_cfg x = c -> mc_omit_extra x = true -> mc_omit_ema x = false) ->
     forall k, In k (all_keys c) -> In k (metadata (after h) c)).
Proof.
  intros h c. induction h as [|x h IH] using rev_ind; intros Same.
  - unfold after, metadata; simpl. auto.
  - unfold after in *. rewrite fold_left_app. simpl. set (st := fold_left (fun (st : caches) (x : call) => snd (merge_keys st x)) h []) in *.
    assert (SameH : forall y, In y h -> m_id (mc_cfg y) = m_id c -> mc_cfg y = c) by (intros; apply Same; auto; rewrite in_app_iff; auto).
    specialize (IH SameH). destruct IH as (I1 & I2 & I3).
    destruct (String.eqb_spec (m_id c) (m_id (mc_cfg x))) as [E|N].
    + assert (Ec : mc_cfg x = c) by (apply Same; auto; rewrite in_app_iff; simpl; auto).
      unfold merge_keys. rewrite Ec. destruct (mc_omit_extra x) eqn:Ox; cbn [snd]; unfold metadata at 1 3 5;
        rewrite (dget_dset String.eqb String.eqb_spec), String.eqb_refl.
      * split; [|split].
        -- intros k H. apply without_In in H as (H & _). auto.
        -- intros k A B. apply without_In. split; auto. destruct (mc_omit_ema x); auto.
        -- intros H k A. apply without_In. split; [apply I3; auto; intros y Y; apply H; rewrite in_app_iff; auto|].
           rewrite (H x); auto. rewrite in_app_iff; simpl; auto.
      * split; [auto|]. split; auto. intros H. apply I3. intros y Y. apply H. rewrite in_app_iff; auto.
    + assert (Em : metadata (snd (merge_keys st x)) c = metadata st c).
      { unfold merge_keys, metadata at 1. destruct (mc_omit_extra x); cbn [snd];
          rewrite (dget_dset String.eqb String.eqb_spec), (proj2 (String.eqb_neq _ _) N); reflexivity. }
      rewrite Em. split; [auto|]. split; auto. intros H. apply I3. intros y Y. apply H. rewrite in_app_iff; auto.
Qed.

(** The keys a merge works on are those of a fresh process when it omits EMA keys itself, or
    when no earlier merge of the same config omitted both extra keys and EMA keys. *)
Theorem C29_history_partial : forall h x,
  (forall y, In y h -> m_id (mc_cfg y) = m_id (mc_cfg x) -> mc_cfg y = mc_cfg x) ->
  (mc_omit_ema x = true \/
   forall y, In y h -> mc_cfg y = mc_cfg x -> mc_omit_extra y = true -> mc_omit_ema y = false) ->
  forall k, In k (fst (merge_keys (after h) x)) <-> In k (fst (merge_keys [] x)).
Proof.
  intros h x Same H k. destruct (cache_keys h (mc_cfg x) Same) as (I1 & I2 & I3).
  assert (Fresh : metadata [] (mc_cfg x) = all_keys (mc_cfg x)) by reflexivity.
  assert (M : ~ In k (if mc_omit_ema x then ema_keys (mc_cfg x) else []) ->
              In k (metadata (after h) (mc_cfg x)) <-> In k (all_keys (mc_cfg x))).
  { intros N. split; auto. intros A. destruct H as [H|H]; [|auto]. rewrite H in N. auto. }
  unfold merge_keys. rewrite Fresh. destruct (mc_omit_extra x); cbn [fst]; rewrite !without_In.
  - split; intros (A & B); split; auto; apply M; auto.
  - rewrite !add_all_In, !in_app_iff. split; intros (A & B); split; auto; destruct A as [[A|A]|[]]; auto; left; right; apply M; auto.
Qed.
Print Assumptions C29_history_partial.

Definition emaCfg := MCfg "sd1-ldm" [("unet", ["u1"; "u2"]); ("ema", ["e1"])].
(** a merge with default options, then one that asks for the EMA keys: they are gone *)
Theorem C29_history_refuted :
  ~ (forall h x,
       (forall y, In y h -> m_id (mc_cfg y) = m_id (mc_cfg x) -> mc_cfg y = mc_cfg x) ->
       forall k, In k (fst (merge_keys (after h) x)) <-> In k (fst (merge_keys [] x))).
Proof.
  intros H. specialize (H [MCall emaCfg true true []] (MCall emaCfg true false [])).
  destruct (H (fun y Y _ => match Y with or_introl E => f_equal mc_cfg (eq_sym E) | or_intror f => match f with end end) "e1") as (_ & X).
  vm_compute in X. destruct X as [X|[X|[]]]; try discriminate. auto.
Qed.
Print Assumptions C29_history_refuted.

Example ex_C29 :
  let h := [MCall emaCfg true false []; MCall emaCfg false true ["x"]] in
  fst (merge_keys (after h) (MCall emaCfg true false [])) = ["u1"; "u2"; "e1"] /\
  fst (merge_keys (after h) (MCall emaCfg false true ["x"; "u2"])) = ["x"; "u2"; "u1"].
Proof. split; reflexivity. Qed.
