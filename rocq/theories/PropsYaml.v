(** C82: writing a model config to YAML and reading it back. *)
From Coq Require Import String List Bool.
From Verif Require Import Base ModelConfigs ModelYaml.
Import ListNotations.
Open Scope string_scope.
Open Scope list_scope.

(** ** What a description of a config means, without the code's functions *)
Definition key_described (is_dtype : string -> bool) (k : keymeta) (p : plain) : Prop :=
  exists l, p = PMap l /\
    dget String.eqb "shape" l = Some (match k_shape k with Some s => PList (map PInt s) | None => PNone end) /\
    dget String.eqb "dtype" l = Some (match k_dtype k with Some d => PStr d | None => PNone end) /\
    (forall d, k_dtype k = Some d -> is_dtype d = true) /\
    (dget String.eqb "aliases" l = Some (PList (map PStr (k_aliases k))) \/ (dget String.eqb "aliases" l = None /\ k_aliases k = [])) /\
    (dget String.eqb "optional" l = Some (PBool (k_optional k)) \/ (dget String.eqb "optional" l = None /\ k_optional k = false)) /\
    (forall n v, In (n, v) l -> In n ["shape"; "dtype"; "aliases"; "optional"]).
Definition component_described is_dtype (c : component) (p : plain) : Prop :=
  exists l, p = PMap l /\ Forall2 (fun kc kp => fst kc = fst kp /\ key_described is_dtype (snd kc) (snd kp)) c l.
Definition config_described is_dtype (c : config) (p : plain) : Prop :=
  exists l comps, p = PMap l /\ dget String.eqb "identifier" l = Some (PStr (cf_identifier c)) /\ dget String.eqb "components" l = Some (PMap comps) /\
    (forall n v, In (n, v) l -> In n ["identifier"; "components"]) /\
    Forall2 (fun kc kp => fst kc = fst kp /\ component_described is_dtype (snd kc) (snd kp)) (cf_components c) comps.

Lemma known_iff : forall names l, (forall n v, In (n, v) l -> In n names) -> known names l = true.
Proof.
  intros names l H. unfold known. apply forallb_forall. intros (n, v) I. apply existsb_exists. exists n. split; [eapply H; eauto|apply String.eqb_refl].
Qed.
Lemma as_nats_map : forall l, as_nats (map PInt l) = Ok l.
Proof. unfold as_nats. induction l as [|x l IH]; simpl; auto. rewrite IH. auto. Qed.
Lemma as_strs_map : forall l, as_strs (map PStr l) = Ok l.
Proof. unfold as_strs. induction l as [|x l IH]; simpl; auto. rewrite IH. auto. Qed.
Lemma load_key_ok : forall is_dtype k p, key_described is_dtype k p -> load_key is_dtype p = Ok k.
Proof.
  intros is_dtype [s d al o] p (l & -> & S & D & T & A & O & K). cbn [k_shape k_dtype k_aliases k_optional] in *. unfold load_key. rewrite (known_iff _ l K). cbn [negb]. rewrite S, D.
  assert (load_shape (match s with Some s => PList (map PInt s) | None => PNone end) = Ok s) as ->.
  { destruct s; simpl; auto. rewrite as_nats_map. auto. }
  simpl. assert (load_dtype is_dtype (match d with Some d => PStr d | None => PNone end) = Ok d) as ->.
  { destruct d; simpl; auto. rewrite (T s0) by auto. auto. }
  simpl. destruct A as [-> | (-> & ->)]; [rewrite as_strs_map|]; simpl; destruct O as [-> | (-> & ->)]; auto.
Qed.
Lemma load_items_ok : forall A (f : plain -> result A) (P : A -> plain -> Prop), (forall a p, P a p -> f p = Ok a) ->
  forall c l, Forall2 (fun kc kp => fst kc = fst kp /\ P (snd kc) (snd kp)) c l -> load_items f l = Ok c.
Proof.
  intros A f P H c l F. induction F as [|(n, a) (n', p) c l (E & Q) F IH]; simpl in *; auto.
  subst. rewrite (H a p Q). simpl. rewrite IH. auto.
Qed.

(** Reading gives the config described: its identifier, its components and their keys in order, each with
    its shape, dtype, aliases and whether it is optional. *)
Theorem C82_load : forall is_dtype c p, config_new (cf_identifier c) = Ok (cf_identifier c) -> config_described is_dtype c p ->
  from_plain is_dtype p = Ok c.
Proof.
  intros is_dtype [id cs] p V (l & comps & -> & I & C & K & F). cbn [cf_identifier cf_components] in *. unfold from_plain. rewrite (known_iff _ l K). cbn [negb]. rewrite I, C, V. simpl.
  erewrite load_items_ok with (P := component_described is_dtype); eauto. 2: { intros c p (m & -> & G). simpl. eapply load_items_ok; [apply load_key_ok|auto]. }
  reflexivity.
Qed.
(** an identifier that is not of the form architecture-implementation is refused *)
Theorem C82_identifier : forall is_dtype c p e, config_new (cf_identifier c) = Err e -> config_described is_dtype c p -> from_plain is_dtype p = Err ValueError.
Proof.
  intros is_dtype [id cs] p e V (l & comps & -> & I & C & K & F). cbn [cf_identifier cf_components] in *. unfold from_plain. rewrite (known_iff _ l K). cbn [negb]. rewrite I, C.
  unfold config_new in *. destruct (fullmatch ident_re (s2l id)); [discriminate|reflexivity].
Qed.

(** The keys of a config are those of its components, each once; a key of several components has what
    the last of them says; when no key is in two, they come in the order of the components. *)
Definition all_keys (c : config) : list (string * keymeta) := concat (map snd (cf_components c)).
Lemma dupdate_nil : forall V (l : list (string * V)), NoDup (map fst l) -> dupdate String.eqb [] l = l.
Proof. intros V l H. exact (dupdate_fresh String.eqb String.eqb_spec l [] H). Qed.
Lemma dupdate_nodup : forall V (e d : list (string * V)), NoDup (map fst d) -> NoDup (map fst (dupdate String.eqb d e)).
Proof. intros V e. induction e as [|x e IH]; intros d H; auto. apply IH. apply (dset_NoDup String.eqb String.eqb_spec). auto. Qed.
Lemma dget_app : forall V k (d e : list (string * V)), dget String.eqb k (d ++ e) = match dget String.eqb k d with Some v => Some v | None => dget String.eqb k e end.
Proof. intros V k d e. induction d as [|(k0 & v0) d IH]; simpl; auto. destruct (String.eqb k k0); auto. Qed.
Lemma dget_dupdate : forall V k (e d : list (string * V)),
  dget String.eqb k (dupdate String.eqb d e) = match dget String.eqb k (rev e) with Some v => Some v | None => dget String.eqb k d end.
Proof.
  intros V k e. induction e as [|(k0 & v0) e IH]; intros d; [reflexivity|]. unfold dupdate in *. cbn [fold_left fst snd rev]. rewrite IH, dget_app.
  destruct (dget String.eqb k (rev e)); auto. rewrite (dget_dset String.eqb String.eqb_spec). simpl. destruct (String.eqb k k0); auto.
Qed.
Lemma flat_map_nodup : forall l : list (string * component), (forall n x, In (n, x) l -> NoDup (map fst x)) ->
  flat_map (fun p => dupdate String.eqb [] (snd p)) l = concat (map snd l).
Proof.
  induction l as [|(n & x) l IH]; intros H; [reflexivity|]. simpl. rewrite dupdate_nil by (eapply H; left; reflexivity).
  rewrite IH; auto. intros m y Hy. eapply H. right; eauto.
Qed.
Theorem C82_keys : forall c, (forall n x, In (n, x) (cf_components c) -> NoDup (map fst x)) ->
  NoDup (map fst (config_keys c)) /\
  (forall k, dget String.eqb k (config_keys c) = dget String.eqb k (rev (all_keys c))) /\
  (NoDup (map fst (all_keys c)) -> config_keys c = all_keys c).
Proof.
  intros c H. unfold config_keys. rewrite (flat_map_nodup _ H). fold (all_keys c).
  split; [apply dupdate_nodup; constructor|]. split.
  - intros k. rewrite dget_dupdate. destruct (dget String.eqb k (rev (all_keys c))); auto.
  - intros N. apply dupdate_nil. auto.
Qed.
Example C82_keys_case : config_keys (Config "a-b" [("x", [("k", KeyMeta None None [] false); ("l", KeyMeta None None [] true)]); ("y", [("k", KeyMeta None None [] true)])]) =
  [("k", KeyMeta None None [] true); ("l", KeyMeta None None [] true)].
Proof. reflexivity. Qed.

(** ** Reading back what was written.  It holds for a config without components, *)
Theorem C82_round_trip_partial : forall is_dtype id, config_new id = Ok id ->
  exists p, to_plain (Config id []) = Ok p /\ from_plain is_dtype p = Ok (Config id []).
Proof. intros is_dtype id V. eexists. split; [reflexivity|]. simpl. rewrite V. reflexivity. Qed.
(** but writing raises ValueError for every config that has a component; *)
Theorem C82_write_refuted : forall c, cf_components c <> [] -> to_plain c = Err ValueError.
Proof. intros [id [|(n, k) cs]] H; [contradiction H; reflexivity|]. reflexivity. Qed.
(** and the metadata of a key is written without its aliases and without saying that it is optional, so
    that it comes back only if it has no aliases and is not optional. *)
Theorem C82_key_refuted : forall is_dtype k, (forall d, k_dtype k = Some d -> is_dtype d = true) ->
  exists p, serialize (keymeta_obj k) = Ok p /\ load_key is_dtype p = Ok (KeyMeta (k_shape k) (k_dtype k) [] false).
Proof.
  intros is_dtype [s d al o] T. simpl in *. exists (PMap [("shape", match s with Some s => PList (map PInt s) | None => PNone end); ("dtype", match d with Some d => PStr d | None => PNone end)]).
  split.
  - unfold keymeta_obj. assert (forall n g v, excluded (Field n None (ExFn g)) v = true) as X by (intros; apply orb_true_r).
    cbn -[excluded]. rewrite !X. destruct s, d; reflexivity.
  - apply load_key_ok. eexists. split; [reflexivity|]. simpl. repeat split; auto.
    intros n v [H|[H|[]]]; inversion H; auto.
Qed.

(** ** A case: the head of the file sd1-ldm.yaml *)
Definition pos_ids : plain := PMap [("shape", PList [PInt 1; PInt 77]); ("dtype", PStr "int64"); ("aliases", PList [PStr "embeddings.position_ids"]); ("optional", PBool true)].
Definition ldm : config := Config "sd1-ldm" [("clip_l", [("text_model.embeddings.position_ids", KeyMeta (Some [1; 77]) (Some "int64") ["embeddings.position_ids"] true)])].
Example C82_case : from_plain (String.eqb "int64") (PMap [("identifier", PStr "sd1-ldm"); ("components", PMap [("clip_l", PMap [("text_model.embeddings.position_ids", pos_ids)])])]) = Ok ldm /\
  to_plain ldm = Err ValueError /\ config_keys ldm = [("text_model.embeddings.position_ids", KeyMeta (Some [1; 77]) (Some "int64") ["embeddings.position_ids"] true)].
Proof. repeat split. Qed.
Example C82_described : config_described (String.eqb "int64") ldm (PMap [("identifier", PStr "sd1-ldm"); ("components", PMap [("clip_l", PMap [("text_model.embeddings.position_ids", pos_ids)])])]).
Proof.
  eexists _, _. split; [reflexivity|]. split; [reflexivity|]. split; [reflexivity|]. split.
  - intros n v [H|[H|[]]]; inversion H; simpl; auto.
  - repeat constructor. eexists. split; [reflexivity|]. repeat constructor. eexists. split; [reflexivity|]. simpl. repeat split; auto.
    + intros d E. inversion E. reflexivity.
    + intros n v [H|[H|[H|[H|[]]]]]; inversion H; simpl; auto.
Qed.

Print Assumptions C82_load.
Print Assumptions C82_identifier.
Print Assumptions C82_keys.
Print Assumptions C82_round_trip_partial.
Print Assumptions C82_write_refuted.
Print Assumptions C82_key_refuted.
