(** Reasoning about finite key lists, for any configs: each conversion is
    reduced to boolean checks over the entries of two configs. *)
From Coq Require Import String Ascii List Bool Arith NArith Lia.
From Verif Require Import Base PyStr Dec ModelKeys ModelKeyConv SpecKeys.
From Verif Require Export Index.
Import ListNotations.
Open Scope string_scope.
Open Scope list_scope.
Open Scope nat_scope.

(** ** Finite checks *)
Definition shape_eqb (a b : list N) : bool := if list_eq_dec N.eq_dec a b then true else false.
Lemma shape_eqb_eq : forall a b, shape_eqb a b = true -> a = b.
Proof. intros a b; unfold shape_eqb; destruct list_eq_dec; congruence. Qed.

Lemma existsb_In : forall x l, existsb (String.eqb x) l = true <-> In x l.
Proof.
  intros x l; rewrite existsb_exists; split.
  - intros (y & Hy & E); apply String.eqb_eq in E; subst; auto.
  - intros H; exists x; split; auto; apply String.eqb_refl.
Qed.
Lemma NoDup_map_inj : forall {A B} (f : A -> B) l a b,
  NoDup (map f l) -> In a l -> In b l -> f a = f b -> a = b.
Proof.
  induction l as [|x l IH]; simpl; intros a b ND Ha Hb E; [tauto|].
  inversion ND as [|? ? Hn ND']; subst.
  destruct Ha as [Ha|Ha], Hb as [Hb|Hb]; subst; auto.
  - exfalso; apply Hn; rewrite E; apply in_map; auto.
  - exfalso; apply Hn; rewrite <- E; apply in_map; auto.
Qed.

Lemma find_entry_Some : forall c k e, find_entry c k = Some e -> In e (entries c) /\ ke_key e = k.
Proof.
  intros c k e H; unfold find_entry in H. apply find_some in H as (H & E).
  apply String.eqb_eq in E; auto.
Qed.
Lemma find_entry_None : forall c k, find_entry c k = None -> ~ In k (keys c).
Proof.
  intros c k H Hin; unfold keys in Hin. apply in_map_iff in Hin as (e & E & Hin).
  unfold find_entry in H. pose proof (find_none _ _ H e Hin) as N.
  simpl in N. subst k; rewrite String.eqb_refl in N; discriminate.
Qed.
(** the entries of a config by key *)
Definition entry_index (c : yaml_config) : tree key_entry := index ke_key (entries c).
Lemma entry_index_find : forall c k, lookup (entry_index c) k = find_entry c k.
Proof. intros c k; unfold entry_index, find_entry. apply lookup_index. Qed.

Lemma follows_find : forall A c (sd : state_dict A) k e,
  follows c sd -> find_entry c k = Some e -> exists t, sd k = Ok t /\ t_shape t = ke_shape e.
Proof.
  intros A c sd k e (H & _) F. apply find_entry_Some in F as (Hin & E). subst k; auto.
Qed.
Lemma follows_absent : forall A c (sd : state_dict A) k,
  follows c sd -> find_entry c k = None -> sd k = Err (StateDictKeyError k).
Proof. intros A c sd k (_ & H) F; apply H, find_entry_None, F. Qed.

Lemma zeros_follows : forall c, nodupb (keys c) = true -> follows c (zeros c).
Proof.
  intros c ND; apply nodupb_NoDup in ND; split.
  - intros e He. unfold zeros. destruct (find_entry c (ke_key e)) as [f|] eqn:F.
    + eexists; split; [reflexivity|]. simpl. apply find_entry_Some in F as (Hf & E).
      assert (f = e) by (apply (NoDup_map_inj ke_key (entries c)); auto). subst; auto.
    + exfalso; apply (find_entry_None _ _ F). apply in_map; auto.
  - intros k Hk; unfold zeros. destruct (find_entry c k) as [f|] eqn:F; auto.
    exfalso; apply Hk. apply find_entry_Some in F as (Hf & E). subst k; apply in_map; auto.
Qed.

Lemma same_entries_refl : forall A (t : tensor A), same_entries t t.
Proof.
  intros A t; exists 0; simpl; rewrite app_nil_r; split; auto.
  intros idx _; rewrite app_nil_r; auto.
Qed.
Lemma same_entries_reshape : forall A (t : tensor A), same_entries t (reshape_for_sd t).
Proof.
  intros A t; unfold reshape_for_sd. destruct (negb (length (t_shape t) =? 1)); [|apply same_entries_refl].
  exists 2; simpl; split; auto. intros idx E. rewrite <- E, firstn_app, Nat.sub_diag, firstn_all; simpl.
  rewrite app_nil_r; auto.
Qed.

Lemma bind_ret : forall A (r : result A), r = let* t := r in Ok t.
Proof. intros A [a|e]; reflexivity. Qed.

(** every key of [ks] outside [skip] occurs in [srcs] *)
Definition all_used (skip srcs ks : list string) : bool :=
  let used := names srcs in
  forallb (fun k => existsb (String.eqb k) skip || is_in used k) ks.
Lemma all_used_In : forall skip srcs ks k, all_used skip srcs ks = true -> In k ks -> ~ In k skip -> In k srcs.
Proof.
  intros skip srcs ks k H Hk N. unfold all_used in H. cbv zeta in H.
  apply (proj1 (forallb_forall _ _)) with (x := k) in H; auto.
  apply orb_prop in H as [H|H]; [apply existsb_In in H | apply is_in_names in H]; tauto.
Qed.

(** the required entries outside [skip] that satisfy [p] *)
Definition selected (p : string -> bool) (skip : list string) (e : key_entry) : bool :=
  negb (ke_optional e) && p (ke_key e) && negb (existsb (String.eqb (ke_key e)) skip).
Definition selection (p : string -> bool) (skip : list string) (c : yaml_config) : list string :=
  map ke_key (filter (selected p skip) (entries c)).

Lemma selection_In : forall p skip c k,
  In k (selection p skip c) <-> required c k /\ p k = true /\ ~ In k skip.
Proof.
  intros p skip c k; unfold selection; rewrite in_map_iff; split.
  - intros (e & E & H). apply filter_In in H as (He & S). unfold selected in S.
    apply andb_prop in S as (S & S3). apply andb_prop in S as (S1 & S2).
    repeat split.
    + exists e; repeat split; auto. destruct (ke_optional e); auto; discriminate.
    + subst k; auto.
    + intros Hin. rewrite E in S3. apply existsb_In in Hin. rewrite Hin in S3; discriminate.
  - intros ((e & He & E & O) & P & N). exists e; split; auto.
    apply filter_In; split; auto. unfold selected. rewrite O, E, P; simpl.
    destruct (existsb (String.eqb k) skip) eqn:X; auto. apply existsb_In in X; tauto.
Qed.

Definition reshaped_shape (r : bool) (sh : list N) : list N :=
  if r && negb (length sh =? 1) then sh ++ [1%N; 1%N] else sh.
Definition entry_maps (find : string -> option key_entry) (source : string -> string * bool) (e : key_entry) : bool :=
  let (s, r) := source (ke_key e) in
  match find s with
  | Some f => shape_eqb (reshaped_shape r (ke_shape f)) (ke_shape e)
  | None => false
  end.
(** every selected entry maps *)
Definition all_map (src : yaml_config) (source : string -> string * bool) (p : string -> bool) (skip : list string) (dst : yaml_config) : bool :=
  let ix := entry_index src in
  forallb (entry_maps (lookup ix) source) (filter (selected p skip) (entries dst)).

Lemma reshape_shape : forall A (t : tensor A) (r : bool),
  t_shape (if r then reshape_for_sd t else t) = reshaped_shape r (t_shape t).
Proof.
  intros A t [|]; unfold reshape_for_sd, reshaped_shape; simpl; auto.
  destruct (negb (length (t_shape t) =? 1)); auto.
Qed.

Theorem keys_map : forall src source p skip dst k,
  all_map src source p skip dst = true -> required dst k -> p k = true -> ~ In k skip ->
  In (fst (source k)) (keys src) /\
  forall A (sd : state_dict A), follows src sd ->
    exists t, sd (fst (source k)) = Ok t /\
      declared_shape dst k (t_shape (if snd (source k) then reshape_for_sd t else t)).
Proof.
  intros src source p skip dst k H (e & He & E & O) P N.
  unfold all_map in H. cbv zeta in H. pose proof (proj1 (forallb_forall _ _) H e) as OK.
  assert (Hs : In e (filter (selected p skip) (entries dst))).
  { apply filter_In; split; auto. unfold selected. rewrite O, E, P; simpl.
    destruct (existsb (String.eqb k) skip) eqn:X; auto. apply existsb_In in X; tauto. }
  specialize (OK Hs). unfold entry_maps in OK. rewrite E in OK.
  destruct (source k) as [s0 r0] eqn:S. rewrite entry_index_find in OK. cbn [fst snd].
  destruct (find_entry src s0) as [f|] eqn:F; [|discriminate].
  apply shape_eqb_eq in OK. split.
  - apply find_entry_Some in F as (Hf & Ef). rewrite <- Ef. apply in_map; auto.
  - intros A sd Fo. destruct (follows_find _ _ _ _ _ Fo F) as (t & Ht & Sh).
    exists t; split; auto. exists e; repeat split; auto. rewrite reshape_shape, Sh; auto.
Qed.

Theorem sources_distinct : forall (source : string -> string) p skip dst k k',
  nodupb (map source (selection p skip dst)) = true ->
  required dst k -> p k = true -> ~ In k skip ->
  required dst k' -> p k' = true -> ~ In k' skip ->
  source k = source k' -> k = k'.
Proof.
  intros source p skip dst k k' ND R P N R' P' N' E.
  apply (NoDup_map_inj source (selection p skip dst)); auto.
  - apply nodupb_NoDup; auto.
  - apply selection_In; auto.
  - apply selection_In; auto.
Qed.

Theorem sources_all : forall (source : string -> string) p skip skip' src dst s,
  all_used skip' (map source (selection p skip dst)) (keys src) = true ->
  In s (keys src) -> ~ In s skip' ->
  exists k, required dst k /\ p k = true /\ ~ In k skip /\ source k = s.
Proof.
  intros source p skip skip' src dst s H Hs N.
  pose proof (all_used_In _ _ _ _ H Hs N) as U. apply in_map_iff in U as (k & E & Hk).
  apply selection_In in Hk as (? & ? & ?). exists k; auto.
Qed.

(** entries of [dst] satisfying [q] read a key that [src] does not declare *)
Definition all_missing (src : yaml_config) (source : string -> string) (q : key_entry -> bool) (dst : yaml_config) : bool :=
  let ix := entry_index src in
  forallb (fun e => negb (q e) || match lookup ix (source (ke_key e)) with Some _ => false | None => true end) (entries dst).
Theorem keys_missing : forall src source q dst e,
  all_missing src source q dst = true -> In e (entries dst) -> q e = true ->
  ~ In (source (ke_key e)) (keys src) /\
  forall A (sd : state_dict A), follows src sd ->
    sd (source (ke_key e)) = Err (StateDictKeyError (source (ke_key e))).
Proof.
  intros src source q dst e H He Q. unfold all_missing in H. cbv zeta in H.
  apply (proj1 (forallb_forall _ _)) with (x := e) in H; auto. rewrite Q in H; simpl in H.
  rewrite entry_index_find in H. destruct (find_entry src (source (ke_key e))) eqn:F; [discriminate|].
  split; [apply find_entry_None; auto|]. intros A sd Fo. apply follows_absent with (c := src); auto.
Qed.

(** membership with attributes, decided *)
Definition has_entry (c : yaml_config) (k : string) (sh : list N) (opt : bool) : bool :=
  match find_entry c k with
  | Some e => shape_eqb (ke_shape e) sh && Bool.eqb (ke_optional e) opt
  | None => false
  end.
Lemma has_entry_shape : forall c k sh opt, has_entry c k sh opt = true -> declared_shape c k sh.
Proof.
  intros c k sh opt H; unfold has_entry in H. destruct (find_entry c k) as [e|] eqn:F; [|discriminate].
  apply andb_prop in H as (S & _). apply shape_eqb_eq in S. apply find_entry_Some in F as (He & E).
  exists e; auto.
Qed.
Lemma has_entry_required : forall c k sh, has_entry c k sh false = true -> required c k.
Proof.
  intros c k sh H; unfold has_entry in H. destruct (find_entry c k) as [e|] eqn:F; [|discriminate].
  apply andb_prop in H as (_ & S). apply eqb_prop in S. apply find_entry_Some in F as (He & E).
  exists e; auto.
Qed.

Lemma NoDup_app_tail : forall A (l l' : list A), NoDup (l ++ l') -> NoDup l'.
Proof. induction l as [|x l IH]; simpl; intros l' H; auto. inversion H; auto. Qed.
Lemma NoDup_flat_map_disjoint : forall A B (f : A -> list B) l a b s,
  NoDup (flat_map f l) -> In a l -> In b l -> In s (f a) -> In s (f b) -> a = b.
Proof.
  induction l as [|x l IH]; simpl; intros a b s ND Ha Hb Sa Sb; [tauto|].
  pose proof (NoDup_app_tail _ _ _ ND) as ND2.
  assert (Dis : forall y, In y (f x) -> In y (flat_map f l) -> False).
  { clear - ND. induction (f x) as [|z zs IHz]; simpl in *; intros y Hy Hl; [tauto|].
    inversion ND as [|? ? Hn ND']; subst. destruct Hy as [Hy|Hy].
    - subst. apply Hn. apply in_or_app; auto.
    - eapply IHz; eauto. }
  destruct Ha as [Ha|Ha], Hb as [Hb|Hb]; subst; auto.
  - exfalso; apply (Dis s); auto. apply in_flat_map; eauto.
  - exfalso; apply (Dis s); auto. apply in_flat_map; eauto.
  - apply (IH a b s); auto.
Qed.
