(** Re-creating nodes: paths, literals, merge nodes. *)
From Coq Require Import String Ascii List Bool Arith NArith ZArith Lia.
From Verif Require Import Base Dec Json PyStr ModelRecipe ModelSerial SpecRecipe SerialProofs1.
Import ListNotations.
Open Scope string_scope.
Open Scope list_scope.
Open Scope nat_scope.

(** ** paths *)
Lemma filter_idem : forall A (f : A -> bool) l, filter f (filter f l) = filter f l.
Proof.
  intros A f l. apply filter_all. apply forallb_forall. intros x Hx. apply filter_In in Hx. tauto.
Qed.

Definition parts_ok (P : list chars) : Prop := forall p, In p P -> ~ In "/"%char p /\ path_part_ok p = true.

Lemma path_root_parts : forall r P, r = [] \/ r = ["/"%char] \/ r = ["/"%char; "/"%char] -> parts_ok P ->
  path_root (r ++ join ["/"%char] P) = r.
Proof.
  intros r P Hr HP.
  assert (J : P = [] \/ exists c l, join ["/"%char] P = c :: l /\ c <> "/"%char).
  { destruct P as [|p P]; auto. right. destruct (HP p (or_introl eq_refl)) as (H1 & H2).
    destruct p as [|c p]; [discriminate|]. assert (c <> "/"%char) by (intros ->; apply H1; left; auto).
    destruct P; simpl; eauto. }
  destruct J as [->|(c & l & -> & Hc)].
  - destruct Hr as [->|[->| ->]]; reflexivity.
  - assert (X : forall k, path_root (c :: l) = k -> k = []).
    { intros k <-. destruct c as [[] [] [] [] [] [] [] []]; try reflexivity; congruence. }
    assert (Y : path_root (c :: l) = []) by (apply X with (k := path_root (c :: l)); auto).
    destruct Hr as [->|[->| ->]]; simpl app; auto;
    destruct c as [[] [] [] [] [] [] [] []]; try reflexivity; congruence.
Qed.

Lemma split_root : forall r P, r = [] \/ r = ["/"%char] \/ r = ["/"%char; "/"%char] -> parts_ok P ->
  filter path_part_ok (split_on "/"%char (r ++ join ["/"%char] P)) = P.
Proof.
  intros r P Hr HP.
  assert (F : filter path_part_ok P = P) by (apply filter_all, forallb_forall; intros x Hx; apply HP; auto).
  assert (S0 : filter path_part_ok (split_on "/"%char (join ["/"%char] P)) = P).
  { destruct P as [|p P]; [reflexivity|]. rewrite split_join; auto; [discriminate|]. intros x Hx; apply HP; auto. }
  destruct Hr as [->|[->| ->]]; simpl; auto.
Qed.

Lemma path_norm_idem : forall l, path_norm (path_norm l) = path_norm l.
Proof.
  intros l. unfold path_norm at 2 3.
  assert (Hr : path_root l = [] \/ path_root l = ["/"%char] \/ path_root l = ["/"%char; "/"%char]).
  { destruct l as [|a l]; auto. assert (C : a = "/"%char \/ path_root (a :: l) = []).
    { destruct (ascii_dec a "/"%char); auto. right. destruct a as [[] [] [] [] [] [] [] []]; try reflexivity; congruence. }
    destruct C as [->|C]; auto. destruct l as [|b l]; auto.
    destruct (ascii_dec b "/"%char) as [->|Hb].
    2: { right; left. destruct b as [[] [] [] [] [] [] [] []]; try reflexivity; congruence. }
    destruct l as [|c l]; auto.
    destruct (ascii_dec c "/"%char) as [->|Hc]; auto.
    right; right. destruct c as [[] [] [] [] [] [] [] []]; try reflexivity; congruence. }
  assert (HP : parts_ok (filter path_part_ok (split_on "/"%char l))).
  { intros p Hp. apply filter_In in Hp as (Hp & H). split; auto. apply split_on_parts in Hp. auto. }
  set (P := filter path_part_ok (split_on "/"%char l)) in *. set (r := path_root l) in *. clearbody P r.
  pose proof (path_root_parts r P Hr HP) as E1. pose proof (split_root r P Hr HP) as E2.
  destruct (r ++ join ["/"%char] P) as [|c x] eqn:E.
  - reflexivity.
  - unfold path_norm. rewrite E1, E2, E. reflexivity.
Qed.

(** ** dictionaries *)
Notation sdget := (dget String.eqb).
Notation sdmem := (dmem String.eqb).
Notation supd := (dupdate String.eqb).

Lemma dupdate_app : forall V (d a b : list (string * V)), supd d (a ++ b) = supd (supd d a) b.
Proof. intros. unfold dupdate. apply fold_left_app. Qed.

Lemma dset_skip : forall V k (v : V) p d, ~ In k (map fst p) -> dset String.eqb k v (p ++ d) = p ++ dset String.eqb k v d.
Proof.
  induction p as [|[k0 v0] p IH]; intros d H; simpl; auto. simpl in H.
  destruct (String.eqb_spec k k0); [exfalso; subst; auto|]. rewrite IH; auto.
Qed.

Lemma dupdate_replace : forall V (x d p : list (string * V)), map fst x = map fst d -> NoDup (map fst (p ++ x)) ->
  supd (p ++ d) x = p ++ x.
Proof.
  induction x as [|[k v] x IH]; intros d p Hk Hd.
  - destruct d; [reflexivity|discriminate].
  - destruct d as [|[k0 v0] d]; [discriminate|]. simpl in Hk. injection Hk; intros Hk' ->. rewrite map_app in Hd. simpl in Hd.
    assert (Hn : ~ In k0 (map fst p)).
    { intros X. apply NoDup_remove_2 in Hd. apply Hd. apply in_app_iff; auto. }
    change (supd (p ++ (k0, v0) :: d) ((k0, v) :: x)) with (supd (dset String.eqb k0 v (p ++ (k0, v0) :: d)) x).
    rewrite dset_skip by auto. simpl dset. rewrite String.eqb_refl.
    replace (p ++ (k0, v) :: d) with ((p ++ [(k0, v)]) ++ d) by (rewrite <- app_assoc; reflexivity).
    rewrite IH; auto.
    + rewrite <- app_assoc. reflexivity.
    + rewrite <- app_assoc, map_app. exact Hd.
Qed.

Lemma dupdate_self : forall V (x d : list (string * V)) ks, map fst x = map fst d ++ ks -> NoDup (map fst x) -> supd d x = x.
Proof.
  intros V x d ks Hk Hd.
  set (x1 := firstn (length d) x). set (x2 := skipn (length d) x).
  assert (E : x = x1 ++ x2) by (symmetry; apply firstn_skipn).
  assert (K1 : map fst x1 = map fst d).
  { unfold x1. rewrite <- firstn_map, Hk. rewrite <- (map_length fst d). apply firstn_app_exact. }
  rewrite E, dupdate_app. rewrite E in Hd.
  assert (U : supd ([] ++ d) x1 = [] ++ x1).
  { apply dupdate_replace; auto. simpl. rewrite map_app in Hd. apply NoDup_app_iff in Hd. tauto. }
  simpl in U. rewrite U. apply (dupdate_fresh String.eqb String.eqb_spec); auto.
Qed.

Lemma dupdate_keys : forall V (e d : list (string * V)), exists ks, map fst (supd d e) = map fst d ++ ks /\ (forall k, In k ks -> In k (map fst e)).
Proof.
  induction e as [|[k v] e IH]; intros d; simpl.
  - exists []. rewrite app_nil_r. split; auto.
  - change (supd d ((k, v) :: e)) with (supd (dset String.eqb k v d) e).
    destruct (IH (dset String.eqb k v d)) as (ks & E & H). rewrite E, (dset_keys String.eqb String.eqb_spec).
    destruct (sdmem k d); [exists ks; split; auto|].
    exists (k :: ks). rewrite <- app_assoc. split; auto. intros k' [<-|Hk]; auto.
Qed.

Lemma dupdate_NoDup : forall V (e d : list (string * V)), NoDup (map fst d) -> NoDup (map fst (supd d e)).
Proof.
  induction e as [|[k v] e IH]; intros d H; auto.
  change (supd d ((k, v) :: e)) with (supd (dset String.eqb k v d) e). apply IH. apply (dset_NoDup String.eqb String.eqb_spec); auto.
Qed.

(** ** map over results *)
Lemma map_res_F2 : forall A B (f : A -> result B) l r, map_res f l = Ok r <-> Forall2 (fun x y => f x = Ok y) l r.
Proof.
  induction l as [|x l IH]; intros r; split; intros H.
  - inversion H; constructor.
  - inversion H; reflexivity.
  - simpl in H. apply bind_Ok in H as (y & Hy & H). apply bind_Ok in H as (ys & Hys & H). inversion H; subst.
    constructor; auto. apply IH; auto.
  - inversion H as [|? y ? ys Hy Hys]; subst. simpl. rewrite Hy. simpl. apply IH in Hys. rewrite Hys. reflexivity.
Qed.

(** ** value_to_node *)
Definition unbare (v : pyobj) : pyobj := match v with VLit w None _ => w | _ => v end.

Lemma value_to_node_is_node : forall E v b n, value_to_node E v b = Ok n -> is_node n = true.
Proof.
  intros E v b n H. unfold value_to_node in H. destruct (is_node v) eqn:Ev; [inversion H; subst; auto|].
  apply bind_Ok in H as (u & _ & H).
  assert (L : forall w c s, mk_literal E w c s = Ok n -> is_node n = true).
  { intros w c s Hm. unfold mk_literal in Hm.
    assert (F : forall c s, Ok (VLit w c match s with Some x => x | None => "param" end) = Ok n -> is_node n = true).
    { intros c1 s1 X; inversion X; auto. }
    destruct w; eauto. destruct l as [|[k first] l]; eauto. destruct (is_node first); eauto.
    apply bind_Ok in Hm as (c1 & _ & Hm). apply bind_Ok in Hm as (s1 & _ & Hm). apply bind_Ok in Hm as (cs & _ & Hm).
    destruct (negb _) in Hm; [discriminate|]. apply bind_Ok in Hm as (ss & _ & Hm). destruct (negb _) in Hm; [discriminate|].
    inversion Hm; auto. }
  destruct v; eauto. destruct b; inversion H; auto.
Qed.

Lemma value_to_node_node : forall E v b, is_node v = true -> value_to_node E v b = Ok v.
Proof. intros E v b H. unfold value_to_node. rewrite H. auto. Qed.

Lemma value_to_node_any : forall E w b b' c s, value_to_node E w b = Ok (VLit w c s) -> value_to_node E w b' = Ok (VLit w c s).
Proof.
  intros E w b b' c s H. destruct w; auto. unfold value_to_node in *. simpl in *. destruct b; inversion H.
Qed.

Lemma unbare_back : forall E v b, is_node v = true -> made E v -> value_to_node E (unbare v) b = Ok v.
Proof.
  intros E v b Hn Hm. destruct v; try discriminate; try (apply value_to_node_node; reflexivity).
  destruct cfg as [c|]; [apply value_to_node_node; reflexivity|].
  simpl in *. destruct Hm as (t & Ht). eapply value_to_node_any; eauto.
Qed.

(** ** merge nodes *)
Lemma first_index_none : forall V names (kw : list (string * V)) i,
  (forall n, In n names -> ~ In n (map fst kw)) -> first_index names kw i = None.
Proof.
  induction names as [|n names IH]; intros kw i H; simpl; auto.
  destruct (sdmem n kw) eqn:E.
  - apply (dmem_In String.eqb String.eqb_spec) in E. exfalso. apply (H n); auto. left; auto.
  - apply IH. intros m Hm; apply H; right; auto.
Qed.

Lemma sumb_zero : forall V names (kw : list (string * V)),
  (forall n, In n names -> ~ In n (map fst kw)) -> sumb (map (fun n => sdmem n kw) names) = 0.
Proof.
  induction names as [|n names IH]; intros kw H; simpl; auto.
  destruct (sdmem n kw) eqn:E.
  - apply (dmem_In String.eqb String.eqb_spec) in E. exfalso. apply (H n); auto. left; auto.
  - apply IH. intros m Hm; apply H; right; auto.
Qed.

Lemma bind_args_pos : forall args defaults fd kw names i,
  i + length names <= length args ->
  bind_args args defaults fd (length args) kw i names = Ok (firstn (length names) (skipn i args)).
Proof.
  induction names as [|n names IH]; intros i H; [reflexivity|].
  simpl in H. cbn [bind_args]. unfold bind_one. destruct (Nat.ltb_spec i (length args)); [|lia].
  destruct (nth_error args i) as [v|] eqn:E; [|apply nth_error_None in E; lia].
  cbn [bind]. rewrite IH by lia. cbn [bind].
  assert (S : skipn i args = v :: skipn (S i) args).
  { clear -E. revert i E. induction args as [|a args IHa]; intros [|i] E; simpl in *; try discriminate; [inversion E; auto|]. apply IHa; auto. }
  rewrite S. reflexivity.
Qed.

Lemma bind_args_length : forall args defaults fd fa kw names i r, bind_args args defaults fd fa kw i names = Ok r -> length r = length names.
Proof.
  induction names as [|n names IH]; intros i r H; simpl in H; [inversion H; auto|].
  apply bind_Ok in H as (v & _ & H). apply bind_Ok in H as (vs & Hv & H). inversion H; subst. simpl. f_equal. eauto.
Qed.

Lemma NoDup_filter_fst : forall V (f : string * V -> bool) l, NoDup (map fst l) -> NoDup (map fst (filter f l)).
Proof.
  induction l as [|x l IH]; intros H; simpl; auto. inversion H; subst. destruct (f x); simpl; auto.
  constructor; auto. intros X. apply H2. apply in_map_iff in X as (y & Ey & Hy). apply filter_In in Hy as (Hy & _).
  rewrite <- Ey. apply in_map; auto.
Qed.

(** what a successful binding looks like *)
Lemma bind_call_shape : forall g args kwargs args' kw', sig_ok g -> bind_call g args kwargs = Ok (args', kw') ->
  length (g_args g) <= length args' /\ (g_vararg g = None -> length args' = length (g_args g)) /\
  NoDup (map fst kw') /\
  (exists ks, map fst kw' = map fst (g_kwdefaults g) ++ ks) /\
  (forall k, In k (map fst kw') <-> In k (map fst (g_kw g))).
Proof.
  intros g args kwargs args' kw' (S1 & S2 & S3 & S4) H. unfold bind_call in H.
  destruct (_ || _) eqn:Eb in H; [discriminate|].
  apply bind_Ok in H as (bound & Hb & H).
  set (kw := filter _ kwargs) in *.
  destruct (forallb (fun kv => sdmem (fst kv) (g_kw g)) kw) eqn:E1; [|discriminate]. simpl negb in H. cbv iota in H.
  destruct (forallb (fun kp => sdmem (fst kp) kw || sdmem (fst kp) (g_kwdefaults g)) (g_kw g)) eqn:E2; [|discriminate].
  simpl negb in H. cbv iota in H. inversion H; subst args' kw'; clear H.
  pose proof (bind_args_length _ _ _ _ _ _ _ _ Hb) as Lb. rewrite map_length in Lb.
  split; [rewrite app_length; lia|]. split.
  - intros Hv. rewrite app_length, skipn_length, map_length. apply orb_false_iff in Eb as (_ & Eb). rewrite Hv in Eb.
    apply Nat.ltb_ge in Eb. rewrite map_length in Eb. lia.
  - split; [apply dupdate_NoDup; auto|]. destruct (dupdate_keys _ kw (g_kwdefaults g)) as (ks & Ek & Hk).
    split; [eauto|]. intros k. rewrite Ek, in_app_iff. split.
    + intros [X|X].
      * apply in_map_iff in X as ((k0 & v0) & <- & X). eapply S4; eauto.
      * apply Hk in X. apply in_map_iff in X as ((k0 & v0) & <- & X). rewrite forallb_forall in E1.
        apply E1 in X. apply (dmem_In String.eqb String.eqb_spec) in X. auto.
    + intros X. apply in_map_iff in X as ((k0 & p0) & <- & X). rewrite forallb_forall in E2. apply E2 in X. simpl in *.
      rewrite <- in_app_iff, <- Ek. apply orb_true_iff in X as [X|X].
      * apply (dmem_In String.eqb String.eqb_spec) in X.
        assert (G : forall V (e d : list (string * V)) k, In k (map fst e) \/ In k (map fst d) -> In k (map fst (supd d e))).
        { induction e as [|[k1 v1] e IH]; intros d k [A|A]; simpl in A; try tauto; auto;
          change (supd d ((k1, v1) :: e)) with (supd (dset String.eqb k1 v1 d) e); apply IH.
          - destruct A as [<-|A]; auto. right. rewrite (dset_keys String.eqb String.eqb_spec).
            destruct (sdmem k1 d) eqn:D; [apply (dmem_In String.eqb String.eqb_spec) in D; auto|apply in_app_iff; right; left; auto].
          - right. rewrite (dset_keys String.eqb String.eqb_spec). destruct (sdmem k1 d); auto. apply in_app_iff; auto. }
        apply G. auto.
      * apply (dmem_In String.eqb String.eqb_spec) in X. rewrite Ek. apply in_app_iff; auto.
Qed.

(** binding arguments of such a shape again changes nothing *)
Lemma bind_call_again : forall g args kw, sig_ok g ->
  length (g_args g) <= length args -> (g_vararg g = None -> length args = length (g_args g)) ->
  NoDup (map fst kw) -> (exists ks, map fst kw = map fst (g_kwdefaults g) ++ ks) ->
  (forall k, In k (map fst kw) <-> In k (map fst (g_kw g))) ->
  bind_call g args kw = Ok (args, kw).
Proof.
  intros g args kw (S1 & S2 & S3 & S4) L1 L2 ND (ks & Ek) K.
  assert (Dis : forall n, In n (map fst (g_args g)) -> ~ In n (map fst kw)).
  { intros n Hn Hk. apply K in Hk. apply NoDup_app_iff in S1. destruct S1 as (_ & _ & S1). apply (S1 n); auto. }
  unfold bind_call. rewrite first_index_none by auto. rewrite sumb_zero by auto. rewrite map_length, Nat.add_0_r.
  assert (B : (length args <? length (g_args g) - length (g_defaults g))
              || match g_vararg g with None => length (g_args g) <? length args | Some _ => false end = false).
  { apply orb_false_iff. split; [apply Nat.ltb_ge; lia|]. destruct (g_vararg g); auto. apply Nat.ltb_ge. rewrite L2; auto. }
  rewrite B, bind_args_pos by (rewrite map_length; lia). rewrite map_length. simpl skipn at 1. cbn [bind].
  rewrite firstn_skipn.
  assert (F : filter (fun kv => negb (mem_str (fst kv) (map fst (g_args g)))) kw = kw).
  { apply filter_all, forallb_forall. intros (k & v) Hk. simpl. apply negb_true_iff. unfold mem_str.
    destruct (existsb _ _) eqn:Ee; auto. apply existsb_exists in Ee as (n & Hn & En). apply String.eqb_eq in En; subst n.
    exfalso. apply (Dis k Hn). apply (in_map fst) in Hk; auto. }
  rewrite F.
  assert (E1 : forallb (fun kv => sdmem (fst kv) (g_kw g)) kw = true).
  { apply forallb_forall. intros (k & v) Hk. apply (dmem_In String.eqb String.eqb_spec). apply K. apply (in_map fst) in Hk; auto. }
  rewrite E1. simpl negb. cbv iota.
  assert (E2 : forallb (fun kp => sdmem (fst kp) kw || sdmem (fst kp) (g_kwdefaults g)) (g_kw g) = true).
  { apply forallb_forall. intros (k & p) Hk. apply orb_true_iff; left. apply (dmem_In String.eqb String.eqb_spec). apply K.
    apply (in_map fst) in Hk; auto. }
  rewrite E2. simpl negb. cbv iota. rewrite (dupdate_self _ kw (g_kwdefaults g) ks); auto.
Qed.

Lemma F2_length : forall A B (R : A -> B -> Prop) l r, Forall2 R l r -> length l = length r.
Proof. induction 1; simpl; auto. Qed.

Lemma Forall2_map_l' : forall A B C (f : A -> B) (R : B -> C -> Prop) l r, Forall2 (fun x y => R (f x) y) l r -> Forall2 R (map f l) r.
Proof. induction 1; simpl; constructor; auto. Qed.

Lemma create_recipe_again : forall E m g args0 kwargs0 args kw, sig_ok g ->
  create_recipe E m g args0 kwargs0 = Ok (VMerge m args kw) ->
  (forall a, In a args -> made E a) -> (forall k a, In (k, a) kw -> made E a) ->
  create_recipe E m g (map unbare args) (map (fun ka => (fst ka, unbare (snd ka))) kw) = Ok (VMerge m args kw).
Proof.
  intros E m g args0 kwargs0 args kw Sg H Ma Mk. unfold create_recipe in H.
  apply bind_Ok in H as ((a1 & k1) & Hb & H). simpl fst in H; simpl snd in H.
  apply bind_Ok in H as (na & Hna & H). apply bind_Ok in H as (nk & Hnk & H).
  apply bind_Ok in H as (sa & Hsa & H). apply bind_Ok in H as (sk & Hsk & H). apply bind_Ok in H as (sp & Hsp & H).
  inversion H; subst na nk; clear H.
  destruct (bind_call_shape _ _ _ _ _ Sg Hb) as (L1 & L2 & ND & (ks & Ek) & K).
  unfold convert_args in Hna. apply map_res_F2 in Hna.
  unfold convert_kwargs in Hnk. apply map_res_F2 in Hnk.
  assert (Lav : length a1 <= length (args_varargs (map snd (g_args g)) (g_vararg g) (length a1))).
  { unfold args_varargs. rewrite app_length, map_length. destruct (g_vararg g); [rewrite repeat_length; lia|]. rewrite L2; auto. simpl. lia. }
  assert (La : length args = length a1).
  { apply F2_length in Hna. rewrite combine_length in Hna. lia. }
  assert (Na : forall a, In a args -> is_node a = true).
  { clear -Hna. induction Hna; intros a []; subst; eauto using value_to_node_is_node. }
  assert (Kk : map fst kw = map fst k1).
  { clear -Hnk. induction Hnk as [|[k v] [k' v'] ? ? X ? IH]; simpl; auto. f_equal; auto.
    destruct (sdget (fst (k, v)) (g_kw g)); [|discriminate]. apply bind_Ok in X as (n & _ & X). inversion X; auto. }
  assert (Nk : forall k a, In (k, a) kw -> is_node a = true).
  { clear -Hnk. induction Hnk as [|[k v] [k' v'] ? ? X ? IH]; intros k0 a []; eauto.
    destruct (sdget (fst (k, v)) (g_kw g)); [|discriminate]. apply bind_Ok in X as (n & Hv & X). inversion H; inversion X; subst; subst.
    eauto using value_to_node_is_node. }
  unfold create_recipe.
  rewrite bind_call_again; auto.
  2: { rewrite map_length. lia. }
  2: { rewrite map_length. intros X; rewrite La; auto. }
  2: { rewrite map_map. simpl. change (map (fun x : string * pyobj => fst x) kw) with (map fst kw). rewrite Kk; auto. }
  2: { exists ks. rewrite map_map. change (map (fun x : string * pyobj => fst (fst x, unbare (snd x))) kw) with (map fst kw). congruence. }
  2: { intros k. rewrite map_map. change (map (fun x : string * pyobj => fst (fst x, unbare (snd x))) kw) with (map fst kw). rewrite Kk; apply K. }
  cbn [bind fst snd].
  assert (Ca : convert_args E g (map unbare args) = Ok args).
  { unfold convert_args. rewrite map_length, La. apply map_res_F2.
    assert (G : forall l ps, length l <= length ps -> (forall a, In a l -> is_node a = true /\ made E a) ->
      Forall2 (fun (x : pyobj * param) y => value_to_node E (fst x) (p_tensor (snd x)) = Ok y) (combine (map unbare l) ps) l).
    { induction l as [|a l IH]; intros ps Hl Hm; [constructor|]. destruct ps as [|p ps]; [simpl in Hl; lia|].
      simpl. constructor.
      - destruct (Hm a (or_introl eq_refl)). apply unbare_back; auto.
      - apply IH; [simpl in Hl; lia|]. intros x Hx; apply Hm; right; auto. }
    apply G; [lia|]. auto. }
  rewrite Ca. cbn [bind].
  assert (Ck : convert_kwargs E g (map (fun ka => (fst ka, unbare (snd ka))) kw) = Ok kw).
  { unfold convert_kwargs. apply map_res_F2.
    assert (G : forall l, (forall k a, In (k, a) l -> is_node a = true /\ made E a /\ In k (map fst (g_kw g))) ->
      Forall2 (fun (kv y : string * pyobj) => match sdget (fst kv) (g_kw g) with
                     | None => Err KeyError
                     | Some p => let* n := value_to_node E (snd kv) (p_tensor p) in Ok (fst kv, n)
                     end = Ok y) (map (fun ka => (fst ka, unbare (snd ka))) l) l).
    { induction l as [|(k & a) l IH]; intros Hm; constructor.
      - destruct (Hm k a (or_introl eq_refl)) as (H1 & H2 & H3). simpl.
        destruct (sdget k (g_kw g)) eqn:Eg; [|apply (dget_None String.eqb String.eqb_spec) in Eg; tauto].
        rewrite unbare_back; auto.
      - apply IH. intros x y Hx; apply Hm; right; auto. }
    apply G. intros k a Hk. repeat split; eauto. apply K. rewrite <- Kk. apply (in_map fst) in Hk; auto. }
  rewrite Ck. cbn [bind]. rewrite Hsa, Hsk. cbn [bind]. rewrite Hsp. reflexivity.
Qed.

(** ** literals *)
Lemma mk_literal_again : forall E w c0 s0 c s, mk_literal E w c0 s0 = Ok (VLit w (Some c) s) ->
  mk_literal E w (Some c) (Some s) = Ok (VLit w (Some c) s).
Proof.
  intros E w c0 s0 c s H. unfold mk_literal in *.
  destruct w; auto. destruct l as [|(k & first) l]; auto. destruct (is_node first) eqn:En; auto.
  apply bind_Ok in H as (c1 & Hc & H). apply bind_Ok in H as (s1 & Hs & H). apply bind_Ok in H as (cs & Hcs & H).
  destruct (forallb (fun kc => ostr_eqb (snd kc) c1) cs) eqn:F1; [|discriminate].
  apply bind_Ok in H as (ss & Hss & H).
  destruct (forallb (fun ks => String.eqb (snd ks) s1) ss) eqn:F2; [|discriminate].
  simpl negb in H. cbv iota in H.
  assert (c1 = Some c) by congruence. subst c1.
  cbn [bind]. rewrite Hs. cbn [bind]. rewrite Hcs. cbn [bind]. rewrite F1. simpl negb. cbv iota.
  rewrite Hss. cbn [bind]. rewrite F2. reflexivity.
Qed.
