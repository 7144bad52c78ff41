(** C113: a path where a recipe is expected stands for the model it names - as an
    argument of a merge method, and nowhere else.  Read with ModelUse.v. *)
From Coq Require Import String Ascii List Bool Arith ZArith Lia.
From Verif Require Import Base Dec Json PyStr ModelRecipe ModelSerial ModelOps SerialProofs2 PropsRecipe ModelWrap PropsWrap ModelUse.
Import ListNotations.
Open Scope string_scope.
Open Scope list_scope.
Open Scope nat_scope.

(** [w] is [v], or the model that the path [v] names *)
Inductive or_model : pyobj -> pyobj -> Prop :=
| om_same : forall v, or_model v v
| om_path : forall p, or_model (VPath p) (VModel p None "weight").
Definition or_model_kw (a b : string * pyobj) : Prop := fst a = fst b /\ or_model (snd a) (snd b).

(** every parameter takes tensors *)
Definition all_tensors (g : sig) : Prop :=
  (forall n p, In (n, p) (g_args g) -> p_tensor p = true) /\
  (forall p, g_vararg g = Some p -> p_tensor p = true) /\
  (forall n p, In (n, p) (g_kw g) -> p_tensor p = true).

(** ** Binding moves the values about without looking at them *)
Definition same_res {A} (R : A -> A -> Prop) (x y : result A) : Prop :=
  match x, y with Ok a, Ok b => R a b | Err e, Err f => e = f | _, _ => False end.

Lemma kw_dget : forall k l l', Forall2 or_model_kw l l' ->
  match dget String.eqb k l, dget String.eqb k l' with Some v, Some w => or_model v w | None, None => True | _, _ => False end.
Proof.
  intros k l l' H; induction H as [|(x & v) (y & w) l l' (Hk & Hv) H IH]; simpl; auto.
  simpl in Hk; subst y. destruct (String.eqb k x); auto.
Qed.
Lemma kw_dmem : forall k l l', Forall2 or_model_kw l l' -> dmem String.eqb k l = dmem String.eqb k l'.
Proof.
  intros k l l' H. pose proof (kw_dget k l l' H) as D. unfold dmem.
  destruct (dget String.eqb k l), (dget String.eqb k l'); tauto.
Qed.
Lemma kw_first : forall names l l' i, Forall2 or_model_kw l l' -> first_index names l i = first_index names l' i.
Proof.
  induction names as [|n names IH]; intros l l' i H; simpl; auto. rewrite (kw_dmem n l l' H). destruct (dmem String.eqb n l'); auto.
Qed.
Lemma F2_nth_or : forall l l' i, Forall2 or_model l l' ->
  match nth_error l i, nth_error l' i with Some v, Some w => or_model v w | None, None => True | _, _ => False end.
Proof. intros l l' i H; revert i; induction H; intros [|i]; simpl; auto. apply IHForall2. Qed.
Lemma F2_same : forall l, Forall2 or_model l l.
Proof. induction l; constructor; auto using om_same. Qed.
Lemma F2_same_kw : forall l, Forall2 or_model_kw l l.
Proof. induction l; constructor; auto. split; auto using om_same. Qed.
Lemma F2_skipn : forall n l l', Forall2 or_model l l' -> Forall2 or_model (skipn n l) (skipn n l').
Proof. induction n as [|n IH]; intros l l' H; simpl; auto. destruct H; auto. Qed.

Lemma bind_one_or : forall args args' d fd fa kw kw' i n, Forall2 or_model args args' -> Forall2 or_model_kw kw kw' ->
  same_res or_model (bind_one args d fd fa kw i n) (bind_one args' d fd fa kw' i n).
Proof.
  intros args args' d fd fa kw kw' i n Ha Hk. unfold bind_one. destruct (i <? fa).
  - pose proof (F2_nth_or args args' i Ha) as H. destruct (nth_error args i), (nth_error args' i); simpl; tauto.
  - pose proof (kw_dget n kw kw' Hk) as H. destruct (dget String.eqb n kw), (dget String.eqb n kw'); try tauto.
    destruct (i <? fd); simpl; auto. destruct (nth_error d (i - fd)); simpl; auto using om_same.
Qed.
Lemma bind_args_or : forall args args' d fd fa kw kw' names i, Forall2 or_model args args' -> Forall2 or_model_kw kw kw' ->
  same_res (Forall2 or_model) (bind_args args d fd fa kw i names) (bind_args args' d fd fa kw' i names).
Proof.
  intros args args' d fd fa kw kw' names; induction names as [|n names IH]; intros i Ha Hk; simpl; auto.
  pose proof (bind_one_or args args' d fd fa kw kw' i n Ha Hk) as H1. specialize (IH (S i) Ha Hk).
  destruct (bind_one args d fd fa kw i n), (bind_one args' d fd fa kw' i n); simpl in *; try tauto.
  destruct (bind_args args d fd fa kw (S i) names), (bind_args args' d fd fa kw' (S i) names); simpl in *; try tauto.
  constructor; auto.
Qed.
Lemma kw_filter : forall (f : string -> bool) l l', Forall2 or_model_kw l l' ->
  Forall2 or_model_kw (filter (fun kv => f (fst kv)) l) (filter (fun kv => f (fst kv)) l').
Proof.
  intros f l l' H; induction H as [|(x & v) (y & w) l l' (Hk & Hv) H IH]; simpl; auto.
  simpl in Hk; subst y. destruct (f x); auto. constructor; auto. split; auto.
Qed.
Lemma kw_forallb : forall (f : string -> bool) l l', Forall2 or_model_kw l l' ->
  forallb (fun kv : string * pyobj => f (fst kv)) l = forallb (fun kv => f (fst kv)) l'.
Proof.
  intros f l l' H; induction H as [|(x & v) (y & w) l l' (Hk & Hv) H IH]; simpl; auto.
  simpl in Hk; subst y. rewrite IH; auto.
Qed.
Lemma kw_dset : forall k v w l l', or_model v w -> Forall2 or_model_kw l l' ->
  Forall2 or_model_kw (dset String.eqb k v l) (dset String.eqb k w l').
Proof.
  intros k v w l l' Hv H; induction H as [|(x & a) (y & b) l l' (Hk & Ha) H IH]; simpl.
  - constructor; auto. split; auto.
  - simpl in Hk; subst y. destruct (String.eqb k x); constructor; auto; split; auto.
Qed.
Lemma kw_dupdate : forall e e', Forall2 or_model_kw e e' -> forall d d', Forall2 or_model_kw d d' ->
  Forall2 or_model_kw (dupdate String.eqb d e) (dupdate String.eqb d' e').
Proof.
  unfold dupdate. intros e e' H; induction H as [|(x & a) (y & b) l l' (Hk & Ha) H IH]; intros d d' Hd; simpl; auto.
  simpl in Hk; subst y. apply IH, kw_dset; auto.
Qed.

Lemma bind_call_or : forall g args args' kw kw', Forall2 or_model args args' -> Forall2 or_model_kw kw kw' ->
  same_res (fun a b => Forall2 or_model (fst a) (fst b) /\ Forall2 or_model_kw (snd a) (snd b)) (bind_call g args kw) (bind_call g args' kw').
Proof.
  intros g args args' kw kw' Ha Hk. unfold bind_call.
  rewrite (kw_first _ kw kw' 0 Hk), (F2_length _ _ _ _ _ Ha).
  replace (map (fun n => dmem String.eqb n kw') (map fst (g_args g))) with (map (fun n => dmem String.eqb n kw) (map fst (g_args g)))
    by (apply map_ext; intros; apply kw_dmem; auto).
  set (fa := match first_index _ kw' 0 with Some _ => _ | None => _ end).
  destruct (_ || _); simpl; auto.
  pose proof (bind_args_or args args' (g_defaults g) (length (map fst (g_args g)) - length (g_defaults g)) fa kw kw' (map fst (g_args g)) 0 Ha Hk) as HB.
  destruct (bind_args args _ _ _ kw 0 _) as [b|], (bind_args args' _ _ _ kw' 0 _) as [b'|]; cbn in HB; try tauto. cbn [bind].
  pose proof (kw_filter (fun s => negb (mem_str s (map fst (g_args g)))) kw kw' Hk) as HF. cbv beta in HF.
  set (f := filter _ kw) in *. set (f' := filter _ kw') in *.
  rewrite (kw_forallb (fun s => dmem String.eqb s (g_kw g)) f f' HF).
  destruct (negb (forallb _ f')); simpl; auto.
  replace (forallb (fun kp : string * param => dmem String.eqb (fst kp) f || dmem String.eqb (fst kp) (g_kwdefaults g)) (g_kw g))
    with (forallb (fun kp : string * param => dmem String.eqb (fst kp) f' || dmem String.eqb (fst kp) (g_kwdefaults g)) (g_kw g))
    by (clear -HF; induction (g_kw g) as [|kp l IH]; simpl; auto; rewrite IH, (kw_dmem (fst kp) f f' HF); auto).
  destruct (negb (forallb _ (g_kw g))); simpl; auto. split.
  - apply Forall2_app; auto using F2_skipn.
  - apply kw_dupdate; auto using F2_same_kw.
Qed.

(** ** Conversion *)
Lemma convert_one : forall E v w t n, or_model v w -> value_to_node E v t = Ok n -> value_to_node E w t = Ok n.
Proof. intros E v w t n [u|p] H; auto. destruct t; [exact H|discriminate]. Qed.
Lemma convert_one_eq : forall E v w, or_model v w -> value_to_node E v true = value_to_node E w true.
Proof. intros E v w [u|p]; reflexivity. Qed.

(** A path given to a merge method, in any position and however many of them, builds
    the recipe that [model(path)] builds there. *)
Theorem C113_path_argument : forall E m g args args' kw kw' r,
  Forall2 or_model args args' -> Forall2 or_model_kw kw kw' ->
  create_recipe E m g args kw = Ok r -> create_recipe E m g args' kw' = Ok r.
Proof.
  intros E m g args args' kw kw' r Ha Hk H. unfold create_recipe in *.
  pose proof (bind_call_or g args args' kw kw' Ha Hk) as HB.
  destruct (bind_call g args kw) as [(a & k)|]; [|discriminate]. destruct (bind_call g args' kw') as [(a' & k')|]; [|destruct HB].
  cbn [bind fst snd] in *. destruct HB as (Ba & Bk). cbn [fst snd] in Ba, Bk.
  apply bind_Ok in H as (na & Hna & H). apply bind_Ok in H as (nk & Hnk & H).
  assert (Ca : convert_args E g a' = Ok na).
  { unfold convert_args in *. rewrite <- (F2_length _ _ _ _ _ Ba). clear -Ba Hna. revert Hna. generalize (args_varargs (map snd (g_args g)) (g_vararg g) (length a)).
    intros ps. revert ps na. induction Ba as [|v w a a' Hv Ba IH]; intros ps na Hna; simpl in *; auto.
    destruct ps as [|p ps]; simpl in *; auto. apply bind_Ok in Hna as (n & Hn & Hna). apply bind_Ok in Hna as (ns & Hns & Hna).
    rewrite (convert_one _ _ _ _ _ Hv Hn); cbn [bind]. rewrite (IH _ _ Hns). exact Hna. }
  assert (Ck : convert_kwargs E g k' = Ok nk).
  { unfold convert_kwargs in *. clear -Bk Hnk. revert nk Hnk. induction Bk as [|(x & v) (y & w) k k' (Hx & Hv) Bk IH]; intros nk Hnk; simpl in *; auto.
    subst y. destruct (dget String.eqb x (g_kw g)) as [p|]; [|discriminate].
    apply bind_Ok in Hnk as (n & Hn & Hnk). apply bind_Ok in Hn as (n' & Hn' & Hn). apply bind_Ok in Hnk as (ns & Hns & Hnk).
    rewrite (convert_one _ _ _ _ _ Hv Hn'); cbn [bind]. rewrite (IH _ Hns). injection Hn as <-. exact Hnk. }
  rewrite Ca; cbn [bind]. rewrite Ck; cbn [bind]. exact H.
Qed.

(** When every parameter takes tensors, giving paths and giving models is the same, errors included. *)
Theorem C113_path_argument_tensors : forall E m g args args' kw kw', all_tensors g ->
  Forall2 or_model args args' -> Forall2 or_model_kw kw kw' ->
  create_recipe E m g args kw = create_recipe E m g args' kw'.
Proof.
  intros E m g args args' kw kw' (T1 & T2 & T3) Ha Hk. unfold create_recipe.
  pose proof (bind_call_or g args args' kw kw' Ha Hk) as HB.
  destruct (bind_call g args kw) as [(a & k)|], (bind_call g args' kw') as [(a' & k')|]; simpl in HB; try tauto; [|subst; auto].
  cbn [bind fst snd]. destruct HB as (Ba & Bk).
  assert (Ca : convert_args E g a = convert_args E g a').
  { unfold convert_args. rewrite <- (F2_length _ _ _ _ _ Ba).
    assert (P : Forall (fun p => p_tensor p = true) (args_varargs (map snd (g_args g)) (g_vararg g) (length a))).
    { apply Forall_forall. intros p Hp. unfold args_varargs in Hp. apply in_app_or in Hp as [Hp|Hp].
      - apply in_map_iff in Hp as ((n & q) & <- & Hp). eauto.
      - destruct (g_vararg g) as [q|]; [|destruct Hp]. apply repeat_spec in Hp. subst; auto. }
    revert P. generalize (args_varargs (map snd (g_args g)) (g_vararg g) (length a)). clear -Ba.
    induction Ba as [|v w a a' Hv Ba IH]; intros ps P; simpl; auto. destruct P as [|p ps Pp P]; simpl; auto.
    rewrite Pp, (convert_one_eq E v w Hv). rewrite (IH ps P). reflexivity. }
  assert (Ck : convert_kwargs E g k = convert_kwargs E g k').
  { unfold convert_kwargs. clear -Bk T3. induction Bk as [|(x & v) (y & w) k k' (Hx & Hv) Bk IH]; simpl in *; auto.
    subst y. destruct (dget String.eqb x (g_kw g)) as [p|] eqn:D; auto.
    apply (dget_In String.eqb String.eqb_spec) in D. rewrite (T3 _ _ D), (convert_one_eq E v w Hv), IH. reflexivity. }
  rewrite Ca, Ck. reflexivity.
Qed.

(** In a parameter that does not take tensors, a path is refused. *)
Theorem C113_path_parameter : forall E p t n, value_to_node E (VPath p) t = Ok n <-> t = true /\ n = VModel p None "weight".
Proof.
  intros E p [|] n; simpl; split; try discriminate.
  - intros H; injection H as <-; auto.
  - intros (_ & ->); reflexivity.
  - intros (H & _); discriminate.
Qed.

(** Everywhere else a path is refused, although the annotations allow it: by the
    operators, by [merge] - as recipe or as fallback model - and by the wrappers. *)
Theorem C113_path_elsewhere_refuted : forall E p,
  (forall a, op_add E a (VPath p) = Err TypeError /\ op_sub E a (VPath p) = Err TypeError /\ op_or E a (VPath p) = Err TypeError /\
             op_radd E a (VPath p) = Err TypeError /\ op_rsub E a (VPath p) = Err TypeError /\ op_ror E a (VPath p) = Err TypeError) /\
  (forall f, merge_recipe E (VPath p) f = Err TypeError) /\
  (forall r, is_node r = true -> merge_recipe E r (VPath p) = Err TypeError) /\
  (forall b c alpha clamp, w_add_difference E (VPath p) b c alpha clamp = Err TypeError) /\
  (forall b c alpha, w_add_perpendicular E (VPath p) b c alpha = Err TypeError) /\
  (forall models alpha k, w_ties E (VPath p) models alpha k = Err TypeError) /\
  (forall models alpha opts, w_ties_extended E (VPath p) models alpha opts = Err TypeError) /\
  (forall b c width offset top_k, w_copy_region E (VPath p) b c width offset top_k = Err TypeError) /\
  (forall b c alignment alpha, w_rotate E (VPath p) b c alignment alpha = Err TypeError) /\
  (forall models cos_eps, w_model_stock E (VPath p) models cos_eps = Err TypeError).
Proof.
  intros E p. repeat split; try reflexivity. intros r Hr. unfold merge_recipe. rewrite operand_node by auto. reflexivity.
Qed.

(** [model(path)] is accepted in all these places; a path given as text is the same. *)
Theorem C113_model : forall E p, resolve_space E "weight" = Ok "weight" ->
  h_model E (VPath p) None (Some "weight") = Ok (VModel p None "weight") /\
  h_model E (VStr p) None (Some "weight") = Ok (VModel (l2s (path_norm (s2l p))) None "weight") /\
  merge_recipe E (VModel p None "weight") VNone = Ok (VModel p None "weight") /\
  (has_builtins E -> forall q, merge_recipe E (VModel p None "weight") (VModel q None "weight") =
     Ok (VMerge "fallback" [VModel p None "weight"; VModel q None "weight"] [])).
Proof.
  intros E p H. split; [|split; [|split]].
  - cbn. rewrite H. reflexivity.
  - cbn -[path_norm]. rewrite H. reflexivity.
  - reflexivity.
  - intros (_ & _ & B) q. unfold merge_recipe. cbn [operand]. unfold value_to_node. cbn [is_node bind].
    unfold op_or. cbn [operand]. unfold value_to_node. cbn [is_node bind]. unfold call. rewrite B. cbn [bind]. reflexivity.
Qed.

(** what [model] makes of its argument, with the config and the merge space it is given *)
Lemma resolve_config_same : forall E c c', resolve_opt (resolve_config E) c = Ok c' -> c' = c.
Proof.
  intros E [c|] c' H; simpl in H; [|injection H as <-; auto]. unfold resolve_config in H.
  destruct (existsb (String.eqb c) ("infer" :: e_configs E)); [|discriminate]. injection H as <-. auto.
Qed.
Lemma resolve_space_same : forall E s s', resolve_space E s = Ok s' -> s' = s /\ In s (e_spaces E).
Proof.
  intros E s s' H. unfold resolve_space in H. destruct (existsb (String.eqb s) (e_spaces E)) eqn:X; [|discriminate]. injection H as <-.
  apply existsb_exists in X as (y & Hy & Q). apply String.eqb_eq in Q. subst; auto.
Qed.
Theorem C113_model_only : forall E v c s r, h_model E v c s = Ok r ->
  exists x, s = Some x /\ In x (e_spaces E) /\ (forall n, c = Some n -> In n ("infer" :: e_configs E)) /\
  ((exists p, (v = VPath p \/ exists t, v = VStr t /\ p = l2s (path_norm (s2l t))) /\ r = VModel p c x) \/
   (exists l, v = VDict l /\ (forall k y l', l = (k, y) :: l' -> exists i, y = VTensor i) /\ r = VLit v c x)).
Proof.
  assert (C : forall E c c', resolve_opt (resolve_config E) c = Ok c' -> forall n, c = Some n -> In n ("infer" :: e_configs E)).
  { intros E c c' H n ->. cbn [resolve_opt] in H. apply bind_Ok in H as (y & H & _). unfold resolve_config in H.
    destruct (existsb (String.eqb n) ("infer" :: e_configs E)) eqn:X; [|discriminate].
    apply existsb_exists in X as (z & Hz & Q). apply String.eqb_eq in Q. subst; auto. }
  assert (M : forall E p c x r, mk_model E p c x = Ok r -> r = VModel p c x /\ In x (e_spaces E) /\ (forall n, c = Some n -> In n ("infer" :: e_configs E))).
  { intros E p c x r H. unfold mk_model in H. apply bind_Ok in H as (c' & Hc & H). apply bind_Ok in H as (s' & Hs & H). injection H as <-.
    change (resolve_opt (resolve_config E) c = Ok c') in Hc. apply resolve_space_same in Hs as (-> & Hs).
    rewrite (resolve_config_same E c c' Hc). eauto. }
  assert (L : forall E l c x r, (forall k y l', l = (k, y) :: l' -> is_node y = false) -> h_literal E (VDict l) c (Some x) = Ok r ->
     r = VLit (VDict l) c x /\ In x (e_spaces E) /\ (forall n, c = Some n -> In n ("infer" :: e_configs E))).
  { intros E l c x r Hl H. unfold h_literal in H. apply bind_Ok in H as (c' & Hc & H). cbn [resolve_opt] in H.
    apply bind_Ok in H as (so & Hs & H). apply bind_Ok in Hs as (s' & Hs & Q). injection Q as <-. apply resolve_space_same in Hs as (-> & Hs).
    pose proof (resolve_config_same E c c' Hc) as ->.
    unfold mk_literal in H. destruct l as [|(k & y) l]; [injection H as <-; eauto|]. rewrite (Hl k y l eq_refl) in H. injection H as <-. eauto. }
  intros E v c s r H. unfold h_model in H. destruct s as [x|]; [|discriminate]. exists x. split; auto.
  destruct v as [t|z|f|b| |i|p|l|v c0 s0|p c0 s0|m a k]; try discriminate.
  - apply M in H as (-> & Hx & Hc). split; auto. split; auto. left. eexists. split; [right; eexists; split; reflexivity|reflexivity].
  - apply M in H as (-> & Hx & Hc). split; auto. split; auto. left. exists p. split; eauto.
  - destruct l as [|(k & y) l].
    + apply L in H as (-> & Hx & Hc); [|intros; discriminate]. split; auto. split; auto. right. exists []. split; auto. split; [intros; discriminate|auto].
    + destruct y; try discriminate. apply L in H as (-> & Hx & Hc); [|intros k' x' l' Q; inversion Q; reflexivity].
      split; auto. split; auto. right. eexists. split; [reflexivity|]. split; [intros k' x' l' Q; inversion Q; eauto|auto].
Qed.

(** Only the first value is checked: [model] takes a state dict that holds something other
    than tensors, which is refused when it is used directly. *)
Theorem C113_model_values_refuted : forall E k k' i z, resolve_space E "weight" = Ok "weight" ->
  let d := VDict [(k, VTensor i); (k', VInt z)] in
  h_model E d None (Some "weight") = Ok (VLit d None "weight") /\
  merge_recipe E d VNone = Err TypeError /\
  h_model E (VDict [(k', VInt z); (k, VTensor i)]) None (Some "weight") = Err ValueError.
Proof. intros E k k' i z H. cbn. rewrite H. auto. Qed.

(** ** Examples *)
Definition E_use : env := Env (("weighted_sum", Sig [("a", tensor_any); ("b", tensor_any); ("alpha", tensor_any)] [VFloat "0.5"] None [] [] RNone None all_spaces)
  :: e_methods E_builtin) ["sd1"] all_spaces.
Example C113_case :
  let s := Sig [("a", tensor_any); ("b", tensor_any); ("alpha", tensor_any)] [VFloat "0.5"] None [] [] RNone None all_spaces in
  let a := VModel "a.safetensors" None "weight" in let b := VModel "b.safetensors" None "weight" in
  has_builtins E_use /\ all_tensors s /\
  create_recipe E_use "weighted_sum" s [VPath "a.safetensors"] [("b", VPath "b.safetensors")] = Ok (VMerge "weighted_sum" [a; b; VLit (VFloat "0.5") None "param"] []) /\
  create_recipe E_use "weighted_sum" s [a] [("b", b)] = Ok (VMerge "weighted_sum" [a; b; VLit (VFloat "0.5") None "param"] []) /\
  op_sub E_use a b = Ok (VMerge "subtract" [a; b] []) /\ op_sub E_use a (VPath "b.safetensors") = Err TypeError /\
  merge_recipe E_use (VPath "a.safetensors") VNone = Err TypeError /\
  h_model E_use (VStr "./dir//a.safetensors") (Some "sd1") (Some "delta") = Ok (VModel "dir/a.safetensors" (Some "sd1") "delta").
Proof.
  split; [repeat split|]. split; [|repeat split; reflexivity].
  split; [|split]; simpl; [|intros; discriminate|tauto].
  intros n p [H|[H|[H|[]]]]; inversion H; reflexivity.
Qed.

Print Assumptions C113_path_argument.
Print Assumptions C113_path_argument_tensors.
Print Assumptions C113_path_parameter.
Print Assumptions C113_path_elsewhere_refuted.
Print Assumptions C113_model.
Print Assumptions C113_model_only.
Print Assumptions C113_model_values_refuted.
