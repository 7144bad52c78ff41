(** C85-C87: declaring merge methods and conversions.  *)
From Coq Require Import String List Bool Arith Lia.
From Verif Require Import Base ModelRecipe ModelDeclare SpecRecipe SpecBind BindProofs SerialProofs2 PropsRecipe ModelOps ModelWrap DataMethods.
Import ListNotations.
Open Scope string_scope.
Open Scope list_scope.
Open Scope nat_scope.

(** ** What an accepted declaration consists of *)
Definition hint_param (E : env) (h : hint) : result param := let* a := read_hint E h in param_data a.

Lemma map_kres_F2 : forall A B (f : A -> result B) l r,
  map_kres f l = Ok r -> Forall2 (fun x y => fst x = fst y /\ f (snd x) = Ok (snd y)) l r.
Proof.
  induction l as [|(k & x) l IH]; intros r H; simpl in H; [inversion H; constructor|].
  apply bind_Ok in H as (y & Hy & H). apply bind_Ok in H as (ys & Hys & H). inversion H; subst. constructor; simpl; auto.
Qed.

Lemma F2_compose : forall A B C (P : A -> B -> Prop) (Q : B -> C -> Prop) l m r,
  Forall2 P l m -> Forall2 Q m r -> Forall2 (fun x z => exists y, P x y /\ Q y z) l r.
Proof.
  intros A B C P Q l m r H. revert r. induction H; intros r Hr; inversion Hr; subst; constructor; eauto.
Qed.

Definition same_params (E : env) (l : list (string * hint)) (r : list (string * param)) : Prop :=
  Forall2 (fun x y => fst x = fst y /\ hint_param E (snd x) = Ok (snd y)) l r.

Lemma same_params_ok : forall E l a r,
  map_kres (read_hint E) l = Ok a -> map_kres param_data a = Ok r -> same_params E l r.
Proof.
  intros E l a r H1 H2. apply map_kres_F2 in H1. apply map_kres_F2 in H2. pose proof (F2_compose _ _ _ _ _ _ _ _ H1 H2) as H.
  unfold same_params. clear H1 H2. induction H as [|x y l' r' (z & (E1 & E2) & E3 & E4) _ IH]; constructor; auto.
  split; [congruence|]. unfold hint_param. rewrite E2. auto.
Qed.

Lemma declare_inv : forall E d g, declare E d = Ok g ->
  same_params E (d_args d) (g_args g) /\ same_params E (d_kw d) (g_kw g) /\
  (match d_vararg d, g_vararg g with
   | Some (_, h), Some p => hint_param E h = Ok p
   | None, None => True
   | _, _ => False end) /\
  g_defaults g = d_defaults d /\ g_kwdefaults g = d_kwdefaults d /\ g_all_spaces g = e_spaces E /\
  read_return E (d_return d) = Ok (Some (g_rspace g, g_rconfig g)) /\ validate g = Ok tt.
Proof.
  intros E d g H. unfold declare in H.
  apply bind_Ok in H as (a & Ha & H). apply bind_Ok in H as (v & Hv & H). apply bind_Ok in H as (k & Hk & H).
  apply bind_Ok in H as (r & Hr & H). apply bind_Ok in H as (pa & Hpa & H). apply bind_Ok in H as (pv & Hpv & H).
  apply bind_Ok in H as (pk & Hpk & H). destruct r as [(rs & rc)|]; [|discriminate].
  apply bind_Ok in H as ([] & Hval & H). inversion H; subst; clear H. cbn [g_args g_kw g_vararg g_defaults g_kwdefaults g_all_spaces g_rspace g_rconfig].
  split; [eapply same_params_ok; eauto|]. split; [eapply same_params_ok; eauto|]. split; [|auto 6].
  unfold read_vararg in Hv. destruct (d_vararg d) as [(n & h)|].
  - apply bind_Ok in Hv as (x & Hx & Hv). inversion Hv; subst. unfold vararg_data in Hpv. apply bind_Ok in Hpv as (p & Hp & Hpv). inversion Hpv; subst.
    unfold hint_param. rewrite Hx. auto.
  - inversion Hv; subst. inversion Hpv; subst. auto.
Qed.

Lemma same_names : forall E l r, same_params E l r -> map fst r = map fst l.
Proof. intros E l r H. induction H as [|x y l r (H1 & _) _ IH]; simpl; congruence. Qed.
Lemma same_length : forall E l r, same_params E l r -> length r = length l.
Proof. intros E l r H. symmetry. eapply F2_length; eauto. Qed.

(** ** What reading an annotation gives *)
Lemma resolve_space_ok : forall E s r, resolve_space E s = Ok r -> r = s /\ In s (e_spaces E).
Proof.
  intros E s r. unfold resolve_space. destruct (existsb (String.eqb s) (e_spaces E)) eqn:H; [|discriminate].
  intros X; inversion X; subst. split; auto. apply mem_str_In. auto.
Qed.
Lemma resolve_spaces_ok : forall E l r, map_res (resolve_space E) l = Ok r -> r = l /\ forall s, In s l -> In s (e_spaces E).
Proof.
  intros E l r H. apply map_res_F2 in H. induction H as [|x y l r Hx _ [-> IH]]; [split; [auto|intros s []]|].
  apply resolve_space_ok in Hx as (-> & Hx). split; auto. intros s [->|Hs]; auto.
Qed.
Lemma hint_param_inv : forall E h p, hint_param E h = Ok p ->
  exists t m c, read_param E t m c = Ok p /\ (h = HParam t m c \/ h = HWrap (HParam t m c)).
Proof.
  intros E h p H. unfold hint_param in H. apply bind_Ok in H as (a & Ha & H).
  destruct h as [t m c|h|]; simpl in Ha.
  - apply bind_Ok in Ha as (q & Hq & Ha). inversion Ha; subst. inversion H; subst. exists t, m, c; auto.
  - apply bind_Ok in Ha as (b & Hb & Ha). inversion Ha; subst. simpl in H. destruct b; try discriminate. inversion H; subst.
    destruct h as [t m c|h|]; simpl in Hb.
    + apply bind_Ok in Hb as (q & Hq & Hb). inversion Hb; subst. exists t, m, c; auto.
    + apply bind_Ok in Hb as (x & _ & Hb). discriminate.
    + discriminate.
  - inversion Ha; subst. discriminate.
Qed.
Lemma read_param_inv : forall E t m c p, read_param E t m c = Ok p ->
  supported (strip_none t) = true /\ p_literal p = literal_ty (strip_none t) /\ p_tensor p = path_ty (strip_none t) /\ p_config p = c /\
  (match c with Some x => resolve_config E x = Ok x /\ x <> "structural" | None => True end) /\
  (match m with
   | MNone => p_space p = PNone
   | MOne s => p_space p = PSet [s] /\ In s (e_spaces E)
   | MMany l => p_space p = PSet l /\ (forall s, In s l -> In s (e_spaces E))
   | MSym i l => p_space p = PSym (S i) l
   end).
Proof.
  intros E t m c p H. unfold read_param in H. destruct (supported (strip_none t)) eqn:St; cbn [negb] in H; [|discriminate].
  apply bind_Ok in H as (s & Hs & H). apply bind_Ok in H as (cf & Hc & H). inversion H; subst; clear H. cbn [p_literal p_tensor p_config p_space].
  assert (C : cf = c /\ match c with Some x => resolve_config E x = Ok x /\ x <> "structural" | None => True end).
  { unfold read_config in Hc. destruct c as [x|]; [|inversion Hc; auto]. apply bind_Ok in Hc as (r & Hr & Hc).
    destruct (String.eqb_spec r "structural"); [discriminate|]. inversion Hc; subst.
    assert (r = x) by (unfold resolve_config in Hr; destruct (existsb (String.eqb x) _); [inversion Hr; auto|discriminate]). subst. auto. }
  destruct C as (-> & C). repeat (split; auto).
  destruct m; simpl in Hs.
  - inversion Hs; auto.
  - apply bind_Ok in Hs as (r & Hr & Hs). inversion Hs; subst. apply resolve_space_ok in Hr as (-> & Hr). auto.
  - apply bind_Ok in Hs as (r & Hr & Hs). inversion Hs; subst. apply resolve_spaces_ok in Hr as (-> & Hr). auto.
  - inversion Hs; auto.
Qed.

Lemma only_param_ok : forall s, only_param s = true -> exists l, s = PSet l /\ forall x, In x l <-> x = "param".
Proof.
  intros [|l|i l] H; try discriminate. unfold only_param, pspace_eqb in H. apply andb_prop in H as (H1 & H2). exists l. split; auto.
  rewrite forallb_forall in H1. intros x. split; intros Hx.
  - apply H1 in Hx. apply mem_str_In in Hx. destruct Hx as [Hx|[]]; auto.
  - subst. simpl in H2. rewrite andb_true_r in H2. apply mem_str_In. auto.
Qed.

Lemma validate_inv : forall g, validate g = Ok tt ->
  (forall i, length (g_args g) - length (g_defaults g) <= i < length (g_args g) -> exists l, expected_pos g i = Some (PSet l) /\ forall x, In x l <-> x = "param") /\
  (forall k, In k (map fst (g_kw g)) -> dmem String.eqb k (g_kwdefaults g) = true -> exists l, expected_kw g k = Some (PSet l) /\ forall x, In x l <-> x = "param") /\
  ((forall p, In p (all_params g) -> p_config p <> None) -> g_rconfig g <> None).
Proof.
  intros g H. unfold validate in H.
  destruct (forallb only_param (skipn (length (g_args g) - length (g_defaults g)) (in_spaces_args g)) &&
            forallb (fun ks => negb (dmem String.eqb (fst ks) (g_kwdefaults g)) || only_param (snd ks)) (in_spaces_kw g)) eqn:D; cbn [negb] in H; [|discriminate].
  apply andb_prop in D as (D1 & D2). rewrite forallb_forall in D1, D2. split; [|split].
  - intros i Hi. assert (L : length (in_spaces_args g) = length (g_args g)) by apply arg_spaces_length.
    destruct (nth_error (in_spaces_args g) i) as [s|] eqn:Ei; [|apply nth_error_None in Ei; lia].
    assert (Hs : In s (skipn (length (g_args g) - length (g_defaults g)) (in_spaces_args g))).
    { apply nth_error_In with (n := i - (length (g_args g) - length (g_defaults g))).
      rewrite <- Ei. rewrite <- (firstn_skipn (length (g_args g) - length (g_defaults g)) (in_spaces_args g)) at 2.
      rewrite nth_error_app2; rewrite firstn_length_le by lia; [reflexivity|lia]. }
    apply D1, only_param_ok in Hs as (l & -> & Hl). exists l. split; auto.
    rewrite <- Ei. unfold in_spaces_args. rewrite arg_spaces_nth. unfold expected_pos. destruct (nth_error (g_args g) i) as [(n & p)|] eqn:Ea; [reflexivity|].
    apply nth_error_None in Ea. lia.
  - intros k Hk Hd. rewrite <- expected_kw_ok. assert (Hk' : In k (map fst (in_spaces_kw g))) by (unfold in_spaces_kw; rewrite map_map; auto).
    destruct (dget String.eqb k (in_spaces_kw g)) as [s|] eqn:Es.
    + assert (In (k, s) (in_spaces_kw g)) by (eapply (dget_In String.eqb String.eqb_spec); eauto). apply D2 in H0. cbn [fst snd] in H0. rewrite Hd in H0. cbn [negb orb] in H0.
      apply only_param_ok in H0 as (l & -> & Hl). exists l. auto.
    + apply (dget_None String.eqb String.eqb_spec) in Es. contradiction.
  - intros Hc Hr. apply bind_Ok in H as ([] & H & _).
    assert (F : forallb (fun p => is_some (p_config p)) (all_params g) = true).
    { apply forallb_forall. intros p Hp. apply Hc in Hp. destruct (p_config p); auto. }
    rewrite F in H. apply bind_Ok in H as (c & H & Hs). unfold return_config in H. apply check_configs_spec in H as (_ & _ & H3).
    assert (c = None); [|subst; discriminate]. apply H3; auto. intros c0 Hin. unfold config_pairs in Hin.
    apply in_app_or in Hin as [Hin|Hin]; apply in_map_iff in Hin as (x & Hx & Hin); inversion Hx as [[E1 E2]]; clear Hx.
    + assert (In (None : option string) (map p_config (all_params g))).
      { apply nth_error_In in E1. unfold args_varargs in E1. unfold all_params. rewrite !map_app.
        apply in_app_or in E1 as [E1|E1].
        - apply in_or_app. left. rewrite map_map. auto.
        - apply in_or_app. right. apply in_or_app. left. destruct (g_vararg g); [|destruct E1]. apply repeat_spec in E1. left; auto. }
      apply in_map_iff in H as (p & Hp & Hin'). eapply Hc; eauto.
    + apply (dget_In String.eqb String.eqb_spec) in E1. apply in_map_iff in E1 as ((k & p) & Hkp & Hin'). inversion Hkp; subst.
      apply (Hc p); auto. unfold all_params. apply in_or_app. right. apply in_or_app. right. apply (in_map snd) in Hin'. auto.
Qed.

(** ** C85: what an accepted declaration promises *)

(** the annotation of a parameter, also when it is written inside Optional *)
Definition written (h : hint) (t : ty) (m : mspace) (c : option string) : Prop := h = HParam t m c \/ h = HWrap (HParam t m c).

Lemma same_nth : forall E l r i n h, same_params E l r -> nth_error l i = Some (n, h) ->
  exists p, nth_error r i = Some (n, p) /\ hint_param E h = Ok p.
Proof.
  intros E l r i n h H Hi. unfold same_params in H. destruct (F2_nth _ _ _ _ _ H _ _ Hi) as ((n' & p) & Hp & E1 & E2). simpl in *. subst. eauto.
Qed.
Lemma written_param : forall E h p t m c, hint_param E h = Ok p -> written h t m c -> read_param E t m c = Ok p.
Proof.
  intros E h p t m c H W. apply hint_param_inv in H as (t' & m' & c' & Hp & W'). destruct W as [->| ->], W' as [W'|W']; inversion W'; subst; auto.
Qed.
Lemma all_params_written : forall E d g p, declare E d = Ok g -> In p (all_params g) -> exists t m c, read_param E t m c = Ok p.
Proof.
  intros E d g p H Hp. apply declare_inv in H as (Ha & Hk & Hv & _).
  assert (G : forall l r, same_params E l r -> In p (map snd r) -> exists t m c, read_param E t m c = Ok p).
  { intros l r S Hin. apply in_map_iff in Hin as ((n & q) & Eq & Hin). simpl in Eq. subst. induction S as [|x y l r (E1 & E2) _ IH]; [destruct Hin|].
    destruct Hin as [->|Hin]; auto. simpl in E2. apply hint_param_inv in E2 as (t & m & c & E2 & _). eauto. }
  unfold all_params in Hp. apply in_app_or in Hp as [Hp|Hp]; [eauto|]. apply in_app_or in Hp as [Hp|Hp]; [|eauto].
  destruct (g_vararg g) as [q|]; [|destruct Hp]. destruct (d_vararg d) as [(? & ?)|]; [|destruct Hv]. destruct Hp as [->|[]].
  apply hint_param_inv in Hv as (t & m & c & E2 & _). eauto.
Qed.

(** A declaration that is accepted keeps the parameters and the defaults as they are written; a
    parameter with a default value, and one of a plain Python type without a merge space, takes
    parameters only; a declared space takes that space only; every space and config it names is
    registered, and none is "structural"; if every parameter has a config, so has every result. *)
Theorem C85_declare_partial : forall E d g, declare E d = Ok g ->
  map fst (g_args g) = map fst (d_args d) /\ map fst (g_kw g) = map fst (d_kw d) /\
  g_defaults g = d_defaults d /\ g_kwdefaults g = d_kwdefaults d /\
  (forall i s, length (d_args d) - length (d_defaults d) <= i < length (d_args d) -> (allowed (expected_pos g i) s <-> s = "param")) /\
  (forall k v s, In k (map fst (d_kw d)) -> In (k, v) (d_kwdefaults d) -> (allowed (expected_kw g k) s <-> s = "param")) /\
  (forall i n h t c s, nth_error (d_args d) i = Some (n, h) -> written h t MNone c -> In t [TStr; TInt; TFloat; TBool] ->
     (allowed (expected_pos g i) s <-> s = "param")) /\
  (forall i n h t c s0 s, nth_error (d_args d) i = Some (n, h) -> written h t (MOne s0) c -> (allowed (expected_pos g i) s <-> s = s0)) /\
  (forall p l s, In p (all_params g) -> p_space p = PSet l -> In s l -> In s (e_spaces E)) /\
  (forall p c, In p (all_params g) -> p_config p = Some c -> resolve_config E c = Ok c /\ c <> "structural") /\
  ((forall p, In p (all_params g) -> p_config p <> None) -> forall ca ck r, return_config g ca ck = Ok r -> r <> None).
Proof.
  intros E d g H. pose proof H as H0. apply declare_inv in H as (Ha & Hk & Hv & D1 & D2 & D3 & Hr & Val).
  apply validate_inv in Val as (V1 & V2 & V3).
  pose proof (same_length _ _ _ Ha) as La.
  split; [eapply same_names; eauto|]. split; [eapply same_names; eauto|]. split; auto. split; auto.
  split; [|split; [|split; [|split; [|split; [|split]]]]].
  - intros i s Hi. rewrite <- La, <- D1 in Hi. destruct (V1 i Hi) as (l & -> & Hl). apply Hl.
  - intros k v s Hin Hd. destruct (V2 k) as (l & -> & Hl).
    + rewrite (same_names _ _ _ Hk). auto.
    + rewrite D2. apply (dmem_In String.eqb String.eqb_spec). apply (in_map fst) in Hd. auto.
    + apply Hl.
  - intros i n h t c s Hi W Ht. destruct (same_nth _ _ _ _ _ _ Ha Hi) as (p & Hp & Hh).
    apply (written_param _ _ _ _ _ _ Hh) in W. apply read_param_inv in W as (_ & Hl & _ & _ & _ & Hs).
    unfold expected_pos. rewrite Hp. unfold meaning. rewrite Hs.
    assert (L : p_literal p = true) by (rewrite Hl; repeat (destruct Ht as [<-|Ht]; [reflexivity|]); destruct Ht).
    rewrite L, orb_true_r. simpl. intuition.
  - intros i n h t c s0 s Hi W. destruct (same_nth _ _ _ _ _ _ Ha Hi) as (p & Hp & Hh).
    apply (written_param _ _ _ _ _ _ Hh) in W. apply read_param_inv in W as (_ & _ & _ & _ & _ & Hs & _).
    unfold expected_pos. rewrite Hp. unfold meaning. rewrite Hs. simpl. intuition.
  - intros p l s Hp Hsp Hin. destruct (all_params_written _ _ _ _ H0 Hp) as (t & m & c & R). apply read_param_inv in R as (_ & _ & _ & _ & _ & Hs).
    destruct m; try congruence; destruct Hs as (Hs & Hreg); rewrite Hsp in Hs; inversion Hs; subst; auto. destruct Hin as [<-|[]]; auto.
  - intros p c Hp Hc. destruct (all_params_written _ _ _ _ H0 Hp) as (t & m & c0 & R). apply read_param_inv in R as (_ & _ & _ & Hcfg & Hreg & _).
    rewrite Hcfg in Hc. subst. auto.
  - intros Hc ca ck r R. specialize (V3 Hc). unfold return_config in R. apply check_configs_spec in R as (_ & R & _).
    destruct (g_rconfig g) as [c|]; [|contradiction]. rewrite (R c eq_refl). discriminate.
Qed.

(** the declaration tells the merge space of the result: it names one, or a symbol of a parameter
    that is not variadic, or nothing while a parameter that must be given has no merge space and is
    not of a plain Python type *)
Definition tells_space (d : decl) : Prop :=
  match d_return d with
  | RHint _ (MOne _) _ => True
  | RHint _ (MSym i _) _ => exists n h t l c, In (n, h) (d_args d ++ d_kw d) /\ written h t (MSym i l) c
  | RHint _ MNone _ => exists i n h t c, i < length (d_args d) - length (d_defaults d) /\
      nth_error (d_args d) i = Some (n, h) /\ written h t MNone c /\ In t [TTensor; TVar; TState None; TState (Some TTensor); TState (Some TVar)]
  | _ => False
  end.

Lemma input_pos : forall g sa sk i n p, full g sa sk -> nth_error (g_args g) i = Some (n, p) -> exists s, input g sa sk (expected_pos g i) s.
Proof.
  intros g sa sk i n p (F1 & _) Hi. assert (i < length sa).
  { assert (i < length (g_args g)) by (apply nth_error_Some; congruence). lia. }
  destruct (nth_error sa i) as [s|] eqn:Es; [|apply nth_error_None in Es; lia]. exists s. left. exists i. auto.
Qed.
Lemma input_kw : forall g sa sk k, full g sa sk -> In k (map fst (g_kw g)) -> exists s, input g sa sk (expected_kw g k) s.
Proof.
  intros g sa sk k (_ & _ & F3) Hk. apply F3 in Hk. apply in_map_iff in Hk as ((k0 & s) & Ek & Hk). simpl in Ek. subst. exists s. right. exists k. auto.
Qed.

Theorem C85_space_partial : forall E d g sa sk,
  declare E d = Ok g -> sig_ok g -> tells_space d -> full g sa sk -> spaces_ok g sa sk ->
  exists s, return_space g sa sk = Ok s.
Proof.
  intros E d g sa sk H Sg T F SO. apply declare_inv in H as (Ha & Hk & Hv & D1 & D2 & D3 & Hr & Val).
  assert (R : exists s, result_space g sa sk s); [|destruct R as (s & R); exists s; apply return_space_iff; auto].
  unfold tells_space in T. destruct (d_return d) as [t m c|]; [|destruct T]. simpl in Hr.
  destruct (supported_return t); cbn [negb] in Hr; [|discriminate].
  apply bind_Ok in Hr as (rs & Hs & Hr). apply bind_Ok in Hr as (rc & _ & Hr). inversion Hr; subst; clear Hr.
  unfold result_space. destruct m as [|s|l|i l].
  - inversion Hs as [Hs']. destruct T as (i & n & h & t0 & c0 & Hi & Hn & W & Ht).
    destruct (same_nth _ _ _ _ _ _ Ha Hn) as (p & Hp & Hh). apply (written_param _ _ _ _ _ _ Hh) in W. apply read_param_inv in W as (_ & Hl & _ & _ & _ & Hsp).
    destruct (input_pos g sa sk i n p F Hp) as (s & Hs0). exists s. left. exists (g_all_spaces g).
    revert Hs0. unfold expected_pos. rewrite Hp. unfold meaning. rewrite Hsp.
    assert (L : p_literal p = false) by (rewrite Hl; repeat (destruct Ht as [<-|Ht]; [reflexivity|]); destruct Ht).
    rewrite L, orb_false_r. rewrite (same_length _ _ _ Ha), D1. replace (length (d_args d) - length (d_defaults d) <=? i) with false by (symmetry; apply Nat.leb_gt; auto). auto.
  - apply bind_Ok in Hs as (r & _ & Hs). inversion Hs as [Hs']. eauto.
  - discriminate.
  - inversion Hs as [Hs']. destruct T as (n & h & t0 & l0 & c0 & Hin & W). apply in_app_or in Hin as [Hin|Hin].
    + apply In_nth_error in Hin as (j & Hj). destruct (same_nth _ _ _ _ _ _ Ha Hj) as (p & Hp & Hh).
      apply (written_param _ _ _ _ _ _ Hh) in W. apply read_param_inv in W as (_ & _ & _ & _ & _ & Hsp).
      destruct (input_pos g sa sk j n p F Hp) as (s & Hs0). exists s, l0.
      revert Hs0. unfold expected_pos. rewrite Hp. unfold meaning. rewrite Hsp. auto.
    + apply In_nth_error in Hin as (j & Hj). destruct (same_nth _ _ _ _ _ _ Hk Hj) as (p & Hp & Hh).
      apply (written_param _ _ _ _ _ _ Hh) in W. apply read_param_inv in W as (_ & _ & _ & _ & _ & Hsp).
      assert (Hin : In (n, p) (g_kw g)) by (eapply nth_error_In; eauto).
      destruct (input_kw g sa sk n F) as (s & Hs0); [apply (in_map fst) in Hin; auto|]. exists s, l0.
      revert Hs0. unfold expected_kw.
      assert (Nd : NoDup (map fst (g_kw g))) by (destruct Sg as (Sg & _); apply NoDup_app_iff in Sg; tauto).
      rewrite (dget_NoDup_In String.eqb String.eqb_spec n p (g_kw g) Nd Hin). unfold meaning. rewrite Hsp. auto.
Qed.

(** the merge spaces and the configs that the builtin declarations name *)
Definition builtin_env : env := Env []
  ["sd1-ldm"; "sd1-kohya"; "sd1-supermerger_blocks"; "sdxl-sgm"; "sdxl-kohya"; "sdxl-supermerger_blocks"; "sdxl-diffusers_unet_only"] all_spaces.

(** Declarations are accepted whose result never has a merge space: a symbol for the result that no
    parameter uses, and parameters that accept several spaces with none declared for the result. *)
Definition odd_symbol : decl := Decl
  [("a", HParam TTensor (MSym 1 ["weight"; "delta"]) None); ("b", HParam TTensor (MSym 1 ["weight"; "delta"]) None)] [] None [] []
  (RHint TTensor (MSym 2 ["weight"; "delta"]) None).
Definition odd_union : decl := Decl
  [("a", HParam TTensor (MMany ["weight"; "delta"]) None); ("b", HParam TTensor (MMany ["weight"; "delta"]) None)] [] None [] []
  (RHint TTensor MNone None).

Lemma not_result : forall g sa sk, sig_ok g -> full g sa sk -> spaces_ok g sa sk -> (forall s, ~ result_space g sa sk s) -> exists e, return_space g sa sk = Err e.
Proof.
  intros g sa sk Sg F SO N. destruct (return_space g sa sk) as [s|e] eqn:R; [|eauto]. apply return_space_iff in R as (_ & R); auto. destruct (N s R).
Qed.
Ltac small_sig := repeat split; simpl; repeat constructor; simpl; intuition discriminate.

Theorem C85_space_refuted : forall d, In d [odd_symbol; odd_union] ->
  exists g, declare builtin_env d = Ok g /\ sig_ok g /\ spaces_ok g ["weight"; "weight"] [] /\
    forall x y, exists e, return_space g [x; y] [] = Err e.
Proof.
  intros d [<-|[<-|[]]]; (eexists; split; [vm_compute; reflexivity|]).
  - split; [small_sig|]. split.
    + split.
      * intros p s [([|[|[|i]]] & Hi & ->)|(k & [] & _)]; simpl in Hi; try discriminate; inversion Hi; subst; simpl; auto.
      * intros i l l' s s' [(j & Hj & _)|(k & [] & _)] [(j' & Hj' & _)|(k' & [] & _)].
        destruct j as [|[|[|j]]], j' as [|[|[|j']]]; simpl in *; congruence.
    + intros x y. unfold return_space. destruct (check_spaces _ []) as [b|e] eqn:C; [|eexists; reflexivity]. exists KeyError.
      cbn [bind g_rspace]. destruct (dget Nat.eqb 3 b) as [s|] eqn:Es; [|reflexivity]. exfalso.
      apply (check_spaces_bound _ _ _ C) in Es. destruct Es as [C'|(_ & l & C')].
      * discriminate.
      * simpl in C'. intuition discriminate.
  - split; [small_sig|]. split.
    + split.
      * intros p s [([|[|[|i]]] & Hi & ->)|(k & [] & _)]; simpl in Hi; try discriminate; inversion Hi; subst; simpl; auto.
      * intros i l l' s s' [([|[|[|j]]] & Hj & E1)|(k & [] & _)] _; simpl in *; discriminate.
    + intros x y. unfold return_space. destruct (check_spaces _ []) as [b|e] eqn:C; [|eexists; reflexivity]. exists RuntimeError.
      cbn [bind g_rspace].
      destruct (dget Nat.eqb default_sym b) as [s|] eqn:Es; [|reflexivity]. exfalso.
      apply (check_spaces_bound _ _ _ C) in Es. destruct Es as [C'|(_ & l & C')].
      * discriminate.
      * simpl in C'. intuition discriminate.
Qed.

(** A variadic parameter of a plain Python type does not take plain values beside a model. *)
Definition variadic_floats : decl := Decl
  [("a", HParam TTensor MNone None)] [] (Some ("weights", HParam TFloat MNone None)) [] [] (RHint TTensor MNone None).
Theorem C85_variadic_refuted : exists g, declare builtin_env variadic_floats = Ok g /\
  forall n, return_space g ("weight" :: repeat "param" (S n)) [] = Err TypeError.
Proof.
  eexists. split; [vm_compute; reflexivity|]. intros n. reflexivity.
Qed.

(** A merge space that is registered after a method was declared is not taken by a parameter without
    a merge space. *)
Theorem C85_late_space : forall E d g i n h t c s,
  declare E d = Ok g -> nth_error (d_args d) i = Some (n, h) -> written h t MNone c ->
  s <> "param" -> ~ In s (e_spaces E) -> ~ allowed (expected_pos g i) s.
Proof.
  intros E d g i n h t c s H Hn W Hp Hs A. apply declare_inv in H as (Ha & Hk & Hv & D1 & D2 & D3 & Hr & Val).
  destruct (same_nth _ _ _ _ _ _ Ha Hn) as (p & Hnp & Hh). apply (written_param _ _ _ _ _ _ Hh) in W. apply read_param_inv in W as (_ & _ & _ & _ & _ & Hsp).
  revert A. unfold expected_pos. rewrite Hnp. unfold meaning. rewrite Hsp. destruct (_ || _); simpl.
  - intros [A|[]]; auto.
  - rewrite D3. auto.
Qed.

(** ** C86: conversions *)
(** A conversion from one parameter with a config to a result with a config is accepted, and leads
    from the one to the other. *)
Theorem C86_conversion_partial : forall E d g n t m c rt rm rc,
  declare E d = Ok g -> d_args d = [(n, HParam t m (Some c))] -> d_kw d = [] -> d_return d = RHint rt rm (Some rc) ->
  validate_conversion g = Ok tt /\ edge g = Ok (c, rc).
Proof.
  intros E d g n t m c rt rm rc H Hd Hk0 Hr0. apply declare_inv in H as (Ha & Hk & Hv & D1 & D2 & D3 & Hr & Val).
  rewrite Hd in Ha. inversion Ha as [|x (n' & p) l r (E1 & E2) R]; subst. inversion R; subst. clear R.
  rewrite Hk0 in Hk. assert (Hk' : g_kw g = []) by (inversion Hk; auto).
  assert (H1' : g_args g = [(n, p)]) by (simpl in E1; subst; auto).
  rewrite Hr0 in Hr. simpl in Hr. destruct (supported_return rt); [|discriminate]. cbn [negb] in Hr. apply bind_Ok in Hr as (rs & _ & Hr).
  apply bind_Ok in Hr as (rc' & Hrc & Hr). inversion Hr as [[Hrs Hrc']].
  assert (rc' = Some rc).
  { apply bind_Ok in Hrc as (q & Hq & Hrc). destruct (String.eqb q "structural"); [discriminate|]. inversion Hrc; subst.
    unfold resolve_config in Hq. destruct (existsb (String.eqb rc) _); inversion Hq; auto. }
  simpl in E2. apply hint_param_inv in E2 as (t' & m' & c' & E2 & W). destruct W as [W|W]; inversion W; subst. apply read_param_inv in E2 as (_ & _ & _ & Hc & _).
  unfold validate_conversion, edge. rewrite H1'. split; auto. rewrite Hk'. cbn [map fst snd]. rewrite Hc.
  unfold return_config, config_pairs. cbn [length]. rewrite H1', Hk'. cbn [map fst snd length]. rewrite Hc.
  unfold args_varargs. simpl. rewrite String.eqb_refl. replace (g_rconfig g) with (Some rc) by congruence. reflexivity.
Qed.

(** Accepted although it names no config to convert from: from then on every conversion raises. *)
Definition no_source : decl := Decl [("sd", HParam (TState (Some TTensor)) MNone None)] [] None [] [] (RHint TTensor MNone (Some "sd1-ldm")).
Definition only_variadic : decl := Decl [] [] (Some ("sds", HParam (TState (Some TTensor)) MNone (Some "sd1-kohya"))) [] [] (RHint TTensor MNone (Some "sd1-ldm")).
Definition no_target : decl := Decl [("sd", HParam (TState (Some TTensor)) MNone (Some "sd1-kohya"))] [] None
  [("alpha", HParam TFloat MNone None)] [("alpha", VFloat "1.0")] (RHint TTensor MNone None).

Lemma map_res_err : forall A B (f : A -> result B) l x e, In x l -> f x = Err e -> exists e', map_res f l = Err e'.
Proof.
  induction l as [|y l IH]; intros x e Hin He; [destruct Hin|]. simpl. destruct Hin as [->|Hin].
  - rewrite He. simpl. eauto.
  - destruct (f y) as [z|e0]; [|simpl; eauto]. simpl. destruct (IH x e Hin He) as (e' & ->). simpl. eauto.
Qed.
Lemma dset_keeps : forall (id : string) (g : sig) d, In g (map snd (dset String.eqb id g d)).
Proof.
  intros id g d. assert (H : dget String.eqb id (dset String.eqb id g d) = Some g).
  { rewrite (dget_dset String.eqb String.eqb_spec). rewrite String.eqb_refl. auto. }
  apply (dget_In String.eqb String.eqb_spec) in H. apply (in_map snd) in H. auto.
Qed.

Theorem C86_conversion_refuted : forall d id registry, In d [no_source; only_variadic; no_target] ->
  exists registry' g, register builtin_env registry id true d = (registry', Ok g) /\ exists e, edges (snd registry') = Err e.
Proof.
  intros d id registry Hd. assert (X : exists g e, declare builtin_env d = Ok g /\ validate_conversion g = Ok tt /\ edge g = Err e).
  { destruct Hd as [<-|[<-|[<-|[]]]]; eexists; eexists; (split; [vm_compute; reflexivity|]); split; reflexivity. }
  destruct X as (g & e & H1 & H2 & H3). unfold register. rewrite H1, H2. eexists; eexists; split; [reflexivity|].
  unfold edges. cbn [snd]. eapply map_res_err; eauto. apply dset_keeps.
Qed.

(** A conversion that is rejected stays registered as a merge method. *)
Theorem C86_rejected_refuted : exists d, forall id registry,
  exists registry' g, register builtin_env registry id true d = (registry', Err AssertionError) /\ dget String.eqb id (fst registry') = Some g.
Proof.
  exists (Decl [("a", HParam TTensor MNone (Some "sd1-kohya")); ("b", HParam TTensor MNone (Some "sd1-kohya"))] [] None [] [] (RHint TTensor MNone (Some "sd1-ldm"))).
  intros id registry. assert (X : exists g, declare builtin_env (Decl [("a", HParam TTensor MNone (Some "sd1-kohya")); ("b", HParam TTensor MNone (Some "sd1-kohya"))] [] None [] [] (RHint TTensor MNone (Some "sd1-ldm"))) = Ok g /\ validate_conversion g = Err AssertionError).
  { eexists; split; [vm_compute; reflexivity|reflexivity]. }
  destruct X as (g & H1 & H2). unfold register. rewrite H1, H2. eexists; exists g. split; [reflexivity|]. cbn [fst].
  rewrite (dget_dset String.eqb String.eqb_spec), String.eqb_refl. auto.
Qed.

(** ** C87: the builtin methods *)
Definition register_all (l : list (string * (bool * decl))) : result (list (string * sig) * list (string * sig)) :=
  fold_left (fun r x => let* reg := r in
    let '(reg', o) := register builtin_env reg (fst x) (fst (snd x)) (snd (snd x)) in let* _ := o in Ok reg') l (Ok ([], [])).

(** decides [tells_space] for signatures without symbols of their own *)
Definition tells (g : sig) : bool :=
  match g_rspace g with
  | RFixed _ => true
  | RSym _ => false
  | RNone => match expected_pos g 0 with Some (PSym 0 _) => true | _ => false end
  end.
Fixpoint nodupb (l : list string) : bool := match l with [] => true | x :: l' => negb (mem_str x l') && nodupb l' end.
Lemma nodupb_ok : forall l, nodupb l = true -> NoDup l.
Proof.
  induction l as [|x l IH]; intros H; constructor; simpl in H; apply andb_prop in H as (H1 & H2); auto.
  intros Hin. apply mem_str_In in Hin. rewrite Hin in H1. discriminate.
Qed.
Definition sig_okb (g : sig) : bool :=
  nodupb (map fst (g_args g) ++ map fst (g_kw g)) && (length (g_defaults g) <=? length (g_args g)) &&
  nodupb (map fst (g_kwdefaults g)) && forallb (fun kv => mem_str (fst kv) (map fst (g_kw g))) (g_kwdefaults g).
Lemma sig_okb_ok : forall g, sig_okb g = true -> sig_ok g.
Proof.
  intros g H. unfold sig_okb in H. apply andb_prop in H as (H & H4). apply andb_prop in H as (H & H3). apply andb_prop in H as (H1 & H2).
  apply nodupb_ok in H1, H3. repeat split; auto. { apply Nat.leb_le; auto. } intros k v Hin. rewrite forallb_forall in H4. apply H4 in Hin. apply mem_str_In. auto.
Qed.

Lemma tells_ok : forall g sa sk, sig_ok g -> tells g = true -> full g sa sk -> spaces_ok g sa sk -> sa <> [] -> exists s, return_space g sa sk = Ok s.
Proof.
  intros g sa sk Sg T F SO Ne. assert (R : exists s, result_space g sa sk s); [|destruct R as (s & R); exists s; apply return_space_iff; auto].
  unfold tells in T. unfold result_space. destruct (g_rspace g); [|eauto|discriminate].
  destruct sa as [|s sa]; [contradiction|]. exists s. left. destruct (expected_pos g 0) as [[|l|[|i] l]|] eqn:E0; try discriminate.
  exists l. left. exists 0. auto.
Qed.

Theorem C87_builtin_partial : exists registry, register_all builtin_methods = Ok registry /\
  map fst (fst registry) = map fst builtin_methods /\
  edges (snd registry) = Ok [("sd1-supermerger_blocks", "sd1-ldm"); ("sdxl-supermerger_blocks", "sdxl-sgm"); ("sd1-kohya", "sd1-ldm");
                             ("sdxl-kohya", "sdxl-sgm"); ("sdxl-diffusers_unet_only", "sdxl-sgm")] /\
  forall id g sa sk, In (id, g) (fst registry) -> full g sa sk -> spaces_ok g sa sk -> sa <> [] -> exists s, return_space g sa sk = Ok s.
Proof.
  destruct (register_all builtin_methods) as [reg|e] eqn:R; [|vm_compute in R; discriminate].
  exists reg. split; auto.
  assert (X : forallb (fun x => sig_okb (snd x) && tells (snd x)) (fst reg) = true /\ map fst (fst reg) = map fst builtin_methods /\
    edges (snd reg) = Ok [("sd1-supermerger_blocks", "sd1-ldm"); ("sdxl-supermerger_blocks", "sdxl-sgm"); ("sd1-kohya", "sd1-ldm");
                             ("sdxl-kohya", "sdxl-sgm"); ("sdxl-diffusers_unet_only", "sdxl-sgm")]).
  { vm_compute in R. inversion R; subst. split; [vm_compute; reflexivity|]. split; reflexivity. }
  destruct X as (X & X2 & X3). split; auto. split; auto. intros id g sa sk Hin F SO Ne. rewrite forallb_forall in X. apply X in Hin. apply andb_prop in Hin as (H1 & H2).
  apply tells_ok; auto. apply sig_okb_ok; auto.
Qed.

(** Without inputs, n_average raises StopIteration and geometric_median gives a parameter. *)
Theorem C87_no_inputs_refuted : exists g g', declare builtin_env decl_n_average = Ok g /\ declare builtin_env decl_geometric_median = Ok g' /\
  return_space g [] [] = Err StopIteration /\
  return_space g' [] [("eps", "param"); ("maxiter", "param"); ("ftol", "param")] = Ok "param".
Proof.
  eexists; eexists. split; [vm_compute; reflexivity|]. split; [vm_compute; reflexivity|]. split; reflexivity.
Qed.

(** The signatures that the models of operators and wrappers use are those of the source. *)
Theorem C87_signatures : forall id g, In (id, g) (("fallback", sig_fallback) :: builtin_sigs) ->
  exists conversion d, In (id, (conversion, d)) builtin_methods /\ declare builtin_env d = Ok g.
Proof.
  assert (X : forallb (fun x => match dget String.eqb (fst x) builtin_methods with
    | Some (b, d) => true | None => false end) (("fallback", sig_fallback) :: builtin_sigs) = true) by (vm_compute; reflexivity).
  assert (Y : map (fun x => match dget String.eqb (fst x) builtin_methods with
    | Some (b, d) => declare builtin_env d | None => Err KeyError end) (("fallback", sig_fallback) :: builtin_sigs) =
    map (fun x => Ok (snd x)) (("fallback", sig_fallback) :: builtin_sigs)) by (vm_compute; reflexivity).
  revert X Y. generalize (("fallback", sig_fallback) :: builtin_sigs). intros L X Y id g Hin. rewrite forallb_forall in X. pose proof (X _ Hin) as HX. cbn [fst] in HX.
  destruct (dget String.eqb id builtin_methods) as [(b & d)|] eqn:Ed; [|discriminate]. exists b, d. split.
  - apply (dget_In String.eqb String.eqb_spec) in Ed. auto.
  - clear X HX. revert Y Hin. induction L as [|(i & x) L IH]; [intros _ []|]. cbn [map]. intros Y Hin.
    pose proof (f_equal (hd (Err KeyError)) Y) as Y1. pose proof (f_equal (@tl _) Y) as Y2. cbn [hd tl] in Y1, Y2. destruct Hin as [Hin|Hin].
    + inversion Hin; subst. cbn [fst snd] in Y1. rewrite Ed in Y1. auto.
    + apply IH; auto.
Qed.

(** ** cases *)
(** an own method: [a] and [b] share a symbol, [alpha] has a default, the result is in the symbol's space *)
Definition blend : decl := Decl
  [("a", HParam TTensor (MSym 1 ["weight"; "delta"]) None); ("b", HWrap (HParam TTensor (MSym 1 ["weight"; "delta"]) None)); ("alpha", HParam TFloat MNone None)]
  [VFloat "0.5"] None [("mode", HParam TStr (MOne "param") None)] [("mode", VStr "x")] (RHint TTensor (MSym 1 ["weight"; "delta"]) None).
Example C85_case : exists g, declare builtin_env blend = Ok g /\ sig_ok g /\ tells_space blend /\
  full g ["delta"; "delta"; "param"] [("mode", "param")] /\ return_space g ["delta"; "delta"; "param"] [("mode", "param")] = Ok "delta".
Proof.
  eexists. split; [vm_compute; reflexivity|]. split; [apply sig_okb_ok; vm_compute; reflexivity|]. split.
  - exists "a", (HParam TTensor (MSym 1 ["weight"; "delta"]) None), TTensor, ["weight"; "delta"], None. split; [left; auto|left; auto].
  - split; [|reflexivity]. split; [simpl; lia|]. split; [reflexivity|]. simpl. tauto.
Qed.
(** a default value in weight space, an unannotated parameter, an unknown merge space, a structural config *)
Example C85_rejected :
  declare builtin_env (Decl [("a", HParam TTensor (MOne "weight") None)] [VNone] None [] [] (RHint TTensor MNone None)) = Err TypeError /\
  declare builtin_env (Decl [("a", HOther)] [] None [] [] (RHint TTensor MNone None)) = Err TypeError /\
  declare builtin_env (Decl [("a", HParam TTensor (MOne "wieght") None)] [] None [] [] (RHint TTensor MNone None)) = Err ValueError /\
  declare (Env [] ["structural"] all_spaces) (Decl [("a", HParam TTensor MNone (Some "structural"))] [] None [] [] (RHint TTensor MNone None)) = Err ValueError.
Proof. repeat split. Qed.
Example C86_case : exists g, declare builtin_env decl_convert_sd1_kohya_to_original = Ok g /\
  d_args decl_convert_sd1_kohya_to_original = [("kohya_sd", HParam (TState (Some TTensor)) MNone (Some "sd1-kohya"))] /\ edge g = Ok ("sd1-kohya", "sd1-ldm").
Proof. eexists. split; [vm_compute; reflexivity|]. split; reflexivity. Qed.

Print Assumptions C85_declare_partial.
Print Assumptions C85_space_partial.
Print Assumptions C85_space_refuted.
Print Assumptions C85_variadic_refuted.
Print Assumptions C85_late_space.
Print Assumptions C86_conversion_partial.
Print Assumptions C86_conversion_refuted.
Print Assumptions C86_rejected_refuted.
Print Assumptions C87_builtin_partial.
Print Assumptions C87_no_inputs_refuted.
Print Assumptions C87_signatures.
