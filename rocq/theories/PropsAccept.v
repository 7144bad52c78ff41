(** C85, C86: exactly which declarations are accepted, and what registering changes. *)
From Coq Require Import String List Bool Arith Lia.
From Verif Require Import Base ModelRecipe ModelDeclare SpecRecipe SpecBind BindProofs SerialProofs2 PropsRecipe PropsDeclare.
Import ListNotations.
Open Scope string_scope.
Open Scope list_scope.
Open Scope nat_scope.

Lemma F2_nth_r : forall A B (R : A -> B -> Prop) l r, Forall2 R l r -> forall i y, nth_error r i = Some y -> exists x, nth_error l i = Some x /\ R x y.
Proof.
  intros A B R l r H. induction H as [|x y l r Hxy _ IH]; intros [|i] z Hz; try discriminate; simpl in *; [inversion Hz; subst; eauto|auto].
Qed.

(** ** Which declarations are accepted *)

Definition usable_type (t : ty) : Prop :=
  let takes u := In u [TStr; TInt; TFloat; TBool; TNone; TTensor; TVar] \/ exists v, u = TState v in
  takes t \/ exists u l, t = TUnion (u :: l) /\ In TNone (u :: l) /\ takes u.
Definition known_space (E : env) (m : mspace) : Prop :=
  match m with
  | MOne s => In s (e_spaces E)
  | MMany l => forall s, In s l -> In s (e_spaces E)
  | _ => True
  end.
Definition known_config (E : env) (c : option string) : Prop :=
  match c with Some x => (x = "infer" \/ In x (e_configs E)) /\ x <> "structural" | None => True end.
(** the annotation means something *)
Definition good_hint (E : env) (h : hint) : Prop :=
  exists t m c, written h t m c /\ usable_type t /\ known_space E m /\ known_config E c.
(** the annotation lets the parameter have a default value *)
Definition param_only (h : hint) : Prop :=
  exists t m c, written h t m c /\
    (m = MNone \/ m = MOne "param" \/ exists l, m = MMany l /\ l <> [] /\ forall s, In s l -> s = "param").
Definition hints (d : decl) : list (string * hint) :=
  d_args d ++ match d_vararg d with Some v => [v] | None => [] end ++ d_kw d.
Definition acceptable (E : env) (d : decl) : Prop :=
  (forall n h, In (n, h) (hints d) -> good_hint E h) /\
  (exists t m c, d_return d = RHint t m c /\ In t [TStr; TInt; TFloat; TBool; TNone; TTensor; TVar] /\ known_space E m /\ known_config E c) /\
  (forall i n h, nth_error (d_args d) i = Some (n, h) -> length (d_args d) - length (d_defaults d) <= i -> param_only h) /\
  (forall n h, In (n, h) (d_kw d) -> In n (map fst (d_kwdefaults d)) -> param_only h) /\
  ((forall n h, In (n, h) (hints d) -> exists t m c, written h t m (Some c)) -> exists t m c, d_return d = RHint t m (Some c)) /\
  (forall t i l c, d_return d = RHint t (MSym i l) c ->
     exists n h t' m c', In (n, h) (hints d) /\ written h t' m c' /\ m <> MNone /\ m <> MMany []).

Lemma usable_type_ok : forall t, supported (strip_none t) = true <-> usable_type t.
Proof.
  intros t. unfold usable_type. split.
  - unfold strip_none. destruct (existsb is_none (ty_args t)) eqn:Hn; intros H.
    + destruct t as [| | | | | |o| |l|]; try discriminate; simpl in *.
      * left. right. eauto.
      * right. destruct l as [|u l]; [discriminate|]. exists u, l. split; auto. split.
        -- apply existsb_exists in Hn as (x & Hx & Hn). destruct x; try discriminate. auto.
        -- simpl in H. destruct u; try discriminate; simpl; eauto 10.
    + left. destruct t; try discriminate; simpl; eauto 10.
  - intros [[H|(v & ->)]|(u & l & -> & Hn & H)].
    + repeat (destruct H as [<-|H]; [reflexivity|]). destruct H.
    + unfold strip_none. destruct (existsb is_none (ty_args (TState v))) eqn:Hn; [|reflexivity].
      destruct v as [v|]; [|discriminate]. simpl in *. destruct v; try discriminate. reflexivity.
    + unfold strip_none. assert (X : existsb is_none (ty_args (TUnion (u :: l))) = true).
      { apply existsb_exists. exists TNone. auto. }
      rewrite X. simpl. destruct H as [H|(v & ->)]; [|reflexivity]. repeat (destruct H as [<-|H]; [reflexivity|]). destruct H.
Qed.
Lemma resolve_space_iff : forall E s, In s (e_spaces E) -> resolve_space E s = Ok s.
Proof. intros E s H. unfold resolve_space. apply mem_str_In in H. unfold mem_str in H. rewrite H. auto. Qed.
Lemma read_space_ok : forall E m, known_space E m -> exists s, read_space E m = Ok s.
Proof.
  intros E [|s|l|i l] H; simpl in *; eauto.
  - rewrite resolve_space_iff by auto. simpl. eauto.
  - assert (X : map_res (resolve_space E) l = Ok l).
    { induction l as [|x l IH]; auto. simpl. rewrite resolve_space_iff by (apply H; left; auto). rewrite IH; auto. intros s Hs. apply H. right; auto. }
    rewrite X. simpl. eauto.
Qed.
Lemma read_config_iff : forall E c, known_config E c <-> read_config E c = Ok c.
Proof.
  intros E [x|]; simpl; [|tauto]. unfold resolve_config. simpl. split.
  - intros (H & Hs). assert (X : String.eqb x "infer" || existsb (String.eqb x) (e_configs E) = true).
    { destruct H as [->|H]; [reflexivity|]. apply orb_true_iff. right. apply mem_str_In. auto. }
    rewrite X. simpl. destruct (String.eqb_spec x "structural"); [contradiction|auto].
  - destruct (String.eqb x "infer" || existsb (String.eqb x) (e_configs E)) eqn:X; [|discriminate]. simpl.
    destruct (String.eqb_spec x "structural"); [discriminate|]. intros _. split; auto.
    apply orb_true_iff in X as [X|X]; [left; apply String.eqb_eq; auto|right; apply mem_str_In; auto].
Qed.
Lemma read_param_ok : forall E t m c, usable_type t -> known_space E m -> known_config E c -> exists p, read_param E t m c = Ok p.
Proof.
  intros E t m c Ht Hm Hc. unfold read_param. apply usable_type_ok in Ht. rewrite Ht. simpl. destruct (read_space_ok _ _ Hm) as (s & ->). simpl.
  apply read_config_iff in Hc. rewrite Hc. simpl. eauto.
Qed.
(** What an annotation that means nothing raises: TypeError for its type, ValueError for a merge
    space or a config that is not known, and for the config "structural". *)
Theorem C85_annotation_errors : forall E t m c,
  (~ usable_type t -> read_param E t m c = Err TypeError) /\
  (usable_type t -> ~ (known_space E m /\ known_config E c) -> read_param E t m c = Err ValueError) /\
  (usable_type t -> known_space E m -> known_config E c -> exists p, read_param E t m c = Ok p /\ p_config p = c).
Proof.
  assert (SP : forall E s, resolve_space E s = Ok s /\ In s (e_spaces E) \/ resolve_space E s = Err ValueError /\ ~ In s (e_spaces E)).
  { intros E s. destruct (in_dec string_dec s (e_spaces E)) as [H|H]; [left; auto using resolve_space_iff|right]. split; auto.
    unfold resolve_space. destruct (existsb (String.eqb s) (e_spaces E)) eqn:X; auto. exfalso. apply H, mem_str_In. exact X. }
  assert (MS : forall E m, known_space E m \/ ~ known_space E m /\ read_space E m = Err ValueError).
  { intros E [|s|l|i l]; simpl; auto.
    - destruct (SP E s) as [(_ & H)|(H & N)]; auto. right. rewrite H. auto.
    - induction l as [|x l IH]; [left; intros s []|]. simpl. destruct (SP E x) as [(H & Hx)|(H & N)].
      + rewrite H. cbn [bind]. destruct IH as [IH|(IH & Q)].
        * left. intros s [<-|Hs]; auto.
        * right. split; [intros G; apply IH; intros; apply G; auto|]. destruct (map_res (resolve_space E) l); [discriminate|]. cbn in Q |- *. exact Q.
      + right. rewrite H. split; auto. }
  assert (CF : forall E c, known_config E c \/ ~ known_config E c /\ read_config E c = Err ValueError).
  { intros E [x|]; [|simpl; auto]. destruct (read_config E (Some x)) as [y|e] eqn:Q.
    - left. apply read_config_iff. rewrite Q. f_equal. unfold read_config in Q. apply bind_Ok in Q as (r & Hr & Q).
      unfold resolve_config in Hr. destruct (existsb _ _); [|discriminate]. injection Hr as <-. destruct (String.eqb x "structural"); [discriminate|]. injection Q as <-. auto.
    - right. split; [intros H; apply read_config_iff in H; congruence|]. unfold read_config, resolve_config in Q.
      destruct (existsb (String.eqb x) ("infer" :: e_configs E)); cbn [bind] in Q; [destruct (String.eqb x "structural"); [auto|discriminate]|auto]. }
  intros E t m c. split; [|split].
  - intros H. unfold read_param. destruct (supported (strip_none t)) eqn:X; [|reflexivity]. apply usable_type_ok in X. tauto.
  - intros H N. unfold read_param. apply usable_type_ok in H. rewrite H. cbn [negb].
    destruct (MS E m) as [M|(_ & ->)]; [|reflexivity]. destruct (read_space_ok E m M) as (s & ->). cbn [bind].
    destruct (CF E c) as [C|(_ & ->)]; [tauto|reflexivity].
  - intros H M C. apply usable_type_ok in H. destruct (read_space_ok E m M) as (s & Hs). apply read_config_iff in C.
    unfold read_param. rewrite H, Hs. cbn [negb bind]. rewrite C. cbn [bind]. eexists; split; reflexivity.
Qed.
Example C85_annotation_case : ~ known_config builtin_env (Some "structural") /\
  read_param builtin_env TTensor (MOne "weight") (Some "structural") = Err ValueError /\
  read_param builtin_env TTensor (MOne "wight") None = Err ValueError /\ read_param builtin_env (TUnion [TInt; TFloat]) MNone None = Err TypeError.
Proof. split; [intros (_ & H); auto|repeat split; reflexivity]. Qed.

Lemma good_hint_iff : forall E h, good_hint E h <-> exists p, hint_param E h = Ok p.
Proof.
  intros E h. split.
  - intros (t & m & c & W & Ht & Hm & Hc). destruct (read_param_ok _ _ _ _ Ht Hm Hc) as (p & Hp). exists p. unfold hint_param.
    destruct W as [->| ->]; simpl; rewrite Hp; reflexivity.
  - intros (p & H). apply hint_param_inv in H as (t & m & c & R & W). exists t, m, c. split; auto.
    pose proof R as R0. apply read_param_inv in R as (Hs & _ & _ & _ & Hc & Hm). split; [apply usable_type_ok; auto|]. split.
    + destruct m; simpl; auto; apply Hm.
    + apply read_config_iff. unfold read_param in R0. rewrite Hs in R0. simpl in R0. apply bind_Ok in R0 as (s & _ & R0). apply bind_Ok in R0 as (c' & Rc & _).
      rewrite Rc. f_equal. unfold read_config in Rc. destruct c as [x|]; [|inversion Rc; auto]. destruct Hc as (Hc & Hn). rewrite Hc in Rc. simpl in Rc.
      destruct (String.eqb_spec x "structural"); [contradiction|]. inversion Rc; auto.
Qed.

Lemma same_params_build : forall E l, (forall n h, In (n, h) l -> good_hint E h) ->
  exists a r, map_kres (read_hint E) l = Ok a /\ map_kres param_data a = Ok r.
Proof.
  intros E l. induction l as [|(n & h) l IH]; intros H; [exists [], []; auto|].
  destruct IH as (a & r & Ha & Hr); [intros; eapply H; right; eauto|].
  destruct (H n h) as (t & m & c & W & Ht & Hm & Hc); [left; auto|]. destruct (read_param_ok _ _ _ _ Ht Hm Hc) as (p & Hp).
  destruct W as [->| ->]; cbn [map_kres read_hint]; rewrite Hp; cbn [bind]; rewrite Ha; cbn [bind]; do 2 eexists; (split; [reflexivity|]);
    cbn [map_kres param_data bind]; rewrite Hr; reflexivity.
Qed.

Lemma validate_ok : forall g, NoDup (map fst (g_kw g)) ->
  (forall i n p, nth_error (g_args g) i = Some (n, p) -> length (g_args g) - length (g_defaults g) <= i -> only_param (meaning g p true) = true) ->
  (forall n p, In (n, p) (g_kw g) -> In n (map fst (g_kwdefaults g)) -> only_param (meaning g p true) = true) ->
  ((forall p, In p (all_params g) -> p_config p <> None) -> g_rconfig g <> None) ->
  (forall i, g_rspace g = RSym i -> exists p, In p (all_params g) /\ has_space p = true) ->
  validate g = Ok tt.
Proof.
  intros g N H1 H2 H3 H4. unfold validate.
  assert (D1 : forallb only_param (skipn (length (g_args g) - length (g_defaults g)) (in_spaces_args g)) = true).
  { apply forallb_forall. intros s Hs. apply In_nth_error in Hs as (j & Hj).
    assert (L : length (in_spaces_args g) = length (g_args g)) by apply arg_spaces_length.
    set (f := length (g_args g) - length (g_defaults g)) in *.
    assert (Hf : f <= length (in_spaces_args g)) by (unfold f; lia).
    assert (Ei : nth_error (in_spaces_args g) (f + j) = Some s).
    { rewrite <- Hj. rewrite <- (firstn_skipn f (in_spaces_args g)) at 1. rewrite nth_error_app2; rewrite firstn_length_le by lia; [f_equal; lia|lia]. }
    unfold in_spaces_args in Ei. rewrite arg_spaces_nth in Ei. fold f in Ei. destruct (nth_error (g_args g) (f + j)) as [(n & p)|] eqn:Ea; [|discriminate].
    inversion Ei; subst s. specialize (H1 _ _ _ Ea ltac:(lia)).
    unfold space_or_default. unfold meaning in H1. simpl. replace (f <=? f + j) with true by (symmetry; apply Nat.leb_le; lia). exact H1. }
  assert (D2 : forallb (fun ks => negb (dmem String.eqb (fst ks) (g_kwdefaults g)) || only_param (snd ks)) (in_spaces_kw g) = true).
  { apply forallb_forall. intros (k & s) Hin. unfold in_spaces_kw in Hin. apply in_map_iff in Hin as ((n & p) & Hk & Hin). simpl in Hk. inversion Hk; subst; clear Hk.
    simpl. destruct (dmem String.eqb k (g_kwdefaults g)) eqn:Dm; [|reflexivity]. simpl.
    apply (dmem_In String.eqb String.eqb_spec) in Dm. exact (H2 _ _ Hin Dm). }
  rewrite D1, D2. cbn [andb negb].
  assert (D3 : (if forallb (fun p => is_some (p_config p)) (all_params g) then
              let* c := return_config g (map p_config (map snd (g_args g) ++ match g_vararg g with Some p => [p] | None => [] end))
                 (map (fun kp => (fst kp, p_config (snd kp))) (g_kw g)) in
              if is_some c then Ok tt else Err TypeError
            else Ok tt) = Ok tt).
  { destruct (forallb (fun p => is_some (p_config p)) (all_params g)) eqn:F; [|reflexivity].
    rewrite forallb_forall in F.
    assert (R : g_rconfig g <> None). { apply H3. intros p Hp Hn. apply F in Hp. rewrite Hn in Hp. discriminate. }
    destruct (g_rconfig g) as [c|] eqn:Rc; [|contradiction].
    assert (X : return_config g (map p_config (map snd (g_args g) ++ match g_vararg g with Some p => [p] | None => [] end))
                 (map (fun kp => (fst kp, p_config (snd kp))) (g_kw g)) = Ok (Some c)); [|rewrite X; reflexivity].
    unfold return_config. rewrite Rc. apply check_configs_spec. split; [|split; [auto|discriminate]].
    intros d a Hin. left. unfold config_pairs in Hin. apply in_app_or in Hin as [Hin|Hin].
    - apply in_map_iff in Hin as ((i & x) & Hx & Hin). simpl in Hx. inversion Hx; subst; clear Hx.
      set (cs := map p_config (map snd (g_args g) ++ match g_vararg g with Some p => [p] | None => [] end)) in *.
      assert (P : args_varargs (map (fun kp => p_config (snd kp)) (g_args g)) match g_vararg g with Some p => Some (p_config p) | None => None end (length cs) = cs).
      { unfold cs, args_varargs. rewrite map_app, map_map. f_equal. destruct (g_vararg g); [|reflexivity].
        rewrite app_length, !map_length. simpl. replace (length (g_args g) + 1 - length (g_args g)) with 1 by lia. reflexivity. }
      rewrite P. apply In_nth_error in Hin as (j & Hj).
      assert (G : forall (l : list (option string)) s j i x, nth_error (combine (seq s (length l)) l) j = Some (i, x) -> i = s + j /\ nth_error l j = Some x).
      { clear. induction l as [|y l IH]; intros s j i x Hj; [destruct j; discriminate|]. destruct j as [|j]; simpl in *.
        - inversion Hj; subst. split; [lia|auto].
        - apply IH in Hj as (-> & Hj). split; [lia|auto]. }
      apply G in Hj as (-> & Hj). simpl. exact Hj.
    - apply in_map_iff in Hin as ((k & x) & Hx & Hin). simpl in Hx. inversion Hx; subst; clear Hx.
      apply (dget_NoDup_In String.eqb String.eqb_spec) in Hin; [|rewrite map_map; exact N]. exact Hin. }
  rewrite D3. cbn [bind]. destruct (g_rspace g) as [| |i] eqn:Rs; try reflexivity.
  destruct (H4 i eq_refl) as (p & Hp & Hh). assert (X : existsb has_space (all_params g) = true) by (apply existsb_exists; eauto). rewrite X. reflexivity.
Qed.

Lemma hint_of : forall E d g p, declare E d = Ok g -> In p (all_params g) -> exists n h, In (n, h) (hints d) /\ hint_param E h = Ok p.
Proof.
  intros E d g p H Hp. apply declare_inv in H as (Ha & Hk & Hv & _). unfold hints.
  assert (G : forall l r, same_params E l r -> In p (map snd r) -> exists n h, In (n, h) l /\ hint_param E h = Ok p).
  { intros l r S Hin. induction S as [|(n & h) y l r (E1 & E2) _ IH]; [destruct Hin|]. destruct Hin as [Hin|Hin].
    - simpl in Hin, E2. subst p. exists n, h. split; [left; auto|auto].
    - destruct (IH Hin) as (n' & h' & I1 & I2). exists n', h'. split; [right; auto|auto]. }
  unfold all_params in Hp. apply in_app_or in Hp as [Hp|Hp].
  - destruct (G _ _ Ha Hp) as (n & h & I1 & I2). exists n, h. split; auto. apply in_or_app; auto.
  - apply in_app_or in Hp as [Hp|Hp].
    + destruct (g_vararg g) as [q|]; [|destruct Hp]. destruct Hp as [->|[]]. destruct (d_vararg d) as [(n & h)|]; [|destruct Hv].
      exists n, h. split; auto. apply in_or_app; right; left; auto.
    + destruct (G _ _ Hk Hp) as (n & h & I1 & I2). exists n, h. split; auto. apply in_or_app; right. apply in_or_app; auto.
Qed.
Lemma param_of : forall E d g n h, declare E d = Ok g -> In (n, h) (hints d) -> exists p, In p (all_params g) /\ hint_param E h = Ok p.
Proof.
  intros E d g n h H Hp. apply declare_inv in H as (Ha & Hk & Hv & _). unfold hints in Hp.
  assert (G : forall l r, same_params E l r -> In (n, h) l -> exists p, In p (map snd r) /\ hint_param E h = Ok p).
  { intros l r S Hin. induction S as [|x y l r (E1 & E2) _ IH]; [destruct Hin|]. destruct Hin as [Hin|Hin].
    - subst x. exists (snd y). split; [left; auto|auto].
    - destruct (IH Hin) as (p & I1 & I2). exists p. split; [right; auto|auto]. }
  unfold all_params. apply in_app_or in Hp as [Hp|Hp].
  - destruct (G _ _ Ha Hp) as (p & I1 & I2). exists p. split; auto. apply in_or_app; auto.
  - apply in_app_or in Hp as [Hp|Hp].
    + destruct (d_vararg d) as [v|]; [|destruct Hp]. destruct Hp as [->|[]]. destruct (g_vararg g) as [q|]; [|destruct Hv].
      exists q. split; auto. apply in_or_app; right; left; auto.
    + destruct (G _ _ Hk Hp) as (p & I1 & I2). exists p. split; auto. apply in_or_app; right. apply in_or_app; auto.
Qed.

Lemma only_param_meaning : forall E t m c p g, read_param E t m c = Ok p ->
  (only_param (meaning g p true) = true <-> m = MNone \/ m = MOne "param" \/ exists l, m = MMany l /\ l <> [] /\ forall s, In s l -> s = "param").
Proof.
  intros E t m c p g R. apply read_param_inv in R as (_ & _ & _ & _ & _ & Hs). unfold meaning. destruct m as [|s|l|i l].
  - rewrite Hs. split; auto.
  - destruct Hs as (-> & _). split.
    + intros H. apply only_param_ok in H as (l & E1 & Hl). inversion E1; subst. right. left. f_equal. apply Hl. left; auto.
    + intros [H|[H|(l & H & _)]]; inversion H; subst. reflexivity.
  - destruct Hs as (-> & _). split.
    + intros H. apply only_param_ok in H as (l' & E1 & Hl). inversion E1; subst. right. right. exists l'. split; auto. split.
      * intros ->. destruct (proj2 (Hl "param") eq_refl).
      * intros s Hin. apply Hl; auto.
    + intros [H|[H|(l' & H & Hne & Hl)]]; inversion H; subst. unfold only_param, pspace_eqb. apply andb_true_iff. split.
      * apply forallb_forall. intros s Hin. rewrite (Hl s Hin). reflexivity.
      * simpl. rewrite andb_true_r. apply mem_str_In. destruct l' as [|s l']; [contradiction|]. left. apply Hl. left; auto.
  - rewrite Hs. split; [discriminate|]. intros [H|[H|(l' & H & _)]]; inversion H.
Qed.
Lemma param_only_iff : forall E h p g, hint_param E h = Ok p -> (only_param (meaning g p true) = true <-> param_only h).
Proof.
  intros E h p g H. split.
  - intros Ho. apply hint_param_inv in H as (t & m & c & R & W). exists t, m, c. split; auto. eapply only_param_meaning; eauto.
  - intros (t & m & c & W & Hm). apply (written_param _ _ _ _ _ _ H) in W. eapply only_param_meaning; eauto.
Qed.
(** A method is accepted when, and only when: every annotation is a Parameter (possibly inside one
    other type) of a supported type, of such a type or None with the type first, with registered merge spaces and configs other than
    "structural"; the result is annotated in the same way; parameters with default values take
    parameters; not every parameter has a config while the result has none; and a symbol for the
    result comes with a parameter that has a merge space. *)
Theorem C85_accepted : forall E d,
  NoDup (map fst (d_kw d)) -> (forall t l c, d_return d <> RHint t (MMany l) c) ->
  ((exists g, declare E d = Ok g) <-> acceptable E d).
Proof.
  intros E d N NM. split.
  - intros (g & H). pose proof H as H0. apply declare_inv in H0 as (Ha & Hk & Hv & D1 & D2 & D3 & Hr & Val).
    pose proof Val as Val0. apply validate_inv in Val0 as (V1 & V2 & V3).
    split; [|split; [|split; [|split; [|split]]]].
    + intros n h Hin. destruct (param_of _ _ _ _ _ H Hin) as (p & _ & Hp). apply good_hint_iff. eauto.
    + unfold read_return in Hr. destruct (d_return d) as [t m c|] eqn:Ed; [|discriminate]. exists t, m, c. split; auto.
      destruct (supported_return t) eqn:St; [|discriminate]. simpl in Hr. apply bind_Ok in Hr as (s & Hm & Hr). apply bind_Ok in Hr as (c' & Hc & Hr).
      split; [destruct t; try discriminate; simpl; tauto|]. split.
      * destruct m; simpl; auto; [|discriminate]. apply bind_Ok in Hm as (x & Hx & _). apply resolve_space_ok in Hx as (_ & Hx); auto.
      * apply read_config_iff. rewrite Hc. f_equal. unfold read_config in Hc. destruct c as [x|]; [|inversion Hc; auto].
        apply bind_Ok in Hc as (r & Hres & Hc). destruct (String.eqb r "structural"); [discriminate|]. inversion Hc; subst.
        unfold resolve_config in Hres. destruct (existsb _ _); inversion Hres; auto.
    + intros i n h Hi Hle. destruct (same_nth _ _ _ _ _ _ Ha Hi) as (p & Hp & Hh). apply (param_only_iff _ _ _ g Hh).
      assert (Li : i < length (g_args g)) by (apply nth_error_Some; congruence).
      destruct (V1 i) as (l & Hl & Hall); [rewrite D1, (same_length _ _ _ Ha); rewrite (same_length _ _ _ Ha) in Li; lia|].
      unfold expected_pos in Hl. rewrite Hp in Hl. rewrite D1, (same_length _ _ _ Ha) in Hl.
      replace (length (d_args d) - length (d_defaults d) <=? i) with true in Hl by (symmetry; apply Nat.leb_le; lia). cbn [orb] in Hl.
      inversion Hl as [Hm]. rewrite Hm. unfold only_param, pspace_eqb. apply andb_true_iff. split.
      * apply forallb_forall. intros x Hx. apply Hall in Hx. subst. reflexivity.
      * simpl. rewrite andb_true_r. apply mem_str_In. apply Hall. auto.
    + intros n h Hin Hdef. apply In_nth_error in Hin as (i & Hi). destruct (same_nth _ _ _ _ _ _ Hk Hi) as (p & Hp & Hh).
      apply (param_only_iff _ _ _ g Hh). pose proof (nth_error_In _ _ Hp) as Hin.
      assert (Hd : dmem String.eqb n (g_kwdefaults g) = true) by (rewrite D2; apply (dmem_In String.eqb String.eqb_spec); auto).
      destruct (V2 n) as (l & Hl & Hall); [apply (in_map fst) in Hin; auto|auto|]. unfold expected_kw in Hl.
      assert (Hg : dget String.eqb n (g_kw g) = Some p) by (apply (dget_NoDup_In String.eqb String.eqb_spec); [rewrite (same_names _ _ _ Hk)|]; auto).
      rewrite Hg, Hd in Hl. cbn [orb] in Hl.
      inversion Hl as [Hm]. rewrite Hm. unfold only_param, pspace_eqb. apply andb_true_iff. split.
      * apply forallb_forall. intros x Hx. apply Hall in Hx. subst. reflexivity.
      * simpl. rewrite andb_true_r. apply mem_str_In. apply Hall. auto.
    + intros Hall. assert (R : g_rconfig g <> None).
      { apply V3. intros p Hp Hn. destruct (hint_of _ _ _ _ H Hp) as (n & h & Hin & Hh). destruct (Hall _ _ Hin) as (t & m & c & W).
        apply (written_param _ _ _ _ _ _ Hh) in W. apply read_param_inv in W as (_ & _ & _ & Hc & _). congruence. }
      unfold read_return in Hr. destruct (d_return d) as [t m c|] eqn:Ed; [|discriminate]. exists t, m.
      destruct (supported_return t); [|discriminate]. simpl in Hr. apply bind_Ok in Hr as (s & Hm & Hr). apply bind_Ok in Hr as (c' & Hc & Hr).
      inversion Hr; subst. destruct c as [x|]; [eauto|]. inversion Hc; subst. congruence.
    + intros t i l c Er. unfold read_return in Hr. rewrite Er in Hr. destruct (supported_return t); [|discriminate]. simpl in Hr.
      apply bind_Ok in Hr as (c' & Hc & Hr). inversion Hr as [[E1 E2]]. unfold validate in Val.
      destruct (negb _) in Val; [discriminate|]. apply bind_Ok in Val as (_ & _ & Val). rewrite <- E1 in Val.
      destruct (existsb has_space (all_params g)) eqn:Ex; [|discriminate]. apply existsb_exists in Ex as (p & Hp & Hsp).
      destruct (hint_of _ _ _ _ H Hp) as (n & h & Hin & Hh). pose proof Hh as Hh0. apply hint_param_inv in Hh as (t' & m & c0 & R & W).
      exists n, h, t', m, c0. split; auto. split; auto. apply read_param_inv in R as (_ & _ & _ & _ & _ & Hm). unfold has_space in Hsp.
      destruct m as [|s|ll|j ll]; split; try discriminate; intros X.
      * rewrite Hm in Hsp; discriminate.
      * inversion X; subst. destruct Hm as (Hm & _). rewrite Hm in Hsp. discriminate.
  - intros (A1 & (rt & rm & rc & Er & Ht & Hrm & Hrc) & A3 & A4 & A5 & A6).
    destruct (same_params_build E (d_args d)) as (a & pa & Ha & Hpa); [intros n h Hin; apply (A1 n); apply in_or_app; auto|].
    destruct (same_params_build E (d_kw d)) as (k & pk & Hk & Hpk); [intros n h Hin; apply (A1 n); apply in_or_app; right; apply in_or_app; auto|].
    assert (Hvx : exists v pv, read_vararg E (d_vararg d) = Ok v /\ vararg_data v = Ok pv).
    { destruct (d_vararg d) as [(n & h)|] eqn:Ev; [|exists None, None; auto].
      assert (G : good_hint E h) by (apply (A1 n); unfold hints; rewrite Ev; apply in_or_app; right; left; auto).
      apply good_hint_iff in G as (p & Hp). unfold hint_param in Hp. apply bind_Ok in Hp as (x & Hx & Hp). unfold read_vararg. rewrite Hx. simpl.
      do 2 eexists. split; [reflexivity|]. simpl. rewrite Hp. reflexivity. }
    destruct Hvx as (v & pv & Hv & Hpv).
    assert (Hrx : exists rs, read_return E (d_return d) = Ok (Some (rs, rc)) /\ forall i, rs = RSym i -> exists j l, rm = MSym j l).
    { rewrite Er. unfold read_return. replace (supported_return rt) with true by (repeat (destruct Ht as [<-|Ht]; [reflexivity|]); destruct Ht).
      cbn [negb]. apply read_config_iff in Hrc. destruct rm as [|s|l|i l].
      - cbn [bind]. rewrite Hrc. cbn [bind]. eexists; split; [reflexivity|]. discriminate.
      - simpl in Hrm. rewrite resolve_space_iff by auto. cbn [bind]. rewrite Hrc. cbn [bind]. eexists; split; [reflexivity|]. discriminate.
      - exfalso. eapply NM; eauto.
      - cbn [bind]. rewrite Hrc. cbn [bind]. eexists; split; [reflexivity|]. eauto. }
    destruct Hrx as (rs & Hr & Hsym).
    unfold declare. rewrite Ha, Hv, Hk, Hr. cbn [bind]. rewrite Hpa, Hpv, Hpk. cbn [bind].
    set (g := Sig pa (d_defaults d) pv pk (d_kwdefaults d) rs rc (e_spaces E)).
    assert (Sa : same_params E (d_args d) pa) by (eapply same_params_ok; eauto).
    assert (Sk : same_params E (d_kw d) pk) by (eapply same_params_ok; eauto).
    (* the parameters and the annotations correspond *)
    assert (P1 : forall n h, In (n, h) (hints d) -> exists p, In p (all_params g) /\ hint_param E h = Ok p).
    { intros n h Hin. unfold hints in Hin. unfold all_params, g. cbn [g_args g_vararg g_kw].
      apply in_app_or in Hin as [Hin|Hin]; [|apply in_app_or in Hin as [Hin|Hin]].
      - apply In_nth_error in Hin as (i & Hi). destruct (same_nth _ _ _ _ _ _ Sa Hi) as (p & Hp & Hh). exists p. split; auto.
        apply in_or_app; left. apply nth_error_In in Hp. apply (in_map snd) in Hp; auto.
      - destruct (d_vararg d) as [(n' & h')|]; [|destruct Hin]. destruct Hin as [Hin|[]]. inversion Hin; subst. unfold read_vararg in Hv.
        apply bind_Ok in Hv as (x & Hx & Hv). inversion Hv; subst. apply bind_Ok in Hpv as (p & Hp & Hpv). inversion Hpv; subst.
        exists p. split; [apply in_or_app; right; left; auto|]. unfold hint_param. rewrite Hx. auto.
      - apply In_nth_error in Hin as (i & Hi). destruct (same_nth _ _ _ _ _ _ Sk Hi) as (p & Hp & Hh). exists p. split; auto.
        apply in_or_app; right. apply in_or_app; right. apply nth_error_In in Hp. apply (in_map snd) in Hp; auto. }
    assert (V : validate g = Ok tt); [|rewrite V; cbn [bind]; eauto].
    apply validate_ok.
    + unfold g. cbn [g_kw]. rewrite (same_names _ _ _ Sk). auto.
    + intros i n p Hi Hle. unfold g in Hi, Hle. cbn [g_args g_defaults] in *.
      destruct (F2_nth_r _ _ _ _ _ Sa _ _ Hi) as ((n' & h) & Hd & E1 & E2). simpl in *. subst.
      apply (param_only_iff _ _ _ g E2). rewrite (same_length _ _ _ Sa) in Hle. eapply A3; eauto.
    + intros n p Hin Hdef. unfold g in Hin, Hdef. cbn [g_kw g_kwdefaults] in *. apply In_nth_error in Hin as (i & Hi).
      destruct (F2_nth_r _ _ _ _ _ Sk _ _ Hi) as ((n' & h) & Hd & E1 & E2). simpl in *. subst.
      apply (param_only_iff _ _ _ g E2). apply nth_error_In in Hd. eapply A4; eauto.
    + intros Hc. unfold g. cbn [g_rconfig]. destruct A5 as (t & m & c & Er').
      * intros n h Hin. destruct (P1 _ _ Hin) as (p & Hp & Hh). specialize (Hc _ Hp). apply hint_param_inv in Hh as (t & m & c & R & W).
        apply read_param_inv in R as (_ & _ & _ & Hcc & _). rewrite Hcc in Hc. destruct c as [c|]; [eauto|contradiction].
      * rewrite Er in Er'. inversion Er'; subst. discriminate.
    + intros i Hrs. unfold g in Hrs. cbn [g_rspace] in Hrs. destruct (Hsym i Hrs) as (j & l & ->).
      destruct (A6 _ _ _ _ Er) as (n & h & t' & m & c' & Hin & W & Hne & Hne'). destruct (P1 _ _ Hin) as (p & Hp & Hh). exists p. split; auto.
      apply (written_param _ _ _ _ _ _ Hh) in W. apply read_param_inv in W as (_ & _ & _ & _ & _ & Hm). unfold has_space.
      destruct m as [|s|ll|j' ll]; try congruence.
      * destruct Hm as (-> & _). auto.
      * destruct Hm as (-> & _). destruct ll; [congruence|auto].
      * rewrite Hm. auto.
Qed.

(** ** Registering *)
(** A method that is refused changes nothing, unless it was refused as a conversion; conversions are
    those that were accepted as one; one that is accepted is found under its identifier and the
    others stay as they are. *)
Theorem C86_registered : forall E reg id conversion d reg' o, register E reg id conversion d = (reg', o) ->
  (forall g, o = Ok g -> declare E d = Ok g /\ dget String.eqb id (fst reg') = Some g /\
     (conversion = true -> validate_conversion g = Ok tt /\ dget String.eqb id (snd reg') = Some g)) /\
  (forall other, other <> id -> dget String.eqb other (fst reg') = dget String.eqb other (fst reg) /\
                              dget String.eqb other (snd reg') = dget String.eqb other (snd reg)) /\
  (conversion = false \/ (exists e, o = Err e) -> snd reg' = snd reg) /\
  (forall e, declare E d = Err e -> reg' = reg /\ o = Err e).
Proof.
  intros E reg id conversion d reg' o H. unfold register in H.
  destruct (declare E d) as [g|e] eqn:D; [|inversion H; subst; repeat split; auto; try discriminate; intros; congruence].
  assert (G : forall (x : list (string * sig)) k, k <> id -> dget String.eqb k (dset String.eqb id g x) = dget String.eqb k x).
  { intros x k Hk. rewrite (dget_dset String.eqb String.eqb_spec). destruct (String.eqb_spec k id); [congruence|auto]. }
  assert (G' : forall x : list (string * sig), dget String.eqb id (dset String.eqb id g x) = Some g).
  { intros x. rewrite (dget_dset String.eqb String.eqb_spec), String.eqb_refl. auto. }
  destruct conversion.
  - destruct (validate_conversion g) as [[]|e] eqn:V; inversion H; subst; cbn [fst snd].
    + repeat split; intros; try discriminate; try congruence; auto. destruct H0 as [|(e & ?)]; discriminate.
    + repeat split; intros; try discriminate; try congruence; auto.
  - inversion H; subst; cbn [fst snd]. repeat split; intros; try discriminate; try congruence; auto.
Qed.

(** ** cases *)
(** an optional parameter inside and outside of Parameter, and a symbol for the result *)
Definition optional_decl : decl := Decl
  [("a", HParam TTensor (MSym 1 ["weight"; "delta"]) None); ("b", HWrap (HParam (TUnion [TFloat; TNone]) (MOne "param") None))] [VNone] None
  [("mode", HParam TStr MNone None)] [("mode", VStr "x")] (RHint TTensor (MSym 1 ["weight"; "delta"]) None).
Example C85_accepted_case : acceptable builtin_env optional_decl /\
  ~ acceptable builtin_env (Decl [("a", HParam TTensor MNone None)] [] None [] [] (RHint TTensor (MSym 1 ["weight"]) None)).
Proof.
  split.
  - apply C85_accepted; [repeat constructor; simpl; intuition discriminate|discriminate|]. eexists. vm_compute. reflexivity.
  - intros (_ & _ & _ & _ & _ & H). destruct (H _ _ _ _ eq_refl) as (n & h & t & m & c & Hin & W & Hm & _).
    destruct Hin as [Hin|[]]. inversion Hin; subst. destruct W as [W|W]; inversion W; subst. contradiction.
Qed.
Example C86_registered_case : exists reg' g, register builtin_env ([], []) "mine" false optional_decl = (reg', Ok g) /\
  dget String.eqb "mine" (fst reg') = Some g /\ snd reg' = [].
Proof. do 2 eexists. split; [vm_compute; reflexivity|]. split; reflexivity. Qed.

Print Assumptions C85_accepted.
Print Assumptions C86_registered.
Print Assumptions C85_annotation_errors.
