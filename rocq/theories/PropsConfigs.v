(** C29, C34-C37, C62, C63, C67: model configs, registries, and the keys [merge] works on *)
From Coq Require Import String Ascii List Bool Arith Lia Sorted Permutation.
From Verif Require Import Base ModelConfigs.
Import ListNotations.
Open Scope string_scope.
Open Scope list_scope.
Open Scope nat_scope.

Lemma mem_In : forall k l, mem k l = true <-> In k l.
Proof.
  intros k l. unfold mem. rewrite existsb_exists. split.
  - intros (x & H & E). apply String.eqb_eq in E; subst; auto.
  - intros H. exists k. split; auto. apply String.eqb_refl.
Qed.
Lemma mem_false : forall k l, mem k l = false <-> ~ In k l.
Proof. intros. rewrite <- mem_In. destruct (mem k l); split; intros; congruence. Qed.

(** ** C63 *)
(** the characters an identifier may use *)
Definition allowed : list ascii := list_ascii_of_string "abcdefghijklmnopqrstuvwxyz0123456789._+".
Definition word (s : string) : Prop := s <> "" /\ forall c, In c (list_ascii_of_string s) -> In c allowed.

Lemma ident_char_spec : forall c, ident_char c = true <-> In c allowed.
Proof.
  intros c. rewrite <- has_char_In.
  assert (E : ident_char c = has_char c allowed).
  { destruct c as [[] [] [] [] [] [] [] []]; vm_compute; reflexivity. }
  rewrite E. tauto.
Qed.

Lemma match_plus_end : forall s, fullmatch [(ident_char, true)] s = true <-> s <> [] /\ Forall (fun c => ident_char c = true) s.
Proof.
  induction s as [|c s IH]; simpl.
  - split; [discriminate|intros [H _]; congruence].
  - rewrite andb_true_iff, orb_true_iff. split.
    + intros (A & [B|B]).
      * destruct s; [|discriminate]. split; [discriminate|]. repeat constructor; auto.
      * apply IH in B as (_ & B). split; [discriminate|]. constructor; auto.
    + intros (_ & F). inversion F; subst. split; auto. destruct s as [|c' s]; [left; reflexivity|].
      right. apply IH. split; [discriminate|auto].
Qed.

Lemma match_ident : forall s, fullmatch ident_re s = true <->
  exists a b, s = a ++ "-"%char :: b /\ a <> [] /\ b <> [] /\ Forall (fun c => ident_char c = true) a /\ Forall (fun c => ident_char c = true) b.
Proof.
  induction s as [|c s IH].
  - simpl. split; [discriminate|]. intros (a & b & E & _). destruct a; discriminate.
  - cbn [fullmatch ident_re]. rewrite !andb_true_iff, orb_true_iff, !andb_true_iff.
    fold ident_re. split.
    + intros (A & [B|(_ & B)]).
      * destruct s as [|d s]; [discriminate|]. cbn [fullmatch] in B. rewrite andb_false_l, orb_false_r, andb_true_iff in B.
        destruct B as (D & B). apply Ascii.eqb_eq in D; subst d. apply match_plus_end in B as (B1 & B2).
        exists [c], s. repeat split; auto; discriminate.
      * apply IH in B as (a & b & -> & Ha & Hb & Fa & Fb). exists (c :: a), b. repeat split; auto; discriminate.
    + intros (a & b & E & Ha & Hb & Fa & Fb). destruct a as [|a0 a]; [congruence|]. simpl in E. inversion E; subst.
      inversion Fa; subst. split; auto. destruct a as [|a1 a].
      * left. cbn [app fullmatch]. rewrite andb_false_l, orb_false_r, andb_true_iff. split; [reflexivity|]. apply match_plus_end; auto.
      * right. split; auto. apply IH. exists (a1 :: a), b. repeat split; auto; discriminate.
Qed.

Lemma dash_not_ident : ident_char "-" = false.
Proof. reflexivity. Qed.
Lemma split_no_dash : forall b, Forall (fun c => ident_char c = true) b -> split_dash b = [b].
Proof.
  induction b as [|c b IH]; intros F; auto. inversion F; subst. simpl.
  destruct (Ascii.eqb_spec c "-") as [->|]; [rewrite dash_not_ident in *; discriminate|]. rewrite IH; auto.
Qed.
Lemma split_ident : forall a b, Forall (fun c => ident_char c = true) a -> Forall (fun c => ident_char c = true) b ->
  split_dash (a ++ "-"%char :: b) = [a; b].
Proof.
  induction a as [|c a IH]; intros b Fa Fb.
  - simpl. rewrite split_no_dash; auto.
  - inversion Fa; subst. cbn [app split_dash].
    destruct (Ascii.eqb_spec c "-") as [->|]; [rewrite dash_not_ident in *; discriminate|]. rewrite IH; auto.
Qed.

Lemma word_iff : forall s, word s <-> s2l s <> [] /\ Forall (fun c => ident_char c = true) (s2l s).
Proof.
  intros s. unfold word, s2l. rewrite Forall_forall. split; intros (A & B); split.
  - destruct s; [congruence|discriminate].
  - intros c H. apply ident_char_spec; auto.
  - intros ->. apply A. reflexivity.
  - intros c H. apply ident_char_spec; auto.
Qed.

Lemma s2l_app : forall a b, s2l (a ++ b)%string = s2l a ++ s2l b.
Proof. induction a as [|c a IH]; intros b; simpl; auto. unfold s2l in *. simpl. f_equal; auto. Qed.

(** an identifier is accepted iff it is two words joined by a dash; these are then its
    architecture and its implementation *)
Theorem C63_identifiers : forall id,
  ((exists c, config_new id = Ok c) <-> exists a b, word a /\ word b /\ id = (a ++ "-" ++ b)%string) /\
  (forall c, config_new id = Ok c ->
     exists a b, architecture id = Ok a /\ implementation id = Ok b /\ id = (a ++ "-" ++ b)%string).
Proof.
  intros id. unfold config_new. split; [split|].
  - intros (c & H). destruct (fullmatch ident_re (s2l id)) eqn:E; [|discriminate].
    apply match_ident in E as (a & b & E & Ha & Hb & Fa & Fb).
    exists (l2s a), (l2s b). rewrite !word_iff, !s2l_l2s. repeat split; auto.
    apply s2l_inj. rewrite E, !s2l_app, !s2l_l2s. reflexivity.
  - intros (a & b & Ha & Hb & ->). apply word_iff in Ha as (Ha & Fa). apply word_iff in Hb as (Hb & Fb).
    rewrite !s2l_app. assert (E : fullmatch ident_re (s2l a ++ s2l "-" ++ s2l b) = true).
    { apply match_ident. exists (s2l a), (s2l b). repeat split; auto. }
    rewrite E. eauto.
  - intros c H. destruct (fullmatch ident_re (s2l id)) eqn:E; [|discriminate].
    apply match_ident in E as (a & b & E & Ha & Hb & Fa & Fb).
    exists (l2s a), (l2s b). unfold architecture, implementation, nth_piece. rewrite E, split_ident by auto.
    repeat split; auto. apply s2l_inj. rewrite E, !s2l_app, !s2l_l2s. reflexivity.
Qed.
Print Assumptions C63_identifiers.

Example ex_C63 : config_new "sdxl-sgm" = Ok "sdxl-sgm" /\ architecture "sdxl-sgm" = Ok "sdxl" /\ implementation "sdxl-sgm" = Ok "sgm" /\
  config_new "sdxl" = Err ValueError /\ config_new "a-b-c" = Err ValueError /\ config_new "A-b" = Err ValueError /\ config_new "-b" = Err ValueError.
Proof. repeat split. Qed.

(** ** C37 *)
Section Registry.
  Context {C F M : Type}.
  Notation regs := (registries C F M).
  Notation registration := (registration C F M).

  (** the identifier is taken, among those of the same kind *)
  Definition taken (r : regs) (x : registration) : Prop :=
    match x with
    | RBase id _ | RAux id _ => In id (map fst (r_base r)) \/ In id (map fst (r_aux r))
    | RSpace id => In id (map fst (r_spaces r))
    | RFormat id _ => In id (map fst (r_formats r))
    | RMethod _ _ _ => False
    end.

  (** everything resolves as in [r], except what [x] registers *)
  Definition registered (r r' : regs) (x : registration) : Prop :=
    match x with
    | RBase id c | RAux id c => resolve_config r' id = Ok (RConfig c)
    | RSpace id => resolve_space r' id = Ok id
    | RFormat id f => resolve_format r' id = Ok f
    | RMethod id m b => resolve_method r' id = Ok m
    end /\
    (forall id, match x with RBase i _ | RAux i _ => id <> i | _ => True end -> resolve_config r' id = resolve_config r id) /\
    (forall id, match x with RSpace i => id <> i | _ => True end -> resolve_space r' id = resolve_space r id) /\
    (forall id, match x with RFormat i _ => id <> i | _ => True end -> resolve_format r' id = resolve_format r id) /\
    (forall id, match x with RMethod i _ _ => id <> i | _ => True end ->
       resolve_method r' id = resolve_method r id /\ converter_named r' id = converter_named r id).

  Lemma neq_eqb : forall a b : string, a <> b -> String.eqb a b = false.
  Proof. intros a b H. apply String.eqb_neq; auto. Qed.

  Lemma taken_used : forall (r : regs) id, (dmem String.eqb id (r_base r) || dmem String.eqb id (r_aux r) = true) <->
    In id (map fst (r_base r)) \/ In id (map fst (r_aux r)).
  Proof. intros. rewrite orb_true_iff, !(dmem_In String.eqb String.eqb_spec). tauto. Qed.
End Registry.

(** After any history of registrations: registering under a taken identifier raises (and
    changes nothing, by the way a raising registration is run); under a free one it makes
    exactly that identifier resolve to the new object. *)
Theorem C37_registries : forall C F M (r0 : registries C F M) history x,
  let r := register_all r0 history in
  (taken r x -> register r x = Err ValueError /\ register_all r0 (history ++ [x]) = r) /\
  (~ taken r x -> exists r', register r x = Ok r' /\ register_all r0 (history ++ [x]) = r' /\ registered r r' x).
Proof.
  intros C F M r0 history x r.
  assert (Happ : register_all r0 (history ++ [x]) = match register r x with Ok r' => r' | Err _ => r end).
  { unfold register_all, r. rewrite fold_left_app. reflexivity. }
  rewrite Happ. clear Happ. generalize r; clear r; intros r. split.
  - intros T. destruct x as [id c|id c|id|id f|id m b]; simpl in T; cbn [register].
    + apply taken_used in T. rewrite T. auto.
    + apply taken_used in T. rewrite T. auto.
    + apply (dmem_In String.eqb String.eqb_spec) in T. rewrite T. auto.
    + apply (dmem_In String.eqb String.eqb_spec) in T. rewrite T. auto.
    + contradiction.
  - intros T. destruct x as [id c|id c|id|id f|id m b]; simpl in T; cbn [register].
    + destruct (dmem String.eqb id (r_base r) || dmem String.eqb id (r_aux r)) eqn:D; [apply taken_used in D; contradiction|].
      eexists. split; [reflexivity|]. split; [reflexivity|]. unfold registered, resolve_config, resolve_space, resolve_format, resolve_method; simpl.
      rewrite (dget_dset String.eqb String.eqb_spec), String.eqb_refl. repeat split; auto.
      intros id' N. rewrite (dget_dset String.eqb String.eqb_spec), (neq_eqb _ _ N). auto.
    + destruct (dmem String.eqb id (r_base r) || dmem String.eqb id (r_aux r)) eqn:D; [apply taken_used in D; contradiction|].
      eexists. split; [reflexivity|]. split; [reflexivity|]. unfold registered, resolve_config, resolve_space, resolve_format, resolve_method; simpl.
      assert (E : dget String.eqb id (r_base r) = None) by (apply (proj2 (dget_None String.eqb String.eqb_spec _ _)); tauto).
      rewrite E, (dget_dset String.eqb String.eqb_spec), String.eqb_refl. repeat split; auto.
      intros id' N. rewrite (dget_dset String.eqb String.eqb_spec), (neq_eqb _ _ N). auto.
    + destruct (dmem String.eqb id (r_spaces r)) eqn:D; [apply (dmem_In String.eqb String.eqb_spec) in D; contradiction|].
      eexists. split; [reflexivity|]. split; [reflexivity|]. unfold registered, resolve_config, resolve_space, resolve_format, resolve_method, lookup; simpl.
      rewrite (dget_dset String.eqb String.eqb_spec), String.eqb_refl. repeat split; auto.
      intros id' N. rewrite (dget_dset String.eqb String.eqb_spec), (neq_eqb _ _ N). auto.
    + destruct (dmem String.eqb id (r_formats r)) eqn:D; [apply (dmem_In String.eqb String.eqb_spec) in D; contradiction|].
      eexists. split; [reflexivity|]. split; [reflexivity|]. unfold registered, resolve_config, resolve_space, resolve_format, resolve_method, lookup; simpl.
      rewrite (dget_dset String.eqb String.eqb_spec), String.eqb_refl. repeat split; auto.
      intros id' N. rewrite (dget_dset String.eqb String.eqb_spec), (neq_eqb _ _ N). auto.
    + eexists. split; [reflexivity|]. split; [reflexivity|]. unfold registered, resolve_config, resolve_space, resolve_format, resolve_method, converter_named, lookup; simpl.
      rewrite (dget_dset String.eqb String.eqb_spec), String.eqb_refl. repeat split; auto.
      * rewrite (dget_dset String.eqb String.eqb_spec), (neq_eqb id0 id) by auto. auto.
      * destruct b; auto. rewrite (dget_dset String.eqb String.eqb_spec), (neq_eqb id0 id) by auto. auto.
Qed.
Print Assumptions C37_registries.

Definition no_regs : registries nat nat nat := Regs [] [] [] [] [] [].
Example ex_C37 :
  let h := [RBase "a-b" 1; RAux "lora-a" 2; RBase "lora-a" 3; RSpace "weight"; RAux "a-b" 4; RFormat "f" 5] in
  taken (register_all no_regs h) (RBase "lora-a" 9) /\ ~ taken (register_all no_regs h) (RAux "c-d" 9) /\
  resolve_config (register_all no_regs h) "lora-a" = Ok (RConfig 2) /\ resolve_config (register_all no_regs h) "infer" = Ok RInfer.
Proof. simpl. repeat split; intuition discriminate. Qed.

(** What a name stands for after any history of registrations, those that raised included, said without the registries:
    the first config, space or format registered under it, the last method, and ValueError for all other names;
    except that "infer" is always there. *)
Fixpoint first {A B} (f : A -> option B) (l : list A) : option B :=
  match l with [] => None | x :: t => match f x with Some b => Some b | None => first f t end end.
Definition config_called {C F M} (id : string) (x : registration C F M) : option C :=
  match x with RBase i c | RAux i c => if String.eqb id i then Some c else None | _ => None end.
Definition space_called {C F M} (id : string) (x : registration C F M) : option string :=
  match x with RSpace i => if String.eqb id i then Some i else None | _ => None end.
Definition format_called {C F M} (id : string) (x : registration C F M) : option F :=
  match x with RFormat i f => if String.eqb id i then Some f else None | _ => None end.
Definition method_called {C F M} (id : string) (x : registration C F M) : option M :=
  match x with RMethod i m _ => if String.eqb id i then Some m else None | _ => None end.
Definition conversion_called {C F M} (id : string) (x : registration C F M) : option M :=
  match x with RMethod i m true => if String.eqb id i then Some m else None | _ => None end.
Definition or_unknown {A} (x : option A) : result A := match x with Some a => Ok a | None => Err ValueError end.

Lemma first_app : forall A B (f : A -> option B) l x,
  first f (l ++ [x]) = match first f l with Some b => Some b | None => f x end.
Proof. induction l as [|a l IH]; intros x; simpl; [destruct (f x); auto|]. rewrite IH. now destruct (f a). Qed.

Definition empty_regs {C F M} : registries C F M := Regs [] [] [] [] [] [].

Lemma regs_called : forall C F M (history : list (registration C F M)),
  let r := register_all empty_regs history in
  (forall id, first (config_called id) history = match dget String.eqb id (r_base r) with Some c => Some c | None => dget String.eqb id (r_aux r) end) /\
  (forall id, first (space_called id) history = dget String.eqb id (r_spaces r)) /\
  (forall id, first (format_called id) history = dget String.eqb id (r_formats r)) /\
  (forall id, first (method_called id) (rev history) = dget String.eqb id (r_methods r)) /\
  (forall id, first (conversion_called id) (rev history) = dget String.eqb id (r_convs r)).
Proof.
  intros C F M history. induction history as [|x history IH] using rev_ind; [simpl; auto|]. cbv zeta in *.
  assert (Happ : register_all empty_regs (history ++ [x]) =
    match register (register_all empty_regs history) x with Ok r' => r' | Err _ => register_all empty_regs history end).
  { unfold register_all. rewrite fold_left_app. reflexivity. }
  rewrite Happ. clear Happ. generalize dependent (register_all (@empty_regs C F M) history). intros r (Ic & Is & If & Im & Iv).
  assert (DM : forall A id (l : list (string * A)), dmem String.eqb id l = match dget String.eqb id l with Some _ => true | None => false end) by reflexivity.
  assert (ST : forall A id i (l : list (string * A)) v, dget String.eqb id (dset String.eqb i v l) = if String.eqb id i then Some v else dget String.eqb id l)
    by (intros; apply (dget_dset String.eqb String.eqb_spec)).
  destruct x as [i c|i c|i|i f|i m b]; cbn [register];
    [destruct (dmem String.eqb i (r_base r) || dmem String.eqb i (r_aux r)) eqn:D
    |destruct (dmem String.eqb i (r_base r) || dmem String.eqb i (r_aux r)) eqn:D
    |destruct (dmem String.eqb i (r_spaces r)) eqn:D|destruct (dmem String.eqb i (r_formats r)) eqn:D|];
    cbn [r_base r_aux r_spaces r_formats r_methods r_convs]; rewrite rev_app_distr; cbn [rev app first];
    repeat split; intros id; rewrite ?first_app, ?ST, ?Ic, ?Is, ?If, ?Im, ?Iv;
    cbn [config_called space_called format_called method_called conversion_called first];
    try (rewrite ?DM in D); try (destruct b); rewrite ?ST;
    destruct (String.eqb_spec id i) as [->|N]; cbn [first]; try reflexivity;
    repeat match goal with
           | |- context [match dget String.eqb ?k ?l with _ => _ end] => destruct (dget String.eqb k l) eqn:?
           | |- context [dget String.eqb ?k ?l] => destruct (dget String.eqb k l) eqn:?
           end; try reflexivity; try (simpl in D; discriminate D); simpl in *; congruence.
Qed.

Theorem C37_names : forall C F M (history : list (registration C F M)) id,
  let r := register_all empty_regs history in
  resolve_config r id = match first (config_called id) history with
                        | Some c => Ok (RConfig c)
                        | None => if String.eqb id "infer" then Ok RInfer else Err ValueError
                        end /\
  resolve_space r id = or_unknown (first (space_called id) history) /\
  resolve_format r id = or_unknown (first (format_called id) history) /\
  resolve_method r id = or_unknown (first (method_called id) (rev history)) /\
  converter_named r id = or_unknown (first (conversion_called id) (rev history)).
Proof.
  intros C F M history id r. destruct (regs_called C F M history) as (Ic & Is & If & Im & Iv). fold r in Ic, Is, If, Im, Iv.
  rewrite Ic, Is, If, Im, Iv. unfold resolve_config, resolve_space, resolve_format, resolve_method, converter_named, lookup, or_unknown.
  repeat split; auto. destruct (dget String.eqb id (r_base r)), (dget String.eqb id (r_aux r)); auto.
Qed.
Print Assumptions C37_names.
Example ex_C37_names :
  let h := [RBase "a-b" 1; RAux "a-b" 2; RMethod "m" 3 true; RFormat "f" 4; RMethod "m" 5 false; RFormat "f" 6; RSpace "weight"] in
  let r := register_all (C:=nat) (F:=nat) (M:=nat) empty_regs h in
  resolve_config r "a-b" = Ok (RConfig 1) /\ resolve_config r "infer" = Ok RInfer /\ resolve_config r "c-d" = Err ValueError /\
  resolve_method r "m" = Ok 5 /\ converter_named r "m" = Ok 3 /\ resolve_format r "f" = Ok 4 /\ resolve_space r "delta" = Err ValueError.
Proof. repeat split. Qed.

(** ** C67: merge methods *)
(** registering a method under a name in use raises nothing and replaces it *)
Theorem C67_methods_replaced_refuted :
  ~ (forall C F M (r0 : registries C F M) history id m1 m2 b1 b2 r',
       let r := register_all r0 (history ++ [RMethod id m1 b1]) in
       register r (RMethod id m2 b2) = Ok r' -> resolve_method r' id = Ok m1).
Proof. intros H. specialize (H nat nat nat no_regs [] "ties" 1 2 false false _ eq_refl). discriminate. Qed.
Print Assumptions C67_methods_replaced_refuted.

(** and a conversion that is re-registered as a plain method stays a conversion, as it was *)
Theorem C67_stale_conversion : forall C F M (r : registries C F M) id m1 m2,
  let r' := register_all r [RMethod id m1 true; RMethod id m2 false] in
  resolve_method r' id = Ok m2 /\ converter_named r' id = Ok m1.
Proof.
  intros C F M r id m1 m2. unfold register_all, resolve_method, converter_named, lookup; simpl.
  rewrite !(dget_dset String.eqb String.eqb_spec), !String.eqb_refl. auto.
Qed.
Print Assumptions C67_stale_conversion.

(** what holds: the last registration under a name is the one found, and no other name is affected *)
Theorem C67_methods_partial : forall C F M (r0 : registries C F M) history later id m b,
  (forall x, In x later -> match x with RMethod i _ _ => i <> id | _ => True end) ->
  resolve_method (register_all r0 (history ++ [RMethod id m b] ++ later)) id = Ok m.
Proof.
  intros C F M r0 history later id m b H. unfold register_all. rewrite !fold_left_app. simpl.
  set (r := fold_left _ history r0). clearbody r.
  assert (G : forall later (r : registries C F M), (forall x, In x later -> match x with RMethod i _ _ => i <> id | _ => True end) ->
    resolve_method r id = Ok m -> resolve_method (fold_left (fun r x => match register r x with Ok r' => r' | Err _ => r end) later r) id = Ok m).
  { intros l0; induction l0 as [|x l IH]; intros q Hl E; simpl; auto. apply IH.
    - intros y Y; apply Hl; simpl; auto.
    - specialize (Hl x (or_introl eq_refl)). destruct x; cbn [register].
      + destruct (_ || _); auto.
      + destruct (_ || _); auto.
      + destruct (dmem _ _ _); auto.
      + destruct (dmem _ _ _); auto.
      + unfold resolve_method, lookup in *. simpl. rewrite (dget_dset String.eqb String.eqb_spec), (neq_eqb id id0) by congruence. auto. }
  apply G; auto. unfold resolve_method, lookup; simpl. rewrite (dget_dset String.eqb String.eqb_spec), String.eqb_refl. auto.
Qed.
Print Assumptions C67_methods_partial.

(** ** C36 *)
Theorem C36_mandatory_keys : forall sd keys,
  check_mandatory sd keys = Ok tt <->
  forall k, In k keys -> mk_optional k = false -> In (mk_name k) sd \/ exists a, In a (mk_aliases k) /\ In a sd.
Proof.
  intros sd keys. unfold check_mandatory.
  assert (One : forall k, mem (effective_name sd k) sd = true <-> In (mk_name k) sd \/ exists a, In a (mk_aliases k) /\ In a sd).
  { intros k. unfold effective_name. destruct (find (fun a => mem a sd) (mk_aliases k)) as [a|] eqn:E.
    - apply find_some in E as (E1 & E2). rewrite E2. split; auto. intros _. right. exists a. split; auto. apply mem_In; auto.
    - rewrite mem_In. split; auto. intros [H|(a & A & B)]; auto. eapply find_none in E; eauto. apply mem_false in E; contradiction. }
  split.
  - intros H k K O. apply One. destruct (mem (effective_name sd k) sd) eqn:E; auto.
    assert (In (effective_name sd k) (missing_keys sd keys)).
    { unfold missing_keys. apply in_flat_map. exists k. split; auto. rewrite O, E. simpl; auto. }
    destruct (missing_keys sd keys); [contradiction|discriminate].
  - intros H. assert (E : missing_keys sd keys = []).
    { unfold missing_keys. induction keys as [|k keys IH]; simpl; auto. rewrite IH by (intros; apply H; simpl; auto).
      destruct (mk_optional k) eqn:O; auto. rewrite (proj2 (One k)); auto. apply H; simpl; auto. }
    rewrite E; auto.
Qed.
Print Assumptions C36_mandatory_keys.

Theorem C36_otherwise_raises : forall sd keys, check_mandatory sd keys = Ok tt \/ check_mandatory sd keys = Err RuntimeError.
Proof. intros. unfold check_mandatory. destruct (missing_keys sd keys); auto. Qed.

Example ex_C36 : check_mandatory ["a"; "b.alias"] [MKey "a" [] false; MKey "b" ["b.other"; "b.alias"] false; MKey "c" [] true] = Ok tt /\
  check_mandatory ["a"] [MKey "a" [] false; MKey "b" ["b.other"; "b.alias"] false] = Err RuntimeError.
Proof. split; reflexivity. Qed.

(** ** C35 *)
(** [m] of the distinct keys of the state dict are keys or aliases of the config *)
Definition match_count (sd : list string) (c : cfg) (m : nat) : Prop :=
  exists l, NoDup l /\ length l = m /\ forall k, In k l <-> In k sd /\ (In k (c_keys c) \/ In k (c_aliases c)).
(** the state dict has [n] distinct keys *)
Definition key_count (sd : list string) (n : nat) : Prop :=
  exists l, NoDup l /\ length l = n /\ forall k, In k l <-> In k sd.

Lemma same_set_length : forall A (l l' : list A), NoDup l -> NoDup l' -> (forall x, In x l <-> In x l') -> length l = length l'.
Proof. intros. apply Permutation_length. apply NoDup_Permutation; auto. Qed.

Lemma matched_count : forall sd c m, match_count sd c m <-> m = matched sd c.
Proof.
  intros sd c m. set (l0 := filter (fun k => mem k (c_keys c) || mem k (c_aliases c)) (nodup string_dec sd)).
  assert (N0 : NoDup l0) by (apply NoDup_filter, NoDup_nodup).
  assert (I0 : forall k, In k l0 <-> In k sd /\ (In k (c_keys c) \/ In k (c_aliases c))).
  { intros k. unfold l0. rewrite filter_In, nodup_In, orb_true_iff, !mem_In. tauto. }
  split.
  - intros (l & N & L & I). rewrite <- L. change (matched sd c) with (length l0). apply same_set_length; auto. intros k. rewrite I, I0. tauto.
  - intros ->. exists l0. auto.
Qed.
Lemma key_count_spec : forall sd n, key_count sd n <-> n = length (nodup string_dec sd).
Proof.
  intros sd n. split.
  - intros (l & N & L & I). rewrite <- L. apply same_set_length; auto; [apply NoDup_nodup|]. intros k. rewrite I, nodup_In. tauto.
  - intros ->. exists (nodup string_dec sd). split; [apply NoDup_nodup|]. split; auto. intros. apply nodup_In.
Qed.

Lemma insert_In : forall n m l, In m (insert_nat n l) <-> m = n \/ In m l.
Proof.
  induction l as [|x l IH]; simpl; [intuition|].
  destruct (x <? n); simpl; [intuition|]. destruct (Nat.eqb_spec n x); simpl; [intuition congruence|]. rewrite IH. intuition.
Qed.
Lemma sort_desc_In : forall m l, In m (sort_desc_set l) <-> In m l.
Proof. induction l as [|x l IH]; simpl; [tauto|]. rewrite insert_In, IH. intuition. Qed.
Lemma insert_sorted : forall n l, StronglySorted (fun a b => b < a) l -> StronglySorted (fun a b => b < a) (insert_nat n l).
Proof.
  induction l as [|x l IH]; intros H; simpl.
  - repeat constructor.
  - apply StronglySorted_inv in H as H'. destruct H' as (H1 & H2).
    destruct (Nat.ltb_spec x n).
    + constructor; auto. constructor; auto. eapply Forall_impl; [|exact H2]. simpl; lia.
    + destruct (Nat.eqb_spec n x); auto. constructor; auto.
      apply Forall_forall. intros y Y. apply insert_In in Y as [->|Y]; [lia|]. rewrite Forall_forall in H2; auto.
Qed.
Lemma sort_desc_sorted : forall l, StronglySorted (fun a b => b < a) (sort_desc_set l).
Proof. induction l; simpl; [constructor|]. apply insert_sorted; auto. Qed.

(** the search stops at the first config that covers the whole state dict and whose keys
    are, up to a tenth, all in it *)
Definition covers (sd : list string) (c : cfg) : Prop :=
  exists m, match_count sd c m /\ key_count sd m /\ 9 * length (c_keys c) <= 10 * m.
Definition considered (configs : list cfg) (sd : list string) (c : cfg) : Prop :=
  exists a b, configs = a ++ c :: b /\ forall d, In d a -> ~ covers sd d.
Definition accepted (configs : list cfg) (sd : list string) (c : cfg) (m : nat) : Prop :=
  considered configs sd c /\ match_count sd c m /\ exists n, key_count sd n /\ n <= 10 * m.

Lemma affinities_spec : forall sd configs c m,
  In (c, m) (affinities (length (nodup string_dec sd)) sd configs) <-> accepted configs sd c m.
Proof.
  intros sd. set (n := length (nodup string_dec sd)).
  assert (Cov : forall c, covers sd c <-> (matched sd c =? n) && (9 * length (c_keys c) <=? 10 * matched sd c) = true).
  { intros c. unfold covers. rewrite andb_true_iff, Nat.eqb_eq, Nat.leb_le. split.
    - intros (m & A & B & D). apply matched_count in A. apply key_count_spec in B. subst m. auto.
    - intros (A & B). exists (matched sd c). split; [apply matched_count; auto|]. split; auto. apply key_count_spec; auto. }
  induction configs as [|d configs IH]; intros c m; cbn [affinities].
  - split; [intros []|]. intros ((a & b & E & _) & _). destruct a; discriminate.
  - rewrite in_app_iff. split.
    + intros [H|H].
      * destruct (n <=? 10 * matched sd d) eqn:E; [|contradiction]. destruct H as [H|[]]. inversion H; subst.
        split; [exists [], configs; split; auto; intros ? []|]. split; [apply matched_count; auto|]. exists n. split; [apply key_count_spec; auto|].
        apply Nat.leb_le; auto.
      * destruct ((matched sd d =? n) && (9 * length (c_keys d) <=? 10 * matched sd d)) eqn:E; [contradiction|].
        apply IH in H as ((a & b & -> & N) & H). split; auto. exists (d :: a), b. split; auto.
        intros x [<-|X]; auto. rewrite Cov. congruence.
    + intros ((a & b & E & N) & A & n' & K & L). destruct a as [|a0 a]; simpl in E; inversion E; subst.
      * left. apply matched_count in A. apply key_count_spec in K. subst. fold n in L. apply Nat.leb_le in L. rewrite L. simpl; auto.
      * right. destruct ((matched sd a0 =? n) && (9 * length (c_keys a0) <=? 10 * matched sd a0)) eqn:E2.
        -- exfalso. apply (N a0); simpl; auto. apply Cov; auto.
        -- apply IH. split; [|split; auto; exists n'; auto]. exists a, b. split; auto. intros x X. apply N; simpl; auto.
Qed.

(** The inferred configs come in groups, one for each number of matched keys: best first,
    no group empty; together the groups hold exactly the configs considered that match a tenth
    of the keys, each once. *)
Theorem C35_inference : forall configs sd, NoDup configs ->
  exists counts, StronglySorted (fun a b => b < a) counts /\
    Forall2 (fun m group => group <> [] /\ forall c, In c group <-> accepted configs sd c m) counts (infer_model_configs configs sd) /\
    NoDup (concat (infer_model_configs configs sd)) /\
    (forall c m, accepted configs sd c m -> In m counts).
Proof.
  intros configs sd ND. unfold infer_model_configs. set (af := affinities (length (nodup string_dec sd)) sd configs).
  assert (Haf : forall c m, In (c, m) af <-> accepted configs sd c m) by (intros; apply affinities_spec).
  assert (NDa : NoDup (map fst af)).
  { unfold af. generalize (length (nodup string_dec sd)). intros n. clear af Haf. induction configs as [|d configs IH]; cbn [affinities]; [constructor|].
    inversion ND as [|? ? N ND']; subst.
    assert (Sub : forall c, In c (map fst (affinities n sd configs)) -> In c configs).
    { clear. induction configs as [|d configs IH]; cbn [affinities]; [auto|]. intros c. rewrite map_app, in_app_iff.
      intros [H|H].
      - destruct (n <=? _); simpl in H; [destruct H as [<-|[]]; simpl; auto|contradiction].
      - destruct (_ && _); [contradiction|]. simpl; auto. }
    rewrite map_app. apply NoDup_app_iff. split; [destruct (n <=? _); repeat constructor; auto|].
    split; [destruct (_ && _); [constructor|auto]|].
    intros x X Y. destruct (n <=? _); simpl in X; [destruct X as [<-|[]]|contradiction].
    destruct (_ && _); [contradiction|]. apply N; auto. }
  exists (sort_desc_set (map snd af)). split; [apply sort_desc_sorted|]. split; [|split].
  - assert (G : forall cs, (forall m, In m cs -> In m (map snd af)) ->
      Forall2 (fun m group => group <> [] /\ forall c, In c group <-> accepted configs sd c m) cs
        (map (fun n => map fst (filter (fun p => snd p =? n) af)) cs)).
    { induction cs as [|m cs IH]; intros H; simpl; [constructor|]. constructor; [|apply IH; intros; apply H; simpl; auto].
      assert (I : forall c, In c (map fst (filter (fun p => snd p =? m) af)) <-> accepted configs sd c m).
      { intros c. rewrite in_map_iff, <- Haf. split.
        - intros ((c' & m') & E & X). simpl in E; subst c'. apply filter_In in X as (X & Y). simpl in Y. apply Nat.eqb_eq in Y. subst; auto.
        - intros X. exists (c, m). split; auto. apply filter_In. split; auto. simpl. apply Nat.eqb_refl. }
      split; auto. specialize (H m (or_introl eq_refl)). apply in_map_iff in H as ((c & m') & E & X). simpl in E; subst m'.
      apply Haf, I in X. intros E. rewrite E in X. contradiction. }
    apply G. intros m. apply sort_desc_In.
  - pose proof (sort_desc_sorted (map snd af)) as SS. revert SS. generalize (sort_desc_set (map snd af)). intros cs SS.
    induction SS as [|m cs SS IH F]; simpl; [constructor|]. apply NoDup_app_iff. split; [|split; auto].
    + clear - NDa. induction af as [|[c k] af IH]; simpl; [constructor|]. simpl in NDa. inversion NDa as [|? ? N ND]; subst.
      destruct (k =? m); simpl; auto. constructor; auto. intros X. apply N. apply in_map_iff in X as (y & E & Y). apply filter_In in Y as (Y & _).
      rewrite <- E. apply in_map; auto.
    + intros c X Y. apply in_map_iff in X as ((c1 & m1) & E & X). simpl in E; subst c1. apply filter_In in X as (X & X2). simpl in X2. apply Nat.eqb_eq in X2; subst m1.
      apply in_concat in Y as (g & G1 & G2). apply in_map_iff in G1 as (m2 & <- & G1).
      apply in_map_iff in G2 as ((c2 & m3) & E & Z). simpl in E; subst c2. apply filter_In in Z as (Z & Z2). simpl in Z2. apply Nat.eqb_eq in Z2; subst m3.
      rewrite Forall_forall in F. specialize (F _ G1).
      pose proof (NDa) as Nf. clear - Nf X Z F.
      induction af as [|[c0 k0] af IH]; [contradiction|]. simpl in Nf. inversion Nf as [|? ? N ND]; subst.
      destruct X as [X|X]; destruct Z as [Z|Z].
      * inversion X; inversion Z; subst. lia.
      * inversion X; subst. apply N. apply (in_map fst) in Z; auto.
      * inversion Z; subst. apply N. apply (in_map fst) in X; auto.
      * auto.
  - intros c m H. apply sort_desc_In. apply Haf in H. apply (in_map snd) in H; auto.
Qed.
Print Assumptions C35_inference.

(** the config an input without config gets: the one its parameter wants if it is among the
    accepted ones, else the only one with the most matching keys, else a structural one *)
Definition best (configs : list cfg) (sd : list string) (c : cfg) : Prop :=
  exists m, accepted configs sd c m /\ forall c' m', accepted configs sd c' m' -> m' < m \/ (c' = c /\ m' = m).
Theorem C35_determined_config : forall configs sd param infer r, NoDup (map c_id configs) ->
  determine configs sd param infer = r ->
  match r with
  | Ok (Some id) => (param = Some id /\ exists c m, accepted configs sd c m /\ c_id c = id) \/
                    (exists c, best configs sd c /\ c_id c = id)
  | Ok None => infer = false /\ forall c, ~ best configs sd c
  | Err e => infer = true /\ e = RuntimeError /\ forall c, ~ best configs sd c
  end /\
  (forall id c m, param = Some id -> accepted configs sd c m -> c_id c = id -> r = Ok (Some id)).
Proof.
  intros configs sd param infer r NDi D.
  assert (ND : NoDup configs) by (eapply NoDup_map_inv; eauto).
  destruct (C35_inference configs sd ND) as (counts & SS & F2 & NDc & Cm). unfold determine in D. set (groups := infer_model_configs configs sd) in *.
  assert (InG : forall c, (exists g, In g groups /\ In c g) <-> exists m, accepted configs sd c m).
  { intros c. split.
    - intros (g & G1 & G2). clear - F2 G1 G2. induction F2 as [|m g' cs gs (H1 & H2) F2 IH]; [contradiction|].
      destruct G1 as [->|G1]; auto. exists m. apply H2; auto.
    - intros (m & A). pose proof (Cm _ _ A) as X. clear - F2 A X. induction F2 as [|m' g' cs gs (H1 & H2) F2 IH]; [contradiction|].
      destruct X as [->|X]; [exists g'; split; [left; auto|apply H2; auto]|]. destruct (IH X) as (g & G1 & G2). exists g. split; [right|]; auto. }
  set (wanted := match param with Some id => existsb (existsb (fun c => String.eqb (c_id c) id)) groups | None => false end) in D.
  assert (W : wanted = true <-> exists id c m, param = Some id /\ accepted configs sd c m /\ c_id c = id).
  { unfold wanted. destruct param as [id|]; [|split; [discriminate|intros (? & ? & ? & H & _); discriminate]].
    rewrite existsb_exists. split.
    - intros (g & G1 & G2). apply existsb_exists in G2 as (c & G2 & G3). apply String.eqb_eq in G3.
      destruct (proj1 (InG c)) as (m & A); [eauto|]. eauto 6.
    - intros (id' & c & m & E & A & Ei). inversion E; subst id'. destruct (proj2 (InG c)) as (g & G1 & G2); [eauto|].
      exists g. split; auto. apply existsb_exists. exists c. split; auto. apply String.eqb_eq; auto. }
  assert (B : forall c, best configs sd c <-> exists gs, groups = [c] :: gs).
  { intros c. split.
    - intros (m & A & M). destruct F2 as [|m0 g0 cs gs (H1 & H2) F2].
      + exfalso. apply (Cm _ _ A).
      + exists gs. f_equal.
        assert (Em : m0 = m).
        { destruct (M c m A) as [X|_]; [lia|]. destruct g0 as [|c0 g0]; [congruence|].
          assert (A0 : accepted configs sd c0 m0) by (apply H2; simpl; auto).
          destruct (M _ _ A0) as [X|(_ & X)]; auto.
          pose proof (Cm _ _ A) as Y. destruct Y as [Y|Y]; [lia|].
          apply StronglySorted_inv in SS as (_ & Fs). rewrite Forall_forall in Fs. specialize (Fs _ Y). lia. }
        subst m0.
        assert (All : forall x, In x g0 -> x = c).
        { intros x X. apply H2 in X. destruct (M _ _ X) as [Y|(Y & _)]; [lia|auto]. }
        assert (Inc : In c g0) by (apply H2; auto).
        simpl in NDc. apply NoDup_app_iff in NDc as (Ng & _ & _).
        destruct g0 as [|x [|y g0]]; [contradiction| |].
        * f_equal. apply All; simpl; auto.
        * exfalso. pose proof (All x (or_introl eq_refl)) as Ex. pose proof (All y (or_intror (or_introl eq_refl))) as Ey.
          subst x y. inversion Ng as [|? ? N _]. apply N. simpl; auto.
    - intros (gs & E). rewrite E in F2. inversion F2 as [|m g cs gs' (H1 & H2) F2' E1 E2]. subst counts g gs'.
      exists m. split; [apply H2; simpl; auto|]. intros c' m' A'. pose proof (Cm _ _ A') as [<-|Y].
      + right. apply H2 in A'. destruct A' as [<-|[]]. auto.
      + left. apply StronglySorted_inv in SS as (_ & Fs). rewrite Forall_forall in Fs. apply Fs; auto. }
  assert (NB : (forall c, groups <> [[c]] ++ tl groups) -> forall c, ~ best configs sd c).
  { intros H c X. apply B in X as (gs & E). apply (H c). rewrite E. reflexivity. }
  split.
  - destruct wanted eqn:Ew; subst r.
    + destruct (proj1 W eq_refl) as (id & c & m & -> & A & Ei). left. eauto.
    + assert (Other : (forall c gs, groups <> [c] :: gs) -> forall c, ~ best configs sd c).
      { intros H c X. apply B in X as (gs & E). eapply H; eauto. }
      destruct groups as [|[|c [|c' g]] gs] eqn:Eg.
      * destruct infer; repeat split; auto; apply Other; intros; discriminate.
      * destruct infer; repeat split; auto; apply Other; intros; discriminate.
      * right. exists c. split; auto. apply B. eauto.
      * destruct infer; repeat split; auto; apply Other; intros; discriminate.
  - intros id c m E A Ei. rewrite (proj2 W) in D by eauto 7. subst. auto.
Qed.
Print Assumptions C35_determined_config.

(** two configs share the input's keys equally, a third matches fewer *)
Definition cA := Cfg "a-x" ["k1"; "k2"; "k3"] [].
Definition cB := Cfg "b-x" ["k1"] ["z2"; "k3"].
Definition cC := Cfg "c-x" ["k9"; "k4"] [].
Example ex_C35 : infer_model_configs [cA; cB; cC] ["k1"; "k3"; "k4"] = [[cA; cB]; [cC]] /\
  determine [cA; cB; cC] ["k1"; "k3"; "k4"] None false = Ok None /\
  determine [cA; cB; cC] ["k1"; "k3"; "k4"] (Some "c-x") false = Ok (Some "c-x") /\
  determine [cA; cB; cC] ["k1"; "k2"; "k4"] None false = Ok (Some "a-x") /\ NoDup (map c_id [cA; cB; cC]).
Proof. repeat split; try reflexivity. repeat constructor; simpl; intuition discriminate. Qed.
