(** Theorems for C16-C20. *)
From Coq Require Import String Ascii List Bool Arith ZArith Lia.
From Verif Require Import Base ModelRecipe ModelOps SpecRecipe SpecBind SerialProofs1 SerialProofs2 BindProofs.
Import ListNotations.
Open Scope string_scope.
Open Scope list_scope.
Open Scope nat_scope.

(** ** C16 *)
Lemma create_recipe_inv : forall E m g args kwargs r, create_recipe E m g args kwargs = Ok r ->
  exists a k nargs nkw, bind_call g args kwargs = Ok (a, k) /\ convert_args E g a = Ok nargs /\ convert_kwargs E g k = Ok nkw /\ r = VMerge m nargs nkw.
Proof.
  intros E m g args kwargs r H. unfold create_recipe in H. apply bind_Ok in H as ((a & k) & Hb & H). apply bind_Ok in H as (nargs & Ha & H).
  apply bind_Ok in H as (nkw & Hk & H). apply bind_Ok in H as (sa & _ & H). apply bind_Ok in H as (sk & _ & H). apply bind_Ok in H as (x & _ & H).
  inversion H; subst. exists a, k, nargs, nkw. auto.
Qed.

Lemma combine_nth : forall A B (l : list A) (r : list B) i, nth_error (combine l r) i =
  match nth_error l i, nth_error r i with Some x, Some y => Some (x, y) | _, _ => None end.
Proof.
  induction l as [|x l IH]; intros r i; [destruct i; reflexivity|].
  destruct r as [|y r]; [destruct i; simpl; auto; destruct (nth_error l i); auto|]. destruct i; simpl; auto.
Qed.

Lemma args_varargs_nth : forall P (l : list P) va n i, i < n -> length l <= n ->
  nth_error (args_varargs l va n) i = match nth_error l i with Some p => Some p | None => va end.
Proof.
  intros P l va n i Hi Hl. unfold args_varargs. destruct (nth_error l i) eqn:E.
  - rewrite nth_error_app1; auto. apply nth_error_Some; congruence.
  - apply nth_error_None in E. rewrite nth_error_app2 by auto. destruct va.
    + apply nth_error_repeat. lia.
    + destruct (i - length l); auto.
Qed.

Lemma F2_nth : forall A B (R : A -> B -> Prop) l r, Forall2 R l r -> forall i x, nth_error l i = Some x -> exists y, nth_error r i = Some y /\ R x y.
Proof. induction 1; intros [|i] z Hz; simpl in Hz; try discriminate; [inversion Hz; subst; exists y; auto|apply IHForall2; auto]. Qed.

(** the i-th value becomes the i-th node *)
Lemma convert_args_nth : forall E g a nargs, convert_args E g a = Ok nargs -> length (g_args g) <= length a ->
  (g_vararg g = None -> length a = length (g_args g)) ->
  length nargs = length a /\
  forall i v, nth_error a i = Some v -> exists p n,
    match nth_error (g_args g) i with Some (_, q) => Some q | None => g_vararg g end = Some p /\
    nth_error nargs i = Some n /\ value_to_node E v (p_tensor p) = Ok n.
Proof.
  intros E g a nargs H Hl Hv. unfold convert_args in H. apply map_res_F2 in H.
  assert (X : forall i v, nth_error a i = Some v -> exists p, nth_error (combine a (args_varargs (map snd (g_args g)) (g_vararg g) (length a))) i = Some (v, p) /\
      match nth_error (g_args g) i with Some (_, q) => Some q | None => g_vararg g end = Some p).
  { intros i v Hi. rewrite combine_nth, Hi. assert (i < length a) by (apply nth_error_Some; congruence).
    rewrite args_varargs_nth by (rewrite ?map_length; auto). rewrite nth_error_map.
    destruct (nth_error (g_args g) i) as [(nm & q)|] eqn:E0; simpl; eauto.
    apply nth_error_None in E0. destruct (g_vararg g); eauto. specialize (Hv eq_refl). lia. }
  split.
  - rewrite <- (F2_length _ _ _ _ _ H), combine_length.
    assert (length a <= length (args_varargs (map snd (g_args g)) (g_vararg g) (length a))); [|lia].
    unfold args_varargs. rewrite app_length, !map_length. destruct (g_vararg g); [rewrite repeat_length; lia|simpl; rewrite Hv; auto; lia].
  - intros i v Hi. destruct (X i v Hi) as (p & Hc & Hp). apply (F2_nth _ _ _ _ _ H) in Hc as (n & Hn & Hvn). exists p, n. auto.
Qed.

Lemma convert_kwargs_spec : forall E g k nkw, convert_kwargs E g k = Ok nkw ->
  map fst nkw = map fst k /\
  forall x n, In (x, n) nkw -> exists v p, In (x, v) k /\ dget String.eqb x (g_kw g) = Some p /\ value_to_node E v (p_tensor p) = Ok n.
Proof.
  intros E g k nkw H. unfold convert_kwargs in H. apply map_res_F2 in H.
  induction H as [|(x & v) (y & n) k nkw Hx H IH]; simpl.
  - split; auto. tauto.
  - destruct IH as (I1 & I2). simpl in Hx. destruct (sdget x (g_kw g)) as [p|] eqn:E0; [|discriminate].
    apply bind_Ok in Hx as (n' & Hn & Hx). inversion Hx; subst. split; [simpl; congruence|].
    intros z w [Hz|Hz]; [inversion Hz; subst; exists v, p; auto|].
    destruct (I2 z w Hz) as (v' & p' & A & B & C). exists v', p'. auto.
Qed.

(** the node made for a value bound to parameter [p] *)
Definition node_for (E : env) (p : param) (v n : pyobj) : Prop := value_to_node E v (p_tensor p) = Ok n.

(** A recipe that was built holds, at each parameter, the node for the value
    Python would bind to it, and the extra positional arguments in order. *)
Theorem C16_binding_like_python : forall E m g args kwargs r,
  sig_ok g -> NoDup (map fst kwargs) -> py_accepts g args kwargs ->
  create_recipe E m g args kwargs = Ok r ->
  exists nargs nkw, r = VMerge m nargs nkw /\
    length nargs = Nat.max (length (g_args g)) (length args) /\
    (forall i name p, nth_error (g_args g) i = Some (name, p) ->
       exists v n, py_positional g args kwargs i name = Some v /\ nth_error nargs i = Some n /\ node_for E p v n) /\
    (forall i v, length (g_args g) <= i -> nth_error args i = Some v ->
       exists p n, g_vararg g = Some p /\ nth_error nargs i = Some n /\ node_for E p v n) /\
    NoDup (map fst nkw) /\
    (forall k, In k (map fst nkw) <-> In k (map fst (g_kw g))) /\
    (forall k n, In (k, n) nkw ->
       exists v p, py_keyword g kwargs k = Some v /\ dget String.eqb k (g_kw g) = Some p /\ node_for E p v n).
Proof.
  intros E m g args kwargs r Sg ND PA H. apply create_recipe_inv in H as (a & k & nargs & nkw & Hb & Ha & Hk & ->).
  destruct (bind_call_spec g args kwargs Sg ND (py_accepts_not_twice _ _ _ PA)) as (B & _).
  destruct (B PA) as (pos & kw' & Hb' & Lp & Hp & N1 & N2 & N3). rewrite Hb in Hb'. inversion Hb'; subst a k. clear Hb'.
  destruct PA as (P1 & _).
  destruct (convert_args_nth _ _ _ _ Ha) as (L & A).
  { rewrite app_length. lia. }
  { intros Hv. rewrite app_length, skipn_length. specialize (P1 Hv). lia. }
  destruct (convert_kwargs_spec _ _ _ _ Hk) as (K1 & K2).
  exists nargs, nkw. split; auto. split; [rewrite L, app_length, skipn_length; lia|]. split; [|split; [|split; [|split]]].
  - intros i name p Hi. specialize (Hp i name p Hi). assert (i < length (g_args g)) by (apply nth_error_Some; congruence).
    destruct (nth_error pos i) as [v|] eqn:E0; [|apply nth_error_None in E0; lia].
    destruct (A i v) as (q & n & Q1 & Q2 & Q3); [rewrite nth_error_app1; auto; lia|]. rewrite Hi in Q1. inversion Q1; subst. exists v, n. auto.
  - intros i v Hi Hv. destruct (A i v) as (q & n & Q1 & Q2 & Q3).
    { rewrite nth_error_app2 by lia. rewrite Lp. rewrite <- Hv. clear -Hi. revert i Hi.
      generalize (length (g_args g)) as np. induction args as [|x args IH]; intros np i Hi; [destruct np; destruct (i - _), i; reflexivity|].
      destruct np as [|np]; simpl; [rewrite Nat.sub_0_r; auto|]. destruct i as [|i]; [lia|]. simpl. apply IH. lia. }
    rewrite (proj2 (nth_error_None _ _)) in Q1 by auto. exists q, n. auto.
  - rewrite K1; auto.
  - rewrite K1; auto.
  - intros x n Hx. destruct (K2 x n Hx) as (v & p & V1 & V2 & V3). exists v, p. split; auto.
    assert (Ix : In x (map fst (g_kw g))) by (apply N2; apply (in_map fst) in V1; auto).
    rewrite <- N3; auto. apply (dget_NoDup_In String.eqb String.eqb_spec); auto.
Qed.

(** ... and the binding itself never rejects a call Python accepts: a rejection
    comes from a value that does not convert or from merge spaces. *)
Theorem C16_accepted_calls_bind : forall E m g args kwargs e,
  sig_ok g -> NoDup (map fst kwargs) -> py_accepts g args kwargs ->
  (forall v t, In v args \/ In v (map snd kwargs) \/ In v (g_defaults g) \/ In v (map snd (g_kwdefaults g)) -> exists n, value_to_node E v t = Ok n) ->
  create_recipe E m g args kwargs = Err e ->
  exists nargs nkw, length nargs = Nat.max (length (g_args g)) (length args) /\ (forall k, In k (map fst nkw) <-> In k (map fst (g_kw g))) /\
    (let* sa := map_res (node_space E) nargs in let* sk := map_kres (node_space E) nkw in return_space g sa sk) = Err e.
Proof.
  intros E m g args kwargs e Sg ND PA Conv H.
  destruct (bind_call_spec g args kwargs Sg ND (py_accepts_not_twice _ _ _ PA)) as (B & _).
  destruct (B PA) as (pos & kw' & Hb & Lp & Hp & N1 & N2 & N3).
  unfold create_recipe in H. rewrite Hb in H. cbn [bind fst snd] in H.
  assert (Cv : forall v, In v pos -> In v args \/ In v (map snd kwargs) \/ In v (g_defaults g) \/ In v (map snd (g_kwdefaults g))).
  { intros v Hv. apply In_nth_error in Hv as (i & Hi). assert (i < length (g_args g)) by (rewrite <- Lp; apply nth_error_Some; congruence).
    destruct (nth_error (g_args g) i) as [(name & p)|] eqn:E0; [|apply nth_error_None in E0; lia].
    rewrite (Hp _ _ _ E0) in Hi. unfold py_positional in Hi.
    destruct (nth_error args i) eqn:E1; destruct (sdget name kwargs) eqn:E2; try discriminate.
    - inversion Hi; subst. left. eapply nth_error_In; eauto.
    - inversion Hi; subst. right; left. apply (dget_In String.eqb String.eqb_spec) in E2. apply (in_map snd) in E2; auto.
    - destruct (_ <=? _); [|discriminate]. right; right; left. eapply nth_error_In; eauto. }
  assert (Ck : forall k v, In (k, v) kw' -> In v (map snd kwargs) \/ In v (map snd (g_kwdefaults g))).
  { intros k v Hv. assert (Ik : In k (map fst (g_kw g))) by (apply N2; apply (in_map fst) in Hv; auto).
    apply (dget_NoDup_In String.eqb String.eqb_spec) in Hv; auto. rewrite N3 in Hv by auto. unfold py_keyword in Hv.
    destruct (sdget k kwargs) eqn:E1.
    - inversion Hv; subst. left. apply (dget_In String.eqb String.eqb_spec) in E1. apply (in_map snd) in E1; auto.
    - right. apply (dget_In String.eqb String.eqb_spec) in Hv. apply (in_map snd) in Hv; auto. }
  assert (exists nargs, convert_args E g (pos ++ skipn (length (g_args g)) args) = Ok nargs) as (nargs & Ha).
  { unfold convert_args. set (ps := args_varargs _ _ _). clearbody ps.
    assert (Q : forall v t, In v (pos ++ skipn (length (g_args g)) args) -> exists n, value_to_node E v t = Ok n).
    { intros v t Hv. apply in_app_iff in Hv as [Hv|Hv]; [auto|]. apply Conv. left. rewrite <- (firstn_skipn (length (g_args g)) args). apply in_app_iff; auto. }
    clear -Q. revert ps. induction (pos ++ skipn (length (g_args g)) args) as [|v l IH]; intros [|p ps]; simpl; eauto.
    destruct (Q v (p_tensor p) (or_introl eq_refl)) as (n & Hn). rewrite Hn. cbn [bind].
    destruct (IH (fun w t Hw => Q w t (or_intror Hw)) ps) as (ns & Hns). rewrite Hns. cbn [bind]. eauto. }
  assert (exists nkw, convert_kwargs E g kw' = Ok nkw) as (nkw & Hk).
  { unfold convert_kwargs. assert (Q : forall k v, In (k, v) kw' -> (exists p, sdget k (g_kw g) = Some p) /\ forall t, exists n, value_to_node E v t = Ok n).
    { intros k v Hv. split.
      - destruct (sdget k (g_kw g)) eqn:E0; eauto. apply (dget_None String.eqb String.eqb_spec) in E0. exfalso. apply E0, N2. apply (in_map fst) in Hv; auto.
      - intros t. apply Conv. destruct (Ck k v Hv); auto. }
    clear -Q. induction kw' as [|(k & v) l IH]; simpl; eauto.
    destruct (Q k v (or_introl eq_refl)) as ((p & Hp) & Hn). rewrite Hp. destruct (Hn (p_tensor p)) as (n & Hn'). rewrite Hn'. cbn [bind].
    destruct IH as (ns & Hns); [intros; apply Q; right; auto|]. rewrite Hns. cbn [bind]. eauto. }
  rewrite Ha, Hk in H. cbn [bind] in H. exists nargs, nkw.
  destruct PA as (P1 & _). destruct (convert_args_nth _ _ _ _ Ha) as (L & _).
  { rewrite app_length. lia. }
  { intros Hv. rewrite app_length, skipn_length. specialize (P1 Hv). lia. }
  destruct (convert_kwargs_spec _ _ _ _ Hk) as (K1 & _).
  split; [rewrite L, app_length, skipn_length; lia|]. split; [rewrite K1; auto|].
  destruct (map_res (node_space E) nargs) as [sa|]; cbn [bind] in *; [|congruence].
  destruct (map_kres (node_space E) nkw) as [sk|]; cbn [bind] in *; [|congruence].
  destruct (return_space g sa sk); cbn [bind] in *; [discriminate|congruence].
Qed.

(** ** C17 *)
(** Full statement: every call Python rejects is rejected.  Refuted: an argument
    given both by position and by keyword can be dropped silently. *)
Definition sig2 : sig :=
  Sig [("a", tensor_any); ("alpha", tensor_any)] [VFloat "1.0"] None [] [] RNone None all_spaces.
Definition E2 : env := Env [("m", sig2)] [] all_spaces.
Theorem C17_ill_formed_calls_rejected_refuted :
  exists g args kwargs r, sig_ok g /\ NoDup (map fst kwargs) /\ ~ py_accepts g args kwargs /\
    create_recipe E2 "m" g args kwargs = Ok r /\
    (** the first argument is nowhere in the recipe *)
    args = [VModel "x" None "weight"] /\ r = VMerge "m" [VModel "y" None "weight"; VLit (VFloat "1.0") None "param"] [].
Proof.
  exists sig2, [VModel "x" None "weight"], [("a", VModel "y" None "weight")], (VMerge "m" [VModel "y" None "weight"; VLit (VFloat "1.0") None "param"] []).
  repeat split; try reflexivity.
  - simpl. repeat constructor; simpl; intuition discriminate.
  - simpl; auto.
  - constructor.
  - simpl; tauto.
  - repeat constructor; auto.
  - intros (_ & H & _). apply (H 0 "a" tensor_any eq_refl). reflexivity.
Qed.

(** What holds: a call Python rejects for another reason than giving a parameter
    both by position and by keyword is rejected. *)
Theorem C17_ill_formed_calls_rejected_partial : forall E m g args kwargs,
  sig_ok g -> NoDup (map fst kwargs) -> ~ given_twice g args kwargs -> ~ py_accepts g args kwargs ->
  exists e, create_recipe E m g args kwargs = Err e.
Proof.
  intros E m g args kwargs Sg ND NT NA.
  destruct (bind_call_spec g args kwargs Sg ND) as (_ & B).
  { intros i name p Hp Hi Hk. apply NT. exists i, name, p. auto. }
  destruct (B NA) as (e & He). exists e. unfold create_recipe. rewrite He. reflexivity.
Qed.
Example C17_example : ~ given_twice sig_subtract [VModel "x" None "weight"] [("c", VNone)] /\ ~ py_accepts sig_subtract [VModel "x" None "weight"] [("c", VNone)].
Proof.
  split.
  - intros (i & n & p & H1 & H2 & H3). destruct H3 as [<-|[]]. destruct i as [|[|i]]; simpl in H1; try discriminate. destruct i; discriminate.
  - intros (_ & _ & H & _). destruct (H "c" VNone (or_introl eq_refl)) as [[X|[X|[]]]|[]]; discriminate.
Qed.

(** ** C18 *)
Lemma map_res_len : forall A B (f : A -> result B) l r, map_res f l = Ok r -> length r = length l.
Proof. intros A B f l r H. apply map_res_F2 in H. symmetry. eapply F2_length; eauto. Qed.
Lemma map_kres_fst : forall A B (f : A -> result B) l r, map_kres f l = Ok r -> map fst r = map fst l.
Proof.
  induction l as [|(k & x) l IH]; intros r H; simpl in H; [inversion H; auto|].
  apply bind_Ok in H as (y & _ & H). apply bind_Ok in H as (ys & Hy & H). inversion H; subst. simpl. f_equal; auto.
Qed.

Lemma full_expected : forall g sa sk, full g sa sk -> forall p s, input g sa sk p s -> exists q, p = Some q /\ q <> PNone.
Proof.
  intros g sa sk (F1 & F2 & F3) p s [(i & Hi & ->)|(k & Hk & ->)].
  - unfold expected_pos. destruct (nth_error (g_args g) i) as [(n & q)|] eqn:E.
    + eexists; split; [reflexivity|]. unfold meaning. destruct (p_space q); try discriminate. destruct (_ || _); discriminate.
    + destruct (g_vararg g) as [q|] eqn:Ev.
      * eexists; split; [reflexivity|]. unfold meaning. destruct (p_space q); try discriminate.
      * apply nth_error_None in E. assert (i < length sa) by (apply nth_error_Some; congruence). specialize (F2 eq_refl). lia.
  - unfold expected_kw. destruct (sdget k (g_kw g)) as [q|] eqn:E.
    + eexists; split; [reflexivity|]. unfold meaning. destruct (p_space q); try discriminate. destruct (_ || _); discriminate.
    + apply (dget_None String.eqb String.eqb_spec) in E. exfalso. apply E, F3. apply (in_map fst) in Hk; auto.
Qed.

Lemma check_spaces_err : forall l b0 e, (forall p s, In (p, s) l -> exists q, p = Some q /\ q <> PNone) -> check_spaces l b0 = Err e -> e = TypeError.
Proof.
  induction l as [|(p & a) l IH]; intros b0 e Hl H; simpl in H; [discriminate|].
  destruct (Hl p a (or_introl eq_refl)) as (q & -> & Hq).
  destruct (check_space (Some q) a b0) as [b|e'] eqn:Ec; cbn [bind] in H.
  - eapply IH; eauto. intros p' s' Hp; apply (Hl p' s'); right; auto.
  - inversion H; subst. unfold check_space in Ec. destruct q as [|m|i m]; [congruence| |].
    + destruct (mem_str a m); congruence.
    + destruct (negb _); [congruence|]. destruct (dget Nat.eqb i b0); [|discriminate]. destruct (String.eqb a s); congruence.
Qed.

(** the list of all parameter spaces is that of the inputs *)
Lemma all_params_inputs : forall g sa sk, sig_ok g -> full g sa sk -> forall q,
  In q (args_varargs (in_spaces_args g) (in_space_vararg g) (length sa) ++ map snd (in_spaces_kw g)) <-> exists s, input g sa sk (Some q) s.
Proof.
  intros g sa sk (Sg & _) (F1 & F2 & F3) q. rewrite in_app_iff. split.
  - intros [H|H].
    + apply In_nth_error in H as (i & Hi).
      assert (Hlt : i < length sa).
      { assert (i < length (args_varargs (in_spaces_args g) (in_space_vararg g) (length sa))) by (apply nth_error_Some; congruence).
        unfold args_varargs, in_spaces_args in H. rewrite app_length, arg_spaces_length in H.
        destruct (in_space_vararg g); [rewrite repeat_length in H|simpl in H]; lia. }
      rewrite expected_pos_ok in Hi by auto. destruct (nth_error sa i) as [s|] eqn:Es; [|apply nth_error_None in Es; lia].
      exists s. left. exists i. auto.
    + apply in_map_iff in H as ((k & q') & <- & H). simpl.
      assert (Hk : In k (map fst (g_kw g))).
      { unfold in_spaces_kw in H. apply in_map_iff in H as ((k0 & p0) & E & H). inversion E; subst. apply (in_map fst) in H; auto. }
      assert (Hq : expected_kw g k = Some q').
      { rewrite <- expected_kw_ok. apply (dget_NoDup_In String.eqb String.eqb_spec); auto.
        unfold in_spaces_kw. rewrite map_map. simpl. apply NoDup_app_iff in Sg. tauto. }
      apply F3 in Hk. apply in_map_iff in Hk as ((k0 & s) & <- & Hk). exists s. right. exists k0. auto.
  - intros (s & [(i & Hi & Hq)|(k & Hk & Hq)]).
    + left. apply nth_error_In with i. rewrite expected_pos_ok; auto. apply nth_error_Some. congruence.
    + right. rewrite <- expected_kw_ok in Hq. symmetry in Hq. apply (dget_In String.eqb String.eqb_spec) in Hq. apply (in_map snd) in Hq. auto.
Qed.

Lemma nodup_single : forall (l : list string) s, nodup string_dec l = [s] <-> (forall x, In x l <-> x = s).
Proof.
  intros l s. split.
  - intros H x. rewrite <- (nodup_In string_dec), H. simpl. intuition.
  - intros H. pose proof (NoDup_nodup string_dec l) as N.
    assert (K : forall x, In x (nodup string_dec l) <-> x = s) by (intros x; rewrite nodup_In; auto).
    destruct (nodup string_dec l) as [|a [|b t]].
    + exfalso. apply (K s); auto.
    + f_equal. apply K. left; auto.
    + inversion N as [|? ? Na]; subst. exfalso. apply Na. left. rewrite (proj1 (K a)) by (left; auto). apply K. right; left; auto.
Qed.

Lemma return_space_iff : forall g sa sk s, sig_ok g -> full g sa sk ->
  (return_space g sa sk = Ok s <-> spaces_ok g sa sk /\ result_space g sa sk s).
Proof.
  intros g sa sk s Sg F. unfold return_space. split.
  - intros H. apply bind_Ok in H as (b & Hb & H). assert (SO : spaces_ok g sa sk) by (apply check_spaces_iff; eauto). split; auto.
    pose proof (check_spaces_bound _ _ _ Hb) as Bd. unfold result_space. destruct (g_rspace g) as [|r|i].
    + destruct (dget Nat.eqb default_sym b) as [s0|] eqn:Es.
      * inversion H; subst. left. apply Bd in Es as [X|(_ & l & X)]; [discriminate|]. exists l. apply space_pairs_input; auto.
      * right. pose proof (all_params_inputs g sa sk Sg F) as AP. destruct (_ ++ _) as [|p all] eqn:Ea in H; [discriminate|]. rewrite Ea in AP.
        destruct (forallb _ _) eqn:Ef in H; [|discriminate]. destruct p as [|l|]; try discriminate.
        destruct (nodup string_dec l) as [|x [|]] eqn:En; try discriminate. inversion H; subst. pose proof (proj1 (nodup_single l s) En) as En'. clear En. rename En' into En.
        split.
        -- destruct (proj1 (AP (PSet l)) (or_introl eq_refl)) as (a & Ha). eauto.
        -- intros p a Hin. destruct (full_expected _ _ _ F _ _ Hin) as (q & -> & _).
           assert (Hq : In q (PSet l :: all)) by (apply AP; eauto). rewrite forallb_forall in Ef. apply Ef in Hq.
           destruct q as [|l'|]; try discriminate. exists l'. split; auto. simpl in Hq. apply andb_true_iff in Hq as (Q1 & Q2).
           rewrite forallb_forall in Q1, Q2. intros x. rewrite <- En. split; intros Hx; apply mem_str_In; auto.
    + inversion H; auto.
    + destruct (dget Nat.eqb i b) as [s0|] eqn:Es; [|discriminate]. inversion H; subst.
      apply Bd in Es as [X|(_ & l & X)]; [discriminate|]. exists l. apply space_pairs_input; auto.
  - intros (SO & R). apply check_spaces_iff in SO as SO'. destruct SO' as (b & Hb). rewrite Hb. cbn [bind].
    pose proof (check_spaces_bound _ _ _ Hb) as Bd. unfold result_space in R.
    assert (Sym : forall i l, input g sa sk (Some (PSym i l)) s -> dget Nat.eqb i b = Some s).
    { intros i l Hi. apply Bd. right. split; auto. exists l. apply space_pairs_input; auto. }
    destruct (g_rspace g) as [|r|i].
    + destruct R as [(l & Hl)|((p & a & Hpa) & R)].
      * rewrite (Sym _ _ Hl). auto.
      * destruct (dget Nat.eqb default_sym b) as [s0|] eqn:Es.
        -- exfalso. apply Bd in Es as [X|(_ & l & X)]; [discriminate|]. apply space_pairs_input in X. apply R in X as (l' & X & _). discriminate.
        -- pose proof (all_params_inputs g sa sk Sg F) as AP. destruct (_ ++ _) as [|q all] eqn:Ea in |- *; rewrite Ea in AP.
           ++ exfalso. destruct (full_expected _ _ _ F _ _ Hpa) as (q & -> & _). apply (proj2 (AP q)). eauto.
           ++ assert (Q : forall q', In q' (q :: all) -> exists l, q' = PSet l /\ forall x, In x l <-> x = s).
              { intros q' Hq'. apply AP in Hq' as (a' & Ha'). apply R in Ha' as (l & El & Hl). inversion El; subst. eauto. }
              destruct (Q q (or_introl eq_refl)) as (l & -> & Hl).
              assert (Ef : forallb (fun q => pspace_eqb q (PSet l)) (PSet l :: all) = true).
              { apply forallb_forall. intros q' Hq'. apply Q in Hq' as (l' & -> & Hl'). simpl. apply andb_true_iff. split; apply forallb_forall; intros x Hx; apply mem_str_In.
                - apply Hl. apply Hl'; auto.
                - apply Hl'. apply Hl; auto. }
              rewrite Ef. rewrite (proj2 (nodup_single l s) Hl). auto.
    + subst; auto.
    + destruct R as (l & Hl). rewrite (Sym _ _ Hl). auto.
Qed.

(** A merge node has merge space [s] exactly when every input's space is allowed
    by its parameter, inputs tied to one symbol agree, and [s] is the space the
    signature prescribes. *)
Theorem C18_merge_space_iff : forall E m g nargs nkw sa sk s,
  resolve_method E m = Ok g -> sig_ok g ->
  map_res (node_space E) nargs = Ok sa -> map_kres (node_space E) nkw = Ok sk -> full g nargs nkw ->
  (node_space E (VMerge m nargs nkw) = Ok s <-> spaces_ok g sa sk /\ result_space g sa sk s).
Proof.
  intros E m g nargs nkw sa sk s Hm Sg Ha Hk F. cbn [node_space]. rewrite Hm, Ha, Hk. cbn [bind].
  apply return_space_iff; auto. destruct F as (F1 & F2 & F3). unfold full.
  rewrite (map_res_len _ _ _ _ _ Ha), (map_kres_fst _ _ _ _ _ Hk). auto.
Qed.

(** Every recipe that was built satisfies it, and its space does not depend on
    anything else. *)
Theorem C18_built_recipes_are_well_spaced : forall E m g args kwargs r,
  resolve_method E m = Ok g -> sig_ok g ->
  create_recipe E m g args kwargs = Ok r ->
  exists nargs nkw sa sk s, r = VMerge m nargs nkw /\ full g nargs nkw /\
    map_res (node_space E) nargs = Ok sa /\ map_kres (node_space E) nkw = Ok sk /\
    node_space E r = Ok s /\ spaces_ok g sa sk /\ result_space g sa sk s.
Proof.
  intros E m g args kwargs r Hm Sg H. pose proof H as H0. apply create_recipe_inv in H0 as (a & k & nargs & nkw & Hb & Ha & Hk & ->).
  destruct (bind_call_shape _ _ _ _ _ Sg Hb) as (B1 & B2 & _ & _ & B5).
  destruct (convert_args_nth _ _ _ _ Ha B1 B2) as (L & _). destruct (convert_kwargs_spec _ _ _ _ Hk) as (K1 & _).
  assert (F : full g nargs nkw) by (unfold full; rewrite L, K1; auto).
  unfold create_recipe in H. rewrite Hb in H. cbn [bind fst snd] in H. rewrite Ha, Hk in H. cbn [bind] in H.
  apply bind_Ok in H as (sa & Hsa & H). apply bind_Ok in H as (sk & Hsk & H). apply bind_Ok in H as (s & Hs & _).
  assert (N : node_space E (VMerge m nargs nkw) = Ok s) by (cbn [node_space]; rewrite Hm, Hsa, Hsk; auto).
  exists nargs, nkw, sa, sk, s. repeat (split; auto); apply (proj1 (C18_merge_space_iff E m g nargs nkw sa sk s Hm Sg Hsa Hsk F) N).
Qed.

(** Inputs whose merge spaces do not fit are rejected with TypeError. *)
Theorem C18_bad_spaces_rejected : forall g sa sk, sig_ok g -> full g sa sk -> ~ spaces_ok g sa sk -> return_space g sa sk = Err TypeError.
Proof.
  intros g sa sk Sg F H. unfold return_space. destruct (check_spaces (space_pairs g sa sk) []) as [b|e] eqn:E.
  - exfalso. apply H. apply check_spaces_iff; eauto.
  - cbn [bind]. f_equal. eapply check_spaces_err; eauto. intros p s Hp. apply space_pairs_input in Hp. eapply full_expected; eauto.
Qed.

(** ** C19 *)
Theorem C19_config_iff : forall E m g nargs nkw ca ck r,
  resolve_method E m = Ok g -> full g nargs nkw ->
  map_res (node_config E) nargs = Ok ca -> map_kres (node_config E) nkw = Ok ck ->
  (node_config E (VMerge m nargs nkw) = Ok r <-> config_ok g ca ck r).
Proof.
  intros E m g nargs nkw ca ck r Hm F Ha Hk. cbn [node_config]. rewrite Hm, Ha, Hk. cbn [bind]. unfold return_config.
  assert (F' : full g ca ck).
  { destruct F as (F1 & F2 & F3). unfold full. rewrite (map_res_len _ _ _ _ _ Ha), (map_kres_fst _ _ _ _ _ Hk). auto. }
  assert (Has : forall d c, cinput g ca ck d c -> exists q, d = Some q).
  { destruct F' as (F1 & F2 & F3). intros d c [(i & Hi & ->)|(k & Hx & ->)].
    - unfold config_pos. destruct (nth_error (g_args g) i) as [(n & q)|] eqn:E0; eauto. destruct (g_vararg g) eqn:Ev; eauto.
      apply nth_error_None in E0. assert (i < length ca) by (apply nth_error_Some; congruence). specialize (F2 eq_refl). lia.
    - unfold config_kw. destruct (sdget k (g_kw g)) eqn:E0; eauto. apply (dget_None String.eqb String.eqb_spec) in E0. exfalso. apply E0, F3. apply (in_map fst) in Hx; auto. }
  rewrite check_configs_spec. unfold config_ok. split.
  - intros (H1 & H2 & H3). repeat split; auto.
    + intros d c Hc. apply config_pairs_cinput in Hc. destruct (H1 _ _ Hc) as [X|(X & _)]; congruence.
    + intros c Hc. apply config_pairs_cinput in Hc. destruct (H1 _ _ Hc) as [X|(_ & X)]; congruence.
    + intros Hr Hn. apply H3; auto. intros c Hc. apply config_pairs_cinput in Hc. eapply Hn; eauto.
  - intros (H1 & H2 & H3 & H4). repeat split; auto.
    + intros d c Hc. apply config_pairs_cinput in Hc. destruct (Has _ _ Hc) as ([d'|] & ->).
      * left. rewrite (H1 _ _ Hc). auto.
      * right. auto.
    + intros Hr Hn. apply H4; auto. intros c Hc. apply (Hn c). apply config_pairs_cinput; auto.
Qed.

(** Two inputs with different known configs, at parameters that declare none, are
    never accepted. *)
Theorem C19_mixed_configs_rejected : forall E m g nargs nkw ca ck c c',
  resolve_method E m = Ok g -> full g nargs nkw ->
  map_res (node_config E) nargs = Ok ca -> map_kres (node_config E) nkw = Ok ck ->
  cinput g ca ck (Some None) c -> cinput g ca ck (Some None) c' -> c <> c' ->
  exists e, node_config E (VMerge m nargs nkw) = Err e.
Proof.
  intros E m g nargs nkw ca ck c c' Hm F Ha Hk H1 H2 Hne.
  destruct (node_config E (VMerge m nargs nkw)) as [r|e] eqn:E0; eauto. exfalso.
  apply (C19_config_iff E m g nargs nkw ca ck r Hm F Ha Hk) in E0 as (_ & C & _). apply C in H1, H2. congruence.
Qed.
Example C19_example : exists ca ck, map_res (node_config (Env [("add_difference", sig_add_difference)] ["sd1"; "sdxl"] all_spaces))
    [VModel "a" (Some "sd1") "weight"; VModel "b" (Some "sdxl") "delta"; VLit (VInt 1) None "param"] = Ok ca /\ map_kres (node_config E2) [] = Ok ck /\
  full sig_add_difference ca ck /\ cinput sig_add_difference ca ck (Some None) "sd1" /\ cinput sig_add_difference ca ck (Some None) "sdxl".
Proof.
  eexists; eexists. split; [reflexivity|]. split; [reflexivity|]. split; [|split].
  - unfold full; simpl. repeat split; auto; tauto.
  - left. exists 0. split; reflexivity.
  - left. exists 1. split; reflexivity.
Qed.

(** ** C20 *)
(** the registry has the built-in methods *)
Definition has_builtins (E : env) : Prop :=
  resolve_method E "add_difference" = Ok sig_add_difference /\
  resolve_method E "subtract" = Ok sig_subtract /\
  resolve_method E "fallback" = Ok sig_fallback.

Definition one : pyobj := VLit (VFloat "1.0") None "param".

Lemma operand_node : forall E b, is_node b = true -> operand E b = Ok b.
Proof. intros E [] H; try discriminate; reflexivity. Qed.

Lemma call_add : forall E x y sx sy, has_builtins E -> is_node x = true -> is_node y = true ->
  node_space E x = Ok sx -> node_space E y = Ok sy ->
  call E "add_difference" [x; y] =
    if mem_str sx ["weight"] && mem_str sy ["delta"] then Ok (VMerge "add_difference" [x; y; one] []) else Err TypeError.
Proof.
  intros E x y sx sy (B1 & _) Nx Ny Sx Sy. unfold call. rewrite B1. cbn [bind]. unfold create_recipe.
  assert (Bc : bind_call sig_add_difference [x; y] [] = Ok ([x; y; VFloat "1.0"], [])) by reflexivity.
  rewrite Bc. cbn [bind fst snd].
  assert (Ca : convert_args E sig_add_difference [x; y; VFloat "1.0"] = Ok [x; y; one]).
  { unfold convert_args. cbn -[value_to_node]. rewrite !value_to_node_node by auto. reflexivity. }
  rewrite Ca. cbn [bind convert_kwargs map_res]. rewrite Sx, Sy. cbn [bind map_kres node_space].
  change (node_space E one) with (Ok "param"). cbn [bind].
  unfold return_space. cbn [space_pairs]. unfold space_pairs. cbn -[mem_str String.eqb bind].
  unfold mem_str. cbn [existsb]. rewrite !orb_false_r. destruct (String.eqb sx "weight"), (String.eqb sy "delta"); reflexivity.
Qed.

(** [a + b]: one operand must be a weight and the other a delta; the recipe adds
    the delta to the weight whichever side it is on; the result is a weight. *)
Theorem C20_add : forall E a b sa sb, has_builtins E -> is_node a = true -> is_node b = true ->
  node_space E a = Ok sa -> node_space E b = Ok sb ->
  (sa = "weight" /\ sb = "delta" -> op_add E a b = Ok (VMerge "add_difference" [a; b; one] [])) /\
  (sa = "delta" /\ sb = "weight" -> op_add E a b = Ok (VMerge "add_difference" [b; a; one] [])) /\
  (~ (sa = "weight" /\ sb = "delta") /\ ~ (sa = "delta" /\ sb = "weight") -> op_add E a b = Err TypeError).
Proof.
  intros E a b sa sb B Na Nb Sa Sb. unfold op_add. rewrite (operand_node E b Nb). cbn [bind]. rewrite Sb. cbn [bind].
  rewrite (call_add E b a sb sa), (call_add E a b sa sb) by auto.
  unfold mem_str. cbn [existsb]. rewrite !orb_false_r.
  destruct (String.eqb_spec sb "weight"), (String.eqb_spec sa "delta"), (String.eqb_spec sa "weight"), (String.eqb_spec sb "delta"); simpl;
    (split; [intros (?&?)|split; [intros (?&?)|intros (H1&H2)]]); try congruence; try reflexivity; try tauto.
Qed.

Theorem C20_add_symmetric : forall E a b r, has_builtins E -> is_node a = true -> is_node b = true ->
  op_add E a b = Ok r -> op_add E b a = Ok r /\ node_space E r = Ok "weight".
Proof.
  intros E a b r B Na Nb H.
  destruct (node_space E b) as [sb|e] eqn:Sb; [|exfalso; unfold op_add in H; rewrite (operand_node E b Nb) in H; cbn [bind] in H; rewrite Sb in H; discriminate].
  destruct (node_space E a) as [sa|e] eqn:Sa.
  2: { exfalso. unfold op_add in H; rewrite (operand_node E b Nb) in H; cbn [bind] in H; rewrite Sb in H; cbn [bind] in H.
       destruct B as (B1 & _). unfold call in H. rewrite B1 in H. cbn [bind] in H.
       destruct (String.eqb sb "weight"); apply create_recipe_inv in H as X; unfold create_recipe in H;
         apply bind_Ok in H as (p & Hp & H); apply bind_Ok in H as (na & Hna & H); apply bind_Ok in H as (nk & Hnk & H); apply bind_Ok in H as (ss & Hss & H);
         match type of Hp with bind_call _ [?x; ?y] [] = _ => change (bind_call sig_add_difference [x; y] []) with (@Ok (list pyobj * list (string * pyobj)) ([x; y; VFloat "1.0"], [])) in Hp end;
         inversion Hp; subst p; unfold convert_args in Hna; cbn -[value_to_node] in Hna; rewrite !value_to_node_node in Hna by auto; cbn in Hna; inversion Hna; subst na;
         cbn [map_res] in Hss; rewrite ?Sb, Sa in Hss; discriminate. }
  destruct (C20_add E a b sa sb B Na Nb Sa Sb) as (P1 & P2 & P3). destruct (C20_add E b a sb sa B Nb Na Sb Sa) as (Q1 & Q2 & Q3).
  assert (Sp : forall x y, node_space E x = Ok "weight" -> node_space E y = Ok "delta" -> node_space E (VMerge "add_difference" [x; y; one] []) = Ok "weight").
  { intros x y Hx Hy. destruct B as (B1 & _). cbn [node_space map_res map_kres]. rewrite B1, Hx, Hy. reflexivity. }
  destruct (string_dec sa "weight") as [->|N1], (string_dec sb "delta") as [->|N2].
  - rewrite P1 in H by auto. inversion H; subst. split; auto.
  - exfalso. rewrite P3 in H; [discriminate|]. split; intros (?&?); congruence.
  - exfalso. rewrite P3 in H; [discriminate|]. split; intros (?&?); congruence.
  - destruct (string_dec sa "delta") as [->|N3], (string_dec sb "weight") as [->|N4].
    + rewrite P2 in H by auto. inversion H; subst. split; auto.
    + exfalso. rewrite P3 in H; [discriminate|]. split; intros (?&?); congruence.
    + exfalso. rewrite P3 in H; [discriminate|]. split; intros (?&?); congruence.
    + exfalso. rewrite P3 in H; [discriminate|]. split; intros (?&?); congruence.
Qed.

(** [a - b] needs two weights and gives a delta. *)
Theorem C20_subtract : forall E a b sa sb, has_builtins E -> is_node a = true -> is_node b = true ->
  node_space E a = Ok sa -> node_space E b = Ok sb ->
  (sa = "weight" /\ sb = "weight" -> op_sub E a b = Ok (VMerge "subtract" [a; b] []) /\ node_space E (VMerge "subtract" [a; b] []) = Ok "delta") /\
  (~ (sa = "weight" /\ sb = "weight") -> op_sub E a b = Err TypeError).
Proof.
  intros E a b sa sb (B1 & B2 & B3) Na Nb Sa Sb. unfold op_sub. rewrite (operand_node E b Nb). cbn [bind]. unfold call. rewrite B2. cbn [bind]. unfold create_recipe.
  assert (Bc : bind_call sig_subtract [a; b] [] = Ok ([a; b], [])) by reflexivity. rewrite Bc. cbn [bind fst snd].
  assert (Ca : convert_args E sig_subtract [a; b] = Ok [a; b]).
  { unfold convert_args. cbn -[value_to_node]. rewrite !value_to_node_node by auto. reflexivity. }
  rewrite Ca. cbn [bind convert_kwargs map_res map_kres node_space]. rewrite B2, Sa, Sb. cbn [bind].
  assert (R : return_space sig_subtract [sa; sb] [] = if String.eqb sa "weight" && String.eqb sb "weight" then Ok "delta" else Err TypeError).
  { unfold return_space, space_pairs. cbn -[mem_str String.eqb bind]. unfold mem_str. cbn [existsb]. rewrite !orb_false_r.
    destruct (String.eqb sa "weight"), (String.eqb sb "weight"); reflexivity. }
  rewrite R. destruct (String.eqb_spec sa "weight"), (String.eqb_spec sb "weight"); simpl; split; intros; auto; try tauto; exfalso; tauto.
Qed.

(** [a | b] needs two inputs of one known merge space, and keeps it. *)
Theorem C20_fallback : forall E a b sa sb, has_builtins E -> is_node a = true -> is_node b = true ->
  node_space E a = Ok sa -> node_space E b = Ok sb ->
  (sa = sb /\ In sa all_spaces -> op_or E a b = Ok (VMerge "fallback" [a; b] []) /\ node_space E (VMerge "fallback" [a; b] []) = Ok sa) /\
  (~ (sa = sb /\ In sa all_spaces) -> op_or E a b = Err TypeError).
Proof.
  intros E a b sa sb (B1 & B2 & B3) Na Nb Sa Sb. unfold op_or. rewrite (operand_node E b Nb). cbn [bind]. unfold call. rewrite B3. cbn [bind]. unfold create_recipe.
  assert (Bc : bind_call sig_fallback [a; b] [] = Ok ([a; b], [])) by reflexivity. rewrite Bc. cbn [bind fst snd].
  assert (Ca : convert_args E sig_fallback [a; b] = Ok [a; b]).
  { unfold convert_args. cbn -[value_to_node]. rewrite !value_to_node_node by auto. reflexivity. }
  rewrite Ca. cbn [bind convert_kwargs map_res map_kres node_space]. rewrite B3, Sa, Sb. cbn [bind].
  assert (R : return_space sig_fallback [sa; sb] [] = if mem_str sa all_spaces && String.eqb sa sb then Ok sa else Err TypeError).
  { unfold return_space, space_pairs. cbn -[mem_str String.eqb bind all_spaces Nat.eqb dget].
    destruct (mem_str sa all_spaces) eqn:M1; cbn -[mem_str String.eqb all_spaces]; auto.
    destruct (String.eqb_spec sa sb) as [<-|Hne].
    - rewrite M1. cbn -[mem_str String.eqb all_spaces]. rewrite String.eqb_refl. reflexivity.
    - destruct (mem_str sb all_spaces); cbn -[mem_str String.eqb all_spaces]; auto. destruct (String.eqb_spec sb sa); [congruence|reflexivity]. }
  rewrite R. split.
  - intros (-> & Hin). apply mem_str_In in Hin. rewrite Hin, String.eqb_refl. auto.
  - intros Hn. destruct (mem_str sa all_spaces) eqn:M; auto. apply mem_str_In in M. destruct (String.eqb_spec sa sb); auto. tauto.
Qed.

(** a plain value on the left of the operator means the same as its node there *)
Theorem C20_reflected : forall E v n a, operand E v = Ok n ->
  op_radd E a v = op_add E n a /\ op_rsub E a v = op_sub E n a /\ op_ror E a v = op_or E n a.
Proof. intros E v n a H. unfold op_radd, op_rsub, op_ror. rewrite H. auto. Qed.

Definition E_builtin : env := Env [("add_difference", sig_add_difference); ("subtract", sig_subtract); ("fallback", sig_fallback)] ["sd1"] all_spaces.
Example C20_example :
  has_builtins E_builtin /\
  let a := VModel "a.safetensors" None "weight" in let b := VModel "b.safetensors" None "weight" in
  exists d r, op_sub E_builtin a b = Ok d /\ op_add E_builtin d b = Ok r /\ op_add E_builtin b d = Ok r /\ op_add E_builtin a b = Err TypeError.
Proof. split; [repeat split|]. eexists; eexists. repeat split; reflexivity. Qed.

(** ** examples for C16 and C18 *)
Definition sig3 : sig :=
  Sig [("a", tensor_any); ("b", tensor_any); ("alpha", tensor_any)] [VFloat "0.5"] None [("mode", Param PNone None true false)] [("mode", VStr "x")]
      RNone None all_spaces.
Definition m1 := VModel "1" None "weight".
Definition m2 := VModel "2" None "weight".
Lemma sig3_ok : sig_ok sig3.
Proof.
  split; [|split; [|split]].
  - repeat (constructor; [simpl; intuition discriminate|]). constructor.
  - simpl; lia.
  - repeat (constructor; [simpl; intuition discriminate|]). constructor.
  - simpl. intros k v [E|[]]. inversion E; auto.
Qed.
Example C16_example :
  py_accepts sig3 [m1] [("alpha", VFloat "0.1"); ("b", m2)] /\ NoDup (map fst [("alpha", VFloat "0.1"); ("b", m2)]) /\
  create_recipe (Env [("m", sig3)] [] all_spaces) "m" sig3 [m1] [("alpha", VFloat "0.1"); ("b", m2)]
  = Ok (VMerge "m" [m1; m2; VLit (VFloat "0.1") None "param"] [("mode", VLit (VStr "x") None "param")]).
Proof.
  split; [|split; [|reflexivity]].
  - split; [simpl; lia|]. split; [|split].
    + intros i name p H. destruct i as [|[|[|i]]]; simpl in H; try (inversion H; subst; cbv; discriminate). destruct i; discriminate.
    + simpl. intros k v [E|[E|[]]]; inversion E; subst; auto.
    + simpl. intros k [<-|[]]. cbv. discriminate.
  - repeat (constructor; [simpl; intuition discriminate|]). constructor.
Qed.
Example C18_example : full sig3 ["weight"; "weight"; "param"] [("mode", "param")] /\
  spaces_ok sig3 ["weight"; "weight"; "param"] [("mode", "param")] /\ result_space sig3 ["weight"; "weight"; "param"] [("mode", "param")] "weight" /\
  ~ spaces_ok sig3 ["weight"; "delta"; "param"] [("mode", "param")].
Proof.
  assert (F : forall l, length l = 3 -> full sig3 l [("mode", "param")]).
  { intros l Hl. unfold full. simpl. rewrite Hl. repeat split; auto. }
  split; [apply F; auto|].
  assert (X : return_space sig3 ["weight"; "weight"; "param"] [("mode", "param")] = Ok "weight") by reflexivity.
  apply return_space_iff in X as (X1 & X2); [|apply sig3_ok|apply F; auto]. split; auto. split; auto.
  intros (_ & H). specialize (H 0 all_spaces all_spaces "weight" "delta"). assert ("weight" = "delta"); [|discriminate].
  apply H; left; [exists 0|exists 1]; auto.
Qed.

Print Assumptions C16_binding_like_python.
Print Assumptions C16_accepted_calls_bind.
Print Assumptions C17_ill_formed_calls_rejected_refuted.
Print Assumptions C17_ill_formed_calls_rejected_partial.
Print Assumptions C18_merge_space_iff.
Print Assumptions C18_built_recipes_are_well_spaced.
Print Assumptions C18_bad_spaces_rejected.
Print Assumptions C19_config_iff.
Print Assumptions C19_mixed_configs_rejected.
Print Assumptions C20_add.
Print Assumptions C20_add_symmetric.
Print Assumptions C20_subtract.
Print Assumptions C20_fallback.
Print Assumptions C20_reflected.
