(** What the recipe prepared by [merge] evaluates to. *)
From Coq Require Import String List Bool Arith ZArith Lia.
From Verif Require Import Base ModelEval SpecEval EvalProofs PropsEval SpecCast PropsCast ModelDriver SpecDriver DriverProofs PropsDriver PropsExtra ModelMerge SpecMerge.
Import ListNotations.
Open Scope string_scope.
Open Scope list_scope.
Open Scope nat_scope.

Section Proofs.
  Context {T : Type} (conv : ety -> value T -> result (value T)) (same : T -> T -> bool) (to : lit -> lit -> T -> result T).
  Variables (f_in f_out : T -> T) (g : lit -> T) (o : options T).
  Hypothesis numbers : forall l, numeric l = true -> conv TTensor (VL l) = Ok (VT (g l)).
  Hypothesis Cin : casts to (mo_merge o) f_in.
  Hypothesis Cout : casts to (mo_output o) f_out.
  Notation ev := (eval conv).
  Notation reads := (reads conv f_in g o).
  Notation sound := (sound conv f_in g o).

  (** the recipe or, where it lacks the key, the fallback *)
  Definition chosen (r : node T) (k : string) : result (value T) :=
    match mo_fallback o with
    | None => reads r k
    | Some (f, _) => match reads r k with Err e => if is_missing e then reads f k else Err e | Ok v => Ok v end
    end.

  Lemma fallback_convertible : forall a b k, convertible ev (cast_value conv) (@fallback T) [a; b] [] k.
  Proof.
    intros a b k i t n v I. exfalso.
    destruct (input2 (@fallback T) (KSd TAny) (KSd TAny) a b i (KVal t) n eq_refl I) as [(_ & K & _)|(_ & K & _)]; discriminate.
  Qed.

  Lemma prepared : forall r cfg space r1,
    sound r -> (forall f s, mo_fallback o = Some (f, s) -> sound f) ->
    with_fallback o r cfg space = Ok r1 ->
    exists r2, with_merge_dtype to o r1 = Ok r2 /\ wf r2 /\ forall k, ev r2 k = chosen r k.
  Proof.
    intros r cfg space r1 (Wr & Mr & Or) SF H. unfold with_fallback in H. unfold with_merge_dtype, chosen.
    destruct (mo_fallback o) as [[f s]|] eqn:EF.
    - destruct (String.eqb s space); inversion H; subst r1; clear H.
      destruct (SF f s eq_refl) as (Wf & Mf & Of).
      unfold SpecMerge.reads in *. destruct (mo_merge o) as [[device dtype]|] eqn:EM.
      + destruct Cin as (N1 & N2 & TT).
        destruct Mr as (Rr & Cr); [discriminate|]. destruct Mf as (Rf & Cf); [discriminate|].
        destruct (cast_inputs_fit conv to device dtype f_in g TT numbers (conj N1 N2) (NMerge fallback [r; f] [] (Some cfg))) as (r2 & E & W & _ & V).
        * apply wf_or; auto.
        * apply fit_merge; auto. right. intros k i j e e' (t & n & I & _). exfalso. cbn [map] in I.
          destruct (input2 (@fallback T) (KSd TAny) (KSd TAny) _ _ i (KVal t) n eq_refl I) as [(_ & K & _)|(_ & K & _)]; discriminate.
        * intros m args kw c P k. inversion P as [|? ? ? ? ? ? I P'|? ? ? ? a ? I P'|? ? ? ? x a ? I P']; subst.
          -- apply fallback_convertible.
          -- destruct I as [<-|[<-|[]]]; [eapply Cr|eapply Cf]; eauto.
          -- destruct I.
        * exists r2. split; auto. split; auto. intros k. rewrite V. cbn [precast lmap kmap].
          apply eval_or; apply precast_wf; auto.
      + exists (NMerge fallback [r; f] [] (Some cfg)). split; auto. split; [apply wf_or; auto|]. intros k. apply eval_or; auto.
    - inversion H; subst r1; clear H. unfold SpecMerge.reads in *. destruct (mo_merge o) as [[device dtype]|] eqn:EM.
      + destruct Cin as (N1 & N2 & TT). destruct Mr as (Rr & Cr); [discriminate|].
        destruct (cast_inputs_fit conv to device dtype f_in g TT numbers (conj N1 N2) r) as (r2 & E & W & _ & V); auto.
        exists r2. auto.
      + exists r. auto.
  Qed.

  Definition delivered (r : node T) (k : string) : result (value T) :=
    match chosen r k with Ok v => Ok (finished f_out g o v) | Err e => Err e end.

  Lemma output_cast : forall r r2, wf r2 -> (forall k, ev r2 k = chosen r k) ->
    sound r -> (forall f s, mo_fallback o = Some (f, s) -> sound f) ->
    wf (with_output_dtype to o r2) /\ forall k, ev (with_output_dtype to o r2) k = delivered r k.
  Proof.
    intros r r2 W V (_ & _ & Or) SF. unfold with_output_dtype, delivered, finished.
    assert (mo_output o <> None -> forall k v, chosen r k = Ok v -> castable v = true) as CV.
    { intros N k v H. apply castable_iff. unfold chosen in H. destruct (mo_fallback o) as [[f s]|] eqn:EF.
      - destruct (reads r k) as [w|e] eqn:R; [inversion H; subst; eapply Or; eauto|].
        destruct (is_missing e); [|discriminate]. destruct (SF f s eq_refl) as (_ & _ & Of). eapply Of; eauto.
      - eapply Or; eauto. }
    destruct (mo_output o) as [[device dtype]|] eqn:EO.
    - destruct Cout as (N1 & N2 & TT). split; [apply wf_cast_node; auto|]. intros k.
      rewrite (eval_cast_node conv to device dtype f_out g TT numbers (conj N1 N2)); auto.
      + rewrite V. reflexivity.
      + intros v H. rewrite V in H. apply (CV ltac:(discriminate) k); auto.
    - split; auto. intros k. rewrite V. destruct (chosen r k); reflexivity.
  Qed.

  Lemma delivered_Ok : forall r k v, delivered r k = Ok v <-> exists v0, provides conv f_in g o r k v0 /\ v = finished f_out g o v0.
  Proof.
    intros r k v. unfold delivered, chosen, provides. split.
    - intros H. destruct (mo_fallback o) as [[f s]|] eqn:EF.
      + destruct (reads r k) as [w|e] eqn:R.
        * inversion H; subst. exists w. auto.
        * destruct (is_missing e) eqn:M; [|discriminate]. destruct (reads f k) as [w|e'] eqn:R'; [|discriminate].
          inversion H; subst. exists w. split; auto. right. apply is_missing_iff in M as (k' & ->). split; [exists k'; auto|]. eauto.
      + destruct (reads r k) as [w|e] eqn:R; [|discriminate]. inversion H; subst. exists w. auto.
    - intros (v0 & [R|((k' & R) & f & s & EF & R')] & ->).
      + rewrite R. destruct (mo_fallback o) as [[f s]|]; reflexivity.
      + rewrite EF, R. cbn. rewrite R'. reflexivity.
  Qed.

  Lemma delivered_failing : forall r k e, failing (delivered r) k e <-> breaks conv f_in g o r k e.
  Proof.
    intros r k e. unfold failing, breaks, delivered, chosen. split.
    - intros (H & N). split; auto. destruct (mo_fallback o) as [[f s]|] eqn:EF.
      + destruct (reads r k) as [w|e'] eqn:R; [discriminate|]. destruct (is_missing e') eqn:M.
        * right. apply is_missing_iff in M as (k' & ->). split; [exists k'; auto|]. exists f, s. split; auto.
          destruct (reads f k); [discriminate|congruence].
        * left. congruence.
      + left. destruct (reads r k); [discriminate|congruence].
    - intros (N & [R|((k' & R) & f & s & EF & R')]).
      + split; auto. rewrite R. destruct (mo_fallback o) as [[f s]|]; auto.
        destruct (is_missing e) eqn:M; auto. apply is_missing_iff in M as (k' & ->). destruct (N k' eq_refl).
      + split; auto. rewrite EF, R. cbn. rewrite R'. reflexivity.
  Qed.

  Lemma in_ema : forall cfg k, NoDup (map fst (cf_components cfg)) ->
    (existsb (String.eqb k) (ema_of cfg) = false <-> forall l, In ("ema", l) (cf_components cfg) -> ~ In k l).
  Proof.
    intros cfg k ND. unfold ema_of. destruct (dget String.eqb "ema" (cf_components cfg)) as [l|] eqn:G.
    - apply (dget_In String.eqb String.eqb_spec) in G. split.
      + intros E l' I. assert (l' = l).
        { pose proof (dget_NoDup_In String.eqb String.eqb_spec _ _ _ ND I) as A. pose proof (dget_NoDup_In String.eqb String.eqb_spec _ _ _ ND G) as B. congruence. }
        subst l'. intros K. assert (existsb (String.eqb k) l = true) by (apply existsb_In; auto). congruence.
      + intros H. destruct (existsb (String.eqb k) l) eqn:E; auto. apply existsb_In in E. destruct (H l G E).
    - cbn. split; auto. intros _ l I. exfalso.
      pose proof (dget_NoDup_In String.eqb String.eqb_spec _ _ _ ND I). congruence.
  Qed.

  Lemma without_ema_In : forall cfg keys k, NoDup (map fst (cf_components cfg)) ->
    (In k (without_ema o cfg keys) <-> In k keys /\ (mo_omit_ema o = true -> forall l, In ("ema", l) (cf_components cfg) -> ~ In k l)).
  Proof.
    intros cfg keys k ND. unfold without_ema. destruct (mo_omit_ema o).
    - rewrite filter_In, negb_true_iff, in_ema by auto. tauto.
    - split; [intros; split; auto; discriminate|tauto].
  Qed.
  Lemma without_ema_NoDup : forall cfg keys, NoDup keys -> NoDup (without_ema o cfg keys).
  Proof. intros. unfold without_ema. destruct (mo_omit_ema o); auto. apply NoDup_filter; auto. Qed.
End Proofs.

(** outcomes depend on the evaluation function only through its values *)
Lemma merged_ext : forall V (ev ev' : string -> result V) keys out0 out, (forall k, ev k = ev' k) -> merged ev keys out0 out -> merged ev' keys out0 out.
Proof.
  intros V ev ev' keys out0 out E M k v. rewrite (M k v), !E. split; intros [H|(H & N)]; auto; right; split; auto;
    intros (I & w & W); apply N; split; auto; exists w; congruence.
Qed.
Lemma failing_ext : forall V (ev ev' : string -> result V) k e, (forall k, ev k = ev' k) -> failing ev k e -> failing ev' k e.
Proof. intros V ev ev' k e E (H & N). split; auto. rewrite <- E; auto. Qed.

(** a pool that is not over can go on, and not for ever *)
Lemma schedule_exists : forall V (ev : string -> result V) keys out0 threads, 0 < threads -> NoDup keys ->
  exists evs p, prun mem_sink ev threads (pool_init keys out0) evs = Some p /\ pool_over p.
Proof.
  intros V ev keys out0 threads P ND.
  assert (forall k evs p, 9 * length keys + 1 - length evs <= k -> prun mem_sink ev threads (pool_init keys out0) evs = Some p ->
            exists evs' p', prun mem_sink ev threads (pool_init keys out0) evs' = Some p' /\ pool_over p') as L.
  { induction k; intros evs p K R; destruct (C21_merge_ends V ev keys out0 threads evs p P ND R) as (B & [O|(e & p' & St)]); eauto.
    - assert (prun mem_sink ev threads (pool_init keys out0) (evs ++ [e]) = Some p') as R'.
      { clear - R St. revert R. generalize (pool_init (V := V) keys out0). induction evs; cbn; intros q R.
        - inversion R; subst. rewrite St. reflexivity.
        - destruct (pstep _ _ _ q a); [|discriminate]. auto. }
      destruct (C21_merge_ends V ev keys out0 threads _ _ P ND R') as (B' & _). rewrite app_length in B'. cbn in B'. lia.
    - assert (prun mem_sink ev threads (pool_init keys out0) (evs ++ [e]) = Some p') as R'.
      { clear - R St. revert R. generalize (pool_init (V := V) keys out0). induction evs; cbn; intros q R.
        - inversion R; subst. rewrite St. reflexivity.
        - destruct (pstep _ _ _ q a); [|discriminate]. auto. }
      apply (IHk _ _) in R'; auto. rewrite app_length. cbn. lia. }
  destruct (L (9 * length keys + 1) [] (pool_init keys out0)) as (evs & p & H); cbn; eauto; lia.
Qed.

(** *** casting keeps the model files *)
Section Files.
  Context {T : Type} (to : lit -> lit -> T -> result T) (device dtype : lit) (target : config).

  Lemma files_cast_node : forall n, files (cast_node to device dtype n) = files n.
  Proof. intros n. unfold cast_node. cbn. rewrite !app_nil_r. reflexivity. Qed.
  Lemma data_cast_node : forall n, data_only_in_files target n -> data_only_in_files target (cast_node to device dtype n).
  Proof. intros n D. apply do_merge; repeat constructor; auto. Qed.

  Lemma cast_not_lit : forall n n', cast_inputs to device dtype n = Ok n' -> (forall v, n <> NLit v) -> forall v, n' <> NLit v.
  Proof.
    intros n n' H N v E. subst n'. destruct n as [w|d c s|p g k c s|m args kw c]; cbn in H.
    - destruct (N w eq_refl).
    - destruct d as [|[x a] d]; [discriminate|]. destruct a as [w| | |]; try (apply bind_Ok in H as (? & _ & H); discriminate).
      destruct (castable w); discriminate.
    - discriminate.
    - apply bind_Ok in H as (? & _ & H). apply bind_Ok in H as (? & _ & H). discriminate.
  Qed.

  Lemma cast_files : forall n n', cast_inputs to device dtype n = Ok n' ->
    files n' = files n /\ (data_only_in_files target n -> data_only_in_files target n').
  Proof.
    induction n using node_ind'; intros n' E.
    - cbn in E. destruct (castable v); inversion E; subst; split; auto; try apply files_cast_node; apply data_cast_node.
    - assert (forall l l', Forall (fun p => forall n', cast_inputs to device dtype (snd p) = Ok n' ->
                files n' = files (snd p) /\ (data_only_in_files target (snd p) -> data_only_in_files target n')) l ->
              kmapN (cast_inputs to device dtype) l = Ok l' ->
              flat_map (fun p => match p with (_, a) => files a end) l' = flat_map (fun p => match p with (_, a) => files a end) l /\
              (Forall (fun p => (forall v, snd p <> NLit v) /\ data_only_in_files target (snd p)) l ->
               Forall (fun p => (forall v, snd p <> NLit v) /\ data_only_in_files target (snd p)) l')) as K.
      { induction l as [|[x a] l IH]; intros l' F R; cbn in R.
        - inversion R; subst; auto.
        - apply bind_Ok in R as (y & Y & R). apply bind_Ok in R as (ys & Ys & R). inversion R; subst. inversion F; subst. cbn in *.
          destruct (H2 y Y) as (A & B). destruct (IH ys H3 Ys) as (C & D). split; [rewrite A, C; auto|].
          intros G. inversion G as [|? ? (G1 & G2) G3]; subst. constructor; auto. cbn in *. split; auto. eapply cast_not_lit; eauto. }
      destruct d as [|[x a] d]; [discriminate|]. cbn [cast_inputs] in E.
      assert (forall w : value T, Ok (if castable w then cast_node to device dtype (NDict ((x, a) :: d) c s) else NDict ((x, a) :: d) c s) = Ok n' ->
        files n' = files (NDict ((x, a) :: d) c s) /\ (data_only_in_files target (NDict ((x, a) :: d) c s) -> data_only_in_files target n')) as L.
      { intros w Q. destruct (castable w); inversion Q; subst; split; auto; try apply files_cast_node; apply data_cast_node. }
      assert (forall d', (forall v, a <> NLit v) -> kmapN (cast_inputs to device dtype) ((x, a) :: d) = Ok d' -> Ok (NDict d' c s) = Ok n' ->
        files n' = files (NDict ((x, a) :: d) c s) /\ (data_only_in_files target (NDict ((x, a) :: d) c s) -> data_only_in_files target n')) as M.
      { intros d' NL Kd Q. inversion Q; subst. destruct (K _ _ H Kd) as (A & B). split; [exact A|].
        intros D. inversion D as [|? ? ? F NE|? ? ? F| |]; subst.
        - destruct (F (x, a)) as (v & V); [left; auto|]. destruct (NL v V).
        - apply do_recipes; auto. }
      destruct a as [w| | |]; try (apply bind_Ok in E as (d' & Kd & E); apply (M d'); auto; discriminate). apply (L w); auto.
    - inversion E; subst. split; [apply files_cast_node|apply data_cast_node].
    - cbn in E. apply bind_Ok in E as (args' & Ea & E). apply bind_Ok in E as (kw' & Ek & E). inversion E; subst; clear E.
      assert (flat_map files args' = flat_map files args /\ (Forall (data_only_in_files target) args -> Forall (data_only_in_files target) args')) as (A1 & A2).
      { clear Ek H0. revert args' Ea. induction args as [|a args IH]; intros args' Ea; cbn in Ea.
        - inversion Ea; subst; auto.
        - apply bind_Ok in Ea as (y & Y & R). apply bind_Ok in R as (ys & Ys & R). inversion R; subst. inversion H; subst.
          destruct (H2 y Y) as (A & B). destruct (IH H3 ys Ys) as (C & D). cbn. split; [rewrite A, C; auto|].
          intros G. inversion G; subst. constructor; auto. }
      assert (flat_map (fun p => match p with (_, a) => files a end) kw' = flat_map (fun p => match p with (_, a) => files a end) kw /\
        (Forall (fun p => data_only_in_files target (snd p)) kw -> Forall (fun p => data_only_in_files target (snd p)) kw')) as (B1 & B2).
      { clear Ea H A1 A2. revert kw' Ek. induction kw as [|[x a] kw IH]; intros kw' Ek; cbn in Ek.
        - inversion Ek; subst; auto.
        - apply bind_Ok in Ek as (y & Y & R). apply bind_Ok in R as (ys & Ys & R). inversion R; subst. inversion H0; subst. cbn in *.
          destruct (H2 y Y) as (A & B). destruct (IH H3 ys Ys) as (C & D). split; [rewrite A, C; auto|].
          intros G. inversion G; subst. constructor; auto. }
      split; [cbn; rewrite A1, B1; auto|]. intros D. inversion D; subst. apply do_merge; auto.
  Qed.
End Files.

Lemma prepared_files : forall T (to : lit -> lit -> T -> result T) (o : options T) r cfg space r1 r2,
  with_fallback o r cfg space = Ok r1 -> with_merge_dtype to o r1 = Ok r2 ->
  filter (of_config cfg) (files (with_output_dtype to o r2)) = sources o r cfg /\
  files (with_output_dtype to o r2) = files r ++ (match mo_fallback o with Some (f, _) => files f | None => [] end) /\
  (data_only_in_files cfg r -> (forall f s, mo_fallback o = Some (f, s) -> data_only_in_files cfg f) ->
   data_only_in_files cfg (with_output_dtype to o r2)).
Proof.
  intros T to o r cfg space r1 r2 F M.
  assert (files r1 = files r ++ (match mo_fallback o with Some (f, _) => files f | None => [] end) /\
    (data_only_in_files cfg r -> (forall f s, mo_fallback o = Some (f, s) -> data_only_in_files cfg f) -> data_only_in_files cfg r1)) as (A & B).
  { unfold with_fallback in F. destruct (mo_fallback o) as [[f s]|].
    - destruct (String.eqb s space); inversion F; subst. cbn. rewrite !app_nil_r. split; auto.
      intros D G. apply do_merge; repeat constructor; auto. eapply G; eauto.
    - inversion F; subst. rewrite app_nil_r. auto. }
  assert (files r2 = files r1 /\ (data_only_in_files cfg r1 -> data_only_in_files cfg r2)) as (C & D).
  { unfold with_merge_dtype in M. destruct (mo_merge o) as [[d t]|]; [eapply cast_files; eauto|inversion M; subst; auto]. }
  assert (files (with_output_dtype to o r2) = files r2 /\ (data_only_in_files cfg r2 -> data_only_in_files cfg (with_output_dtype to o r2))) as (E & G).
  { unfold with_output_dtype. destruct (mo_output o) as [[d t]|]; auto. split; [apply files_cast_node|apply data_cast_node]. }
  unfold sources. rewrite E, C, A. split; [reflexivity|]. split; [reflexivity|]. intros H1 H2. apply G, D, B; auto.
Qed.
