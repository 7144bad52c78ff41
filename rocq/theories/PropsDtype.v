(** C118: asking a recipe for its dtype and device *)
From Coq Require Import String List Bool ZArith Lia Arith.
From Verif Require Import Base ModelEval SpecEval EvalProofs PropsEval SpecCast ModelDtype.
Import ListNotations.
Open Scope string_scope.
Open Scope list_scope.

(** a merge that succeeds was handed all its inputs *)
Section Handed.
  Context {T : Type} (conv : ety -> value T -> result (value T)).
  Notation ev := (eval conv).

  Lemma visit_all_good : forall key l held merged r, visit_all conv key l held merged = Ok r -> Forall (fun p => good conv key (snd p)) l.
  Proof.
    intros key. induction l as [|[i s] l IH]; intros held merged r H; simpl in H; [constructor|].
    destruct (visit_one conv key s held) as [[x h]|e] eqn:V; [|discriminate]. simpl in H. constructor; [|eapply IH; eauto].
    simpl. intros e v K E. unfold visit_one in V. rewrite K, E in V. destruct (cast_value conv v e); [eauto|discriminate].
  Qed.

  Lemma eval_handed : forall m args kw c key v, wf (NMerge m args kw c) -> ev (NMerge m args kw c) key = Ok v ->
    exists xs ys, length xs = length args /\ length ys = length kw /\
      (forall i x, nth_error (xs ++ ys) i = Some x -> exists k n, input m args kw i k n /\ handed ev (cast_value conv) key k n x) /\
      m_fun m xs (combine (map fst kw) ys) key = Ok v.
  Proof.
    intros m args kw c key v W H.
    destruct (merge_slots conv m args kw c W) as (slots & L & E & Hs & _). rewrite E in H.
    assert (forall s, In s slots -> good conv key s) as G.
    { intros s I. unfold eval_merge in H.
      destruct (visit_all conv key (visit_order (combine (seq 0 (length slots)) slots)) None []) as [r|e] eqn:V; [|discriminate].
      apply visit_all_good in V. rewrite Forall_forall in V. apply In_nth_error in I as [i I].
      apply (V (i, s)). apply order_In; auto. }
    assert (forall s, In s slots -> fail_of key s = None) as F.
    { intros s I. destruct (fail_of key s) as [e|] eqn:Fs; auto. exfalso.
      destruct (eval_merge_fail conv key slots m (length args) (map fst kw) G) as (i & s' & e' & _ & _ & Q & _); [eauto|].
      rewrite Q in H. discriminate. }
    rewrite eval_merge_ok in H by auto. rewrite map_length in L.
    exists (map (recv conv key) (firstn (length args) slots)), (map (recv conv key) (skipn (length args) slots)).
    split; [rewrite map_length, firstn_length; lia|]. split; [rewrite map_length, skipn_length; lia|]. split; [|auto].
    intros i x N. rewrite <- map_app, firstn_skipn, nth_error_map in N.
    destruct (nth_error slots i) as [s|] eqn:Si; [|discriminate]. simpl in N. inversion N; subst x.
    destruct (Hs _ _ Si) as (k & n & I & ->). exists k, n. split; auto.
    apply nth_error_In in Si. specialize (G _ Si). specialize (F _ Si).
    destruct k as [t|t]; unfold recv, handed, good, fail_of, slot_of in *; simpl in *.
    - destruct (ev n key) as [w|e] eqn:En; [|discriminate]. destruct (G t w eq_refl eq_refl) as (w' & C).
      exists w, w'. rewrite C. auto.
    - reflexivity.
  Qed.
End Handed.

(** what torch calls its dtypes (str(dtype) without "torch."); none: not one of those a model file can have *)
Definition torch_name (d : tdtype) : option string :=
  match d with
  | Float64 => Some "float64" | Float32 => Some "float32" | Float16 => Some "float16" | Bfloat16 => Some "bfloat16"
  | Float8e4 => Some "float8_e4m3fn" | Float8e5 => Some "float8_e5m2"
  | Int64 => Some "int64" | Int32 => Some "int32" | Int16 => Some "int16" | Int8 => Some "int8"
  | Uint64 => Some "uint64" | Uint32 => Some "uint32" | Uint16 => Some "uint16" | Uint8 => Some "uint8"
  | TBoolean => Some "bool" | Other _ => None
  end.

Lemma name_of : forall d, dget tdtype_eqb d dtype_names = torch_name d.
Proof. destruct d; reflexivity. Qed.
Lemma of_name : forall d s, torch_name d = Some s -> dget String.eqb s dtype_map = Some d.
Proof. destruct d; simpl; intros s H; inversion H; reflexivity. Qed.
Lemma map_name : forall d s, dget String.eqb s dtype_map = Some d -> torch_name d = Some s.
Proof.
  intros d s H. apply dget_In in H; [|exact String.eqb_spec].
  repeat (destruct H as [H|H]; [inversion H; subst; reflexivity|]). destruct H.
Qed.

Section Told.
  Context {A : Type} (place : string -> result string) (convert : tdtype -> A -> A)
    (number : lit -> A) (item : ety -> A -> result lit) (between : ety -> lit -> result lit).
  Notation conv := (tconv number item between).
  Notation ev := (eval conv).
  Notation to := (to_tensor place convert).

  Lemma ask : forall (m : mmethod (tensor A)) n c key t, m_args m = [KVal TTensor] -> m_kw m = [] -> wf n -> ev n key = Ok (VT t) ->
    ev (NMerge m [n] [] c) key = m_fun m [IVal (VT t)] [] key.
  Proof.
    intros m n c key t Ma Mk W E. apply (eval_inputs conv m [n] [] c key [IVal (VT t)] []); auto.
    - constructor; auto; [left; discriminate|left; rewrite Ma; simpl; lia|rewrite Mk; constructor|intros x []].
    - intros i k p I. inversion I as [? ? ? N Nk|? ? ? N Le Nv|? ? ? ? N]; subst.
      + rewrite Ma in Nk. destruct i as [|[|i]]; simpl in N, Nk; try discriminate. inversion N; inversion Nk; subst.
        exists (IVal (VT t)). split; auto. exists (VT t), (VT t). auto.
      + rewrite Ma in Le. simpl in Le. destruct i as [|[|i]]; simpl in N; try discriminate; lia.
      + destruct i0; discriminate.
  Qed.

  (** get_dtype and get_device tell the dtype and the device of what their input evaluates to *)
  Theorem C118_told : forall n c key t, wf n -> ev n key = Ok (VT t) ->
    ev (NMerge get_dtype [n] [] c) key = match torch_name (tn_dtype t) with Some s => Ok (VL (LStr s)) | None => Err KeyError end /\
    ev (NMerge get_device [n] [] c) key = Ok (VL (LStr (tn_device t))).
  Proof.
    intros n c key t W E. split; rewrite (ask _ n c key t) by auto; [|reflexivity].
    destruct t as [d dv a]. destruct d; reflexivity.
  Qed.

  Lemma eval_cast : forall n dv dt c key t x y, wf n -> wf dv -> wf dt -> ev n key = Ok (VT t) ->
    ev dv key = Ok (VL x) -> ev dt key = Ok (VL y) ->
    (exists s, x = LStr s) \/ x = LNone -> (exists s, y = LStr s) \/ y = LNone ->
    ev (NMerge (cast_to place convert) [n; dv; dt] [] c) key = let* z := to x y t in Ok (VT z).
  Proof.
    intros n dv dt c key t x y Wn Wv Wt En Ev Et Hx Hy.
    rewrite (eval_inputs conv (cast_to place convert) [n; dv; dt] [] c key [IVal (VT t); IVal (VL x); IVal (VL y)] []); auto.
    - apply wf_merge; [repeat constructor; auto|constructor|left; discriminate|left; simpl; lia|constructor|intros z []].
    - intros i k p I. inversion I as [? ? ? N Nk|? ? ? N Le Nv|? ? ? ? N]; subst.
      + destruct i as [|[|[|i]]]; simpl in N, Nk; try discriminate; inversion N; inversion Nk; subst.
        * exists (IVal (VT t)). split; auto. exists (VT t), (VT t). auto.
        * exists (IVal (VL x)). split; auto. exists (VL x), (VL x). destruct Hx as [[s ->]| ->]; auto.
        * exists (IVal (VL y)). split; auto. exists (VL y), (VL y). destruct Hy as [[s ->]| ->]; auto.
        * destruct i; discriminate.
      + simpl in *. discriminate.
      + destruct i0; discriminate.
  Qed.

  (** so what is cast to the dtype told for [b] has the dtype of [b]; and to its device *)
  Theorem C118_round_trip : forall a b c c' key x y s, wf a -> wf b -> ev a key = Ok (VT x) -> ev b key = Ok (VT y) ->
    torch_name (tn_dtype y) = Some s ->
    ev (NMerge (cast_to place convert) [a; NLit (VL LNone); NMerge get_dtype [b] [] c] [] c') key =
      Ok (VT (Tensor (tn_dtype y) (tn_device x) (convert (tn_dtype y) (tn_data x)))) /\
    (place (tn_device y) = Ok (tn_device y) ->
     ev (NMerge (cast_to place convert) [a; NMerge get_device [b] [] c; NMerge get_dtype [b] [] c] [] c') key =
      Ok (VT (Tensor (tn_dtype y) (tn_device y) (convert (tn_dtype y) (tn_data x))))).
  Proof.
    intros a b c c' key x y s Wa Wb Ea Eb N. destruct (C118_told b c key y Wb Eb) as (D & V). rewrite N in D.
    assert (forall m : mmethod (tensor A), m_args m = [KVal TTensor] -> m_kw m = [] -> wf (NMerge m [b] [] c)) as W1.
    { intros m Ma Mk. constructor; auto; [left; discriminate|left; rewrite Ma; simpl; lia|rewrite Mk; constructor|intros z []]. }
    split; [|intros P].
    - rewrite (eval_cast a (NLit (VL LNone)) (NMerge get_dtype [b] [] c) c' key x LNone (LStr s)); eauto; [|constructor].
      unfold to_tensor. rewrite (of_name _ _ N). reflexivity.
    - rewrite (eval_cast a (NMerge get_device [b] [] c) (NMerge get_dtype [b] [] c) c' key x (LStr (tn_device y)) (LStr s)); eauto.
      unfold to_tensor. rewrite (of_name _ _ N). simpl. rewrite P. reflexivity.
  Qed.

  (** *** under merge_dtype and merge_device *)
  Section Merged.
    Variables (device dtype : lit) (P : tensor A -> Prop).

    (** a value is a tensor as merge_dtype and merge_device want it, or a string *)
    Definition fine (v : value (tensor A)) : Prop := match v with VT t => P t | VL l => numeric l = false end.
    (** the tensors a method receives are as wanted *)
    Definition receives (x : inp (tensor A)) : Prop :=
      match x with IVal v => forall t, v = VT t -> P t | ISd get _ => forall k v, get k = Ok v -> fine v end.
    (** methods that return such tensors, or strings, when they receive such *)
    Definition keeps (m : mmethod (tensor A)) : Prop :=
      forall xs kws key v, Forall receives xs -> Forall (fun p => receives (snd p)) kws -> m_fun m xs kws key = Ok v -> fine v.
    (** methods that do not want state dicts of numbers *)
    Definition tensorial (m : mmethod (tensor A)) : Prop :=
      forall k, In k (m_args m) \/ m_vararg m = Some k \/ In k (map snd (m_kw m)) -> k <> KSd TInt /\ k <> KSd TFloat /\ k <> KSd TBool.

    (** recipes over model files, data, dicts of data, of strings, or of recipes, with such methods *)
    Inductive built : node (tensor A) -> Prop :=
    | built_lit : forall v, built (NLit v)
    | built_model : forall p get k c s, built (NModel p get k c s)
    | built_data : forall x v d c s, ~ inert (NLit v) -> built (NDict ((x, NLit v) :: d) c s)
    | built_strings : forall d c s, Forall (fun p => inert (snd p)) d -> built (NDict d c s)
    | built_recipes : forall x n d c s, (forall v, n <> NLit v) -> Forall (fun p => built (snd p)) ((x, n) :: d) -> built (NDict ((x, n) :: d) c s)
    | built_merge : forall m args kw c, keeps m -> tensorial m -> Forall built args -> Forall (fun p => built (snd p)) kw -> built (NMerge m args kw c).

    Hypothesis wanted : forall t t', to device dtype t = Ok t' -> P t'.
    Hypothesis Hdev : numeric device = false.
    Hypothesis Hdt : numeric dtype = false.

    Lemma option_str : forall l, numeric l = false -> cast_value conv (VL l) TStr = Ok (VL l).
    Proof. destruct l; simpl; intros H; try discriminate; auto. Qed.

    Lemma cast_wf : forall n, wf n -> wf (cast_node to device dtype n).
    Proof.
      intros n W. apply wf_merge; [repeat constructor; auto|constructor|left; discriminate|left; simpl; lia|constructor|intros z []].
    Qed.

    Lemma cast_fine : forall n key v, wf n -> ev (cast_node to device dtype n) key = Ok v -> fine v.
    Proof.
      intros n key v W E. apply eval_handed in E; [|apply cast_wf; auto].
      destruct E as (xs & ys & Lx & Ly & H & F). destruct ys; [|discriminate]. rewrite app_nil_r in H.
      destruct xs as [|x [|y [|z [|]]]]; try discriminate.
      assert (forall i x l, nth_error [n; NLit (VL device); NLit (VL dtype)] i = Some (NLit (VL l)) -> nth_error [KVal TTensor; KVal TStr; KVal TStr] i = Some (KVal TStr) ->
        numeric l = false -> (exists k p, input (cast to) [n; NLit (VL device); NLit (VL dtype)] [] i k p /\ handed ev (cast_value conv) key k p x) -> x = IVal (VL l)) as X.
      { intros i u l Ni Nk Nl (k & p & I & Hd). inversion I as [? ? ? N' Nk'|? ? ? N' Le Nv|? ? ? ? N']; subst.
        - rewrite Ni in N'. change (m_args (cast to)) with [KVal TTensor; KVal TStr; KVal TStr] in Nk'. rewrite Nk in Nk'.
          inversion N'; inversion Nk'; subst. destruct Hd as (a & b & Ea & Eb & ->). simpl in Ea. inversion Ea; subst.
          rewrite option_str in Eb by auto. congruence.
        - simpl in Nv. discriminate.
        - destruct i0; discriminate. }
      assert (y = IVal (VL device)) by (apply (X 1 y device); auto). assert (z = IVal (VL dtype)) by (apply (X 2 z dtype); auto). subst y z.
      simpl in F. destruct x as [[t|l]|]; try discriminate.
      destruct (to device dtype t) as [t'|] eqn:Q; [|discriminate]. simpl in F. inversion F; subst. simpl. eapply wanted; eauto.
    Qed.

    Lemma try_keys_from : forall B (get : string -> result B) ks key a, try_keys get ks key = Ok a -> exists k, get k = Ok a.
    Proof.
      intros B get ks key a. induction ks as [|k ks IH]; simpl; [discriminate|].
      destruct (get k) as [b|e] eqn:G; [intros H; inversion H; subst; eauto|].
      destruct ks; [|]; repeat (match goal with |- context [if ?b then _ else _] => destruct b end); intros; try discriminate; auto.
    Qed.

    Lemma mapN_in : forall (f : node (tensor A) -> result (node (tensor A))) l l', mapN f l = Ok l' -> Forall2 (fun a b => f a = Ok b) l l'.
    Proof.
      intros f. induction l as [|a l IH]; simpl; intros l' H; [inversion H; constructor|].
      destruct (f a) eqn:Fa; [|discriminate]. simpl in H. destruct (mapN f l) eqn:M; [|discriminate]. inversion H; subst. constructor; auto.
    Qed.
    Lemma kmapN_in : forall (f : node (tensor A) -> result (node (tensor A))) l l', kmapN f l = Ok l' ->
      Forall2 (fun a b => fst a = fst b /\ f (snd a) = Ok (snd b)) l l'.
    Proof.
      intros f. induction l as [|[x a] l IH]; simpl; intros l' H; [inversion H; constructor|].
      destruct (f a) eqn:Fa; [|discriminate]. simpl in H. destruct (kmapN f l) eqn:M; [|discriminate]. inversion H; subst. constructor; auto.
    Qed.

    Lemma cast_value_fine : forall v e w, fine v -> cast_value conv v e = Ok w -> (forall t, w = VT t -> P t) /\
      (e <> TInt -> e <> TFloat -> e <> TBool -> fine w).
    Proof.
      intros v e w F C. destruct v as [t|l]; simpl in F.
      - destruct e; simpl in C.
        all: try (destruct (item _ (tn_data t)); simpl in C; [|discriminate]).
        all: inversion C; subst; (split; [intros u Hu; inversion Hu; subst; auto|intros; simpl; auto; congruence]).
      - destruct l; simpl in F; try discriminate; destruct e; simpl in C.
        all: try (destruct (between _ _); simpl in C; [|discriminate]).
        all: inversion C; subst; (split; [intros u Hu; inversion Hu|intros; simpl; auto; congruence]).
    Qed.

    Lemma merged_fine : forall n, wf n -> built n -> forall n', cast_inputs to device dtype n = Ok n' ->
      wf n' /\ forall key v, ev n' key = Ok v -> fine v.
    Proof.
      induction n as [v|d c s IH|p g k c s|m args kw c IHa IHk] using node_ind'; intros W B n' C.
      - simpl in C. inversion C; subst. destruct (castable v) eqn:Q.
        + split; [apply cast_wf; auto|]. intros key w E. apply (cast_fine (NLit v) key); auto.
        + split; [constructor|]. intros key w E. simpl in E. inversion E; subst. destruct w as [|[]]; try discriminate; simpl; auto.
      - inversion B as [| |x v d' ? ? NI|? ? ? I|x n d' ? ? NL Fb|]; subst.
        + simpl in C. assert (castable v = true) as Q.
          { destruct v as [|[]]; simpl; auto; exfalso; apply NI; eexists; split; eauto. }
          rewrite Q in C. inversion C; subst. split; [apply cast_wf; auto|]. intros key w E. eapply cast_fine; eauto.
        + destruct d as [|[x n] d]; [discriminate|]. pose proof (Forall_inv I) as (l & Hn & Nl). simpl in Hn. subst n.
          assert (n' = NDict ((x, NLit (VL l)) :: d) c s) as -> by (destruct l; simpl in *; congruence). split; auto. intros key w E. simpl eval in E.
          destruct (visit_sd _ c key) as [h|] eqn:V; [|discriminate]. simpl in E. apply try_keys_from in V as (k & V).
          unfold dict_get in V. destruct (dget String.eqb k _) eqn:D; [|discriminate]. inversion V; subst.
          apply dget_In in D; [|exact String.eqb_spec].
          change (In (k, h) (kmap ev ((x, NLit (VL l)) :: d))) in D. rewrite kmap_map in D. apply in_map_iff in D as ([y q] & D1 & D2).
          simpl in D1. inversion D1; subst. rewrite Forall_forall in I. destruct (I _ D2) as (l' & Hq & Nl'). simpl in Hq. subst q.
          simpl in E. inversion E; subst. auto.
        + assert (exists d2, kmapN (cast_inputs to device dtype) ((x, n) :: d') = Ok d2 /\ n' = NDict d2 c s) as (d2 & K & ->).
          { simpl in C. simpl. destruct n; try (exfalso; eapply NL; reflexivity).
            all: match goal with C : context [bind ?a _] |- _ => destruct a as [d2|] eqn:K; [|discriminate] end.
            all: simpl in C; inversion C; subst; eexists; split; eauto. }
          apply kmapN_in in K. inversion W as [|? ? ? Wd| |]; subst.
          assert (Forall (fun p => wf (snd p) /\ forall key v, ev (snd p) key = Ok v -> fine v) d2) as Q.
          { revert IH Wd Fb K. generalize ((x, n) :: d') d2. clear. induction l as [|a l I]; intros l2 IH Wd Fb K; inversion K; subst; constructor.
            - eapply (Forall_inv IH); [exact (Forall_inv Wd)|exact (Forall_inv Fb)|]. apply H1.
            - eapply I; eauto; eapply Forall_inv_tail; eauto. }
          split; [constructor; eapply Forall_impl; [|exact Q]; simpl; tauto|].
          intros key w E. simpl eval in E. destruct (visit_sd _ c key) as [h|] eqn:V; [|discriminate]. simpl in E.
          apply try_keys_from in V as (k & V). unfold dict_get in V. destruct (dget String.eqb k _) eqn:D; [|discriminate]. inversion V; subst.
          apply dget_In in D; [|exact String.eqb_spec]. rewrite kmap_map in D. apply in_map_iff in D as ([y q] & D1 & D2).
          simpl in D1. inversion D1; subst. rewrite Forall_forall in Q. destruct (Q _ D2) as (_ & Q'). eapply Q'; eauto.
      - simpl in C. inversion C; subst. split; [apply cast_wf; auto|]. intros key w E. eapply cast_fine; eauto.
      - simpl in C. destruct (mapN _ args) as [args'|] eqn:Ma; [|discriminate]. simpl in C.
        destruct (kmapN _ kw) as [kw'|] eqn:Mk; [|discriminate]. simpl in C. inversion C; subst. clear C.
        apply mapN_in in Ma. apply kmapN_in in Mk.
        inversion W as [| | |? ? ? ? Wa Wk NE L ND K]; subst. inversion B as [| | | | |? ? ? ? Km Tm Ba Bk]; subst.
        assert (Forall (fun a => wf a /\ forall key v, ev a key = Ok v -> fine v) args') as Qa.
        { revert Ma IHa Wa Ba. clear. intros Ma. induction Ma as [|a b l l' Hab F I]; intros IH Wa Ba; constructor.
          - eapply (Forall_inv IH); [exact (Forall_inv Wa)|exact (Forall_inv Ba)|exact Hab].
          - apply I; eapply Forall_inv_tail; eauto. }
        assert (Forall (fun p => wf (snd p) /\ forall key v, ev (snd p) key = Ok v -> fine v) kw') as Qk.
        { revert Mk IHk Wk Bk. clear. intros Mk. induction Mk as [|a b l l' Hab F I]; intros IH Wa Ba; constructor.
          - eapply (Forall_inv IH); [exact (Forall_inv Wa)|exact (Forall_inv Ba)|apply Hab].
          - apply I; eapply Forall_inv_tail; eauto. }
        assert (length args = length args') as La by (clear -Ma; induction Ma; simpl; congruence).
        assert (map fst kw = map fst kw') as Lk.
        { clear -Mk. induction Mk as [|a b l l' [Hab _] F IH]; simpl; congruence. }
        assert (wf (NMerge m args' kw' c)) as W'.
        { constructor; auto.
          - eapply Forall_impl; [|exact Qa]; simpl; tauto.
          - eapply Forall_impl; [|exact Qk]; simpl; tauto.
          - destruct NE as [NE|NE]; [left; destruct args'; [destruct args|]|right; destruct kw'; [destruct kw|]]; simpl in *; congruence.
          - rewrite <- La; auto.
          - rewrite <- Lk; auto. }
        split; auto. intros key w E. apply eval_handed in E; auto. destruct E as (xs & ys & Lx & Ly & H & F).
        assert (Forall receives (xs ++ ys)) as R.
        { apply Forall_forall. intros x I. apply In_nth_error in I as (i & I). destruct (H _ _ I) as (k & n & In & Hd).
          assert (forall key v, ev n key = Ok v -> fine v) as Fn.
          { rewrite Forall_forall in Qa, Qk. inversion In as [? ? ? N ?|? ? ? N ? ?|? y ? ? N ?]; subst.
            - apply nth_error_In in N. apply (Qa _ N).
            - apply nth_error_In in N. apply (Qa _ N).
            - apply nth_error_In in N. apply (Qk _ N). }
          assert (k <> KSd TInt /\ k <> KSd TFloat /\ k <> KSd TBool) as NK.
          { apply Tm. inversion In as [? ? ? N Nk|? ? ? N Le Nv|? y ? ? N Ik]; subst.
            - left. eapply nth_error_In; eauto.
            - auto.
            - right; right. apply in_map_iff. exists (y, k). auto. }
          destruct k as [e|e]; simpl in Hd.
          - destruct Hd as (v & u & E1 & E2 & ->). simpl. intros t ->. destruct (cast_value_fine v e (VT t)) as (Q & _); eauto.
          - subst x. simpl. intros k v G. destruct (ev n k) as [u|] eqn:Eu; [|discriminate].
            destruct (cast_value_fine u e v) as (_ & Q); eauto. apply Q; intros ->; tauto. }
        apply Forall_app in R as (Rx & Ry). eapply Km; [exact Rx| |exact F].
        apply Forall_forall. intros [y z] I. apply in_combine_r in I. rewrite Forall_forall in Ry. simpl. auto.
    Qed.
  End Merged.

  Definition option_of (l : lit) : Prop := l = LNone \/ exists s, l = LStr s.
  Lemma option_numeric : forall l, option_of l -> numeric l = false.
  Proof. intros l [->|[s ->]]; reflexivity. Qed.

  Lemma asked : forall (m : mmethod (tensor A)) (P : tensor A -> Prop) device dtype n c r, m_args m = [KVal TTensor] -> m_vararg m = None -> m_kw m = [] ->
    (forall t t', to device dtype t = Ok t' -> P t') -> option_of device -> option_of dtype ->
    wf n -> built P n -> cast_inputs to device dtype (NMerge m [n] [] c) = Ok r ->
    forall key v, ev r key = Ok v -> exists x, m_fun m [IVal x] [] key = Ok v /\ forall t, x = VT t -> P t.
  Proof.
    intros m P device dtype n c r Ma Mv Mk Hw Od Ot W B C key v E.
    simpl in C. destruct (cast_inputs to device dtype n) as [n'|] eqn:Cn; [|discriminate]. simpl in C. inversion C; subst r. clear C.
    destruct (merged_fine device dtype P Hw (option_numeric _ Od) (option_numeric _ Ot) n W B n' Cn) as (W' & F).
    apply eval_handed in E.
    2:{ apply wf_merge; [repeat constructor; auto|constructor|left; discriminate|left; rewrite Ma; simpl; lia|rewrite Mk; constructor|intros z []]. }
    destruct E as (xs & ys & Lx & Ly & H & Fm). destruct ys; [|discriminate]. destruct xs as [|x [|]]; try discriminate.
    destruct (H 0 x eq_refl) as (k & p & I & Hd). inversion I as [? ? ? N Nk|? ? ? N Le Nv|? ? ? ? N]; subst.
    - rewrite Ma in Nk. simpl in N, Nk. inversion N; inversion Nk; subst. destruct Hd as (a & b & Ea & Eb & ->).
      exists b. split; auto. intros t ->. destruct (cast_value_fine P a TTensor (VT t)) as (Q & _); eauto.
    - congruence.
  Qed.

  (** under merge_dtype [s], the dtype told is [s] *)
  Theorem C118_merge_dtype : forall device s d n c r, option_of device -> torch_name d = Some s ->
    wf n -> built (fun t => tn_dtype t = d) n -> cast_inputs to device (LStr s) (NMerge get_dtype [n] [] c) = Ok r ->
    forall key v, ev r key = Ok v -> v = VL (LStr s).
  Proof.
    intros device s d n c r Od N W B C key v E.
    destruct (asked get_dtype (fun t => tn_dtype t = d) device (LStr s) n c r eq_refl eq_refl eq_refl) with (key := key) (v := v) as (x & F & X); eauto.
    - intros t t' H. unfold to_tensor in H. rewrite (of_name _ _ N) in H. simpl in H.
      destruct device; simpl in H; try discriminate; [destruct (place s0); [|discriminate]|]; simpl in H; inversion H; reflexivity.
    - right; eauto.
    - destruct x as [t|l]; [|discriminate]. specialize (X t eq_refl).
      assert (match torch_name (tn_dtype t) with Some s => Ok (VL (LStr s)) | None => Err KeyError end = Ok v) as Q.
      { rewrite <- F. destruct t as [q w z]. destruct q; reflexivity. }
      rewrite X, N in Q. congruence.
  Qed.

  (** under merge_device, the device told is that one *)
  Theorem C118_merge_device : forall s full dtype n c r, place s = Ok full -> option_of dtype ->
    wf n -> built (fun t => tn_device t = full) n -> cast_inputs to (LStr s) dtype (NMerge get_device [n] [] c) = Ok r ->
    forall key v, ev r key = Ok v -> v = VL (LStr full).
  Proof.
    intros s full dtype n c r Pl Ot W B C key v E.
    destruct (asked get_device (fun t => tn_device t = full) (LStr s) dtype n c r eq_refl eq_refl eq_refl) with (key := key) (v := v) as (x & F & X); eauto.
    - intros t t' H. unfold to_tensor in H. rewrite Pl in H.
      destruct (match dtype with LNone => _ | _ => _ end); simpl in H; [inversion H; reflexivity|discriminate].
    - right; eauto.
    - destruct x as [t|l]; [|discriminate]. specialize (X t eq_refl). simpl in F. congruence.
  Qed.

  (** in particular for a model file, whatever it holds *)
  Theorem C118_model : forall device s d full p get hk c sp cfg key t, torch_name d = Some s -> place device = Ok full -> get key = Ok t ->
    exists r r', cast_inputs to (LStr device) (LStr s) (NMerge get_dtype [NModel p get hk c sp] [] cfg) = Ok r /\
      cast_inputs to (LStr device) (LStr s) (NMerge get_device [NModel p get hk c sp] [] cfg) = Ok r' /\
      ev r key = Ok (VL (LStr s)) /\ ev r' key = Ok (VL (LStr full)).
  Proof.
    intros device s d full p get hk c sp cfg key t N Pl G. do 2 eexists. split; [reflexivity|]. split; [reflexivity|].
    assert (ev (cast_node to (LStr device) (LStr s) (NModel p get hk c sp)) key = Ok (VT (Tensor d full (convert d (tn_data t))))) as E.
    { unfold cast_node. change (cast to) with (cast_to place convert).
      rewrite (eval_cast _ _ _ _ key t (LStr device) (LStr s)); eauto; try (constructor; fail).
      - unfold to_tensor. rewrite (of_name _ _ N). simpl. rewrite Pl. reflexivity.
      - simpl. unfold visit_sd. simpl. rewrite G. reflexivity. }
    destruct (C118_told _ cfg key _ (cast_wf (LStr device) (LStr s) _ (wf_model p get hk c sp)) E) as (D & V).
    simpl tn_dtype in D. rewrite N in D. auto.
  Qed.

  (** with merge_device alone the dtype told is that in the file, and with merge_dtype alone the device *)
  Theorem C118_other : forall device s d full p get hk c sp cfg key t s', torch_name d = Some s -> place device = Ok full -> get key = Ok t ->
    torch_name (tn_dtype t) = Some s' ->
    exists r r', cast_inputs to (LStr device) LNone (NMerge get_dtype [NModel p get hk c sp] [] cfg) = Ok r /\
      cast_inputs to LNone (LStr s) (NMerge get_device [NModel p get hk c sp] [] cfg) = Ok r' /\
      ev r key = Ok (VL (LStr s')) /\ ev r' key = Ok (VL (LStr (tn_device t))).
  Proof.
    intros device s d full p get hk c sp cfg key t s' N Pl G N'. do 2 eexists. split; [reflexivity|]. split; [reflexivity|].
    assert (ev (NModel p get hk c sp) key = Ok (VT t)) as Em by (simpl; unfold visit_sd; simpl; rewrite G; reflexivity).
    split.
    - assert (ev (cast_node to (LStr device) LNone (NModel p get hk c sp)) key = Ok (VT (Tensor (tn_dtype t) full (convert (tn_dtype t) (tn_data t))))) as E.
      { unfold cast_node. change (cast to) with (cast_to place convert).
        rewrite (eval_cast _ _ _ _ key t (LStr device) LNone); eauto; try (constructor; fail). unfold to_tensor. rewrite Pl. reflexivity. }
      destruct (C118_told _ cfg key _ (cast_wf (LStr device) LNone _ (wf_model p get hk c sp)) E) as (D & _).
      simpl tn_dtype in D. rewrite N' in D. auto.
    - assert (ev (cast_node to LNone (LStr s) (NModel p get hk c sp)) key = Ok (VT (Tensor d (tn_device t) (convert d (tn_data t))))) as E.
      { unfold cast_node. change (cast to) with (cast_to place convert).
        rewrite (eval_cast _ _ _ _ key t LNone (LStr s)); eauto; try (constructor; fail). unfold to_tensor. rewrite (of_name _ _ N). reflexivity. }
      destruct (C118_told _ cfg key _ (cast_wf LNone (LStr s) _ (wf_model p get hk c sp)) E) as (_ & V). auto.
  Qed.

  (** a name that is not one of a dtype is refused, in a recipe or as merge_dtype *)
  Theorem C118_unknown : forall n dv c key t x s, (forall d, torch_name d <> Some s) -> wf n -> wf dv -> option_of x ->
    ev n key = Ok (VT t) -> ev dv key = Ok (VL x) ->
    ev (NMerge (cast_to place convert) [n; dv; NLit (VL (LStr s))] [] c) key = Err ValueError.
  Proof.
    intros n dv c key t x s N W Wv Ox E Ev. rewrite (eval_cast n dv (NLit (VL (LStr s))) c key t x (LStr s)); eauto.
    - unfold to_tensor. destruct (dget String.eqb s dtype_map) as [d|] eqn:D; [|reflexivity].
      apply map_name in D. exfalso. eapply N; eauto.
    - constructor.
    - destruct Ox as [->|[y ->]]; eauto.
  Qed.

  (** methods such recipes may use *)
  Theorem C118_kept : forall (P : tensor A -> Prop) all_zero all_one wsum,
    (forall x y alpha, P x -> P y -> P alpha -> P (wsum x y alpha)) ->
    keeps P fallback /\ keeps P pick_component /\ keeps P omit_component /\ keeps P (weighted_sum all_zero all_one wsum) /\
    keeps P get_dtype /\ keeps P get_device.
  Proof.
    intros P all_zero all_one wsum K. repeat split; intros xs kws key v R _ F.
    - simpl in F. destruct xs as [|[|g c] [|[|g' c'] [|]]]; try discriminate.
      pose proof (Forall_inv R) as R1. pose proof (Forall_inv (Forall_inv_tail R)) as R2. simpl in R1, R2.
      destruct (g key) as [u|e] eqn:G; [inversion F; subst; eauto|]. destruct (is_missing e); [eauto|discriminate].
    - simpl in F. destruct xs as [|[|g c] [|[w|] [|]]]; try discriminate. pose proof (Forall_inv R) as R1. simpl in R1.
      destruct (component_of c w); [|discriminate]. simpl in F. destruct (existsb _ _); [eauto|discriminate].
    - simpl in F. destruct xs as [|[|g c] [|[w|] [|]]]; try discriminate. pose proof (Forall_inv R) as R1. simpl in R1.
      destruct (component_of c w); [|discriminate]. simpl in F. destruct (existsb _ _); [discriminate|eauto].
    - simpl in F. destruct xs as [|[|g c] [|[|g' c'] [|[[alpha|]|] [|]]]]; try discriminate.
      pose proof (Forall_inv R) as R1. pose proof (Forall_inv (Forall_inv_tail R)) as R2.
      pose proof (Forall_inv (Forall_inv_tail (Forall_inv_tail R))) as R3. simpl in R1, R2, R3.
      destruct (all_zero alpha); [eauto|]. destruct (all_one alpha); [eauto|].
      destruct (g key) as [u|] eqn:G; [|discriminate]. simpl in F. destruct (g' key) as [u'|] eqn:G'; [|discriminate]. simpl in F.
      destruct u, u'; try discriminate. inversion F; subst. simpl. apply R1 in G. apply R2 in G'. apply K; auto.
    - destruct xs as [|[[t|]|] [|]]; try discriminate. destruct t as [q w z]. destruct q; inversion F; reflexivity.
    - simpl in F. destruct xs as [|[[t|]|] [|]]; try discriminate. inversion F; reflexivity.
  Qed.
End Told.

(** *** the dtype of a model is not what is told under the default options *)
Definition any_place (s : string) : result string := Ok (if String.eqb s "cuda" then "cuda:0" else s).
Definition same_content (_ : tdtype) (x : nat) : nat := x.
Definition no_number (_ : lit) : nat := 0.
Definition no_item (_ : ety) (_ : nat) : result lit := Err RuntimeError.
Definition no_between (_ : ety) (_ : lit) : result lit := Err ValueError.
Definition nn_conv := tconv no_number no_item no_between.
Definition stored (d : tdtype) (x : nat) : node (tensor nat) :=
  NModel "a.safetensors" (fun k => if String.eqb k "w" then Ok (Tensor d "cpu" x) else Err KeyError) ["w"] cfg1 "weight".
(** sum of two models, cast back to the dtype of the first *)
Definition sum_of (x y alpha : tensor nat) : tensor nat := Tensor (tn_dtype x) (tn_device x) (tn_data x + tn_data y).
Definition restored (a b : node (tensor nat)) : node (tensor nat) :=
  NMerge (cast_to any_place same_content)
    [NMerge (weighted_sum (fun _ => false) (fun _ => false) sum_of) [a; b; NLit (VT (Tensor Float32 "cpu" 1))] [] (Some cfg1);
     NLit (VL LNone); NMerge get_dtype [a] [] None] [] (Some cfg1).

Theorem C118_model_dtype_refuted :
  ~ (forall p get hk c sp cfg key (t : tensor nat) r s, get key = Ok t -> torch_name (tn_dtype t) = Some s ->
       cast_inputs (to_tensor any_place same_content) (LStr "cpu") (LStr "float64") (NMerge get_dtype [NModel p get hk c sp] [] cfg) = Ok r ->
       eval nn_conv r key = Ok (VL (LStr s))).
Proof.
  intros H.
  specialize (H "a.safetensors" (fun k => if String.eqb k "w" then Ok (Tensor Float16 "cpu" 7) else Err KeyError) ["w"] cfg1 "weight" None "w"
    (Tensor Float16 "cpu" 7) _ "float16" eq_refl eq_refl eq_refl).
  vm_compute in H. discriminate.
Qed.

Example C118_case :
  eval nn_conv (restored (stored Float16 3) (stored Float16 4)) "w" = Ok (VT (Tensor Float16 "cpu" 7)) /\
  (exists r, cast_inputs (to_tensor any_place same_content) (LStr "cpu") (LStr "float64") (restored (stored Float16 3) (stored Float16 4)) = Ok r /\
     eval nn_conv r "w" = Ok (VT (Tensor Float64 "cpu" 7))) /\
  (exists r, cast_inputs (to_tensor any_place same_content) (LStr "cuda") LNone (NMerge get_device [stored Float16 3] [] None) = Ok r /\
     eval nn_conv r "w" = Ok (VL (LStr "cuda:0"))) /\
  eval nn_conv (NMerge get_dtype [stored Bfloat16 3] [] None) "w" = Ok (VL (LStr "bfloat16")) /\
  eval nn_conv (NMerge get_dtype [stored (Other 0) 3] [] None) "w" = Err KeyError /\
  eval nn_conv (NMerge (cast_to any_place same_content) [stored Float16 3; NLit (VL LNone); NLit (VL (LStr "float128"))] [] None) "w" = Err ValueError.
Proof. repeat split; try (eexists; split); vm_compute; reflexivity. Qed.

Print Assumptions C118_told.
Print Assumptions C118_round_trip.
Print Assumptions C118_merge_dtype.
Print Assumptions C118_merge_device.
Print Assumptions C118_model.
Print Assumptions C118_other.
Print Assumptions C118_unknown.
Print Assumptions C118_kept.
Print Assumptions C118_model_dtype_refuted.
Print Assumptions C118_case.
