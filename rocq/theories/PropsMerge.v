(** C89, C90, C91: a call of [merge] as a whole. *)
From Coq Require Import String Ascii List Bool Arith NArith ZArith Lia Permutation.
From Verif Require Import Base Json ModelStream SpecStream InProofs InProofs2 ModelEval SpecEval EvalProofs PropsEval SpecCast PropsCast PropsExtra
  ModelDriver SpecDriver DriverProofs PropsDriver ModelMerge SpecMerge MergeProofs.
From Verif Require ModelRecipe ModelSerial SpecRecipe PropsSerial.
Import ListNotations.
Open Scope string_scope.
Open Scope list_scope.
Open Scope nat_scope.

(** ** C89 *)

Lemma plan_spec : forall T (conv : ety -> value T -> result (value T)) same to f_in f_out g (o : options T) r cfg space files cpus,
  (forall l, numeric l = true -> conv TTensor (VL l) = Ok (VT (g l))) ->
  casts to (mo_merge o) f_in -> casts to (mo_output o) f_out ->
  sound conv f_in g o r -> (forall f s, mo_fallback o = Some (f, s) -> sound conv f_in g o f) ->
  match plan same to o r cfg space files cpus with
  | Ok (r', keys, n) => (forall e, ~ refused o space e) /\
      exists r1 r2, with_fallback o r cfg space = Ok r1 /\ with_merge_dtype to o r1 = Ok r2 /\
        wf (with_output_dtype to o r2) /\ (forall k, eval conv (with_output_dtype to o r2) k = delivered conv f_in f_out g o r k) /\
        exists keys', keys = without_ema o cfg keys' /\
        (if mo_omit_extra o then r' = with_output_dtype to o r2 /\ keys' = cf_keys cfg
         else copy_extra_keys same (with_output_dtype to o r2) cfg space = Ok (r', keys'))
  | Err e => refused o space e \/ mo_omit_extra o = false /\
      exists r1 r2, with_fallback o r cfg space = Ok r1 /\ with_merge_dtype to o r1 = Ok r2 /\
      copy_extra_keys same (with_output_dtype to o r2) cfg space = Err e
  end.
Proof.
  intros T conv same to f_in f_out g o r cfg space files cpus Num Cin Cout Sr Sf. unfold plan.
  destruct (with_fallback o r cfg space) as [r1|e] eqn:F; cbn [bind].
  2:{ left. unfold with_fallback in F. destruct (mo_fallback o) as [[f s]|] eqn:EF; [|discriminate].
      destruct (String.eqb s space) eqn:ES; inversion F; subst. apply String.eqb_neq in ES. eapply re_space; eauto. }
  assert (forall f s, mo_fallback o = Some (f, s) -> s = space) as FS.
  { intros f s E. unfold with_fallback in F. rewrite E in F. destruct (String.eqb s space) eqn:ES; [|discriminate]. apply String.eqb_eq in ES. auto. }
  destruct (prepared conv to f_in g o Num Cin r cfg space r1 Sr Sf F) as (r2 & M & W & V). rewrite M; cbn [bind].
  destruct (thread_count (mo_threads o) files cpus) as [n|e] eqn:Th; cbn [bind].
  2:{ left. unfold thread_count in Th. destruct (mo_threads o) as [|z| |] eqn:ET; try discriminate.
      - destruct (z <? 0)%Z eqn:EZ; inversion Th; subst. apply Z.ltb_lt in EZ. eapply re_negative; eauto.
      - inversion Th; subst. apply re_float; auto.
      - inversion Th; subst. apply re_other; auto. }
  destruct (mo_strict o && negb (String.eqb space "weight")) eqn:St.
  { left. apply andb_true_iff in St as (A & B). apply negb_true_iff, String.eqb_neq in B. apply re_strict; auto. }
  assert (forall e, ~ refused o space e) as NR.
  { intros e R. inversion R as [f s E N|z E N|E|E|E N]; subst.
    - destruct (N (FS f s E)).
    - rewrite E in Th. cbn in Th. apply Z.ltb_lt in N. rewrite N in Th. discriminate.
    - rewrite E in Th. discriminate.
    - rewrite E in Th. discriminate.
    - rewrite E in St. cbn in St. apply negb_false_iff, String.eqb_eq in St. auto. }
  destruct (output_cast conv to f_in f_out g o Num Cout r r2 W V Sr Sf) as (W3 & V3).
  destruct (mo_omit_extra o) eqn:EX; cbn [bind].
  - split; auto. exists r1, r2. repeat (split; auto). exists (cf_keys cfg). auto.
  - destruct (copy_extra_keys same (with_output_dtype to o r2) cfg space) as [[r' keys']|e] eqn:CE; cbn.
    + split; auto. exists r1, r2. repeat (split; auto). exists keys'. auto.
    + right. split; auto. exists r1, r2. auto.
Qed.

Lemma merges_outcome : forall T (conv : ety -> value T -> result (value T)) same to (o : options T) r cfg space files cpus out0 r' keys n,
  plan same to o r cfg space files cpus = Ok (r', keys, n) -> NoDup keys ->
  (exists res, merges_to same to conv o r cfg space files cpus out0 res) /\
  forall res, merges_to same to conv o r cfg space files cpus out0 res ->
    match res with
    | Ok out => merged (eval conv r') keys out0 out /\ forall k e, In k keys -> ~ failing (eval conv r') k e
    | Err e => exists k, In k keys /\ failing (eval conv r') k e
    end.
Proof.
  intros T conv same to o r cfg space files cpus out0 r' keys n P ND. unfold merges_to. rewrite P.
  destruct (n =? 0) eqn:N.
  - split; [eauto|]. intros res ->. pose proof (C21_single_thread T conv r' keys out0 ND) as H.
    destruct (merge_here (eval conv r') keys out0) as [out [e|]]; auto.
    destruct H as (a & k & b & -> & F & _). exists k. split; auto. apply in_app_iff. right. left. auto.
  - apply Nat.eqb_neq in N. split.
    + destruct (schedule_exists _ (eval conv r') keys out0 n) as (evs & p & R & O); auto; [lia|].
      eexists. exists evs, p. split; [exact R|]. split; [exact O|reflexivity].
    + intros res (evs & p & R & O & ->). pose proof (C21_merge_is_evaluation T conv r' keys out0 n evs p ND R O) as H.
      destruct (p_failed p); auto.
Qed.

(** A merge into a dict, with the default of leaving out the keys the config does not list: it always has an outcome,
    with any number of threads.  It returns just when nothing is refused and no key fails, and then the dict holds
    under each wanted key the recipe's value or else that of the fallback model, in the output dtype;
    keys that neither has are left alone.  It raises only what the arguments or one of the keys explain. *)
Theorem C89_merge_partial : forall T (conv : ety -> value T -> result (value T)) same to f_in f_out g (o : options T) r cfg space files cpus out0,
  (forall l, numeric l = true -> conv TTensor (VL l) = Ok (VT (g l))) ->
  casts to (mo_merge o) f_in -> casts to (mo_output o) f_out ->
  sound conv f_in g o r -> (forall f s, mo_fallback o = Some (f, s) -> sound conv f_in g o f) ->
  NoDup (cf_keys cfg) -> NoDup (map fst (cf_components cfg)) -> mo_omit_extra o = true ->
  (exists res, merges_to same to conv o r cfg space files cpus out0 res) /\
  forall res, merges_to same to conv o r cfg space files cpus out0 res ->
    match res with
    | Ok out =>
        (forall e, ~ refused o space e) /\ (forall k e, wanted o cfg k -> ~ breaks conv f_in g o r k e) /\
        forall k v, dget String.eqb k out = Some v <->
          (wanted o cfg k /\ exists v0, provides conv f_in g o r k v0 /\ v = finished f_out g o v0) \/
          (dget String.eqb k out0 = Some v /\ ~ (wanted o cfg k /\ exists v0, provides conv f_in g o r k v0))
    | Err e => refused o space e \/ exists k, wanted o cfg k /\ breaks conv f_in g o r k e
    end.
Proof.
  intros T conv same to f_in f_out g o r cfg space files cpus out0 Num Cin Cout Sr Sf ND NC EX.
  pose proof (plan_spec T conv same to f_in f_out g o r cfg space files cpus Num Cin Cout Sr Sf) as P.
  destruct (plan same to o r cfg space files cpus) as [[[r' keys] n]|e] eqn:EP.
  - destruct P as (NR & r1 & r2 & _ & _ & W & V & keys' & -> & P). rewrite EX in P. destruct P as (-> & ->).
    destruct (merges_outcome T conv same to o r cfg space files cpus out0 _ _ _ EP) as (X & Y).
    { apply without_ema_NoDup; auto. }
    split; auto. intros res M. specialize (Y res M).
    assert (forall k, In k (without_ema o cfg (cf_keys cfg)) <-> wanted o cfg k) as IW by (intros; apply without_ema_In; auto).
    destruct res as [out|e].
    + destruct Y as (MG & NF). split; auto. split.
      * intros k e Wk B. apply (NF k e); [apply IW; auto|]. apply delivered_failing with (f_out := f_out) in B. eapply failing_ext; [|exact B].
        intros; symmetry; apply V.
      * intros k v. rewrite (MG k v), IW, V, delivered_Ok. split; (intros [H|(H & N)]; [left; auto|right; split; auto]); intros (A & B); apply N; split; auto.
        -- destruct B as (v0 & B). exists (finished f_out g o v0). apply delivered_Ok. eauto.
        -- destruct B as (w & B). apply delivered_Ok in B as (v0 & B & _). eauto.
    + right. destruct Y as (k & I & F). exists k. split; [apply IW; auto|]. apply delivered_failing with (f_out := f_out).
      eapply failing_ext; [|exact F]. exact V.
  - unfold merges_to. rewrite EP. split; [eauto|]. intros res ->. destruct P as [P|(P & _)]; auto. congruence.
Qed.

(** ** C90 *)

(** Everything a merge stores is a tensor in the output device and dtype. *)
Theorem C90_output_dtype_partial : forall T (conv : ety -> value T -> result (value T)) same to f_in f_out g (o : options T) r cfg space files cpus out0 out,
  (forall l, numeric l = true -> conv TTensor (VL l) = Ok (VT (g l))) ->
  casts to (mo_merge o) f_in -> casts to (mo_output o) f_out -> mo_output o <> None ->
  sound conv f_in g o r -> (forall f s, mo_fallback o = Some (f, s) -> sound conv f_in g o f) ->
  NoDup (cf_keys cfg) -> NoDup (map fst (cf_components cfg)) -> mo_omit_extra o = true ->
  merges_to same to conv o r cfg space files cpus out0 (Ok out) ->
  forall k v, dget String.eqb k out = Some v -> dget String.eqb k out0 = Some v \/ exists t, v = VT (f_out t).
Proof.
  intros T conv same to f_in f_out g o r cfg space files cpus out0 out Num Cin Cout NO Sr Sf ND NC EX M k v G.
  destruct (C89_merge_partial T conv same to f_in f_out g o r cfg space files cpus out0 Num Cin Cout Sr Sf ND NC EX) as (_ & H).
  destruct (H _ M) as (_ & _ & V). apply V in G as [(_ & v0 & P & ->)|(G & _)]; auto. right.
  assert (~ inert (NLit v0)) as NI.
  { destruct P as [P|(_ & f & s & E & P)].
    - destruct Sr as (_ & _ & S). eapply S; eauto.
    - destruct (Sf f s E) as (_ & _ & S). eapply S; eauto. }
  unfold finished. destruct (mo_output o); [|congruence]. destruct v0 as [t|l]; cbn; eauto.
  destruct (numeric l) eqn:N; eauto. exfalso. apply NI. exists l. auto.
Qed.

(** With [omit_extra_keys=False]: the keys are those of the config and of the model files of that config; where neither the recipe nor
    the fallback model has a key, the first of these files that has it supplies the value, as it is in the file. *)
Theorem C90_forwarded_keys : forall T (conv : ety -> value T -> result (value T)) same to f_in f_out g (o : options T) r cfg space n_files cpus out0,
  (forall l, numeric l = true -> conv TTensor (VL l) = Ok (VT (g l))) ->
  casts to (mo_merge o) f_in -> casts to (mo_output o) f_out ->
  sound conv f_in g o r -> (forall f s, mo_fallback o = Some (f, s) -> sound conv f_in g o f) ->
  data_only_in_files cfg r -> (forall f s, mo_fallback o = Some (f, s) -> data_only_in_files cfg f) ->
  NoDup (map fst (cf_components cfg)) -> unambiguous cfg -> mo_omit_extra o = false ->
  (** two nodes of the same path read the same file; all files of the config are in the recipe's merge space *)
  (let l := files r ++ match mo_fallback o with Some (f, _) => files f | None => [] end in
   forall n q, In n l -> In q l -> path_of n = path_of q -> node_keys n = node_keys q /\ forall key, eval conv n key = eval conv q key) ->
  (forall n, In n (sources o r cfg) -> node_space n = Some space) ->
  let gives k v := (exists v0, provides conv f_in g o r k v0 /\ v = finished f_out g o v0) \/
                   (absent conv f_in g o r k /\ supplied conv (sources o r cfg) k (Ok v)) in
  (exists res, merges_to same to conv o r cfg space n_files cpus out0 res) /\
  forall res, merges_to same to conv o r cfg space n_files cpus out0 res ->
    match res with
    | Ok out =>
        (forall e, ~ refused o space e) /\
        forall k v, dget String.eqb k out = Some v <->
          (wanted_extra o r cfg k /\ gives k v) \/ (dget String.eqb k out0 = Some v /\ ~ (wanted_extra o r cfg k /\ exists w, gives k w))
    | Err e => refused o space e \/ exists k, wanted_extra o r cfg k /\
        (breaks conv f_in g o r k e \/ (absent conv f_in g o r k /\ supplied conv (sources o r cfg) k (Err e)))
    end.
Proof.
  intros T conv same to f_in f_out g o r cfg space n_files cpus out0 Num Cin Cout Sr Sf Dr Df NC UN EX SAME SP gives.
  pose proof (plan_spec T conv same to f_in f_out g o r cfg space n_files cpus Num Cin Cout Sr Sf) as P.
  assert (forall r1 r2, with_fallback o r cfg space = Ok r1 -> with_merge_dtype to o r1 = Ok r2 -> wf (with_output_dtype to o r2) ->
    exists r' keys, copy_extra_keys same (with_output_dtype to o r2) cfg space = Ok (r', keys) /\
    NoDup keys /\
    (forall k, In k keys <-> In k (cf_keys cfg) \/ exists n name, In n (sources o r cfg) /\ In name (node_keys n) /\ stands_for cfg name k) /\
    (forall key, let l := map (fun n => eval conv n key) (with_output_dtype to o r2 :: sources o r cfg) in
       (forall pre x post, l = pre ++ x :: post -> Forall is_missing_outcome pre -> ~ is_missing_outcome x -> eval conv r' key = x) /\
       (Forall is_missing_outcome l -> is_missing_outcome (eval conv r' key)))) as Q.
  { intros r1 r2 F M W. destruct (prepared_files T to o r cfg space r1 r2 F M) as (A & B & C).
    destruct (C61_extra_keys_partial T conv same (with_output_dtype to o r2) cfg space W (C Dr Df) UN) as (r' & keys & E & ND & K & V).
    - rewrite B. exact SAME.
    - intros n I O. apply SP. rewrite <- A. apply filter_In. auto.
    - exists r', keys. split; auto. split; auto. split.
      + intros k. rewrite K, <- A. split; (intros [I|(n & name & H)]; [auto|right; exists n, name]); rewrite filter_In in *; tauto.
      + intros key. rewrite <- A. apply V. }
  assert (forall k, is_missing_outcome (delivered conv f_in f_out g o r k) <-> absent conv f_in g o r k) as AB.
  { intros k. unfold delivered, chosen, absent. destruct (mo_fallback o) as [[f s]|].
    - destruct (reads conv f_in g o r k) as [v|e].
      + split; [intros (k' & H); discriminate|intros ((k' & H) & _); discriminate].
      + destruct (is_missing e) eqn:ME.
        * apply is_missing_iff in ME as (k' & ->). split.
          -- intros (k2 & H). split; [exists k'; auto|]. intros f' s' E. inversion E; subst. destruct (reads conv f_in g o f' k); [discriminate|]. exists k2. congruence.
          -- intros (_ & H). destruct (H f s eq_refl) as (k2 & ->). exists k2. auto.
        * split; [intros (k' & H)|intros ((k' & H) & _)]; inversion H; subst; discriminate.
    - destruct (reads conv f_in g o r k) as [v|e]; split; try (intros (k' & H); discriminate); try (intros ((k' & H) & _); discriminate).
      + intros (k' & H). split; [exists k'; congruence|discriminate].
      + intros ((k' & H) & _). exists k'. congruence. }
  destruct (plan same to o r cfg space n_files cpus) as [[[r' keys] n]|e] eqn:EP.
  - destruct P as (NR & r1 & r2 & F & M & W & V & keys' & -> & P). rewrite EX in P.
    destruct (Q r1 r2 F M W) as (r'' & keys'' & E & ND & K & VV). rewrite P in E. inversion E; subst r'' keys''; clear E.
    destruct (merges_outcome T conv same to o r cfg space n_files cpus out0 _ _ _ EP) as (X & Y).
    { apply without_ema_NoDup; auto. }
    split; auto. intros res MT. specialize (Y res MT).
    assert (forall k, In k (without_ema o cfg keys') <-> wanted_extra o r cfg k) as IW.
    { intros k. rewrite without_ema_In by auto. unfold wanted_extra. rewrite K. reflexivity. }
    assert (forall k x, ~ is_missing_outcome x -> (eval conv r' k = x <->
              delivered conv f_in f_out g o r k = x \/ (absent conv f_in g o r k /\ supplied conv (sources o r cfg) k x))) as EV.
    { intros k x NM. destruct (VV k) as (V1 & V2). cbn [map] in V1, V2. rewrite V in V1, V2.
      assert (forall y : result (value T), is_missing_outcome y \/ ~ is_missing_outcome y) as DEC.
      { intros [y|y]; [right; intros (? & H); discriminate|]. destruct (is_missing y) eqn:ME.
        - apply is_missing_iff in ME as (k' & ->). left. exists k'; auto.
        - right. intros (k' & H). inversion H; subst. discriminate. }
      destruct (DEC (delivered conv f_in f_out g o r k)) as [D|D].
      - assert (forall l, Forall is_missing_outcome (map (fun n => eval conv n k) l) \/ exists y, supplied conv l k y) as SPL.
        { induction l as [|a l IH]; [left; constructor|]. destruct (DEC (eval conv a k)) as [Da|Da].
          - destruct IH as [IH|(y & pre & m & post & -> & I1 & I2 & I3)]; [left; constructor; auto|].
            right. exists y, (a :: pre), m, post. repeat split; auto.
          - right. exists (eval conv a k), [], a, l. repeat split; auto. }
        assert (forall y, supplied conv (sources o r cfg) k y -> eval conv r' k = y) as SE.
        { intros y (pre & m & post & El & Fp & Ey & Ny).
          apply (V1 (delivered conv f_in f_out g o r k :: map (fun n => eval conv n k) pre) y (map (fun n => eval conv n k) post)); auto.
          - rewrite El, map_app. cbn. rewrite Ey. reflexivity.
          - constructor; auto. clear -Fp. induction Fp; constructor; auto. }
        split.
        + intros H. destruct (SPL (sources o r cfg)) as [Al|(y & Sy)].
          * destruct NM. rewrite <- H. apply V2. constructor; auto.
          * right. split; [apply AB; auto|]. rewrite <- H, (SE y Sy). auto.
        + intros [H|(_ & H)]; auto. destruct NM. rewrite <- H. auto.
      - rewrite (V1 [] (delivered conv f_in f_out g o r k) (map (fun n => eval conv n k) (sources o r cfg))); auto.
        split; auto. intros [H|(A & _)]; auto. apply AB in A. contradiction. }
    assert (forall k v, eval conv r' k = Ok v <-> gives k v) as GV.
    { intros k v. rewrite EV by (intros (? & H); discriminate). unfold gives. rewrite delivered_Ok. reflexivity. }
    destruct res as [out|e].
    + destruct Y as (MG & _). split; auto. intros k v. rewrite (MG k v), IW, GV.
      split; (intros [H|(H & N)]; [left; auto|right; split; auto]); intros (A & w & B); apply N; split; auto; exists w; apply GV; auto.
    + right. destruct Y as (k & I & Fk & NF). exists k. split; [apply IW; auto|].
      apply EV in Fk as [Fk|Fk]; auto.
      * left. apply (delivered_failing conv f_in f_out g o r k e). split; auto.
      * intros (k' & HH). inversion HH; subst. apply (NF k'); auto.
  - unfold merges_to. rewrite EP. split; [eauto|]. intros res ->. destruct P as [P|(_ & r1 & r2 & F & M & CE)]; auto.
    destruct (prepared conv to f_in g o Num Cin r cfg space r1 Sr Sf F) as (r2' & M' & W & V). rewrite M in M'. inversion M'; subst r2'.
    destruct (output_cast conv to f_in f_out g o Num Cout r r2 W V Sr Sf) as (W3 & _).
    destruct (Q r1 r2 F M W3) as (r' & keys & E & _). congruence.
Qed.

(** a model of two files: in the first "a" is stored under an old name, the second has "a", "b" and "x"; the config has an
    "ema" component *)
Definition cfgM : config := Config "x-y" ["a"; "b"; "e"; "c"] [("a", ["a_old"; "a_older"])] [("unet", ["a"]); ("ema", ["e"])].
Definition fileM (path : string) (d : list (string * nat)) : node nat :=
  NModel path (fun k => match dget String.eqb k d with Some t => Ok t | None => Err (StateDictKeyError k) end) (map fst d) cfgM "weight".
Definition convM (t : ety) (v : value nat) : result (value nat) :=
  match t, v with TTensor, VL l => if numeric l then Ok (VT 5) else Err TypeError | _, _ => Err TypeError end.
Definition m1 := fileM "m1" [("a_old", 7); ("e", 30)].
Definition m2 := fileM "m2" [("a", 20); ("b", 9); ("e", 40); ("x", 11)].
Definition in_half : option (lit * lit) := Some (LNone, LStr "float16").

Lemma convM_numbers : forall l, numeric l = true -> convM TTensor (VL l) = Ok (VT 5).
Proof. intros l N. cbn. rewrite N. reflexivity. Qed.
Lemma plus_values : forall args kw c k v, eval convM (NMerge plus args kw c) k = Ok v -> exists t, v = VT t.
Proof.
  intros args kw c k v H. cbn [eval] in H. apply bind_Ok in H as (sa & _ & H). apply bind_Ok in H as (sk & _ & H).
  unfold eval_merge in H. apply bind_Ok in H as (x & _ & H). destruct (snd x); [discriminate|].
  apply bind_Ok in H as (a & _ & H). apply bind_Ok in H as (b & _ & H). cbn in H.
  destruct a as [|[[?|?]|?] [|[[?|?]|?] [|]]]; try discriminate. inversion H; eauto.
Qed.
Lemma fileM_values : forall path d k v, eval convM (fileM path d) k = Ok v -> exists t, v = VT t.
Proof. intros path d k v H. cbn in H. unfold visit_sd in H. apply bind_Ok in H as (t & _ & H). inversion H; eauto. Qed.

(** "a" is under its old name in the recipe, "b" comes from the fallback model, "e" is omitted, "c" is nowhere *)
Example C89_case :
  let o := Options (Some (m2, "weight")) None in_half (ThInt 2) true true true in
  (forall e, ~ refused o "weight" e) /\
  sound convM (fun t => t) (fun _ => 5) o m1 /\ sound convM (fun t => t) (fun _ => 5) o m2 /\
  casts half (mo_output o) (fun t => t / 2) /\ NoDup (cf_keys cfgM) /\ NoDup (map fst (cf_components cfgM)) /\
  exists out, merges_to Nat.eqb half convM o m1 cfgM "weight" 2 8 [("old", VT 1)] (Ok out) /\
    dget String.eqb "a" out = Some (VT 3) /\ dget String.eqb "b" out = Some (VT 4) /\ dget String.eqb "e" out = None /\
    dget String.eqb "c" out = None /\ dget String.eqb "old" out = Some (VT 1).
Proof.
  cbn zeta. split.
  { intros e R. inversion R as [f s E N|z E N|E|E|E N]; subst; cbn in *; inversion E; subst; try lia; congruence. }
  assert (forall p d, sound convM (fun t => t) (fun _ : lit => 5) (Options (Some (m2, "weight")) None in_half (ThInt 2) true true true) (fileM p d)) as S.
  { intros p d. split; [constructor|]. split; [intros N; destruct (N eq_refl)|]. intros _ k v R.
    apply fileM_values in R as (t & ->). intros (l & E & _). discriminate. }
  split; [apply S|]. split; [apply S|]. split; [cbn; auto|]. split.
  { repeat constructor; cbn; intuition discriminate. }
  split; [repeat constructor; cbn; intuition discriminate|].
  exists [("old", VT 1); ("a", VT 3); ("b", VT 4)]. split.
  - unfold merges_to. cbn -[prun].
    exists [Submit; Start 1; Submit; Start 0; Submit; Evaluate 1; Store 1; Finish 1; Evaluate 0; Store 0; Finish 0; Start 1; Evaluate 1; Finish 1].
    eexists. split; [vm_compute; reflexivity|]. split; [|reflexivity]. repeat split; auto.
    intros _ k x [H|[H|[H|[]]]]; inversion H; auto.
  - vm_compute. auto 10.
Qed.

(** Refuted for any recipe with a merge dtype: in a dict whose first value is a tensor, the recipes are computed before the cast, so that
    "b" is not the sum of what it adds in the merge dtype. *)
Theorem C89_merge_dtype_refuted : exists (r : node nat) (o : options nat) out,
  wf r /\ (forall e, ~ refused o "weight" e) /\ mo_merge o = in_half /\ mo_output o = None /\
  merges_to Nat.eqb half convM o r cfgM "weight" 2 8 [] (Ok out) /\
  provides convM (fun t => t / 2) (fun _ => 5) o r "a" (VT 2) /\ dget String.eqb "a" out = Some (VT 2) /\
  provides convM (fun t => t / 2) (fun _ => 5) o r "b" (VT 2) /\ dget String.eqb "b" out = Some (VT 3).
Proof.
  exists (NDict [("a", NLit (VT 4)); ("b", NMerge plus [fileM "p" [("b", 3)]; fileM "q" [("b", 3)]] [] (Some cfgM))] cfgM "weight"),
    (Options None in_half None (ThInt 0) true true true).
  eexists. split; [|split; [|split; [reflexivity|split; [reflexivity|split; [vm_compute; reflexivity|]]]]].
  - constructor. constructor; [constructor|]. constructor; [|constructor]. cbn. eapply wf2; auto; try reflexivity; constructor.
  - intros e R. inversion R as [f s E N|z E N|E|E|E N]; subst; cbn in *; inversion E; subst; try lia; congruence.
  - split; [left; reflexivity|]. split; [reflexivity|]. split; [left; reflexivity|reflexivity].
Qed.

(** Refuted for any recipe with an output dtype: a dict with a string under "b" fails at none of the keys that are
    wanted, but the merge raises. *)
Theorem C89_output_dtype_refuted : exists (r : node nat) (o : options nat),
  wf r /\ (forall e, ~ refused o "weight" e) /\ mo_merge o = None /\ mo_output o = in_half /\
  (forall k e, wanted o cfgM k -> ~ breaks convM (fun t => t) (fun _ => 5) o r k e) /\
  merges_to Nat.eqb half convM o r cfgM "weight" 2 8 [] (Err TypeError).
Proof.
  exists (NDict [("a", NLit (VT 4)); ("b", NLit (VL (LStr "x")))] cfgM "weight"), (Options None None in_half (ThInt 0) true true true).
  split; [|split; [|split; [reflexivity|split; [reflexivity|split; [|vm_compute; reflexivity]]]]].
  - constructor. repeat constructor.
  - intros e R. inversion R as [f s E N|z E N|E|E|E N]; subst; cbn in *; inversion E; subst; try lia; congruence.
  - intros k e (I & _) (N & [H|(_ & f & s & E & _)]); [|discriminate].
    destruct I as [<-|[<-|[<-|[<-|[]]]]]; vm_compute in H; inversion H; subst; apply (N _ eq_refl).
Qed.

(** Refuted with [omit_extra_keys=False]: here "x", which only the second file has, is stored in the dtype of the file. *)
Theorem C90_output_dtype_refuted : exists (r : node nat) (o : options nat) out,
  sound convM (fun t => t) (fun _ => 5) o r /\ mo_output o = in_half /\ mo_omit_extra o = false /\
  merges_to Nat.eqb half convM o r cfgM "weight" 2 8 [] (Ok out) /\
  dget String.eqb "a" out = Some (VT 13) /\ eval convM r "a" = Ok (VT 27) /\
  dget String.eqb "x" out = Some (VT 11) /\ forall v, dget String.eqb "x" out = Some v -> ~ exists t, v = VT (t / 2) /\ eval convM m2 "x" = Ok (VT t).
Proof.
  exists (NMerge plus [m1; m2] [] (Some cfgM)), (Options None None in_half (ThInt 0) true false false). eexists.
  split; [|split; [reflexivity|split; [reflexivity|split; [vm_compute; reflexivity|]]]].
  - split; [eapply wf2; auto; try reflexivity; constructor|]. split; [intros N; destruct (N eq_refl)|].
    intros _ k v R (l & E & NL). inversion E; subst. unfold reads in R. cbn [mo_merge] in R.
    apply plus_values in R as (t & R). discriminate.
  - split; [reflexivity|]. split; [reflexivity|]. split; [reflexivity|].
    intros v H (t & -> & Ev). vm_compute in H. inversion H as [H1]. vm_compute in Ev. inversion Ev; subst. discriminate.
Qed.

(** ** C91 *)

(** the options but for the number of threads *)
Definition same_but_threads {T} (o o' : options T) : Prop :=
  mo_fallback o' = mo_fallback o /\ mo_merge o' = mo_merge o /\ mo_output o' = mo_output o /\ mo_strict o' = mo_strict o /\
  mo_omit_extra o' = mo_omit_extra o /\ mo_omit_ema o' = mo_omit_ema o.

Lemma plan_threads : forall T same to (o o' : options T) r cfg space files cpus files' cpus' r' keys n x,
  same_but_threads o o' -> plan same to o r cfg space files cpus = Ok (r', keys, n) ->
  plan same to o' r cfg space files' cpus' = Ok x -> exists n', x = (r', keys, n').
Proof.
  intros T same to o o' r cfg space files cpus files' cpus' r' keys n x (A & B & C & D & E & F) P P'.
  unfold plan, with_fallback, with_merge_dtype, with_output_dtype, without_ema in *. rewrite A, B, C, D, E, F in P'.
  apply bind_Ok in P as (r1 & R1 & P). apply bind_Ok in P' as (r1' & R1' & P'). rewrite R1 in R1'. inversion R1'; subst r1'.
  apply bind_Ok in P as (r2 & R2 & P). apply bind_Ok in P' as (r2' & R2' & P'). rewrite R2 in R2'. inversion R2'; subst r2'.
  apply bind_Ok in P as (th & _ & P). apply bind_Ok in P' as (th' & _ & P').
  destruct (mo_strict o && _); [discriminate|].
  apply bind_Ok in P as (rk & RK & P). apply bind_Ok in P' as (rk' & RK' & P'). rewrite RK in RK'. inversion RK'; subst rk'.
  inversion P; inversion P'; subst. eauto.
Qed.

(** A recipe [r] merged to a file: the file embeds a text that reads back as [r], and merging that into a dict with
    the same options, on any machine and with any number of threads, gives the tensors of the file.  [opened]: what a recipe
    is once its inputs are open. *)
Theorem C91_embedded_recipe_partial : forall E (opened : ModelRecipe.pyobj -> node tensor) conv same to (o : options tensor) r cfg space files cpus r' keys n,
  (forall m g, ModelRecipe.resolve_method E m = Ok g -> SpecRecipe.sig_ok g) ->
  ModelRecipe.is_node r = true -> SpecRecipe.every (SpecRecipe.made E) r -> SpecRecipe.every SpecRecipe.spelled r -> SpecRecipe.bare r = false ->
  plan same to o (opened r) cfg space files cpus = Ok (r', keys, n) -> NoDup ("__metadata__" :: keys) ->
  exists text, embedded_text (ModelSerial.serialize r) = Ok (Some text) /\
  forall cap declared minbuf evs p bufsize,
  let ev k := as_tensor (eval conv r' k) in
  (forall k t, In k keys -> ev k = Ok t -> wf_tensor t) ->
  (forall l, lists_results ev keys l -> transfers_fit cap declared (Some (l2s text)) minbuf l) ->
  0 < minbuf -> bufsize <= cap ->
  prun (file_sink cap) ev n (pool_init keys (out_open declared (Some (l2s text)) minbuf)) evs = Some p ->
  pool_over p -> p_failed p = None ->
  exists f rd s r2,
    out_close cap (p_sink p) = Ok f /\ in_open cap f bufsize = Ok rd /\
    dget String.eqb "__metadata__" (in_header rd) = Some (JObj [("mecha_recipe", JStr s)]) /\
    ModelSerial.deserialize E (s2l s) = Ok r2 /\
    forall o' files' cpus' out, same_but_threads o o' -> merges_to same to conv o' (opened r2) cfg space files' cpus' [] (Ok out) ->
      (forall k, In k (in_keys rd) <-> exists v, dget String.eqb k out = Some v) /\
      forall k v, dget String.eqb k out = Some v -> forall reads, exists t w, v = VT t /\
        fst (in_get cap (in_gets cap rd reads) k) = Ok w /\ view_tensor (in_heap (snd (in_get cap (in_gets cap rd reads) k))) w = t.
Proof.
  intros E opened conv same to o r cfg space files cpus r' keys n SG IN MD SPL BA P ND.
  destruct (PropsSerial.C01_round_trip E SG r IN MD SPL BA) as (text & S & D).
  exists text. split; [unfold embedded_text; rewrite S; reflexivity|].
  intros cap declared minbuf evs p bufsize ev WT TF MB BC R O F.
  destruct (C66_merge_to_file cap conv r' keys declared (Some (l2s text)) minbuf n evs p bufsize ND WT TF MB BC R O F)
    as (f & rd & C & I & NDK & K & HD & RDS).
  exists f, rd, (l2s text), r. split; auto. split; auto. split; auto. split; [rewrite s2l_l2s; auto|].
  intros o' files' cpus' out SB M. inversion ND as [|? ? NI NDk]; subst.
  assert (exists n', plan same to o' (opened r) cfg space files' cpus' = Ok (r', keys, n')) as (n' & P').
  { unfold merges_to in M. destruct (plan same to o' (opened r) cfg space files' cpus') as [x|e] eqn:Q; [|discriminate].
    destruct (plan_threads _ same to o o' (opened r) cfg space files cpus files' cpus' r' keys n x SB P Q) as (n' & ->). eauto. }
  destruct (merges_outcome _ conv same to o' (opened r) cfg space files' cpus' [] r' keys n' P' NDk) as (_ & Y).
  destruct (Y _ M) as (MG & _).
  (* no key evaluates to anything but a tensor *)
  assert (forall k v, In k keys -> eval conv r' k = Ok v -> exists t, v = VT t) as TV.
  { intros k v Ik Ev. destruct v as [t|l]; eauto. exfalso.
    destruct (over_facts _ _ (file_sink cap) file_left ev n keys (out_open declared (Some (l2s text)) minbuf) evs p) as (_ & _ & _ & H); auto.
    { apply file_ok. }
    rewrite F in H. destruct H as (_ & NF & _). apply (NF k AttributeError Ik). split; [unfold ev; rewrite Ev; reflexivity|discriminate]. }
  assert (forall k v, dget String.eqb k out = Some v <-> In k keys /\ eval conv r' k = Ok v) as DG.
  { intros k v. rewrite (MG k v). cbn. split; [intros [H|(H & _)]; [auto|discriminate]|auto]. }
  split.
  - intros k. rewrite K. split.
    + intros (Ik & t & Et). exists (VT t). apply DG. split; auto. unfold ev in Et. destruct (eval conv r' k) as [[t'|l]|e]; inversion Et; auto.
    + intros (v & G). apply DG in G as (Ik & G). split; auto. destruct (TV k v Ik G) as (t & ->). exists t. unfold ev. rewrite G. reflexivity.
  - intros k v G reads. apply DG in G as (Ik & G). destruct (TV k v Ik G) as (t & ->).
    destruct (RDS reads k t Ik) as (w & W1 & W2); [unfold ev; rewrite G; reflexivity|]. exists t, w. auto.
Qed.

(** the recipe of C01, its inputs opened to the two tensors of C66; merged to a file by two threads *)
Definition cfgD : config := Config "x-y" dKeys [] [].
Definition openD (_ : ModelRecipe.pyobj) : node tensor := NModel "m.safetensors" dget_t ["x"; "w"; "bad"; "z"] cfgD "weight".
Definition asTyped (_ _ : lit) (t : tensor) : result tensor := Ok t.
Definition optsD : options tensor := Options None None None (ThInt 2) true true true.
Definition textD : chars := match ModelSerial.serialize PropsSerial.r1 with Ok t => t | Err _ => [] end.
Example C91_case : exists p,
  plan (fun _ _ => true) asTyped optsD (openD PropsSerial.r1) cfgD "weight" 2 8 = Ok (openD PropsSerial.r1, dKeys, 2) /\
  embedded_text (ModelSerial.serialize PropsSerial.r1) = Ok (Some textD) /\
  (let ev k := as_tensor (eval dconv (openD PropsSerial.r1) k) in
  (forall k t, In k dKeys -> ev k = Ok t -> wf_tensor t) /\
  (forall l, lists_results ev dKeys l -> transfers_fit 4096 dDecl (Some (l2s textD)) 2 l) /\
  prun (file_sink 4096) ev 2 (pool_init dKeys (out_open dDecl (Some (l2s textD)) 2)) (dSched0 ++ [Step 0; Step 1; Finish 1; Finish 0]) = Some p /\
  pool_over p /\ p_failed p = None) /\
  exists out, merges_to (fun _ _ => true) asTyped dconv (Options None None None (ThInt 0) true true true) (openD PropsSerial.r1) cfgD "weight" 2 8 [] (Ok out) /\
    dget String.eqb "x" out = Some (VT tx).
Proof.
  eexists. split; [reflexivity|]. split; [vm_compute; reflexivity|]. cbn zeta. split; [split; [|split; [|split; [vm_compute; reflexivity|]]]|].
  - intros k t [<-|[<-|[<-|[]]]] H; vm_compute in H; inversion H; reflexivity.
  - intros l (ND & L).
    assert (P : Permutation l [("x", tx); ("w", tw)]).
    { apply NoDup_Permutation.
      - eapply NoDup_map_inv; eauto.
      - repeat constructor; simpl; intuition discriminate.
      - intros (k & t). rewrite L. split.
        + intros ([<-|[<-|[<-|[]]]] & H); vm_compute in H; inversion H; subst; simpl; auto.
        + intros [H|[H|[]]]; inversion H; subst; split; simpl; auto. }
    apply Permutation_sym, Permutation_length_2_inv in P.
    destruct P as [-> | ->]; (repeat split; try (apply Nat.leb_le; vm_compute; reflexivity)). all:
      intros k t [H|[H|[]]]; inversion H; subst; apply Nat.leb_le; vm_compute; reflexivity.
  - split; [repeat split; simpl; intros _ k x [H|[H|[H|[]]]]; inversion H; auto|]. reflexivity.
  - eexists. split; [vm_compute; reflexivity|]. reflexivity.
Qed.

(** Refuted for what the recipe alone gives: the text does not mention the fallback model, so merging it gives less. *)
Definition onlyX : node tensor := NModel "b" (fun k => if String.eqb k "x" then Ok tx else Err (StateDictKeyError k)) ["x"] cfgD "weight".
Theorem C91_embedded_recipe_refuted : exists (o : options tensor) text out,
  embedded_text (ModelSerial.serialize (PropsSerial.mdl "b")) = Ok (Some text) /\
  ModelSerial.deserialize PropsSerial.E0 text = Ok (PropsSerial.mdl "b") /\
  merges_to (fun _ _ => true) asTyped dconv o onlyX cfgD "weight" 2 8 [] (Ok out) /\ dget String.eqb "w" out = Some (VT tw) /\
  forall o' files cpus out', mo_fallback o' = None -> mo_merge o' = None -> mo_output o' = None -> mo_omit_extra o' = true ->
    merges_to (fun _ _ => true) asTyped dconv o' onlyX cfgD "weight" files cpus [] (Ok out') -> dget String.eqb "w" out' = None.
Proof.
  exists (Options (Some (openD (PropsSerial.mdl "a"), "weight")) None None (ThInt 0) true true true).
  eexists. eexists. split; [vm_compute; reflexivity|]. split; [vm_compute; reflexivity|].
  split; [vm_compute; reflexivity|]. split; [reflexivity|].
  intros o' files cpus out' A B C D M. destruct (dget String.eqb "w" out') as [v|] eqn:G; auto. exfalso.
  assert (exists keys n, plan (fun _ _ => true) asTyped o' onlyX cfgD "weight" files cpus = Ok (onlyX, keys, n) /\ NoDup keys) as (keys & n & P & ND).
  { unfold merges_to in M. destruct (plan (fun _ _ => true) asTyped o' onlyX cfgD "weight" files cpus) as [[[r' keys] n]|e] eqn:P; [|discriminate].
    clear M G.
    unfold plan, with_fallback, with_merge_dtype, with_output_dtype in P. rewrite A, B, C, D in P. cbn [bind] in P.
    apply bind_Ok in P as (th & _ & P). destruct (mo_strict o' && _); [discriminate|]. injection P as <- <- <-.
    eexists _, _. split; [reflexivity|]. apply without_ema_NoDup. repeat constructor; cbn; intuition discriminate. }
  destruct (merges_outcome _ dconv (fun _ _ => true) asTyped o' onlyX cfgD "weight" files cpus [] onlyX keys n P ND) as (_ & Y).
  destruct (Y _ M) as (MG & _). destruct (proj1 (MG "w" v) G) as [(_ & Q)|(Q & _)]; vm_compute in Q; discriminate.
Qed.

Print Assumptions C89_merge_partial.
Print Assumptions C89_merge_dtype_refuted.
Print Assumptions C89_output_dtype_refuted.
Print Assumptions C90_output_dtype_partial.
Print Assumptions C90_forwarded_keys.
Print Assumptions C90_output_dtype_refuted.
Print Assumptions C91_embedded_recipe_partial.
Print Assumptions C91_embedded_recipe_refuted.
