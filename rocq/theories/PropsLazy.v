(** C103: a config read from a file acts like the config in the file *)
From Coq Require Import String List Bool Arith Lia.
From Verif Require Import Base ModelKeys ModelConfigs ModelLazy.
From Verif Require Import DataSd1Ldm DataSd1Kohya DataSdxlSgm DataSdxlKohya DataSdxlDiffusers DataSd1Blocks DataSdxlBlocks DataFlux DataFluxDiffuser DataSd3.
Import ListNotations.
Open Scope string_scope.
Open Scope list_scope.

(** ** the spec *)
Section Spec.
  Context {F C A : Type} (own : string -> option A) (create : F -> result C) (attr : string -> C -> A).

  (** what an attribute is when the file says [f] *)
  Definition said (f : F) (n : string) : result A :=
    match own n with
    | Some a => Ok a
    | None => match create f with Ok c => Ok (attr n c) | Err e => Err e end
    end.

  (** what the file has said at one time or another *)
  Definition versions (f : F) (l : list (event F)) : list F :=
    f :: flat_map (fun e => match e with Change g => [g] | Turn _ => [] end) l.

  Definition unchanged (l : list (event F)) : Prop := forall e, In e l -> exists i, e = Turn i.
End Spec.

Section Proofs.
  Context {F C A : Type} (own : string -> option A) (create : F -> result C) (attr : string -> C -> A).
  Notation step := (step own create attr).
  Notation run := (run own create attr).
  Notation said := (said own create attr).

  (** what holds of every state, [V] the versions so far *)
  Definition from (V : list F) (c : C) : Prop := exists f, In f V /\ create f = Ok c.
  Record good_thread (V : list F) (u : option C) (t : thread C A) : Prop := {
    g_done : forall n r, In (n, r) (t_done t) -> exists f, In f V /\ said f n = r;
    g_created : forall c, t_place t = Created c -> from V c;
    g_get : t_place t = Get -> u <> None }.
  Record good (V : list F) (s : state F C A) : Prop := {
    g_file : In (s_file s) V;
    g_under : forall c, s_under s = Some c -> from V c;
    g_threads : Forall (good_thread V (s_under s)) (s_threads s) }.

  Lemma good_thread_more : forall V V' u u' t, incl V V' -> (u <> None -> u' <> None) -> good_thread V u t -> good_thread V' u' t.
  Proof.
    intros V V' u u' t I U [D X G]. constructor; auto.
    - intros n r J. destruct (D _ _ J) as (f & P & Q). eauto.
    - intros c E. destruct (X _ E) as (f & P & Q). exists f; auto.
  Qed.

  Lemma finish_good : forall V u t n l r, t_todo t = n :: l -> good_thread V u t -> (exists f, In f V /\ said f n = r) ->
    good_thread V u (finish t r).
  Proof.
    intros V u t n l r E [D X G] H. unfold finish. rewrite E. constructor; simpl; try discriminate.
    intros n' r' I. apply in_app_or in I as [I|[I|[]]]; auto. inversion I; subst; auto.
  Qed.

  Lemma turn_good : forall V f u t u' t', In f V -> (forall c, u = Some c -> from V c) -> good_thread V u t ->
    turn own create attr f u t = (u', t') ->
    (u <> None -> u' <> None) /\ (forall c, u' = Some c -> from V c) /\ good_thread V u' t'.
  Proof.
    intros V f u t u' t' I U G E. unfold turn in E. destruct (t_todo t) as [|n l] eqn:T.
    { inversion E; subst; auto. }
    destruct (own n) as [a|] eqn:O.
    { inversion E; subst. split; auto. split; auto. eapply finish_good; eauto. exists f. split; auto. unfold PropsLazy.said. rewrite O; auto. }
    pose proof G as [D X G']. destruct (t_place t) as [| |c|] eqn:P.
    - inversion E; subst. split; auto. split; auto. constructor; simpl; auto.
      + destruct u'; discriminate.
      + destruct u'; try discriminate.
    - destruct (create f) as [c|e] eqn:K; inversion E; subst; (split; [auto|split; [auto|]]).
      + constructor; simpl; auto; try discriminate. intros c' Q. inversion Q; subst. exists f; auto.
      + eapply finish_good; eauto. exists f. split; auto. unfold PropsLazy.said. rewrite O, K; auto.
    - inversion E; subst. split; [discriminate|]. split.
      + intros c' Q. inversion Q; subst. apply X; auto.
      + constructor; simpl; auto; discriminate.
    - inversion E; subst. split; auto. split; auto. eapply finish_good; eauto.
      destruct u' as [c|]; [|exfalso; apply G'; auto].
      destruct (U c eq_refl) as (g & J & K). exists g. split; auto. unfold PropsLazy.said. rewrite O, K; auto.
  Qed.

  Lemma at_thread_good : forall V f l i u u' l', In f V -> (forall c, u = Some c -> from V c) -> Forall (good_thread V u) l ->
    at_thread own create attr i f u l = (u', l') ->
    (u <> None -> u' <> None) /\ (forall c, u' = Some c -> from V c) /\ Forall (good_thread V u') l'.
  Proof.
    intros V f. induction l as [|t l IH]; intros i u u' l' I U G E; destruct i as [|i]; simpl in E.
    - inversion E; subst; auto.
    - inversion E; subst; auto.
    - inversion G as [|? ? G1 G2]; subst. destruct (turn own create attr f u t) as [u1 t1] eqn:T. inversion E; subst.
      destruct (turn_good V f u t u' t1) as (P & Q & R); auto. split; auto. split; auto. constructor; auto.
      eapply Forall_impl; [|exact G2]. intros x Gx. eapply good_thread_more; eauto using incl_refl.
    - inversion G as [|? ? G1 G2]; subst. destruct (at_thread own create attr i f u l) as [u1 l1] eqn:T. inversion E; subst.
      destruct (IH i u u' l1) as (P & Q & R); auto. split; auto. split; auto. constructor; auto.
      eapply good_thread_more; eauto using incl_refl.
  Qed.

  Lemma step_good : forall V s e, good V s -> good (V ++ match e with Change g => [g] | Turn _ => [] end) (step s e).
  Proof.
    intros V s e [Gf Gu Gt]. destruct e as [g|i]; simpl.
    - constructor; simpl.
      + apply in_or_app; simpl; auto.
      + intros c E. destruct (Gu _ E) as (f & P & Q). exists f. split; auto. apply in_or_app; auto.
      + eapply Forall_impl; [|exact Gt]. intros t Q. eapply good_thread_more; eauto. apply incl_appl, incl_refl.
    - rewrite app_nil_r. destruct (at_thread own create attr i (s_file s) (s_under s) (s_threads s)) as [u l] eqn:E.
      destruct (at_thread_good V _ _ _ _ _ _ Gf Gu Gt E) as (P & Q & R). constructor; simpl; auto.
  Qed.

  Lemma run_good : forall l V s, good V s -> good (V ++ flat_map (fun e => match e with Change g => [g] | Turn _ => [] end) l) (run s l).
  Proof.
    induction l as [|e l IH]; intros V s G; simpl; [rewrite app_nil_r; auto|].
    rewrite app_assoc. apply IH, step_good; auto.
  Qed.

  Lemma initial_good : forall f names, good [f] (initial f names).
  Proof.
    intros. constructor; simpl; auto; try discriminate. apply Forall_forall. intros t I.
    apply in_map_iff in I as (l & <- & _). constructor; simpl; try discriminate; contradiction.
  Qed.

  (** the attributes are read in the order asked for *)
  Definition asked (t : thread C A) : list string := map fst (t_done t) ++ t_todo t.
  Lemma turn_asked : forall f u t, asked (snd (turn own create attr f u t)) = asked t.
  Proof.
    intros f u t.
    assert (forall r, asked (finish t r) = asked t) as K.
    { intros r. unfold finish. destruct (t_todo t) as [|n l] eqn:E; auto. unfold asked. simpl. rewrite E, map_app, <- app_assoc. auto. }
    unfold turn. destruct (t_todo t) as [|n l] eqn:T; auto.
    destruct (own n); simpl; auto. destruct (t_place t); simpl; auto. destruct (create f); simpl; auto.
  Qed.
  Lemma at_thread_asked : forall f l i u, map asked (snd (at_thread own create attr i f u l)) = map asked l.
  Proof.
    intros f. induction l as [|t l IH]; intros [|i] u; simpl; auto.
    - pose proof (turn_asked f u t) as Q. destruct (turn own create attr f u t); simpl in *. congruence.
    - specialize (IH i u). destruct (at_thread own create attr i f u l); simpl in *. congruence.
  Qed.
  Lemma run_asked : forall l s, map asked (s_threads (run s l)) = map asked (s_threads s).
  Proof.
    induction l as [|e l IH]; intros s; simpl; auto. rewrite IH. destruct e as [g|i]; simpl; auto.
    pose proof (at_thread_asked (s_file s) (s_threads s) i (s_under s)) as Q.
    destruct (at_thread own create attr i (s_file s) (s_under s) (s_threads s)); auto.
  Qed.

  (** ** once the config is there and nobody is creating another *)
  Definition idle (t : thread C A) : Prop := t_place t = Start \/ t_place t = Get.
  Lemma turn_settled : forall f c t, idle t ->
    exists t', turn own create attr f (Some c) t = (Some c, t') /\ idle t' /\
      (t' = move t Get \/ t' = t \/ exists n l, t_todo t = n :: l /\
         t' = finish t (Ok match own n with Some a => a | None => attr n c end)).
  Proof.
    intros f c t I. unfold turn. destruct (t_todo t) as [|n l] eqn:T; [exists t; auto|].
    assert (forall r, idle (finish t r)) as K by (intros r; unfold finish; rewrite T; left; simpl; reflexivity).
    destruct (own n) as [a|] eqn:O.
    - eexists. split; [reflexivity|]. split; auto. right; right. exists n, l. rewrite O; auto.
    - destruct I as [->| ->].
      + eexists. split; [reflexivity|]. split; [right; auto|auto].
      + eexists. split; [reflexivity|]. split; auto. right; right. exists n, l. rewrite O; auto.
  Qed.
End Proofs.

(** ** the theorems *)
Section Theorems.
  Context {F C A : Type} (own : string -> option A) (create : F -> result C) (attr : string -> C -> A).
  Notation run := (run own create attr).
  Notation said := (said own create attr).

  (** Whatever threads use the config and however they take turns, each of them reads
      what it asked for in order, and as long as the file is not changed every
      attribute is what the file says, and every error is that of reading the file. *)
  Theorem C103_unchanged_file : forall f names l, unchanged l ->
    Forall2 (fun ns t => exists k, t_done t = map (fun n => (n, said f n)) (firstn k ns) /\ t_todo t = skipn k ns)
      names (s_threads (run (initial f names) l)).
  Proof.
    intros f names l U.
    assert (flat_map (fun e => match e with Change g => [g] | Turn _ => [] end) l = []) as E.
    { clear -U. induction l as [|e l IH]; simpl; auto. destruct (U e) as (i & ->); [left; auto|]. apply IH. intros x I. apply U; right; auto. }
    pose proof (run_good own create attr l [f] _ (initial_good own create attr f names)) as [_ _ G].
    rewrite E, app_nil_r in G.
    pose proof (run_asked own create attr l (initial f names)) as Q.
    assert (map asked (s_threads (@initial F C A f names)) = names) as Q0.
    { simpl. rewrite map_map. unfold asked; simpl. apply map_id. }
    rewrite Q0 in Q. rewrite <- Q at 1. clear Q Q0. induction (s_threads (run (initial f names) l)) as [|t ts IH]; simpl; constructor.
    - inversion G as [|? ? [D _ _] _]; subst. exists (length (t_done t)). unfold asked.
      assert (length (t_done t) = length (map fst (t_done t))) as L by (rewrite map_length; auto).
      rewrite L, firstn_app, skipn_app, firstn_all, skipn_all, Nat.sub_diag. simpl. rewrite app_nil_r. split; auto.
      rewrite map_map. clear L. induction (t_done t) as [|[n r] d IHd]; simpl; auto. f_equal.
      + destruct (D n r) as (g & [<-|[]] & <-); simpl; auto.
      + apply IHd. intros; apply D; right; auto.
    - apply IH. inversion G; auto.
  Qed.

  (** When the file is changed in the meantime, every attribute is what the file said
      at one time or another; no thread ever finds the config gone. *)
  Theorem C103_changed_file : forall f names l t n r, In t (s_threads (run (initial f names) l)) -> In (n, r) (t_done t) ->
    exists g, In g (versions f l) /\ said g n = r.
  Proof.
    intros f names l t n r I J.
    pose proof (run_good own create attr l [f] _ (initial_good own create attr f names)) as [_ _ G].
    rewrite Forall_forall in G. destruct (G _ I) as [D _ _]. apply D; auto.
  Qed.

  (** From when a thread has read an attribute of the config, with no other thread
      about to create one, the file does not matter: every attribute read later is
      that of the same config. *)
  Theorem C103_settled : forall l (s : state F C A) c, s_under s = Some c -> Forall idle (s_threads s) ->
    Forall2 (fun t t' => exists l', t_done t' = t_done t ++ map (fun n => (n, Ok match own n with Some a => a | None => attr n c end)) l' /\
                                    l' ++ t_todo t' = t_todo t)
      (s_threads s) (s_threads (run s l)) /\ s_under (run s l) = Some c.
  Proof.
    set (P := fun c (t t' : thread C A) => exists l', t_done t' = t_done t ++ map (fun n => (n, Ok match own n with Some a => a | None => attr n c end)) l' /\ l' ++ t_todo t' = t_todo t).
    assert (forall c t, P c t t) as Prefl by (intros c t; exists []; simpl; rewrite app_nil_r; auto).
    assert (forall c ts, Forall2 (P c) ts ts) as Prefl2 by (intros c; induction ts; constructor; auto).
    assert (forall c t1 t2 t3, P c t1 t2 -> P c t2 t3 -> P c t1 t3) as Ptrans.
    { intros c t1 t2 t3 (l1 & A1 & B1) (l2 & A2 & B2). exists (l1 ++ l2). rewrite A2, A1, map_app, !app_assoc. split; auto.
      rewrite <- app_assoc. congruence. }
    assert (forall c f ts i, Forall idle ts -> exists ts', at_thread own create attr i f (Some c) ts = (Some c, ts') /\ Forall idle ts' /\ Forall2 (P c) ts ts') as AT.
    { intros c f. induction ts as [|t ts IH]; intros i I; cbn [at_thread].
      - exists []. destruct i; auto.
      - inversion I; subst. destruct i as [|i]; cbn [at_thread].
        + destruct (turn_settled own create attr f c t) as (t' & -> & It & K); auto. eexists. split; [reflexivity|].
          split; constructor; auto. destruct K as [->|[->|(n & l & E & ->)]]; auto.
          * exists []. simpl. rewrite app_nil_r; auto.
          * exists [n]. unfold finish. rewrite E. simpl. auto.
        + destruct (IH i) as (ts' & -> & J & K); auto. eexists. split; [reflexivity|]. split; constructor; auto. }
    change (forall l s c, s_under s = Some c -> Forall idle (s_threads s) ->
      Forall2 (P c) (s_threads s) (s_threads (run s l)) /\ s_under (run s l) = Some c).
    induction l as [|e l IH]; intros s c U I; simpl; [split; [apply Prefl2|auto]|].
    destruct e as [g|i].
    - apply (IH (State g (s_under s) (s_threads s)) c); auto.
    - simpl. rewrite U. destruct (AT c (s_file s) (s_threads s) i I) as (ts' & E & J & K). rewrite E.
      destruct (IH (State (s_file s) (Some c) ts') c) as (Q1 & Q2); auto. simpl in Q1. split; auto.
      clear -K Q1 Ptrans. revert K Q1. generalize (s_threads (run (State (s_file s) (Some c) ts') l)) as ts''.
      intros ts'' K. revert ts''. induction K; intros ts'' Q; inversion Q; subst; constructor; eauto.
  Qed.

  (** One thread on its own: errors as long as the file cannot be read, and from the
      first time it can, the config as it was then. *)
  Definition failed (p : string * result A) : Prop := own (fst p) = None -> exists e, snd p = Err e.
  Definition read_from (c : C) (p : string * result A) : Prop := own (fst p) = None -> snd p = Ok (attr (fst p) c).
  Definition phases (s : state F C A) : Prop := exists t, s_threads s = [t] /\
    ((Forall failed (t_done t) /\ s_under s = None /\ t_place t <> Get) \/
     (exists c before after, t_done t = before ++ after /\ Forall failed before /\ Forall (read_from c) after /\ s_under s = Some c /\ idle t)).

  Lemma turn_phases : forall f u t, phases (State f u [t]) ->
    phases (State f (fst (turn own create attr f u t)) [snd (turn own create attr f u t)]).
  Proof.
    intros f u t (t0 & E & K). simpl in E. inversion E; subst t0. clear E. simpl in K.
    destruct (t_todo t) as [|n l] eqn:T.
    { unfold turn. rewrite T. exists t. auto. }
    destruct K as [(D & U & P)|(c & b & a & D & B & R & U & I)].
    - subst u. unfold turn. rewrite T. destruct (own n) as [x|] eqn:O.
      + eexists. split; [reflexivity|]. left. simpl. unfold finish. rewrite T. simpl. split; [|split; [auto|discriminate]].
        apply Forall_app. split; auto. constructor; auto. unfold failed. simpl. congruence.
      + destruct (t_place t) as [| |c|] eqn:Q; try (exfalso; apply P; auto; fail).
        * eexists. split; [reflexivity|]. left. simpl. split; [auto|split; [auto|discriminate]].
        * destruct (create f) as [c|e] eqn:X; (eexists; split; [reflexivity|]); left; simpl.
          -- split; [auto|split; [auto|discriminate]].
          -- unfold finish. rewrite T. simpl. split; [|split; [auto|discriminate]].
             apply Forall_app. split; auto. constructor; auto. unfold failed. simpl. eauto.
        * eexists. split; [reflexivity|]. right. simpl. exists c, (t_done t), []. rewrite app_nil_r. repeat split; auto. right; auto.
    - subst u. destruct (turn_settled own create attr f c t I) as (t' & -> & I' & K). simpl. exists t'. split; auto. right. simpl.
      destruct K as [->|[->|(n' & l' & E & ->)]].
      + exists c, b, a. auto 6.
      + exists c, b, a. auto 6.
      + exists c, b, (a ++ [(n', Ok match own n' with Some x => x | None => attr n' c end)]).
        unfold finish. rewrite E. simpl. rewrite D, app_assoc. repeat split; auto.
        * apply Forall_app. split; auto. constructor; auto. unfold read_from. simpl. intros ->; auto.
        * left; auto.
  Qed.

  Theorem C103_one_thread : forall f names l, exists t before after,
    s_threads (run (initial f [names]) l) = [t] /\ t_done t = before ++ after /\
    (forall n r, In (n, r) before -> own n = None -> exists e, r = Err e) /\
    (after = [] \/ exists c, forall n r, In (n, r) after -> own n = None -> r = Ok (attr n c)).
  Proof.
    intros f names l.
    assert (phases (run (initial f [names]) l)) as (t & E & K).
    { assert (forall l s, phases s -> phases (run s l)) as R.
      { clear. induction l as [|e l IH]; intros s P; simpl; auto. apply IH. destruct e as [g|i]; simpl.
        - destruct P as (t & E & K). exists t; auto.
        - pose proof P as (t & E & _). destruct s as [f u ts]. simpl in *. subst ts. destruct i as [|i]; cbn [at_thread].
          + pose proof (turn_phases _ _ _ P) as Q. destruct (turn own create attr f u t); auto.
          + destruct i; auto. }
      apply R. eexists. split; [reflexivity|]. left. simpl. split; [auto|split; [auto|discriminate]]. }
    exists t. destruct K as [(D & _ & _)|(c & b & a & D & B & R & _ & _)].
    - exists (t_done t), []. rewrite app_nil_r. split; [auto|]. split; [auto|]. split; [|auto].
      intros n r I O. rewrite Forall_forall in D. apply (D _ I); auto.
    - exists b, a. split; [auto|]. split; [auto|]. rewrite Forall_forall in *. split; [intros n r I O; apply (B _ I); auto|].
      right. exists c. intros n r I O. apply (R _ I); auto.
  Qed.
End Theorems.

(** Two threads that use the config for the first time while the file is changed may
    be given different configs: the config of a thread can change under its hands. *)
Theorem C103_one_config_refuted :
  ~ (forall (F C A : Type) (own : string -> option A) (create : F -> result C) (attr : string -> C -> A) f names l t r r',
       In t (s_threads (run own create attr (initial f names) l)) ->
       In ("keys", Ok r) (t_done t) -> In ("keys", Ok r') (t_done t) -> r = r').
Proof.
  intros H.
  set (own := fun _ : string => @None nat). set (create := fun f : nat => Ok f). set (attr := fun (_ : string) (c : nat) => c).
  set (l := [Turn 0; Turn 1; Turn 0; Turn 0; Turn 0; Change 2; Turn 1; Turn 1; Turn 0; Turn 0]).
  specialize (H nat nat nat own create attr 1 [["keys"; "keys"]; ["keys"]] l
    (Thread [("keys", Ok 1); ("keys", Ok 2)] Start []) 1 2).
  enough (1 = 2) by discriminate. apply H; vm_compute; auto.
Qed.

(** ** the identifier *)

(** the attributes of a YAML config that are strings: its own identifier, and those of
    the config in the file (model_configs.py:138-143, 299-301) *)
Definition yaml_own (c : yaml_config) (n : string) : option (result string) :=
  if String.eqb n "identifier" then Some (Ok (yc_id c)) else None.
Definition yaml_attr (n : string) (c : yaml_config) : result string :=
  if String.eqb n "get_architecture_identifier" then architecture (yc_inner c)
  else if String.eqb n "get_implementation_identifier" then implementation (yc_inner c)
  else Err AttributeError.

(** what the parts of the identifier should be *)
Definition parts_agree (c : yaml_config) : Prop :=
  forall f, said (yaml_own c) (fun _ : unit => Ok c) yaml_attr f "get_architecture_identifier" = Ok (architecture (yc_id c)) /\
            said (yaml_own c) (fun _ : unit => Ok c) yaml_attr f "get_implementation_identifier" = Ok (implementation (yc_id c)).

Definition named_alike : list yaml_config :=
  [DataSd1Ldm.config; DataSd1Kohya.config; DataSdxlSgm.config; DataSdxlKohya.config; DataSdxlDiffusers.config;
   DataSd1Blocks.config; DataSdxlBlocks.config; DataSd3.config].
Definition shipped : list yaml_config := named_alike ++ [DataFlux.config; DataFluxDiffuser.config].

Theorem C103_identifier_parts_partial : forall c, In c named_alike -> parts_agree c.
Proof.
  intros c I. assert (yc_inner c = yc_id c) as E.
  { repeat (destruct I as [<-|I]; [reflexivity|]). destruct I. }
  intros f. unfold said, yaml_attr. simpl. rewrite E. auto.
Qed.

(** "flux-flux" says its architecture is "flux_dev", and "flux-flux_diffuser_only" says
    its implementation is "flux" *)
Theorem C103_identifier_parts_refuted : ~ (forall c, In c shipped -> parts_agree c).
Proof.
  intros H. destruct (H DataFlux.config) with (f := tt) as (A & _).
  - unfold shipped. apply in_or_app. right. left. reflexivity.
  - discriminate A.
Qed.

Example ex_C103_flux :
  yc_id DataFlux.config = "flux-flux"%string /\ yaml_attr "get_architecture_identifier" DataFlux.config = Ok "flux_dev"%string /\
  yc_id DataFluxDiffuser.config = "flux-flux_diffuser_only"%string /\ yaml_attr "get_implementation_identifier" DataFluxDiffuser.config = Ok "flux"%string.
Proof. repeat split. Qed.

(** A file that cannot be read at first, two threads. *)
Example ex_C103 :
  let create (f : option nat) := match f with Some n => Ok n | None => Err ValueError end in
  let own n := if String.eqb n "identifier" then Some 0 else None in
  s_threads (run own create (fun _ c => c) (initial None [["identifier"; "keys"; "keys"]; ["keys"]])
    [Turn 0; Turn 0; Turn 0; Turn 1; Change (Some 5); Turn 1; Turn 1; Turn 0; Turn 1; Change None; Turn 0; Turn 0; Turn 0; Turn 0]) =
  [Thread [("identifier", Ok 0); ("keys", Err ValueError); ("keys", Ok 5)]%string Start []; Thread [("keys", Ok 5)]%string Start []].
Proof. reflexivity. Qed.

Print Assumptions C103_unchanged_file.
Print Assumptions C103_changed_file.
Print Assumptions C103_settled.
Print Assumptions C103_one_thread.
Print Assumptions C103_one_config_refuted.
Print Assumptions C103_identifier_parts_partial.
Print Assumptions C103_identifier_parts_refuted.
