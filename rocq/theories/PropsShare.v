(** C114: a recipe used in several places has one value there, unless it draws random
    numbers without a seed; and it is computed once for each use.  Read with ModelShare.v. *)
From Coq Require Import String Ascii List Bool Arith ZArith Lia.
From Verif Require Import Base ModelEval ModelShare.
Import ListNotations.
Open Scope string_scope.
Open Scope list_scope.
Open Scope nat_scope.

(** ** Spec *)
(** the value of one computation does not depend on the state and is that of the other *)
Definition agree {V S S'} (c : comp V S) (c' : comp V S') : Prop := forall s s', fst (c s) = fst (c' s').
Definition agree_input {V S S'} (i : sinput V S) (i' : sinput V S') : Prop :=
  match i, i' with
  | SVal v, SVal v' => v = v'
  | SGet g, SGet g' => forall k, agree (g k) (g' k)
  | _, _ => False
  end.
(** the methods give the same value on inputs that agree, whatever the states *)
Definition agree_method {V S S'} (m : smethod V S) (m' : smethod V S') : Prop :=
  (forall i, sm_lazy m i = sm_lazy m' i) /\
  forall ins ins' key, Forall2 agree_input ins ins' -> agree (sm_run m ins key) (sm_run m' ins' key).
(** the same recipe, with methods that agree *)
Inductive agree_node {V S S'} : snode V S -> snode V S' -> Prop :=
| an_leaf : forall d g, agree_node (SLeaf d g) (SLeaf d g)
| an_merge : forall m m' args args', agree_method m m' -> Forall2 agree_node args args' -> agree_node (SMerge m args) (SMerge m' args').

(** [repeatable n]: every method of the recipe gives values that do not depend on the state *)
Definition repeatable {V S} (n : snode V S) : Prop := agree_node n n.

(** the merge nodes of a recipe, each counted once for every use *)
Fixpoint uses {V S} (n : snode V S) : nat :=
  match n with
  | SLeaf _ _ => 0
  | SMerge _ args => Datatypes.S (list_sum (map uses args))
  end.
(** every method is counted *)
Inductive all_counted {V} : snode V nat -> Prop :=
| ac_leaf : forall d g, all_counted (SLeaf d g)
| ac_merge : forall f args, Forall all_counted args -> all_counted (SMerge (counted f) args).

(** [n] merges on top of [x], each using the one below it twice *)
Fixpoint doubled {V S} (m : smethod V S) (n : nat) (x : snode V S) : snode V S :=
  match n with 0 => x | S n' => let y := doubled m n' x in SMerge m [y; y] end.

(** ** Induction *)
Lemma snode_ind' : forall V S (P : snode V S -> Prop), (forall d g, P (SLeaf d g)) ->
  (forall m args, Forall P args -> P (SMerge m args)) -> forall n, P n.
Proof.
  intros V S P HL HM. fix IH 1. intros [d g|m args]; [apply HL|]. apply HM.
  induction args as [|a args IHa]; constructor; auto.
Qed.

(** ** Agreement *)
Section Agree.
  Context {V S S' : Type}.
  Definition slot_r (a : nat * sslot V S) (b : nat * sslot V S') : Prop :=
    fst a = fst b /\ ss_lazy (snd a) = ss_lazy (snd b) /\ ss_depth (snd a) = ss_depth (snd b) /\
    forall k, agree (ss_eval (snd a) k) (ss_eval (snd b) k).
  Definition merged_r (a : nat * sinput V S) (b : nat * sinput V S') : Prop := fst a = fst b /\ agree_input (snd a) (snd b).

  Lemma sinsert_r : forall x y l l', slot_r x y -> Forall2 slot_r l l' -> Forall2 slot_r (sinsert V S x l) (sinsert V S' y l').
  Proof.
    intros x y l l' Hx H; induction H as [|a b l l' Ha H IH]; simpl; [auto|].
    destruct Ha as (A1 & A2 & A3 & A4). destruct Hx as (X1 & X2 & X3 & X4). rewrite <- A3, <- X3.
    destruct (ss_depth (snd a) <? ss_depth (snd x)); constructor; auto; try (repeat split; assumption).
    constructor; auto. repeat split; assumption.
  Qed.
  Lemma sorder_r : forall l l', Forall2 slot_r l l' -> Forall2 slot_r (sorder V S l) (sorder V S' l').
  Proof.
    unfold sorder. intros l l' H. assert (G : Forall2 slot_r [] []) by constructor. revert G.
    generalize (@nil (nat * sslot V S)) (@nil (nat * sslot V S')).
    induction H as [|a b l l' Ha H IH]; intros acc acc' G; simpl; auto. apply IH, sinsert_r; auto.
  Qed.
  Lemma svisit_r : forall key l l', Forall2 slot_r l l' -> forall held mg mg' s s', Forall2 merged_r mg mg' ->
    Forall2 merged_r (fst (fst (svisit V S key l held mg s))) (fst (fst (svisit V S' key l' held mg' s'))) /\
    snd (fst (svisit V S key l held mg s)) = snd (fst (svisit V S' key l' held mg' s')).
  Proof.
    intros key l l' H; induction H as [|(i & a) (j & b) l l' Ha H IH]; intros held mg mg' s s' G; simpl; auto.
    destruct Ha as (A1 & A2 & A3 & A4). simpl in A1, A2, A3, A4. subst j. rewrite <- A2. destruct (ss_lazy a).
    - apply IH. constructor; auto. split; auto.
    - pose proof (A4 key s s') as E. destruct (ss_eval a key s) as [[v|e] t], (ss_eval b key s') as [[v'|e'] t']; cbn in E; try discriminate; injection E as <-.
      + apply IH. constructor; auto. split; simpl; auto.
      + apply IH; auto.
  Qed.
  Lemma merged_dget : forall i mg mg', Forall2 merged_r mg mg' ->
    match dget Nat.eqb i mg, dget Nat.eqb i mg' with Some x, Some y => agree_input x y | None, None => True | _, _ => False end.
  Proof.
    intros i mg mg' H; induction H as [|(a & x) (b & y) mg mg' (Hk & Hv) H IH]; simpl; auto.
    simpl in Hk; subst b. destruct (i =? a); auto.
  Qed.
  Lemma scollect_r : forall n mg mg' from, Forall2 merged_r mg mg' ->
    match scollect V S mg from n, scollect V S' mg' from n with
    | Ok a, Ok b => Forall2 agree_input a b | Err e, Err f => e = f | _, _ => False end.
  Proof.
    induction n as [|n IH]; intros mg mg' from H; simpl; auto.
    pose proof (merged_dget from mg mg' H) as D. destruct (dget Nat.eqb from mg), (dget Nat.eqb from mg'); try tauto.
    specialize (IH mg mg' (Datatypes.S from) H).
    destruct (scollect V S mg (Datatypes.S from) n), (scollect V S' mg' (Datatypes.S from) n); simpl; try tauto. constructor; auto.
  Qed.
  Lemma slots_r : forall (l : list (sslot V S)) (l' : list (sslot V S')) i,
    Forall2 (fun a b => ss_lazy a = ss_lazy b /\ ss_depth a = ss_depth b /\ forall k, agree (ss_eval a k) (ss_eval b k)) l l' ->
    Forall2 slot_r (combine (seq i (length l)) l) (combine (seq i (length l')) l').
  Proof.
    intros l l' i H. revert i. induction H as [|a b l l' Ha H IH]; intros i; simpl; constructor; auto. split; auto.
  Qed.
End Agree.

Lemma agree_depth : forall V S S' (n : snode V S) (n' : snode V S'), agree_node n n' -> sdepth n = sdepth n'.
Proof.
  intros V S S' n. induction n as [d g|m args IH] using snode_ind'; intros n' H; inversion H as [|? m' ? args' Hm Ha]; subst; auto.
  simpl. f_equal. clear H Hm. induction Ha as [|a b args args' Hab Ha IHa]; auto.
  simpl. rewrite IHa by (eapply Forall_inv_tail; eauto). f_equal. apply Forall_inv in IH. auto.
Qed.

(** Methods that give the same values on the same inputs make the recipe give the same value at
    every key, whatever the states in which it is evaluated: an evaluation of the recipe
    at one place tells its value at every other. *)
Theorem C114_same_value : forall V S S' (n : snode V S) (n' : snode V S'), agree_node n n' ->
  forall key s s', fst (srun n key s) = fst (srun n' key s').
Proof.
  intros V S S' n. induction n as [d g|m args IH] using snode_ind'; intros n' H; inversion H as [|? m' ? args' (Hl & Hm) Ha]; subst; [reflexivity|].
  intros key s s'. cbn [srun]. unfold srun_merge.
  assert (HS : forall i, Forall2 (fun a b => ss_lazy a = ss_lazy b /\ ss_depth a = ss_depth b /\ forall k, agree (ss_eval a k) (ss_eval b k))
     (slots_of V S m i (map (fun a => (sdepth a, srun a)) args)) (slots_of V S' m' i (map (fun a => (sdepth a, srun a)) args'))).
  { clear H. induction Ha as [|a b args args' Hab Ha IHa]; intros i; simpl; constructor.
    - simpl. split; auto. split; [apply agree_depth; auto|]. intros k t t'. apply Forall_inv in IH. auto.
    - apply IHa. eapply Forall_inv_tail; eauto. }
  specialize (HS 0). set (sl := slots_of V S m 0 _) in *. set (sl' := slots_of V S' m' 0 _) in *.
  assert (HL : length sl = length sl') by (clear -HS; induction HS; simpl; auto).
  pose proof (svisit_r key _ _ (sorder_r _ _ (slots_r sl sl' 0 HS)) None [] [] s s' (Forall2_nil _)) as (HV & HE).
  destruct (svisit V S key (sorder V S (combine (seq 0 (length sl)) sl)) None [] s) as ((mg & held) & t).
  destruct (svisit V S' key (sorder V S' (combine (seq 0 (length sl')) sl')) None [] s') as ((mg' & held') & t').
  simpl in HV, HE |- *. subst held'. destruct held; [reflexivity|]. rewrite <- HL.
  pose proof (scollect_r (length sl) mg mg' 0 HV) as HC.
  destruct (scollect V S mg 0 (length sl)), (scollect V S' mg' 0 (length sl)); try tauto; [|subst; reflexivity].
  apply Hm. exact HC.
Qed.

(** So a recipe made of functions has one value, wherever it is used *)
Theorem C114_shared_value : forall V S (n : snode V S), repeatable n -> forall key s s', fst (srun n key s) = fst (srun n key s').
Proof. intros V S n H. apply C114_same_value. exact H. Qed.

Lemma vals_agree : forall V S S' (ins : list (sinput V S)) (ins' : list (sinput V S')), Forall2 agree_input ins ins' -> vals ins = vals ins'.
Proof.
  intros V S S' ins ins' H; induction H as [|[v|g] [v'|g'] l l' Hi H IH]; simpl in *; try tauto. subst. f_equal; auto.
Qed.
(** functions of values, counted or not, and methods with a seed are such methods *)
Theorem C114_functions : forall V A (f : list V -> string -> result V) (g : A -> list V -> string -> result V) a,
  agree_method (counted f) (plain f : smethod V unit) /\ agree_method (plain f : smethod V (entropy A)) (plain f : smethod V (entropy A)) /\
  agree_method (drawing g (Some a)) (plain (g a) : smethod V unit) /\ agree_method (drawing g (Some a)) (drawing g (Some a)).
Proof.
  intros V A f g a. repeat split; auto; intros ins ins' key H s s'; cbn -[vals]; f_equal; exact (vals_agree _ _ _ _ _ H).
Qed.

(** A method that draws without a seed gives each use of its recipe a value of its own: here the
    two inputs of [f] are the same recipe [d]. *)
Theorem C114_unseeded : forall V A (g : A -> list V -> string -> result V) (f : list V -> string -> result V) src i key x y z,
  let leaf := SLeaf 1 (fun _ => Ok x) in
  let d := SMerge (drawing g None) [leaf] in
  g (src i) [x] key = Ok y -> g (src (S i)) [x] key = Ok z ->
  fst (srun (SMerge (plain f) [d; d]) key (src, i)) = f [y; z] key.
Proof. intros V A g f src i key x y z leaf d Hy Hz. subst leaf d. unfold srun, srun_merge. cbn. rewrite Hy. cbn. rewrite Hz. reflexivity. Qed.
Definition drop1 (draw : Z) (l : list Z) (_ : string) : result Z :=
  match l with [x] => Ok (if Z.even draw then 0%Z else x) | _ => Err ValueError end.
Definition sub1 (l : list Z) (_ : string) : result Z := match l with [a; b] => Ok (a - b)%Z | _ => Err ValueError end.
Theorem C114_one_value_refuted :
  ~ (forall (src : nat -> Z) x key, let d := SMerge (drawing drop1 None) [SLeaf 1 (fun _ => Ok x)] in
      fst (srun (SMerge (plain sub1) [d; d]) key (src, 0)) = Ok 0%Z).
Proof. intros H. specialize (H (fun n => Z.of_nat n) 5%Z "k"). discriminate. Qed.
(** with a seed the difference is zero *)
Theorem C114_seeded : forall (src : nat -> Z) i seed x key, let d := SMerge (drawing drop1 (Some seed)) [SLeaf 1 (fun _ => Ok x)] in
  fst (srun (SMerge (plain sub1) [d; d]) key (src, i)) = Ok 0%Z.
Proof. intros src i seed x key. unfold srun, srun_merge. cbn. f_equal. lia. Qed.

(** ** How many calls *)
Section Count.
  Context {V : Type} (key : string) (cost : nat -> nat).
  Definition costs (x : nat * sslot V nat) : Prop :=
    ss_lazy (snd x) = false /\ forall s v s', ss_eval (snd x) key s = (Ok v, s') -> s' = s + cost (fst x).
  Definition total (l : list (nat * sslot V nat)) : nat := list_sum (map (fun x => cost (fst x)) l).

  Lemma held_stays : forall l e mg s, snd (fst (svisit V nat key l (Some e) mg s)) <> None.
  Proof.
    induction l as [|(i & x) l IH]; intros e mg s; simpl; [discriminate|]. destruct (ss_lazy x); auto.
    destruct (ss_eval x key s) as [[v|e'] s']; auto.
  Qed.
  Lemma svisit_cost : forall l mg s, Forall costs l -> snd (fst (svisit V nat key l None mg s)) = None ->
    snd (svisit V nat key l None mg s) = s + total l.
  Proof.
    induction l as [|(i & x) l IH]; intros mg s H Hn; simpl in *; [unfold total; simpl; lia|].
    inversion H as [|? ? (Hl & Hc) H']; subst. simpl in Hl, Hc. rewrite Hl in *.
    destruct (ss_eval x key s) as [[v|e] s'] eqn:Ev.
    - rewrite IH by auto. rewrite (Hc s v s' Ev). unfold total. simpl. lia.
    - exfalso. eapply held_stays; eauto.
  Qed.
  Lemma sinsert_total : forall x l, total (sinsert V nat x l) = cost (fst x) + total l.
  Proof.
    unfold total. induction l as [|y l IH]; simpl; auto. destruct (ss_depth (snd y) <? ss_depth (snd x)); simpl in *; lia.
  Qed.
  Lemma sinsert_costs : forall x l, costs x -> Forall costs l -> Forall costs (sinsert V nat x l).
  Proof.
    intros x l Hx H; induction H as [|y l Hy H IH]; simpl; auto. destruct (ss_depth (snd y) <? ss_depth (snd x)); auto.
  Qed.
  Lemma sorder_facts : forall l acc, Forall costs l -> Forall costs acc ->
    Forall costs (fold_left (fun acc x => sinsert V nat x acc) l acc) /\
    total (fold_left (fun acc x => sinsert V nat x acc) l acc) = total l + total acc.
  Proof.
    induction l as [|x l IH]; intros acc H G; simpl; [auto|].
    destruct (IH (sinsert V nat x acc) (Forall_inv_tail H)) as (A & B).
    - apply sinsert_costs; auto. exact (Forall_inv H).
    - split; auto. rewrite B, sinsert_total. unfold total. simpl. lia.
  Qed.
End Count.

(** Every use of a merge node in a recipe is a call of its method: an evaluation that gives
    a value has made as many calls as the recipe has merge nodes, each counted once for every use. *)
Theorem C114_calls : forall V (n : snode V nat), all_counted n -> forall key s v s', srun n key s = (Ok v, s') -> s' = s + uses n.
Proof.
  intros V n. induction n as [d g|m args IH] using snode_ind'; intros H key s v s' E.
  - simpl in E. injection E as _ <-. simpl; lia.
  - inversion H as [|f ? Ha]; subst. cbn [srun] in E. unfold srun_merge in E.
    set (sl := slots_of V nat (counted f) 0 (map (fun a => (sdepth a, srun a)) args)) in E.
    set (cost := fun i => nth i (map uses args) 0).
    assert (HC : Forall (costs key cost) (combine (seq 0 (length sl)) sl) /\ total cost (combine (seq 0 (length sl)) sl) = list_sum (map uses args)).
    { assert (G : forall l i0, Forall (fun n => all_counted n -> forall key s v s', srun n key s = (Ok v, s') -> s' = s + uses n) l ->
        Forall all_counted l -> (forall j, nth (i0 + j) (map uses args) 0 = nth j (map uses l) 0) ->
        let sl := slots_of V nat (counted f) i0 (map (fun a => (sdepth a, srun a)) l) in
        Forall (costs key cost) (combine (seq i0 (length sl)) sl) /\ total cost (combine (seq i0 (length sl)) sl) = list_sum (map uses l)).
      { clear -cost. intros l. induction l as [|a l IHl]; intros i0 HI HA HN; simpl; [split; auto|].
        inversion HI as [|? ? Ia HI']; subst. inversion HA as [|? ? Aa HA']; subst.
        destruct (IHl (Datatypes.S i0)) as (C1 & C2); auto.
        { intros j. specialize (HN (Datatypes.S j)). rewrite Nat.add_succ_r in HN. exact HN. }
        assert (C0 : cost i0 = uses a). { unfold cost. specialize (HN 0). rewrite Nat.add_0_r in HN. exact HN. }
        split.
        - constructor; auto. split; [reflexivity|]. simpl. intros s v s' E. rewrite C0. eapply Ia; eauto.
        - unfold total in *. simpl. rewrite C0. f_equal. exact C2. }
      apply (G args 0); auto. }
    destruct HC as (C1 & C2). destruct (sorder_facts key cost _ [] C1 (Forall_nil _)) as (O1 & O2). fold (sorder V nat (combine (seq 0 (length sl)) sl)) in O1, O2.
    pose proof (svisit_cost key cost (sorder V nat (combine (seq 0 (length sl)) sl)) [] s O1) as SV.
    destruct (svisit V nat key (sorder V nat (combine (seq 0 (length sl)) sl)) None [] s) as ((mg & held) & t). simpl in E, SV.
    destruct held; [discriminate|]. specialize (SV eq_refl).
    destruct (scollect V nat mg 0 (length sl)); [|discriminate]. simpl in E. injection E as _ <-.
    simpl. rewrite SV, O2, C2. unfold total. simpl. lia.
Qed.

(** So [n] merges, each using the one below it twice, are [2^n - 1] calls instead of [n]. *)
Theorem C114_once_refuted : forall V (f : list V -> string -> result V) n d g key s v s',
  srun (doubled (counted f) n (SLeaf d g)) key s = (Ok v, s') -> s' = s + (2 ^ n - 1).
Proof.
  intros V f n d g key s v s' E.
  assert (A : all_counted (doubled (counted f) n (SLeaf d g))) by (clear; induction n; simpl; repeat constructor; auto).
  rewrite (C114_calls V _ A key s v s' E). f_equal. clear.
  induction n as [|n IH]; simpl; auto. rewrite IH. assert (2 ^ n <> 0) by (apply Nat.pow_nonzero; discriminate). lia.
Qed.

(** ** The same as ModelEval.v for methods that are functions *)
Section Lift.
  Context {T S : Type} (conv : ety -> value T -> result (value T)).
  Definition same_in (i : inp T) (i' : sinput (value T) S) : Prop :=
    match i, i' with
    | IVal v, SVal v' => v = v'
    | ISd g _, SGet g' => forall k s, g k = fst (g' k s)
    | _, _ => False
    end.
  Definition has_cfg (i : inp T) (c : option config) : Prop := match i with IVal _ => True | ISd _ c' => c' = c end.
  (** [m'] is [m], with parameters of any type, on inputs with the configs [cs] *)
  Definition lifted_method (m : mmethod T) (m' : smethod (value T) S) (cs : list (option config)) : Prop :=
    (forall i, kind_at m i = Some (if sm_lazy m' i then KSd TAny else KVal TAny)) /\
    forall ins ins' key s, Forall2 same_in ins ins' -> Forall2 has_cfg ins cs -> m_fun m ins [] key = fst (sm_run m' ins' key s).
  Inductive lifted : node T -> snode (value T) S -> Prop :=
  | li_leaf : forall n d, (forall m args kw c, n <> NMerge m args kw c) -> depth n = Ok d -> lifted n (SLeaf d (eval conv n))
  | li_merge : forall m m' args args' c, args <> [] -> lifted_method m m' (map node_cfg args) -> Forall2 lifted args args' ->
      lifted (NMerge m args [] c) (SMerge m' args').

  Definition lslot (a : nat * @slot T) (b : nat * sslot (value T) S) : Prop :=
    fst a = fst b /\ s_kind (snd a) = (if ss_lazy (snd b) then KSd TAny else KVal TAny) /\ s_depth (snd a) = ss_depth (snd b) /\
    forall k s, s_eval (snd a) k = fst (ss_eval (snd b) k s).
  Definition lmerged (cs : list (option config)) (a : nat * inp T) (b : nat * sinput (value T) S) : Prop :=
    fst a = fst b /\ same_in (snd a) (snd b) /\ exists c, nth_error cs (fst a) = Some c /\ has_cfg (snd a) c.

  Lemma insert_l : forall x y l l', lslot x y -> Forall2 lslot l l' -> Forall2 lslot (insert x l) (sinsert (value T) S y l').
  Proof.
    intros x y l l' Hx H; induction H as [|a b l l' Ha H IH]; simpl; [auto|].
    destruct Ha as (A1 & A2 & A3 & A4). destruct Hx as (X1 & X2 & X3 & X4). rewrite A3, X3.
    destruct (ss_depth (snd b) <? ss_depth (snd y)); constructor; auto; try (repeat split; assumption).
    constructor; auto. repeat split; assumption.
  Qed.
  Lemma order_l : forall l l', Forall2 lslot l l' -> Forall2 lslot (visit_order l) (sorder (value T) S l').
  Proof.
    unfold visit_order, sorder. intros l l' H. assert (G : Forall2 lslot [] []) by constructor. revert G.
    generalize (@nil (nat * @slot T)) (@nil (nat * sslot (value T) S)).
    induction H as [|a b l l' Ha H IH]; intros acc acc' G; simpl; auto. apply IH, insert_l; auto.
  Qed.
  Lemma cast_any : forall v : value T, cast_value conv v TAny = Ok v.
  Proof. intros [t|[]]; reflexivity. Qed.
  Definition slot_cfg (cs : list (option config)) (a : nat * @slot T) : Prop := nth_error cs (fst a) = Some (s_cfg (snd a)).
  Lemma visit_l : forall cs key l l', Forall2 lslot l l' -> Forall (slot_cfg cs) l -> forall held mg mg' s,
    (held = None -> Forall2 (lmerged cs) mg mg') ->
    exists mg1, visit_all conv key l held mg = Ok (mg1, snd (fst (svisit (value T) S key l' held mg' s))) /\
      (snd (fst (svisit (value T) S key l' held mg' s)) = None -> Forall2 (lmerged cs) mg1 (fst (fst (svisit (value T) S key l' held mg' s)))).
  Proof.
    intros cs key l l' H; induction H as [|(i & a) (j & b) l l' Ha H IH]; intros HC held mg mg' s G; cbn [visit_all svisit]; [exists mg; auto|].
    destruct Ha as (A1 & A2 & A3 & A4). cbn [fst snd] in A1, A2, A3, A4. subst j.
    pose proof (Forall_inv HC) as C0. apply Forall_inv_tail in HC. unfold slot_cfg in C0. cbn [fst snd] in C0.
    unfold visit_one. rewrite A2. destruct (ss_lazy b).
    - cbn [bind fst snd]. apply IH; auto. intros Hh. constructor; auto. split; [reflexivity|]. split.
      + cbn [snd same_in]. intros k t. rewrite <- (A4 k t). destruct (s_eval a k); cbn [bind]; auto using cast_any.
      + cbn [fst snd]. eexists. split; [exact C0|reflexivity].
    - rewrite (A4 key s). destruct (ss_eval b key s) as [[v|e] t]; cbn [fst].
      + rewrite cast_any. cbn [bind fst snd]. apply IH; auto. intros Hh. constructor; auto. split; [reflexivity|]. split; [reflexivity|].
        cbn [fst snd]. eexists. split; [exact C0|exact I].
      + rewrite cast_any. cbn [bind fst snd]. apply IH; auto. discriminate.
  Qed.
  Lemma collect_l : forall cs n mg mg' from, Forall2 (lmerged cs) mg mg' ->
    match collect mg from n, scollect (value T) S mg' from n with
    | Ok a, Ok b => Forall2 same_in a b /\ length a = n /\ forall i x, nth_error a i = Some x -> exists c, nth_error cs (from + i) = Some c /\ has_cfg x c
    | Err e, Err f => e = f | _, _ => False end.
  Proof.
    induction n as [|n IH]; intros mg mg' from H; cbn [collect scollect]; [repeat split; auto; intros [|i] x Q; discriminate|].
    assert (D : match dget Nat.eqb from mg, dget Nat.eqb from mg' with
      | Some x, Some y => same_in x y /\ exists c, nth_error cs from = Some c /\ has_cfg x c | None, None => True | _, _ => False end).
    { clear -H. induction H as [|(a & x) (b & y) mg mg' (Hk & Hv & Hc) H IH]; cbn [dget]; auto.
      cbn [fst snd] in *. subst b. destruct (Nat.eqb_spec from a); auto. subst; auto. }
    destruct (dget Nat.eqb from mg), (dget Nat.eqb from mg'); try tauto. destruct D as (D1 & c & D2 & D3).
    specialize (IH mg mg' (Datatypes.S from) H).
    destruct (collect mg (Datatypes.S from) n), (scollect (value T) S mg' (Datatypes.S from) n); cbn [bind]; try tauto.
    destruct IH as (I1 & I2 & I3). split; [constructor; auto|]. split; [simpl; auto|].
    intros [|k] x Q; cbn [nth_error] in Q.
    - injection Q as <-. rewrite Nat.add_0_r. eauto.
    - rewrite Nat.add_succ_r. apply (I3 k x Q).
  Qed.
End Lift.

Lemma node_ind_merge : forall T (P : node T -> Prop), (forall n, (forall m args kw c, n <> NMerge m args kw c) -> P n) ->
  (forall m args c, Forall P args -> P (NMerge m args [] c)) -> (forall m args kw c, kw <> [] -> P (NMerge m args kw c)) -> forall n, P n.
Proof.
  intros T P HL HM HK. fix IH 1. intros [v|d c s|p g k c s|m args kw c].
  - apply HL; discriminate.
  - apply HL; discriminate.
  - apply HL; discriminate.
  - destruct kw as [|x kw]; [|apply HK; discriminate]. apply HM. induction args as [|a args IHa]; constructor; auto.
Qed.

Lemma lifted_depth : forall T S conv (n : node T) (n' : snode (value T) S), lifted conv n n' -> depth n = Ok (sdepth n').
Proof.
  intros T S conv n. induction n as [n Hn|m args c IH|m args kw c Hk] using node_ind_merge; intros n' H.
  - inversion H; subst; auto. exfalso. eapply Hn; reflexivity.
  - inversion H as [? d Hd|? m' ? args' ? Hne Hm Ha]; subst; [exfalso; eapply Hd; reflexivity|].
    cbn [depth kmap map]. rewrite app_nil_r. cbn [sdepth]. clear H Hm.
    assert (G : max_depth (lmap depth args) = Ok (fold_right Nat.max 0 (map sdepth args'))); [|rewrite G; reflexivity].
    induction Ha as [|a b args args' Hab Ha IHa]; [congruence|]. pose proof (Forall_inv IH b Hab) as Hd.
    destruct Ha as [|a2 b2 args args' Hab2 Ha].
    + cbn. rewrite Hd, Nat.max_0_r. reflexivity.
    + cbn [lmap max_depth] in *. rewrite Hd. cbn [bind]. rewrite IHa by (try discriminate; eapply Forall_inv_tail; eauto). reflexivity.
  - inversion H as [? d Hd|]; subst; [exfalso; eapply Hd; reflexivity|congruence].
Qed.

(** On recipes with positional inputs, and with methods that are functions whatever
    state is threaded through them, this is the evaluation of ModelEval.v. *)
Theorem C114_evaluation : forall T S conv (n : node T) (n' : snode (value T) S), lifted conv n n' ->
  forall key s, eval conv n key = fst (srun n' key s).
Proof.
  intros T S conv n. induction n as [n Hn|m args c IH|m args kw c Hk] using node_ind_merge; intros n' H key s.
  - inversion H; subst; [reflexivity|]. exfalso. eapply Hn; reflexivity.
  - inversion H as [? d Hd|? m' ? args' ? Hne (Hk & Hm) Ha]; subst; [exfalso; eapply Hd; reflexivity|].
    cbn [eval srun kmap kw_slots]. unfold srun_merge.
    assert (HS : forall i, exists sl, arg_slots m i (lmap (fun a => (depth a, eval conv a, node_cfg a)) args) = Ok sl /\
       length sl = length args /\ map s_cfg sl = map node_cfg args /\
       forall j, Forall2 lslot (combine (seq j (length sl)) sl)
         (combine (seq j (length (slots_of (value T) S m' i (map (fun a => (sdepth a, srun a)) args')))) (slots_of (value T) S m' i (map (fun a => (sdepth a, srun a)) args')))).
    { clear H Hm Hne. induction Ha as [|a b args args' Hab Ha IHa]; intros i; [exists []; repeat split; auto; constructor|].
      cbn [lmap arg_slots]. rewrite Hk, (lifted_depth _ _ _ _ _ Hab). cbn [bind].
      destruct (IHa (Forall_inv_tail IH) (Datatypes.S i)) as (sl & E & L & C & F). rewrite E. cbn [bind]. eexists. split; [reflexivity|].
      split; [simpl; auto|]. split; [simpl; f_equal; auto|]. intros j. cbn [map slots_of length seq combine]. constructor; [|apply F].
      split; [reflexivity|]. split; [reflexivity|]. split; [reflexivity|]. cbn [snd s_eval ss_eval]. intros k t. apply (Forall_inv IH b Hab). }
    destruct (HS 0) as (sl & E & L & C & F). rewrite E. cbn [bind]. rewrite app_nil_r. unfold eval_merge. specialize (F 0).
    set (sl' := slots_of (value T) S m' 0 _) in *.
    assert (L' : length sl' = length sl).
    { clear -F. assert (G : forall A B (P : A -> B -> Prop) x y, Forall2 P x y -> length x = length y) by (induction 1; simpl; auto).
      apply G in F. rewrite !combine_length, !seq_length, !Nat.min_id in F. auto. }
    assert (HC : Forall (slot_cfg (map node_cfg args)) (combine (seq 0 (length sl)) sl)).
    { clear -C. rewrite <- C. clear C. apply Forall_forall. intros (i & x) Hi. unfold slot_cfg. cbn [fst snd].
      assert (G : forall l j, In (i, x) (combine (seq j (length l)) l) -> j <= i /\ nth_error l (i - j) = Some x).
      { induction l as [|y l IH]; intros j Q; [destruct Q|]. cbn [length seq combine] in Q. destruct Q as [Q|Q].
        - inversion Q; subst. rewrite Nat.sub_diag. auto.
        - apply IH in Q as (Q1 & Q2). split; [lia|]. replace (i - j) with (Datatypes.S (i - Datatypes.S j)) by lia. exact Q2. }
      apply G in Hi as (_ & Hi). rewrite Nat.sub_0_r in Hi. rewrite nth_error_map, Hi. reflexivity. }
    assert (HO : Forall (slot_cfg (map node_cfg args)) (visit_order (combine (seq 0 (length sl)) sl))).
    { clear -HC. unfold visit_order. assert (G : Forall (slot_cfg (map node_cfg args)) (@nil (nat * @slot T))) by constructor. revert G.
      generalize (@nil (nat * @slot T)). induction HC as [|x l Hx HC IH]; intros acc G; simpl; auto. apply IH.
      clear -Hx G. induction G as [|y acc Hy G IH]; simpl; auto. destruct (s_depth (snd y) <? s_depth (snd x)); auto. }
    destruct (visit_l conv (map node_cfg args) key _ _ (order_l _ _ F) HO None [] [] s (fun _ => Forall2_nil _)) as (mg & EV & EM).
    rewrite EV. cbn [bind fst snd].
    destruct (svisit (value T) S key (sorder (value T) S (combine (seq 0 (length sl')) sl')) None [] s) as ((mg' & held) & t).
    cbn [fst snd] in EM |- *. destruct held; [reflexivity|]. specialize (EM eq_refl).
    rewrite L', L. pose proof (collect_l (map node_cfg args) (length args) mg mg' 0 EM) as HL.
    destruct (collect mg 0 (length args)) as [x|], (scollect (value T) S mg' 0 (length args)) as [y|]; try tauto; [|subst; reflexivity].
    destruct HL as (H1 & H2 & H3). cbn [bind map length collect combine]. apply Hm; auto.
    assert (H4 : length x = length (map node_cfg args)) by (rewrite map_length; auto).
    cbn [Nat.add] in H3. clear -H3 H4. revert H3 H4. generalize (map node_cfg args) as cs.
    induction x as [|v x IH]; intros [|c cs] H3 H4; try discriminate; constructor.
    + destruct (H3 0 v eq_refl) as (c' & Q & R). injection Q as <-. exact R.
    + apply IH; [intros k w Q; apply (H3 (Datatypes.S k) w Q)|simpl in H4; auto].
  - inversion H as [? d Hd|]; subst; [exfalso; eapply Hd; reflexivity|congruence].
Qed.

(** ** Examples *)
Definition add1 (l : list Z) (_ : string) : result Z := Ok (fold_right Z.add 0%Z l).
Definition weights {S} : snode Z S := SLeaf 1 (fun k => if String.eqb k "w" then Ok 3%Z else Err KeyError).
Example C114_case :
  srun (doubled (counted add1) 4 weights) "w" 0 = (Ok 48%Z, 15) /\
  fst (srun (doubled (plain add1 : smethod Z unit) 4 weights) "w" tt) = Ok 48%Z /\
  srun (doubled (counted add1) 4 weights) "v" 0 = (Err KeyError, 0) /\
  repeatable (doubled (drawing drop1 (Some 7%Z)) 3 weights).
Proof.
  split; [reflexivity|]. split; [reflexivity|]. split; [reflexivity|].
  assert (M : agree_method (drawing drop1 (Some 7%Z)) (drawing drop1 (Some 7%Z))) by (apply (C114_functions Z Z add1 drop1 7%Z)).
  unfold repeatable. generalize 3. induction n as [|n IH]; simpl; constructor; auto.
Qed.

(** fallback, with a state threaded through it *)
Definition fallback_s {T S} : smethod (value T) S :=
  SMethod (fun _ => true) (fun ins key s =>
    match ins with
    | [SGet a; SGet b] =>
      match a key s with
      | (Err e, s') => if is_missing e then b key s' else (Err e, s')
      | r => r
      end
    | _ => (Err Unmodelled, s)
    end).
Example C114_fallback_case :
  let conv := fun (_ : ety) (v : value Z) => Ok v in
  let c := Config "c" ["w"; "v"] [] [] in
  let a := NModel "a" (dict_get [("w", 1%Z)]) ["w"] c "weight" in
  let b := NModel "b" (dict_get [("w", 2%Z); ("v", 3%Z)]) ["w"; "v"] c "weight" in
  let n := NMerge (Method [KSd TAny; KSd TAny] (Some (KSd TAny)) [] (m_fun fallback)) [a; b] [] (Some c) in
  let n' := SMerge fallback_s [SLeaf 1 (eval conv a); SLeaf 1 (eval conv b)] in
  lifted (S := nat) conv n n' /\ eval conv n "w" = Ok (VT 1%Z) /\ eval conv n "v" = Ok (VT 3%Z) /\ fst (srun n' "v" 0) = Ok (VT 3%Z).
Proof.
  cbv zeta. split; [|repeat split; reflexivity]. apply li_merge; [discriminate| |repeat constructor; discriminate]. split.
  - intros [|[|i]]; try reflexivity. unfold kind_at. simpl. destruct i; reflexivity.
  - intros ins ins' key s H _. destruct H as [|x x' ? ? Hx H]; [reflexivity|]. destruct H as [|y y' ? ? Hy H].
    + destruct x, x'; simpl in Hx; try tauto; reflexivity.
    + destruct H.
      * destruct x as [|g1 c1], x' as [|g1']; simpl in Hx; try tauto; try reflexivity. destruct y as [|g2 c2], y' as [|g2']; simpl in Hy; try tauto; try reflexivity.
        simpl. rewrite (Hx key s). destruct (g1' key s) as [[v|e] s']; simpl; auto. destruct (is_missing e); auto.
      * destruct x, x', y, y'; simpl in Hx, Hy; try tauto; reflexivity.
Qed.

Print Assumptions C114_same_value.
Print Assumptions C114_shared_value.
Print Assumptions C114_functions.
Print Assumptions C114_unseeded.
Print Assumptions C114_one_value_refuted.
Print Assumptions C114_seeded.
Print Assumptions C114_calls.
Print Assumptions C114_once_refuted.
Print Assumptions C114_evaluation.
