(** C109: [item in recipe]. *)
From Coq Require Import String List Bool ZArith QArith Arith Lia.
From Verif Require Import Base ModelContains.
Import ListNotations.
Open Scope string_scope.
Open Scope list_scope.

(** *** What the operator is for: [node] is [recipe] itself or among its inputs, at any depth *)
Inductive uses : obj -> obj -> Prop :=
| uses_self : forall x, uses x x
| uses_arg : forall i args kwargs v x, In v args -> is_node v = true -> uses v x -> uses (OMerge i args kwargs) x
| uses_kwarg : forall i args kwargs k v x, In (k, v) kwargs -> is_node v = true -> uses v x -> uses (OMerge i args kwargs) x.
(** the same, looking also into dicts of recipes, which a merge evaluates as well *)
Inductive reads : obj -> obj -> Prop :=
| reads_self : forall x, reads x x
| reads_arg : forall i args kwargs v x, In v args -> reads v x -> reads (OMerge i args kwargs) x
| reads_kwarg : forall i args kwargs k v x, In (k, v) kwargs -> reads v x -> reads (OMerge i args kwargs) x
| reads_dict : forall i j l k v x, In (k, v) l -> reads v x -> reads (OLit i (ODict j l)) x.

Section Ind.
Variable P : obj -> Prop.
Hypothesis Hleaf : forall x, match x with ODict _ _ | OLit _ _ | OMerge _ _ _ => False | _ => True end -> P x.
Hypothesis Hdict : forall i l, Forall (fun kv => P (snd kv)) l -> P (ODict i l).
Hypothesis Hlit : forall i v, P v -> P (OLit i v).
Hypothesis Hmerge : forall i args kwargs, Forall P args -> Forall (fun kv => P (snd kv)) kwargs -> P (OMerge i args kwargs).
Fixpoint obj_ind2 (x : obj) : P x :=
  match x with
  | ODict i l => Hdict i l ((fix go l := match l return Forall (fun kv => P (snd kv)) l with
      | [] => Forall_nil _ | kv :: l => Forall_cons _ (obj_ind2 (snd kv)) (go l) end) l)
  | OLit i v => Hlit i v (obj_ind2 v)
  | OMerge i args kwargs => Hmerge i args kwargs
      ((fix go l := match l return Forall P l with [] => Forall_nil _ | v :: l => Forall_cons _ (obj_ind2 v) (go l) end) args)
      ((fix go l := match l return Forall (fun kv => P (snd kv)) l with
      | [] => Forall_nil _ | kv :: l => Forall_cons _ (obj_ind2 (snd kv)) (go l) end) kwargs)
  | x => Hleaf x I
  end.
End Ind.

Section Eq.
Variable eqt : nat -> nat -> bool.
Variable eqn : nat -> fval -> bool.
Notation contains := (contains eqt eqn).
Notation py_eq := (py_eq eqt eqn).

Fixpoint any (l : list obj) (item : obj) : result bool :=
  match l with
  | [] => Ok false
  | v :: l => let* b := if is_node v then contains v item else Ok false in if b then Ok true else any l item
  end.
Lemma contains_merge : forall i args kwargs item,
  contains (OMerge i args kwargs) item = if same_object (OMerge i args kwargs) item then Ok true else any (args ++ map snd kwargs) item.
Proof.
  intros. cbn [ModelContains.contains]. destruct (same_object _ _); [reflexivity|].
  induction args as [|v l IH]; cbn [any app].
  - induction kwargs as [|(k, v) l IH]; cbn [any map snd]; [reflexivity|].
    destruct (if is_node v then _ else _) as [[]|]; cbn [bind]; auto.
  - destruct (if is_node v then _ else _) as [[]|]; cbn [bind]; auto.
Qed.

(** A search that never raises finds exactly what satisfies [p] *)
Lemma search : forall item (p : obj -> Prop),
  (forall c, is_node c = true -> (forall i a k, c <> OMerge i a k) -> (contains c item = Ok true /\ p c) \/ (contains c item = Ok false /\ ~ p c)) ->
  (forall i a k, p (OMerge i a k) <-> same_object (OMerge i a k) item = true) ->
  forall c, is_node c = true -> (contains c item = Ok true /\ exists x, uses c x /\ p x) \/ (contains c item = Ok false /\ ~ exists x, uses c x /\ p x).
Proof.
  intros item p Leaf Same. refine (obj_ind2 (fun c => is_node c = true ->
    (contains c item = Ok true /\ exists x, uses c x /\ p x) \/ (contains c item = Ok false /\ ~ exists x, uses c x /\ p x)) _ _ _ _).
  - intros c Hc N. destruct c; try discriminate; try contradiction.
    destruct (Leaf (OModel id path) N) as [[E H]|[E H]]; [discriminate|left|right]; split; auto.
    + exists (OModel id path). split; [constructor|auto].
    + intros (x & U & Px). inversion U; subst. auto.
  - discriminate.
  - intros i v _ N. destruct (Leaf (OLit i v) N) as [[E H]|[E H]]; [discriminate|left|right]; split; auto.
    + exists (OLit i v). split; [constructor|auto].
    + intros (x & U & Px). inversion U; subst. auto.
  - intros i args kwargs Fa Fk _. rewrite contains_merge. destruct (same_object (OMerge i args kwargs) item) eqn:S.
    { left. split; [auto|]. exists (OMerge i args kwargs). split; [constructor|]. apply Same; auto. }
    assert (Forall (fun c => is_node c = true -> (contains c item = Ok true /\ exists x, uses c x /\ p x) \/
      (contains c item = Ok false /\ ~ exists x, uses c x /\ p x)) (args ++ map snd kwargs)) as F.
    { apply Forall_app. split; [exact Fa|]. apply Forall_map. exact Fk. }
    assert (forall x, (uses (OMerge i args kwargs) x /\ p x) <->
      (exists v, In v (args ++ map snd kwargs) /\ is_node v = true /\ uses v x /\ p x)) as U.
    { intros x. split.
      - intros [U Px]. inversion U; subst.
        + exfalso. apply Same in Px. congruence.
        + exists v. rewrite in_app_iff. auto.
        + exists v. rewrite in_app_iff. split; [right; apply in_map_iff; exists (k, v); auto|auto].
      - intros (v & I & N & Ux & Px). split; [|auto]. apply in_app_iff in I as [I|I]; [eapply uses_arg; eauto|].
        apply in_map_iff in I as ((k & w) & E & I). simpl in E. subst. eapply uses_kwarg; eauto. }
    assert ((any (args ++ map snd kwargs) item = Ok true /\ exists v x, In v (args ++ map snd kwargs) /\ is_node v = true /\ uses v x /\ p x) \/
      (any (args ++ map snd kwargs) item = Ok false /\ ~ exists v x, In v (args ++ map snd kwargs) /\ is_node v = true /\ uses v x /\ p x)) as A.
    { clear U Fa Fk. induction (args ++ map snd kwargs) as [|v l IH].
      - right. split; [auto|]. intros (v & x & [] & _).
      - specialize (IH (Forall_inv_tail F)). pose proof (Forall_inv F) as Fv. cbn [any]. destruct (is_node v) eqn:N.
        + destruct (Fv N) as [[-> (x & Ux & Px)]|[-> H]]; cbn [bind].
          * left. split; [auto|]. exists v, x. simpl; auto.
          * destruct IH as [[E (w & x & I & H')]|[E H']]; [left|right]; split; auto.
            -- exists w, x. simpl; tauto.
            -- intros (w & x & [<-|I] & Nw & Ux & Px); [apply H; eauto|apply H'; exists w, x; auto].
        + cbn [bind]. destruct IH as [[E (w & x & I & H')]|[E H']]; [left|right]; split; auto.
          * exists w, x. simpl; tauto.
          * intros (w & x & [<-|I] & Nw & Ux & Px); [congruence|apply H'; exists w, x; auto]. }
    destruct A as [[E (v & x & I & N & Ux & Px)]|[E H]]; [left|right]; split; auto.
    + exists x. apply U. exists v; auto.
    + intros (x & Hx). apply H. apply U in Hx as (v & Hv). exists v, x. exact Hv.
Qed.

Lemma iff_search : forall r (Q : Prop), (r = Ok true /\ Q) \/ (r = Ok false /\ ~ Q) -> exists b, r = Ok b /\ (b = true <-> Q).
Proof. intros r Q [[-> H]|[-> H]]; eexists; split; eauto; split; auto; intros; try discriminate; contradiction. Qed.
End Eq.

(** C109.  Asking for a model never raises, and tells whether a model node with the same path is the recipe or among its inputs. *)
Theorem C109_model_partial : forall eqt eqn recipe i path, is_node recipe = true ->
  exists b, contains eqt eqn recipe (OModel i path) = Ok b /\ (b = true <-> exists j, uses recipe (OModel j path)).
Proof.
  intros eqt eqn recipe i path N.
  destruct (iff_search _ _ (search eqt eqn (OModel i path) (fun x => exists j, x = OModel j path)
    ltac:(intros c Nc M; destruct c; try discriminate; [right|destruct (String.eqb_spec path0 path) as [->|D]; [left|right]|exfalso; eapply M; reflexivity];
      split; cbn; rewrite ?String.eqb_refl; try reflexivity; [intros (j & E); discriminate|eauto| |intros (j & E); congruence];
      destruct (String.eqb_spec path0 path); congruence)
    ltac:(intros; cbn; split; [intros (j & E); discriminate|discriminate]) recipe N)) as (b & E & H).
  exists b. split; [exact E|]. rewrite H. split; [intros (x & U & j & ->); eauto|intros (j & U); eauto].
Qed.

(** C109.  Asking for the result of a merge method never raises, and tells whether that very node is the recipe or among its inputs. *)
Theorem C109_merge : forall eqt eqn recipe i args kwargs, is_node recipe = true ->
  exists b, contains eqt eqn recipe (OMerge i args kwargs) = Ok b /\ (b = true <-> exists a k, uses recipe (OMerge i a k)).
Proof.
  intros eqt eqn recipe i args kwargs N.
  destruct (iff_search _ _ (search eqt eqn (OMerge i args kwargs) (fun x => exists a k, x = OMerge i a k)
    ltac:(intros c Nc M; destruct c; try discriminate; [right|right|exfalso; eapply M; reflexivity];
      split; try reflexivity; intros (a & k & E); discriminate)
    ltac:(intros j a k; cbn; rewrite Nat.eqb_eq; split; [intros (a' & k' & E); congruence|intros ->; eauto]) recipe N)) as (b & E & H).
  exists b. split; [exact E|]. rewrite H. split; [intros (x & U & a & k & ->); eauto|intros (a & k & U); eauto].
Qed.

(** a literal whose value is not a tensor or a dict *)
Definition plain (v : obj) : Prop := match v with OTensor _ _ | ODict _ _ => False | _ => is_node v = false end.
(** equality of plain values as Python has it: numbers by value, so that 1, 1.0 and True are equal and NaN is not equal to itself *)
Definition number_of (v : obj) : option fval :=
  match v with
  | OInt z => Some (FFin (z # 1))
  | OBool true => Some (FFin (1 # 1))
  | OBool false => Some (FFin (0 # 1))
  | OFloat _ f => Some f
  | _ => None
  end.
Definition equal_values (v w : obj) : Prop :=
  match v, w with
  | OStr s, OStr t => s = t
  | ONone, ONone => True
  | _, _ => match number_of v, number_of w with
            | Some (FFin p), Some (FFin q) => (p == q)%Q
            | Some (FInf a), Some (FInf b) => a = b
            | _, _ => False
            end
  end.

Lemma num_eq_spec : forall f g, num_eq f g = true <-> match f, g with FFin p, FFin q => (p == q)%Q | FInf a, FInf b => a = b | _, _ => False end.
Proof.
  intros [p|a|] [q|b|]; cbn; split; try discriminate; try contradiction.
  - apply Qeq_bool_iff.
  - apply Qeq_bool_iff.
  - apply Bool.eqb_prop.
  - intros ->. apply Bool.eqb_reflx.
Qed.

Lemma plain_eq : forall eqt eqn v w, plain v -> plain w -> exists b, py_eq eqt eqn v w = Ok b /\ (b = true <-> equal_values v w).
Proof.
  intros eqt eqn v w Pv Pw.
  assert (forall x, number_of x = numeric x) as N by (intros x; destruct x as [| |[]| | | | | | |]; reflexivity).
  destruct v; cbn in Pv; try contradiction; try discriminate; destruct w; cbn in Pw; try contradiction; try discriminate;
    cbn [py_eq numeric]; eexists; (split; [reflexivity|]); unfold equal_values; rewrite ?N; cbn [numeric];
    rewrite ?num_eq_spec; try apply String.eqb_eq; try (split; [discriminate|contradiction]); try tauto.
  all: destruct f; (split; [discriminate|contradiction]).
Qed.

(** C109.  Asking for a literal: if neither it nor the literals among the inputs are tensors or dicts it never raises and tells whether
    a literal with an equal value is among the inputs. *)
Theorem C109_literal_partial : forall eqt eqn recipe i w, is_node recipe = true -> plain w ->
  (forall j v, uses recipe (OLit j v) -> plain v) ->
  exists b, contains eqt eqn recipe (OLit i w) = Ok b /\ (b = true <-> exists j v, uses recipe (OLit j v) /\ equal_values v w).
Proof.
  intros eqt eqn recipe i w N Pw Pv. revert N Pv.
  refine (obj_ind2 (fun recipe => is_node recipe = true -> (forall j v, uses recipe (OLit j v) -> plain v) ->
    exists b, contains eqt eqn recipe (OLit i w) = Ok b /\ (b = true <-> exists j v, uses recipe (OLit j v) /\ equal_values v w)) _ _ _ _ recipe).
  - intros c Hc N _. destruct c; try discriminate; try contradiction. exists false. split; [reflexivity|].
    split; [discriminate|]. intros (j & v & U & _). inversion U.
  - discriminate.
  - intros j v _ _ Pv. destruct (plain_eq eqt eqn v w (Pv j v (uses_self _)) Pw) as (b & E & H). exists b. split; [exact E|].
    rewrite H. split; [intros Q; exists j, v; split; [constructor|auto]|]. intros (j' & v' & U & Q). inversion U; subst. auto.
  - intros j args kwargs Fa Fk _ Pv. rewrite contains_merge. cbn [same_object].
    assert (forall v x, In v (args ++ map snd kwargs) -> is_node v = true -> uses v x -> uses (OMerge j args kwargs) x) as Up.
    { intros v x I Nv U. apply in_app_iff in I as [I|I]; [eapply uses_arg; eauto|].
      apply in_map_iff in I as ((k & v') & E & I). simpl in E. subst. eapply uses_kwarg; eauto. }
    assert (Forall (fun recipe => is_node recipe = true -> (forall j v, uses recipe (OLit j v) -> plain v) ->
      exists b, contains eqt eqn recipe (OLit i w) = Ok b /\ (b = true <-> exists j v, uses recipe (OLit j v) /\ equal_values v w)) (args ++ map snd kwargs)) as F.
    { apply Forall_app. split; [exact Fa|]. apply Forall_map. exact Fk. }
    assert (exists b, any eqt eqn (args ++ map snd kwargs) (OLit i w) = Ok b /\
      (b = true <-> exists c k v, In c (args ++ map snd kwargs) /\ is_node c = true /\ uses c (OLit k v) /\ equal_values v w)) as (b & E & H).
    { clear Fa Fk. induction (args ++ map snd kwargs) as [|c l IH].
      - exists false. split; [reflexivity|]. split; [discriminate|]. intros (c & k & v & [] & _).
      - destruct IH as (b & E & H); [intros v x I; apply Up; right; auto|exact (Forall_inv_tail F)|].
        cbn [any]. destruct (is_node c) eqn:Nc.
        + destruct (Forall_inv F Nc) as (b' & E' & H'). { intros k v U. eapply Pv, Up; eauto. left; auto. }
          rewrite E'. cbn [bind]. destruct b'.
          * exists true. split; [reflexivity|]. split; [|auto]. intros _. destruct (proj1 H' eq_refl) as (k & v & U & Q). exists c, k, v. simpl; auto.
          * exists b. split; [exact E|]. rewrite H. split.
            -- intros (d & k & v & I & Q). exists d, k, v. simpl; tauto.
            -- intros (d & k & v & [<-|I] & Nd & U & Q); [|exists d, k, v; auto].
               exfalso. assert (false = true) by (apply H'; exists k, v; auto). discriminate.
        + cbn [bind]. exists b. split; [exact E|]. rewrite H. split.
          * intros (d & k & v & I & Q). exists d, k, v. simpl; tauto.
          * intros (d & k & v & [<-|I] & Nd & U & Q); [congruence|exists d, k, v; auto]. }
    exists b. split; [exact E|]. rewrite H. split.
    + intros (c & k & v & I & Nc & U & Q). exists k, v. split; [eapply Up; eauto|auto].
    + intros (k & v & U & Q). inversion U; subst.
      * exists v0, k, v. rewrite in_app_iff. auto.
      * exists v0, k, v. rewrite in_app_iff. split; [right; apply in_map_iff; eexists; split; [|eassumption]; auto|auto].
Qed.

(** C109.  A recipe made from x contains whatever model or merge x contains. *)
Lemma uses_node : forall x y, is_node x = true -> uses x y -> is_node y = true.
Proof. intros x y N U. induction U; auto. Qed.
Lemma uses_trans : forall x y z, uses x y -> uses y z -> uses x z.
Proof. intros x y z U V. induction U; auto; [eapply uses_arg; eauto|eapply uses_kwarg; eauto]. Qed.
Theorem C109_transitive : forall eqt eqn i args kwargs x item, In x (args ++ map snd kwargs) -> is_node x = true ->
  match item with OModel _ _ | OMerge _ _ _ => True | _ => False end ->
  contains eqt eqn x item = Ok true -> contains eqt eqn (OMerge i args kwargs) item = Ok true.
Proof.
  intros eqt eqn i args kwargs x item I N K H.
  assert (forall z, uses x z -> uses (OMerge i args kwargs) z) as Up.
  { intros z U. apply in_app_iff in I as [I|I]; [eapply uses_arg; eauto|].
    apply in_map_iff in I as ((k & v') & E & I). simpl in E. subst. eapply uses_kwarg; eauto. }
  destruct item; try contradiction.
  - destruct (C109_model_partial eqt eqn x id path N) as (b & E & Q). rewrite H in E. injection E as <-.
    destruct (proj1 Q eq_refl) as (j & U). destruct (C109_model_partial eqt eqn (OMerge i args kwargs) id path eq_refl) as (b & E & Q').
    rewrite E. f_equal. apply Q'. eauto.
  - destruct (C109_merge eqt eqn x id args0 kwargs0 N) as (b & E & Q). rewrite H in E. injection E as <-.
    destruct (proj1 Q eq_refl) as (a & k & U). destruct (C109_merge eqt eqn (OMerge i args kwargs) id args0 kwargs0 eq_refl) as (b & E & Q').
    rewrite E. f_equal. apply Q'. eauto.
Qed.

(** C109.  A dict literal contains itself, whatever it holds; another literal does unless it is NaN or a tensor. *)
Fixpoint dict_all (eqt : nat -> nat -> bool) (eqn : nat -> fval -> bool) (l' l : list (string * obj)) : result bool :=
  match l with
  | [] => Ok true
  | (k, v) :: l =>
      match find k l' with
      | None => Ok false
      | Some v' => if same_object v v' then dict_all eqt eqn l' l
                   else let* b := py_eq eqt eqn v v' in if b then dict_all eqt eqn l' l else Ok false
      end
  end.
Lemma py_eq_dict : forall eqt eqn i j l l', py_eq eqt eqn (ODict i l) (ODict j l') =
  if Nat.eqb (length l) (length l') then dict_all eqt eqn l' l else Ok false.
Proof.
  intros. cbn [py_eq]. destruct (Nat.eqb _ _); [|reflexivity]. induction l as [|(k, v) l IH]; [reflexivity|]. cbn [dict_all].
  destruct (find k l'); [|reflexivity]. rewrite IH. destruct (same_object _ _); reflexivity.
Qed.
Theorem C109_itself : forall eqt eqn i v,
  match v with
  | ODict _ l => NoDup (map fst l)
  | OTensor _ _ => False
  | OFloat _ f => f <> FNan
  | _ => is_node v = false
  end ->
  contains eqt eqn (OLit i v) (OLit i v) = Ok true.
Proof.
  intros eqt eqn i v H. cbn [contains].
  assert (forall w, same_object w w = true \/ py_eq eqt eqn w w = Ok true) as Self.
  { intros w. destruct w; cbn; auto using Nat.eqb_refl.
    - rewrite String.eqb_refl. auto.
    - rewrite (proj2 (Qeq_bool_iff _ _) (Qeq_refl _)). auto.
    - rewrite (proj2 (Qeq_bool_iff _ _) (Qeq_refl _)). auto. }
  destruct v; try contradiction; try discriminate.
  - destruct (Self (OStr s)) as [E|E]; [discriminate|exact E].
  - destruct (Self (OInt z)) as [E|E]; [discriminate|exact E].
  - destruct (Self (OBool b)) as [E|E]; [discriminate|exact E].
  - cbn. f_equal. apply num_eq_spec. destruct f; try reflexivity. congruence.
  - reflexivity.
  - rewrite py_eq_dict, Nat.eqb_refl.
    assert (forall k v, In (k, v) l -> find k l = Some v) as F.
    { induction l as [|(k0, v0) l IH]; [intros k v []|]. simpl in H. inversion H; subst. intros k v [E|I].
      - injection E as -> ->. simpl. rewrite String.eqb_refl. auto.
      - simpl. destruct (String.eqb_spec k k0) as [->|_]; [|auto]. exfalso. apply H2. apply in_map_iff. exists (k0, v). auto. }
    assert (forall l1, incl l1 l -> dict_all eqt eqn l l1 = Ok true) as G.
    { induction l1 as [|(k, v) l1 IH]; intros Inc; [reflexivity|]. cbn [dict_all]. rewrite (F k v) by (apply Inc; left; auto).
      destruct (same_object v v) eqn:S; [|destruct (Self v) as [E|E]; [congruence|rewrite E; cbn [bind]]]; apply IH; intros x Ix; apply Inc; right; auto. }
    apply G, incl_refl.
Qed.

(** C109, violated.  A model in a dict of recipes is not found although a merge reads it; a tensor with two entries raises instead of being
    found in the literal that holds it, also when the tensor is just one of the inputs of the recipe and a number is asked for, so that a
    recipe can contain what it cannot be asked for; NaN is not found; and 1 is found in True. *)
Theorem C109_refuted : forall eqt eqn,
  let m := OModel 1 "a.safetensors" in
  let d := OLit 2 (ODict 3 [("k", m)]) in
  let t := OLit 4 (OTensor 5 2) in
  let n := OLit 6 (OFloat 7 FNan) in
  let one := OLit 8 (OInt 1) in
  (reads (OMerge 9 [d] []) m /\ contains eqt eqn (OMerge 9 [d] []) m = Ok false) /\
  (uses t t /\ contains eqt eqn t t = Err RuntimeError) /\
  (uses (OMerge 9 [t; one] []) one /\ contains eqt eqn (OMerge 9 [t; one] []) one = Err RuntimeError) /\
  contains eqt eqn n n = Ok false /\
  contains eqt eqn (OMerge 9 [OLit 10 (OBool true)] []) one = Ok true.
Proof.
  intros. repeat split; try reflexivity.
  - eapply reads_arg; [left; reflexivity|]. eapply reads_dict; [left; reflexivity|constructor].
  - constructor.
  - eapply uses_arg; [right; left; reflexivity|reflexivity|constructor].
Qed.

(** Concretely, (a + b) * alpha: the models and the inner merge are found, another model and an equal merge made anew are not;
    0.5 is found and 0.25 is not. *)
Example C109_case :
  let a := OModel 1 "a.safetensors" in let b := OModel 2 "b.safetensors" in
  let inner := OMerge 3 [a; b] [] in
  let half := OLit 4 (OFloat 5 (FFin (1 # 2))) in
  let r := OMerge 6 [inner; OLit 7 (OStr "x")] [("alpha", half)] in
  let c := contains (fun _ _ => false) (fun _ _ => false) r in
  map c [OModel 8 "a.safetensors"; b; inner; r; OLit 9 (OFloat 10 (FFin (2 # 4)))] = [Ok true; Ok true; Ok true; Ok true; Ok true] /\
  map c [OModel 8 "c.safetensors"; OMerge 11 [a; b] []; OLit 9 (OFloat 10 (FFin (1 # 4))); OLit 9 (OStr "y")] = [Ok false; Ok false; Ok false; Ok false].
Proof. vm_compute. split; reflexivity. Qed.

Print Assumptions C109_model_partial.
Print Assumptions C109_merge.
Print Assumptions C109_literal_partial.
Print Assumptions C109_transitive.
Print Assumptions C109_itself.
Print Assumptions C109_refuted.
