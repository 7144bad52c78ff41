(** C122: the types in the annotations of merge methods *)
From Coq Require Import String List Bool Arith Lia.
From Verif Require Import Base ModelTyping SpecTyping.
Import ListNotations.
Open Scope string_scope.
Open Scope nat_scope.
Open Scope list_scope.

(** induction over types and the types in them *)
Definition ty_rect' (P : ty -> Prop)
  (hc : forall c, P (TCls c)) (hg : forall c l, Forall P l -> P (TGen c l))
  (hv : forall l, Forall P l -> P (TVar l)) (hu : forall l, Forall P l -> P (TUnion l))
  (ht : forall l, Forall P l -> P (TTUnion l)) (hf : P TForm) : forall t, P t :=
  fix go t :=
    let all := fix all (l : list ty) : Forall P l :=
      match l with [] => Forall_nil P | a :: l' => Forall_cons a (go a) (all l') end in
    match t with
    | TCls c => hc c
    | TGen c l => hg c l (all l)
    | TVar l => hv l (all l)
    | TUnion l => hu l (all l)
    | TTUnion l => ht l (all l)
    | TForm => hf
    end.

Lemma some_Exists : forall sub c l,
  (fix some (l : list ty) : Prop := match l with [] => False | a :: l' => of_type sub c a \/ some l' end) l
  <-> Exists (of_type sub c) l.
Proof.
  induction l as [|a l IH]; split; intros H.
  - destruct H.
  - inversion H.
  - destruct H as [H|H]; [left; auto|right; apply IH; auto].
  - inversion H; subst; [left; auto|right; apply IH; auto].
Qed.

Lemma anyM_true : forall A (f : A -> result bool) l, anyM f l = Ok true -> Exists (fun x => f x = Ok true) l.
Proof.
  induction l as [|x l IH]; simpl; intros H; [discriminate|].
  destruct (f x) as [[|]|e] eqn:F; simpl in H; [left; auto|right; auto|discriminate].
Qed.

Lemma anyM_err : forall A (f : A -> result bool) l e, anyM f l = Err e -> exists x, In x l /\ f x = Err e.
Proof.
  induction l as [|x l IH]; simpl; intros e H; [discriminate|].
  destruct (f x) as [[|]|e'] eqn:F; simpl in H; [discriminate| |inversion H; subst; eauto].
  destruct (IH _ H) as (y & I & E). eauto.
Qed.

Lemma anyM_total : forall A (f : A -> result bool) (P : A -> Prop) l,
  Forall (fun x => exists b, f x = Ok b /\ (b = true <-> P x)) l ->
  exists b, anyM f l = Ok b /\ (b = true <-> Exists P l).
Proof.
  induction 1 as [|x l (b & E & B) H (b' & E' & B')]; simpl.
  - exists false. split; [reflexivity|]. split; [discriminate|intros X; inversion X].
  - rewrite E. simpl. destruct b.
    + exists true. split; [reflexivity|]. split; [intros _; left; apply B; auto|auto].
    + exists b'. split; [auto|]. split.
      * intros X. right. apply B'; auto.
      * intros X. inversion X; subst; [|apply B'; auto].
        exfalso. assert (false = true) by (apply B; auto). discriminate.
Qed.

Lemma allM_true : forall A (f : A -> result bool) l, allM f l = Ok true -> Forall (fun x => f x = Ok true) l.
Proof.
  induction l as [|x l IH]; simpl; intros H; [constructor|].
  destruct (f x) as [[|]|e] eqn:F; simpl in H; [constructor; auto|discriminate|discriminate].
Qed.

Lemma allM_err : forall A (f : A -> result bool) l e, allM f l = Err e -> exists x, In x l /\ f x = Err e.
Proof.
  induction l as [|x l IH]; simpl; intros e H; [discriminate|].
  destruct (f x) as [[|]|e'] eqn:F; simpl in H; [|discriminate|inversion H; subst; eauto].
  destruct (IH _ H) as (y & I & E). eauto.
Qed.

Lemma allM_total : forall A (f : A -> result bool) (P : A -> Prop) l,
  Forall (fun x => exists b, f x = Ok b /\ (b = true <-> P x)) l ->
  exists b, allM f l = Ok b /\ (b = true <-> Forall P l).
Proof.
  induction 1 as [|x l (b & E & B) H (b' & E' & B')]; simpl.
  - exists true. split; [reflexivity|]. split; auto.
  - rewrite E. simpl. destruct b.
    + exists b'. split; [auto|]. split.
      * intros X. constructor; [apply B; auto|apply B'; auto].
      * intros X. inversion X; subst. apply B'; auto.
    + exists false. split; [auto|]. split; [discriminate|].
      intros X. inversion X; subst. apply B; auto.
Qed.

Section Hierarchy.
  Variable sub : cls -> cls -> bool.
  Hypothesis H : hierarchy sub.

  Lemma of_type_mono : forall c c' t, sub c' c = true -> of_type sub c t -> of_type sub c' t.
  Proof.
    intros c c' t L. induction t as [d|d l _|l IH|l IH|l IH|] using ty_rect'; simpl; intros X;
      try exact (h_trans _ H _ _ _ L X); try contradiction;
      rewrite some_Exists in X; rewrite some_Exists; rewrite Forall_forall in IH; rewrite Exists_exists in *;
      destruct X as (a & I & X); eauto.
  Qed.

  Lemma issubclass_true : forall c t, issubclass sub c t = Ok true -> of_type sub c t.
  Proof.
    intros c t. induction t as [d|d l _|l IH|l IH|l IH|] using ty_rect'; simpl; intros X;
      try discriminate; try congruence;
      apply anyM_true in X; rewrite some_Exists; rewrite Forall_forall in IH; rewrite Exists_exists in *;
      destruct X as (a & I & X); eauto.
  Qed.

  Lemma issubclass_flat : forall c t, flat t ->
    exists b, issubclass sub c t = Ok b /\ (b = true <-> of_type sub c t).
  Proof.
    intros c t. induction t as [d|d l _|l IH|l IH|l IH|] using ty_rect'; intros F; inversion F; subst.
    - simpl. exists (sub c d). split; [auto|reflexivity].
    - destruct (anyM_total _ (issubclass sub c) (of_type sub c) l) as (b & E & B).
      { rewrite Forall_forall in *. auto. }
      exists b. split; [exact E|]. simpl. rewrite some_Exists. exact B.
    - destruct (anyM_total _ (issubclass sub c) (of_type sub c) l) as (b & E & B).
      { rewrite Forall_forall in *. auto. }
      exists b. split; [exact E|]. simpl. rewrite some_Exists. exact B.
  Qed.

  Lemma not_union : forall c, c <> CUnionType -> sub c CUnionType = false.
  Proof. intros c N. destruct (sub c CUnionType) eqn:E; auto. apply (h_union_final _ H) in E. contradiction. Qed.

  Lemma flat_not_var : forall A t (x y : A), flat t -> match t with TVar _ => x | _ => y end = y.
  Proof. intros A t x y F. inversion F; auto. Qed.

  (** is_subclass never answers yes wrongly, unless the target is a type variable *)
  Theorem C122_sound : forall s t, proper s -> (forall l, t <> TVar l) ->
    is_subclass sub s t = Ok true -> included sub s t.
  Proof.
    intros s t P NT. induction s as [d|d l _|l IH|l IH|l IH|] using ty_rect'; intros X c C.
    - inversion P; subst. assert (N := not_union _ H1).
      assert (Y : issubclass sub d t = Ok true)
        by (destruct t; simpl in X; try rewrite N in X; auto; exfalso; eapply NT; reflexivity).
      eapply of_type_mono; [exact C|]. apply issubclass_true; auto.
    - inversion P; subst. assert (N := not_union _ H1).
      assert (Y : issubclass sub d t = Ok true)
        by (destruct t; simpl in X; try rewrite N in X; auto; exfalso; eapply NT; reflexivity).
      eapply of_type_mono; [exact C|]. apply issubclass_true; auto.
    - simpl in X. destruct t; discriminate.
    - inversion P; subst.
      assert (Y : allM (fun a => is_subclass sub a t) l = Ok true)
        by (destruct t; simpl in X; try rewrite (h_refl _ H) in X; auto; exfalso; eapply NT; reflexivity).
      apply allM_true in Y. rewrite Forall_forall in *.
      simpl in C. rewrite some_Exists, Exists_exists in C. destruct C as (a & I & C).
      apply (IH a I (H1 a I) (Y a I) c C).
    - simpl in X. destruct t; try discriminate. exfalso; eapply NT; reflexivity.
    - simpl in C. destruct C.
  Qed.

  (** for classes, aliases and [|] of them against classes and unions of classes it
      never raises and decides inclusion *)
  Theorem C122_decides : forall s t, plain s -> flat t ->
    exists b, is_subclass sub s t = Ok b /\ (b = true <-> included sub s t).
  Proof.
    intros s t P F. unfold included.
    assert (base : forall d, exists b, issubclass sub d t = Ok b /\
               (b = true <-> forall c, sub c d = true -> of_type sub c t)).
    { intros d. destruct (issubclass_flat d t F) as (b & E & B). exists b. split; [auto|]. rewrite B. split.
      - intros X c C. eapply of_type_mono; eauto.
      - intros X. apply X. apply (h_refl _ H). }
    induction s as [d|d l _|l IH|l IH|l IH|] using ty_rect'; inversion P; subst.
    - assert (N := not_union _ H1). destruct (base d) as (b & E & B). exists b. split; [|exact B].
      inversion F; subst; simpl; rewrite N; exact E.
    - assert (N := not_union _ H1). destruct (base d) as (b & E & B). exists b. split; [|exact B].
      inversion F; subst; simpl; rewrite N; exact E.
    - assert (Q : Forall (fun a => exists b, is_subclass sub a t = Ok b /\
                 (b = true <-> forall c, of_type sub c a -> of_type sub c t)) l).
      { rewrite Forall_forall in *. auto. }
      destruct (allM_total _ _ _ _ Q) as (b & E & B). exists b. split.
      + inversion F; subst; simpl; rewrite (h_refl _ H); exact E.
      + rewrite B, Forall_forall. simpl. split.
        * intros X c C. rewrite some_Exists, Exists_exists in C. destruct C as (a & I & C). eauto.
        * intros X a I c C. apply X. rewrite some_Exists, Exists_exists. eauto.
  Qed.

  (** a class or alias against a type variable: one of the constraints *)
  Theorem C122_typevar : forall s c cs, class_of s = Some c -> c <> CUnionType -> Forall flat cs ->
    exists b, is_subclass sub s (TVar cs) = Ok b /\ (b = true <-> included sub s (TVar cs)).
  Proof.
    intros s c cs K NU F. assert (N := not_union _ NU).
    assert (Q : Forall (fun t => exists b, is_subclass_origin sub (TCls c) t = Ok b /\
               (b = true <-> of_type sub c t)) cs).
    { rewrite Forall_forall in *. intros t I. destruct (issubclass_flat c t (F t I)) as (b & E & B).
      exists b. split; [|auto]. specialize (F t I). inversion F; subst; simpl; rewrite N; exact E. }
    destruct (anyM_total _ _ _ _ Q) as (b & E & B). exists b. split.
    - destruct s; simpl in K; inversion K; subst; exact E.
    - rewrite B. unfold included. simpl. split.
      + intros X d D. rewrite some_Exists. rewrite Exists_exists in *. destruct X as (t & I & X).
        exists t. split; auto. eapply of_type_mono; [|exact X].
        destruct s; simpl in K; inversion K; subst; exact D.
      + intros X. rewrite <- some_Exists. apply X.
        destruct s; simpl in K; inversion K; subst; apply (h_refl _ H).
  Qed.

  (** ... but a union against a type variable is accepted whatever its members *)
  Theorem C122_typevar_refuted : forall l d cs, (forall x, d <> TVar x) ->
    is_subclass sub (TUnion l) (TVar (d :: cs)) = Ok true.
  Proof.
    intros l d cs N. destruct d; simpl; try rewrite (h_refl _ H); auto.
    exfalso. eapply N; reflexivity.
  Qed.

  (** the exceptions: only TypeError; [typing.Union] as source, and an alias as target *)
  Theorem C122_raises : forall s t,
    (forall e, is_subclass sub s t = Err e -> e = TypeError) /\
    (forall l, s = TTUnion l -> (forall x, t <> TVar x) -> is_subclass sub s t = Err TypeError) /\
    (forall c d l, class_of s = Some c -> c <> CUnionType -> t = TGen d l -> is_subclass sub s t = Err TypeError).
  Proof.
    intros s t.
    assert (A : forall c t e, issubclass sub c t = Err e -> e = TypeError).
    { intros c t'. induction t' as [d|d l _|l IH|l IH|l IH|] using ty_rect'; simpl; intros e E;
        try congruence; apply anyM_err in E; destruct E as (x & I & E); rewrite Forall_forall in IH; eauto. }
    assert (B : forall o t e, is_subclass_origin sub o t = Err e -> e = TypeError).
    { intros o t'. induction t' as [d|d l _|l IH|l IH|l IH|] using ty_rect'; intros e E;
        try (simpl in E; apply anyM_err in E; destruct E as (x & I & E); rewrite Forall_forall in IH; eauto; fail);
        destruct o; simpl in E; try congruence; destruct (sub c CUnionType); try congruence;
        apply (A c (TCls d)) in E || apply (A c (TGen d l)) in E || apply (A c (TUnion l)) in E
        || apply (A c (TTUnion l)) in E || apply (A c TForm) in E; auto. }
    split; [|split].
    - induction s as [d|d l IH|l IH|l IH|l IH|] using ty_rect'; intros e E.
      + destruct t; cbn [is_subclass] in E;
          try (cbn [origin] in E; apply anyM_err in E; destruct E as (x & I & E); eapply B; exact E);
          (destruct (sub d CUnionType); [discriminate|eapply A; exact E]).
      + rewrite Forall_forall in IH.
        destruct t; cbn [is_subclass] in E;
          try (cbn [origin] in E; apply anyM_err in E; destruct E as (x & I & E); eapply B; exact E);
          (destruct (sub d CUnionType); [apply allM_err in E; destruct E as (x & I & E); eapply IH; eauto|eapply A; exact E]).
      + destruct t; simpl in E; discriminate.
      + rewrite Forall_forall in IH.
        destruct t; cbn [is_subclass] in E;
          try (cbn [origin] in E; apply anyM_err in E; destruct E as (x & I & E); eapply B; exact E);
          (destruct (sub CUnionType CUnionType); [apply allM_err in E; destruct E as (x & I & E); eapply IH; eauto|eapply A; exact E]).
      + destruct t; cbn [is_subclass] in E; try congruence.
        cbn [origin] in E; apply anyM_err in E; destruct E as (x & I & E); eapply B; exact E.
      + destruct t; cbn [is_subclass] in E; try congruence.
        cbn [origin] in E; apply anyM_err in E; destruct E as (x & I & E); eapply B; exact E.
    - intros l E N. subst s. destruct t; simpl; auto. exfalso; eapply N; reflexivity.
    - intros c d l K N E. subst t. apply not_union in N.
      destruct s; simpl in K; inversion K; subst; simpl; rewrite N; reflexivity.
  Qed.

  Lemma is_none_In : forall l, existsb is_none l = true <-> In (TCls CNone) l.
  Proof.
    intros l. rewrite existsb_exists. split.
    - intros (x & I & E). destruct x as [[]| | | | |]; try discriminate. exact I.
    - intros I. exists (TCls CNone). auto.
  Qed.

  Lemma below_total : forall i ds, (exists c, class_of i = Some c) ->
    exists b, anyM (origin_below sub i) ds = Ok b /\
      (b = true <-> exists c d, class_of i = Some c /\ In d ds /\ sub c d = true).
  Proof.
    intros i ds (c & K).
    destruct (anyM_total _ (origin_below sub i) (fun d => sub c d = true) ds) as (b & E & B).
    { apply Forall_forall. intros d _. exists (sub c d). split; [|reflexivity].
      destruct i; simpl in K; inversion K; subst; reflexivity. }
    exists b. split; [exact E|]. rewrite B, Exists_exists. split.
    - intros (d & I & X). exists c, d. auto.
    - intros (c' & d & K' & I & X). exists d. split; auto. congruence.
  Qed.

  Lemma union_below : forall l ds, (forall d, In d ds -> sub CUnionType d = false) ->
    anyM (origin_below sub (TUnion l)) ds = Ok false.
  Proof.
    induction ds as [|d ds IH]; simpl; intros X; auto.
    unfold origin_below at 1. simpl. rewrite (X d (or_introl eq_refl)). apply IH. auto.
  Qed.

  (** whether a type is accepted, for a list of supported classes *)
  Lemma accepts : forall i d0 ds, (forall d, In d (d0 :: ds) -> sub CUnionType d = false) ->
    let r := match i with
             | TVar _ => Ok i
             | _ => let* b := anyM (origin_below sub i) (d0 :: ds) in if b then Ok i else Err TypeError
             end in
    (supported sub (d0 :: ds) i -> r = Ok i) /\ (~ supported sub (d0 :: ds) i -> r = Err TypeError).
  Proof.
    intros i d0 ds U r.
    assert (CL : (exists c, class_of i = Some c) -> (supported sub (d0 :: ds) i -> r = Ok i) /\
                 (~ supported sub (d0 :: ds) i -> r = Err TypeError)).
    { intros K. destruct (below_total i (d0 :: ds) K) as (b & E & B).
      assert (R : r = if b then Ok i else Err TypeError).
      { subst r. destruct K as (c & K). destruct i; simpl in K; try discriminate; rewrite E; reflexivity. }
      split; intros S.
      - destruct S as [(l & S)|S]; [subst i; destruct K as (c & K); discriminate|].
        apply B in S. subst b. exact R.
      - destruct b; [|exact R]. exfalso. apply S. right. apply B. reflexivity. }
    destruct i as [c|c l|l|l|l|]; try (apply CL; simpl; eauto; fail).
    - split; intros S; [reflexivity|]. exfalso. apply S. left; eauto.
    - split; intros S.
      + destruct S as [(l' & S)|(c & d & S & _)]; discriminate.
      + subst r. rewrite (union_below l (d0 :: ds) U). reflexivity.
    - split; intros S; [|reflexivity]. destruct S as [(l' & S)|(c & d & S & _)]; discriminate.
    - split; intros S; [|reflexivity]. destruct S as [(l' & S)|(c & d & S & _)]; discriminate.
  Qed.

  Lemma supported_dec : forall ds t, supported sub ds t \/ ~ supported sub ds t.
  Proof.
    intros ds t. destruct (class_of t) as [c|] eqn:K.
    - destruct (existsb (sub c) ds) eqn:E.
      + left. right. apply existsb_exists in E. destruct E as (d & I & E). eauto 6.
      + right. intros [(l & S)|(c' & d & K' & I & S)]; [subst t; discriminate|].
        assert (existsb (sub c) ds = true); [|congruence].
        apply existsb_exists. exists d. split; [auto|congruence].
    - destruct t; try discriminate.
      + left. left. eauto.
      + right. intros [(l & S)|(c' & d & K' & _)]; discriminate.
      + right. intros [(l & S)|(c' & d & K' & _)]; discriminate.
      + right. intros [(l & S)|(c' & d & K' & _)]; discriminate.
  Qed.

  Lemma keeps_fun : forall i,
    keeps i (if existsb is_none (get_args i) then hd i (get_args i) else i) /\
    forall k, keeps i k -> k = if existsb is_none (get_args i) then hd i (get_args i) else i.
  Proof.
    intros i. assert (G : get_args i = members i) by (destruct i; reflexivity). rewrite G. unfold keeps.
    destruct (existsb is_none (members i)) eqn:E.
    - apply is_none_In in E. split.
      + left. split; auto. destruct (members i) as [|a l]; [destruct E|]. simpl. eauto.
      + intros k [(I & l & M)|(I & M)]; [rewrite M; reflexivity|contradiction].
    - assert (N : ~ In (TCls CNone) (members i)) by (rewrite <- is_none_In; congruence). split.
      + right. auto.
      + intros k [(I & l & M)|(I & M)]; [contradiction|auto].
  Qed.

  (** the classes a parameter may have *)
  Definition parameter_classes : list cls := [CStateDict; CStr; CInt; CFloat; CBool; CNone; CTensor].

  (** Parameter(...) takes exactly the supported types, and type variables, and
      raises TypeError for anything else; of an optional type it keeps the first member *)
  Theorem C122_parameter : forall i,
    (forall k, parameter sub i = Ok k <-> keeps i k /\ supported sub parameter_classes k) /\
    (forall e, parameter sub i = Err e -> e = TypeError).
  Proof.
    intros i. destruct (keeps_fun i) as (K & KU). unfold parameter.
    set (k0 := if existsb is_none (get_args i) then hd i (get_args i) else i) in *.
    assert (A := accepts k0 CStateDict literal_classes).
    assert (U : forall d, In d (CStateDict :: literal_classes) -> sub CUnionType d = false).
    { intros d I. apply (h_union_apart _ H). simpl in *. tauto. }
    specialize (A U). cbv zeta in A. destruct A as (A1 & A2).
    change (CStateDict :: literal_classes) with parameter_classes in *.
    destruct (supported_dec parameter_classes k0) as [S|S].
    - rewrite (A1 S). split; [|intros e E; discriminate]. intros k. split.
      + intros E. inversion E; subst k. auto.
      + intros (X & _). rewrite (KU k X). reflexivity.
    - rewrite (A2 S). split; [|intros e E; congruence]. intros k. split; [discriminate|].
      intros (X & Y). exfalso. apply S. rewrite <- (KU k X). exact Y.
  Qed.

  (** Return(...) takes no state dicts and no optional types *)
  Theorem C122_return : forall i,
    (forall k, return_ sub i = Ok k <-> k = i /\ supported sub [CStr; CInt; CFloat; CBool; CNone; CTensor] i) /\
    (forall e, return_ sub i = Err e -> e = TypeError).
  Proof.
    intros i. unfold return_. assert (A := accepts i CStr [CInt; CFloat; CBool; CNone; CTensor]).
    assert (U : forall d, In d (CStr :: [CInt; CFloat; CBool; CNone; CTensor]) -> sub CUnionType d = false).
    { intros d I. apply (h_union_apart _ H). simpl in *. tauto. }
    specialize (A U). cbv zeta in A. destruct A as (A1 & A2).
    change literal_classes with [CStr; CInt; CFloat; CBool; CNone; CTensor].
    destruct (supported_dec [CStr; CInt; CFloat; CBool; CNone; CTensor] i) as [S|S].
    - rewrite (A1 S). split; [|intros e E; discriminate]. intros k. split.
      + intros E. inversion E; subst k. auto.
      + intros (X & _). subst k. reflexivity.
    - rewrite (A2 S). split; [|intros e E; congruence]. intros k. split; [discriminate|].
      intros (_ & Y). contradiction.
  Qed.

  Lemma supported_proper : forall k c, supported sub parameter_classes k -> class_of k = Some c -> c <> CUnionType.
  Proof.
    intros k c [(l & S)|(c' & d & K' & I & S)] K E; [subst k; discriminate|].
    assert (c' = CUnionType) by congruence. subst c'.
    rewrite (h_union_apart _ H d) in S; [discriminate|]. simpl in *. tauto.
  Qed.

  (** a parameter that was accepted reaches the method as a lazy state dict exactly
      when its class is a state dict, with the type of the values it was declared
      with, and as a value otherwise; nothing raises *)
  Theorem C122_hand : forall i k, parameter sub i = Ok k ->
    (forall v, hand sub k = Ok (HState v) <->
       exists c, class_of k = Some c /\ sub c CStateDict = true /\ v = hd_error (members k)) /\
    (forall t, hand sub k = Ok (HValue t) <->
       t = k /\ forall c, class_of k = Some c -> sub c CStateDict = false) /\
    (forall e, hand sub k <> Err e).
  Proof.
    intros i k P. apply C122_parameter in P. destruct P as (_ & S).
    destruct (class_of k) as [c|] eqn:K.
    - assert (N := not_union _ (supported_proper _ _ S K)).
      assert (E : hand sub k = Ok (if sub c CStateDict then HState (hd_error (members k)) else HValue k)).
      { unfold hand. destruct k; simpl in K; inversion K; subst; simpl; rewrite N; reflexivity. }
      rewrite E. destruct (sub c CStateDict) eqn:L.
      + split; [|split].
        * intros v. split; [intros X; inversion X; eauto|]. intros (c' & K' & L' & V). subst v. reflexivity.
        * intros t. split; [discriminate|]. intros (_ & X). rewrite (X c eq_refl) in L. discriminate.
        * discriminate.
      + split; [|split].
        * intros v. split; [discriminate|]. intros (c' & K' & L' & V). congruence.
        * intros t. split; [intros X; inversion X; split; congruence|]. intros (X & _). subst t. reflexivity.
        * discriminate.
    - destruct S as [(l & S)|(c' & d & K' & _)]; [|congruence]. subst k. unfold hand. simpl.
      split; [|split].
      + intros v. split; [discriminate|]. intros (c' & K' & _). discriminate.
      + intros t. split; [intros X; inversion X; split; [auto|discriminate]|]. intros (X & _). subst t. reflexivity.
      + discriminate.
  Qed.

  (** ... and without a merge space of its own it is in the space "param" exactly when
      it has a default or is declared as one of the Python literals *)
  Theorem C122_space : forall i k d, parameter sub i = Ok k ->
    exists b, in_param_space sub k d = Ok b /\
      (b = true <-> d = true \/ exists c x, class_of k = Some c /\
         In x [CStr; CInt; CFloat; CBool; CNone] /\ sub c x = true).
  Proof.
    intros i k d P. apply C122_parameter in P. destruct P as (_ & S). unfold in_param_space.
    destruct d; [exists true; split; [reflexivity|]; split; auto|].
    destruct (class_of k) as [c|] eqn:K.
    - assert (N := not_union _ (supported_proper _ _ S K)).
      destruct (issubclass_flat c python_literal) as (b & E & B).
      { constructor. repeat constructor. }
      exists b. split.
      + destruct k; simpl in K; inversion K; subst; cbn [is_subclass]; unfold python_literal in *; rewrite N; exact E.
      + rewrite B. simpl. split.
        * intros X. right. exists c.
          repeat (destruct X as [X|X]; [eexists; split; [reflexivity|]; split; [|exact X]; simpl; tauto|]). destruct X.
        * intros [X|(c' & x & K' & I & X)]; [discriminate|]. inversion K'; subst c'.
          repeat (destruct I as [I|I]; [subst x; tauto|]). destruct I.
    - destruct S as [(l & S)|(c' & d & K' & _)]; [|congruence]. subst k. exists false. split; [reflexivity|].
      split; [discriminate|]. intros [X|(c & x & K' & _)]; discriminate.
  Qed.

  (** [X | None] and [Optional[X]] declare what [X] does *)
  Theorem C122_optional : forall k, ~ In (TCls CNone) (members k) ->
    parameter sub (TUnion [k; TCls CNone]) = parameter sub k /\
    parameter sub (TTUnion [k; TCls CNone]) = parameter sub k.
  Proof.
    intros k N. assert (X : existsb is_none (get_args k) = false).
    { destruct (existsb is_none (get_args k)) eqn:E; auto. apply is_none_In in E. exfalso. apply N.
      destruct k; exact E. }
    unfold parameter. rewrite X. cbn [get_args existsb is_none hd].
    rewrite !orb_true_r. auto.
  Qed.

  (** ... but [None | X] declares [None], further members are dropped, and so is the
      state dict of [StateDict[None]] *)
  Theorem C122_optional_refuted : forall x y,
    parameter sub (TUnion [TCls CNone; x]) = Ok (TCls CNone) /\
    parameter sub (TUnion [TCls CInt; y; TCls CNone]) = Ok (TCls CInt) /\
    parameter sub (TGen CStateDict [TCls CNone]) = Ok (TCls CNone).
  Proof.
    intros x y. assert (P : forall c, In c parameter_classes -> supported sub parameter_classes (TCls c)).
    { intros c I. right. exists c, c. split; [reflexivity|]. split; [auto|apply (h_refl _ H)]. }
    repeat split; apply C122_parameter; (split; [left; simpl; split; [tauto|eauto]|apply P; simpl; tauto]).
  Qed.
End Hierarchy.

Lemma index_eqb_spec : forall a b, index_eqb a b = true <-> a = b.
Proof.
  intros [a|a] [b|b]; simpl; split; intros E; try discriminate.
  - apply Nat.eqb_eq in E. congruence.
  - inversion E. apply Nat.eqb_refl.
  - apply String.eqb_eq in E. congruence.
  - inversion E. apply String.eqb_refl.
Qed.

Lemma index_reflect : forall a b, reflect (a = b) (index_eqb a b).
Proof. intros a b. apply iff_reflect. symmetry. apply index_eqb_spec. Qed.

Lemma dget_app : forall P (i : arg_index) (d e : list (arg_index * P)),
  dget index_eqb i (d ++ e) = match dget index_eqb i d with Some v => Some v | None => dget index_eqb i e end.
Proof. induction d as [|[k v] d IH]; intros e; simpl; auto. destruct (index_eqb i k); auto. Qed.

Lemma keys_combine : forall P (l : list P) s, map fst (combine (map (@inl nat string) (seq s (length l))) l) = map inl (seq s (length l)).
Proof. induction l as [|p l IH]; intros s; simpl; auto. rewrite IH. reflexivity. Qed.

Lemma dget_positions : forall P (l : list P) s i,
  dget index_eqb (inl i) (combine (map (@inl nat string) (seq s (length l))) l) =
  if i <? s then None else nth_error l (i - s).
Proof.
  induction l as [|p l IH]; intros s i; simpl.
  - destruct (i <? s); auto. destruct (i - s); auto.
  - destruct (Nat.eqb_spec i s) as [->|N].
    + rewrite Nat.ltb_irrefl, Nat.sub_diag. reflexivity.
    + rewrite IH. destruct (Nat.ltb_spec i (S s)), (Nat.ltb_spec i s); try lia; auto.
      replace (i - s) with (S (i - S s)) by lia. reflexivity.
Qed.

Lemma dget_positions_kw : forall P (l : list P) s x,
  dget index_eqb (inr x) (combine (map (@inl nat string) (seq s (length l))) l) = None.
Proof. induction l as [|p l IH]; intros s x; simpl; auto. Qed.

Lemma dget_rest : forall P (v : P) n s i,
  dget index_eqb (inl i) (map (fun j => (@inl nat string j, v)) (seq s n)) =
  if (s <=? i) && (i <? s + n) then Some v else None.
Proof.
  induction n as [|n IH]; intros s i; simpl.
  - destruct (Nat.leb_spec s i), (Nat.ltb_spec i (s + 0)); auto; lia.
  - destruct (Nat.eqb_spec i s) as [->|N].
    + rewrite Nat.leb_refl. destruct (Nat.ltb_spec s (s + S n)); auto; lia.
    + rewrite IH. destruct (Nat.leb_spec (S s) i), (Nat.leb_spec s i), (Nat.ltb_spec i (S s + n)), (Nat.ltb_spec i (s + S n));
        auto; lia.
Qed.

Lemma dget_rest_kw : forall P (v : P) n s x,
  dget index_eqb (inr x) (map (fun j => (@inl nat string j, v)) (seq s n)) = None.
Proof. induction n as [|n IH]; intros s x; simpl; auto. Qed.

Lemma dget_named : forall P (l : list (string * P)) x,
  dget index_eqb (inr x) (map (fun kv => (@inr nat string (fst kv), snd kv)) l) = dget String.eqb x l.
Proof. induction l as [|[k v] l IH]; intros x; simpl; auto. rewrite IH. reflexivity. Qed.

Lemma dget_named_pos : forall P (l : list (string * P)) i,
  dget index_eqb (inl i) (map (fun kv => (@inr nat string (fst kv), snd kv)) l) = None.
Proof. induction l as [|[k v] l IH]; intros i; simpl; auto. Qed.

Lemma NoDup_app3 : forall A (l m : list A), NoDup l -> NoDup m -> (forall x, In x l -> In x m -> False) -> NoDup (l ++ m).
Proof.
  induction l as [|a l IH]; intros m L M D; simpl; auto. inversion L; subst. constructor.
  - intros I. apply in_app_or in I. destruct I as [I|I]; [auto|]. apply (D a); simpl; auto.
  - apply IH; auto. intros x X Y. apply (D x); simpl; auto.
Qed.

(** the dictionary, flat *)
Lemma as_dict_flat : forall P (f : fargs P) n, NoDup (map fst (fa_kwargs f)) ->
  as_dict f n = combine (map inl (seq 0 (length (fa_args f)))) (fa_args f)
    ++ match fa_vararg f with
       | Some v => map (fun i => (@inl nat string i, v)) (seq (length (fa_args f)) (varargs_count f n))
       | None => []
       end
    ++ map (fun kv => (inr (fst kv), snd kv)) (fa_kwargs f).
Proof.
  intros P f n ND. unfold as_dict.
  set (A := combine (map inl (seq 0 (length (fa_args f)))) (fa_args f)).
  set (B := match fa_vararg f with
            | Some v => map (fun i => (@inl nat string i, v)) (seq (length (fa_args f)) (varargs_count f n))
            | None => [] end).
  set (C := map (fun kv => (@inr nat string (fst kv), snd kv)) (fa_kwargs f)).
  assert (KA : map fst A = map inl (seq 0 (length (fa_args f)))) by apply keys_combine.
  assert (KB : exists m, map fst B = map inl (seq (length (fa_args f)) m)).
  { subst B. destruct (fa_vararg f); [|exists 0; reflexivity].
    eexists. rewrite map_map. simpl. reflexivity. }
  destruct KB as (m & KB).
  assert (KC : map fst C = map inr (map fst (fa_kwargs f))) by (subst C; rewrite !map_map; reflexivity).
  assert (NI : forall l, NoDup l -> NoDup (map (@inl nat string) l)).
  { intros l L. apply FinFun.Injective_map_NoDup; auto. intros x y E. congruence. }
  assert (NAB : NoDup (map fst (A ++ B))).
  { rewrite map_app, KA, KB, <- map_app, <- seq_app. apply NI, seq_NoDup. }
  transitivity (dupdate index_eqb (dupdate index_eqb A B) C); [reflexivity|].
  rewrite (dupdate_fresh index_eqb index_reflect B A NAB). etransitivity; [apply (dupdate_fresh index_eqb index_reflect C (A ++ B))|].
  2: symmetry; apply app_assoc.
  - rewrite map_app. apply NoDup_app3; auto.
    + rewrite KC. apply FinFun.Injective_map_NoDup; auto. intros x y E. congruence.
    + intros x X Y. rewrite map_app, KA, KB, <- map_app in X. rewrite KC in Y.
      apply in_map_iff in X. apply in_map_iff in Y. destruct X as (a & X & _), Y as (b & Y & _). congruence.
Qed.

(** the type looked up for each argument of a call with [n] positional arguments: its
    own, or that of the variadic parameter; KeyError where there is none *)
Theorem C122_lookup : forall P (f : fargs P) n, NoDup (map fst (fa_kwargs f)) ->
  (forall i p, nth_error (fa_args f) i = Some p -> input_type f n (inl i) = Ok p) /\
  (forall i v, length (fa_args f) <= i -> i < n -> fa_vararg f = Some v -> input_type f n (inl i) = Ok v) /\
  (forall i, length (fa_args f) <= i -> (n <= i \/ fa_vararg f = None) -> input_type f n (inl i) = Err KeyError) /\
  (forall x p, In (x, p) (fa_kwargs f) -> input_type f n (inr x) = Ok p) /\
  (forall x, ~ In x (map fst (fa_kwargs f)) -> input_type f n (inr x) = Err KeyError).
Proof.
  intros P f n ND. unfold input_type. rewrite (as_dict_flat P f (Some n) ND).
  assert (KW : forall x, dget index_eqb (inr x) (combine (map inl (seq 0 (length (fa_args f)))) (fa_args f)
    ++ match fa_vararg f with
       | Some v => map (fun i => (@inl nat string i, v)) (seq (length (fa_args f)) (varargs_count f (Some n)))
       | None => []
       end
    ++ map (fun kv => (inr (fst kv), snd kv)) (fa_kwargs f)) = dget String.eqb x (fa_kwargs f)).
  { intros x. rewrite !dget_app, dget_positions_kw, dget_named.
    destruct (fa_vararg f); simpl; [rewrite dget_rest_kw|]; reflexivity. }
  split; [|split; [|split; [|split]]].
  - intros i p E. rewrite dget_app, dget_positions, Nat.sub_0_r. simpl. rewrite E. reflexivity.
  - intros i v L N V. rewrite V. rewrite dget_app, dget_positions, Nat.sub_0_r. simpl.
    rewrite (proj2 (nth_error_None (fa_args f) i) L). rewrite dget_app, dget_rest.
    unfold varargs_count. rewrite V.
    destruct (Nat.leb_spec (length (fa_args f)) i), (Nat.ltb_spec i (length (fa_args f) + (n - length (fa_args f))));
      simpl; auto; lia.
  - intros i L N. rewrite dget_app, dget_positions, Nat.sub_0_r. simpl.
    rewrite (proj2 (nth_error_None (fa_args f) i) L). rewrite dget_app, dget_named_pos.
    unfold varargs_count. destruct (fa_vararg f) as [v|]; [|reflexivity].
    rewrite dget_rest. destruct N as [N|N]; [|discriminate].
    destruct (Nat.leb_spec (length (fa_args f)) i), (Nat.ltb_spec i (length (fa_args f) + (n - length (fa_args f))));
      simpl; auto; lia.
  - intros x p I. rewrite KW. rewrite (dget_NoDup_In String.eqb String.eqb_spec x p (fa_kwargs f) ND I). reflexivity.
  - intros x I. rewrite KW. rewrite (proj2 (dget_None String.eqb String.eqb_spec x (fa_kwargs f)) I). reflexivity.
Qed.

(** without a number of arguments: every parameter once, the variadic one after the others *)
Theorem C122_all : forall P (f : fargs P), NoDup (map fst (fa_kwargs f)) ->
  map snd (as_dict f None) =
    fa_args f ++ match fa_vararg f with Some v => [v] | None => [] end ++ map snd (fa_kwargs f) /\
  NoDup (map fst (as_dict f None)).
Proof.
  intros P f ND. rewrite (as_dict_flat P f None ND). split.
  - rewrite !map_app, map_map. f_equal; [|f_equal].
    + generalize 0. induction (fa_args f) as [|p l IH]; intros s; simpl; auto. rewrite IH. reflexivity.
    + unfold varargs_count. destruct (fa_vararg f) as [v|]; auto.
      replace (length (fa_args f) + 1 - length (fa_args f)) with 1 by lia. reflexivity.
  - rewrite app_assoc, map_app. apply NoDup_app3.
    + rewrite map_app, keys_combine. destruct (fa_vararg f) as [v|].
      * rewrite map_map. simpl. rewrite <- map_app, <- seq_app.
        apply FinFun.Injective_map_NoDup; [intros x y E; congruence|apply seq_NoDup].
      * rewrite app_nil_r. apply FinFun.Injective_map_NoDup; [intros x y E; congruence|apply seq_NoDup].
    + rewrite map_map. simpl. rewrite <- map_map. apply FinFun.Injective_map_NoDup; auto. intros x y E; congruence.
    + intros x X Y. rewrite map_app, keys_combine in X.
      assert (Z : exists a, x = inl a).
      { apply in_app_or in X. destruct X as [X|X].
        - apply in_map_iff in X. destruct X as (a & X & _). eauto.
        - destruct (fa_vararg f); [|destruct X]. rewrite map_map in X. apply in_map_iff in X.
          destruct X as (a & X & _). simpl in X. eauto. }
      destruct Z as (a & Z). rewrite map_map in Y. apply in_map_iff in Y. destruct Y as (b & Y & _).
      simpl in Y. congruence.
Qed.

(** a call that binds: every argument has a type, and is handed over without an
    exception, as a state dict or as a value *)
Theorem C122_call : forall sub (f : fargs ty) n, hierarchy sub -> NoDup (map fst (fa_kwargs f)) ->
  (forall k, In k (fa_args f) \/ fa_vararg f = Some k \/ In k (map snd (fa_kwargs f)) ->
     exists i, parameter sub i = Ok k) ->
  (n <= length (fa_args f) \/ fa_vararg f <> None) ->
  (forall i, i < n -> exists k h, input_type f n (inl i) = Ok k /\ hand sub k = Ok h) /\
  (forall x, In x (map fst (fa_kwargs f)) -> exists k h, input_type f n (inr x) = Ok k /\ hand sub k = Ok h).
Proof.
  intros sub f n H ND A B. destruct (C122_lookup ty f n ND) as (L1 & L2 & _ & L4 & _).
  assert (HO : forall k, (exists i, parameter sub i = Ok k) -> exists h, hand sub k = Ok h).
  { intros k (i & P). destruct (C122_hand sub H i k P) as (_ & _ & X).
    destruct (hand sub k) as [h|e]; [eauto|]. exfalso. eapply X; reflexivity. }
  split.
  - intros i I. destruct (nth_error (fa_args f) i) as [k|] eqn:E.
    + destruct (HO k) as (h & Hh); [apply A; left; eapply nth_error_In; eauto|]. exists k, h. auto.
    + apply nth_error_None in E. destruct B as [B|B]; [lia|].
      destruct (fa_vararg f) as [v|] eqn:V; [|contradiction].
      destruct (HO v) as (h & Hh); [apply A; auto|]. exists v, h. auto.
  - intros x I. apply in_map_iff in I. destruct I as ([y k] & Y & I). simpl in Y. subst y.
    destruct (HO k) as (h & Hh); [apply A; right; right; apply (in_map snd) in I; exact I|]. exists k, h. auto.
Qed.

(** a hierarchy: [COther 0] is object, [bool] derives from [int], [COther 1] is dict,
    [COther 2] derives from Tensor (torch.nn.Parameter) *)
Definition some_classes (c d : cls) : bool :=
  cls_eqb c d || cls_eqb d (COther 0) || (cls_eqb c CBool && cls_eqb d CInt) ||
  (cls_eqb c (COther 2) && cls_eqb d CTensor).

Lemma cls_eqb_spec : forall c d, cls_eqb c d = true <-> c = d.
Proof.
  intros c d. split.
  - destruct c, d; simpl; intros E; try discriminate; auto. apply Nat.eqb_eq in E. congruence.
  - intros E. subst d. destruct c; auto. apply Nat.eqb_refl.
Qed.

Lemma some_classes_below : forall c d, some_classes c d = true <->
  c = d \/ d = COther 0 \/ (c = CBool /\ d = CInt) \/ (c = COther 2 /\ d = CTensor).
Proof.
  intros c d. unfold some_classes. rewrite !orb_true_iff, !andb_true_iff, !cls_eqb_spec. tauto.
Qed.

Lemma some_hierarchy : hierarchy some_classes.
Proof.
  constructor.
  - intros c. apply some_classes_below. auto.
  - intros a b c X Y. rewrite some_classes_below in *.
    destruct X as [X|[X|[(X & X')|(X & X')]]], Y as [Y|[Y|[(Y & Y')|(Y & Y')]]]; subst; try discriminate; auto 6.
  - intros c X. rewrite some_classes_below in X. destruct X as [X|[X|[(X & X')|(X & X')]]]; auto; discriminate.
  - intros d I. simpl in I. repeat (destruct I as [I|I]; [subst d; reflexivity|]). destruct I.
Qed.

(** [def f(a: Parameter(StateDict[Tensor]), b: Parameter(Tensor | None), *c: Parameter(T), alpha: Parameter(float))]
    called with four positional arguments; and what the same functions refuse *)
Example C122_case :
  let f := FArgs [TGen CStateDict [TCls CTensor]; TCls CTensor] (Some (TVar [TCls CTensor; TCls CStr])) [("alpha", TCls CFloat)] in
  hierarchy some_classes /\
  parameter some_classes (TGen CStateDict [TCls CTensor]) = Ok (TGen CStateDict [TCls CTensor]) /\
  parameter some_classes (TUnion [TCls CTensor; TCls CNone]) = Ok (TCls CTensor) /\
  parameter some_classes (TCls (COther 2)) = Ok (TCls (COther 2)) /\
  parameter some_classes (TCls (COther 1)) = Err TypeError /\
  parameter some_classes (TUnion [TCls CInt; TCls CStr]) = Err TypeError /\
  return_ some_classes (TGen CStateDict [TCls CTensor]) = Err TypeError /\
  (let* k := input_type f 4 (inl 0) in hand some_classes k) = Ok (HState (Some (TCls CTensor))) /\
  (let* k := input_type f 4 (inl 1) in hand some_classes k) = Ok (HValue (TCls CTensor)) /\
  (let* k := input_type f 4 (inl 3) in hand some_classes k) = Ok (HValue (TVar [TCls CTensor; TCls CStr])) /\
  (let* k := input_type f 4 (inr "alpha") in hand some_classes k) = Ok (HValue (TCls CFloat)) /\
  input_type f 4 (inl 4) = Err KeyError /\
  in_param_space some_classes (TCls CBool) false = Ok true /\
  in_param_space some_classes (TCls CTensor) false = Ok false /\
  is_subclass some_classes (TUnion [TCls CBool; TCls CFloat]) (TUnion [TCls CInt; TCls CFloat]) = Ok true /\
  is_subclass some_classes (TUnion [TCls (COther 1); TCls CNone]) (TVar [TCls CStr]) = Ok true /\
  ~ included some_classes (TUnion [TCls (COther 1); TCls CNone]) (TVar [TCls CStr]).
Proof.
  simpl. split; [apply some_hierarchy|]. repeat (split; [reflexivity|]).
  intros X. specialize (X (COther 1)). simpl in X. destruct X as [X|X]; [left; reflexivity|discriminate|exact X].
Qed.

Print Assumptions C122_sound.
Print Assumptions C122_decides.
Print Assumptions C122_typevar.
Print Assumptions C122_typevar_refuted.
Print Assumptions C122_raises.
Print Assumptions C122_parameter.
Print Assumptions C122_return.
Print Assumptions C122_hand.
Print Assumptions C122_space.
Print Assumptions C122_optional.
Print Assumptions C122_optional_refuted.
Print Assumptions C122_lookup.
Print Assumptions C122_all.
Print Assumptions C122_call.
