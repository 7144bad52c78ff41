(** Base vocabulary shared by all models: Python exceptions as values,
    insertion-ordered dictionaries, characters and byte strings.  Nothing here
    models a particular line of /repo: these are the Python built-ins the code
    relies on. *)
From Coq Require Import String Ascii List Bool Arith NArith Lia Permutation.
Import ListNotations.
Set Implicit Arguments.

(** Python exceptions the modelled code raises or can run into. *)
Inductive exn : Type :=
| KeyError | StateDictKeyError (key : string) | ValueError | TypeError
| RuntimeError | IndexError | AttributeError | StopIteration | StructError
| AssertionError | JSONDecodeError | UnicodeDecodeError | FileNotFoundError | ZeroDivisionError
| OutOfFuel | Unmodelled.

Inductive result (A : Type) : Type :=
| Ok (a : A)
| Err (e : exn).
Arguments Ok {A} _.
Arguments Err {A} _.

Definition bind {A B} (r : result A) (f : A -> result B) : result B :=
  match r with Ok a => f a | Err e => Err e end.

Declare Scope res_scope.
Notation "'let*' x ':=' r 'in' k" := (bind r (fun x => k))
  (at level 200, x pattern, r at level 100, k at level 200) : res_scope.
Open Scope res_scope.

Definition is_ok {A} (r : result A) : bool :=
  match r with Ok _ => true | Err _ => false end.

(** [map] with exceptions, left to right. *)
Fixpoint mapM {A B} (f : A -> result B) (l : list A) : result (list B) :=
  match l with
  | [] => Ok []
  | x :: l' => let* y := f x in let* ys := mapM f l' in Ok (y :: ys)
  end.

Lemma bind_Ok : forall A B (r : result A) (f : A -> result B) b,
  bind r f = Ok b -> exists a, r = Ok a /\ f a = Ok b.
Proof. intros A B [a|e] f b H; simpl in H; eauto; discriminate. Qed.

Lemma mapM_Ok_Forall2 : forall A B (f : A -> result B) l ys,
  mapM f l = Ok ys <-> Forall2 (fun x y => f x = Ok y) l ys.
Proof.
  induction l as [|x l IH]; intros ys; split; intros H.
  - inversion H; constructor.
  - inversion H; reflexivity.
  - simpl in H. apply bind_Ok in H as (y & Hy & H).
    apply bind_Ok in H as (ys' & Hys & H). inversion H; subst.
    constructor; auto. apply IH; auto.
  - inversion H as [|? y ? ys' Hy Hys]; subst. simpl. rewrite Hy; simpl.
    apply IH in Hys. rewrite Hys; reflexivity.
Qed.

(** Insertion-ordered dictionaries (Python [dict]). *)
Section Dict.
  Context {K V : Type} (eqb : K -> K -> bool).

  Definition dict_t := list (K * V).

  Fixpoint dget (k : K) (d : list (K * V)) : option V :=
    match d with
    | [] => None
    | (k', v) :: d' => if eqb k k' then Some v else dget k d'
    end.

  (** [d[k] = v]: keeps the position of an existing key, else appends. *)
  Fixpoint dset (k : K) (v : V) (d : list (K * V)) : list (K * V) :=
    match d with
    | [] => [(k, v)]
    | (k', v') :: d' => if eqb k k' then (k', v) :: d' else (k', v') :: dset k v d'
    end.

  (** [d.update(e)] *)
  Definition dupdate (d e : list (K * V)) : list (K * V) :=
    fold_left (fun acc kv => dset (fst kv) (snd kv) acc) e d.

  Definition dmem (k : K) (d : list (K * V)) : bool :=
    match dget k d with Some _ => true | None => false end.

  (** [del d[k]] for a present key; unchanged otherwise *)
  Fixpoint ddel (k : K) (d : list (K * V)) : list (K * V) :=
    match d with
    | [] => []
    | (k', v') :: d' => if eqb k k' then d' else (k', v') :: ddel k d'
    end.

  Hypothesis eqb_spec : forall a b, reflect (a = b) (eqb a b).

  Lemma dget_In : forall k v d, dget k d = Some v -> In (k, v) d.
  Proof.
    induction d as [|[k' v'] d IH]; simpl; intros H; [discriminate|].
    destruct (eqb_spec k k'); [inversion H; subst; auto | auto].
  Qed.

  Lemma dget_None : forall k d, dget k d = None <-> ~ In k (map fst d).
  Proof.
    induction d as [|[k' v'] d IH]; simpl; [tauto|].
    destruct (eqb_spec k k'); subst; split; intros H; try discriminate.
    - exfalso; auto.
    - intros [E|E]; [congruence|]. apply IH in H; auto.
    - apply IH; tauto.
  Qed.

  Lemma dget_NoDup_In : forall k v d,
    NoDup (map fst d) -> In (k, v) d -> dget k d = Some v.
  Proof.
    induction d as [|[k' v'] d IH]; simpl; intros ND H; [tauto|].
    inversion ND as [|? ? Hn ND']; subst.
    destruct (eqb_spec k k') as [->|Hne].
    - destruct H as [E|H]; [inversion E; auto|].
      exfalso; apply Hn. apply (in_map fst) in H; auto.
    - destruct H as [E|H]; [inversion E; congruence|auto].
  Qed.

  Lemma dmem_In : forall k d, dmem k d = true <-> In k (map fst d).
  Proof.
    intros k d; unfold dmem. destruct (dget k d) eqn:E.
    - split; auto. intros _. apply dget_In in E. apply (in_map fst) in E; auto.
    - split; [discriminate|]. intros H. apply dget_None in E; tauto.
  Qed.

  Lemma dget_dset : forall k k' v d,
    dget k (dset k' v d) = if eqb k k' then Some v else dget k d.
  Proof.
    induction d as [|[k0 v0] d IH]; simpl.
    - destruct (eqb_spec k k'); auto.
    - destruct (eqb_spec k' k0) as [->|H0]; simpl.
      + destruct (eqb_spec k k0); auto.
      + rewrite IH. destruct (eqb_spec k k0) as [->|]; auto.
        destruct (eqb_spec k0 k'); auto. congruence.
  Qed.

  Lemma dset_fresh : forall k v d, ~ In k (map fst d) -> dset k v d = d ++ [(k, v)].
  Proof.
    induction d as [|[k0 v0] d IH]; simpl; intros H; auto.
    destruct (eqb_spec k k0) as [->|]; [tauto|]. rewrite IH; tauto.
  Qed.

  Lemma dupdate_fresh : forall e d, NoDup (map fst (d ++ e)) -> dupdate d e = d ++ e.
  Proof.
    induction e as [|[k v] e IH]; intros d ND.
    - rewrite app_nil_r; reflexivity.
    - unfold dupdate; simpl. rewrite dset_fresh.
      + fold (dupdate (d ++ [(k, v)]) e). rewrite IH.
        * rewrite <- app_assoc; reflexivity.
        * rewrite <- app_assoc; exact ND.
      + rewrite map_app in ND; simpl in ND. apply NoDup_remove_2 in ND.
        rewrite in_app_iff in ND; tauto.
  Qed.

  Lemma dset_keys : forall k v d,
    map fst (dset k v d) = if dmem k d then map fst d else map fst d ++ [k].
  Proof.
    intros k v d. unfold dmem.
    induction d as [|[k0 v0] d IH]; simpl; auto.
    destruct (eqb_spec k k0) as [->|]; simpl; auto.
    rewrite IH. destruct (dget k d); auto.
  Qed.

  Lemma dset_NoDup : forall k v d, NoDup (map fst d) -> NoDup (map fst (dset k v d)).
  Proof.
    intros k v d H. rewrite dset_keys.
    destruct (dmem k d) eqn:E; auto.
    apply NoDup_rev in H. rewrite <- (rev_involutive (_ ++ _)). apply NoDup_rev.
    rewrite rev_app_distr; simpl. constructor; auto.
    rewrite <- in_rev. intros Hin. apply dmem_In in Hin; congruence.
  Qed.

  Lemma dset_In : forall k v k' v' d,
    In (k', v') (dset k v d) -> (k' = k /\ v' = v) \/ In (k', v') d.
  Proof.
    induction d as [|[k0 v0] d IH]; simpl; intros H.
    - destruct H as [H|[]]. inversion H; auto.
    - destruct (eqb_spec k k0) as [->|]; simpl in H.
      + destruct H as [H|H]; [inversion H|]; auto.
      + destruct H as [H|H]; auto. destruct (IH H); auto.
  Qed.
End Dict.

(** Bytes and character strings. *)
Notation byte := ascii (only parsing).
Notation chars := (list ascii) (only parsing).
Definition s2l (s : string) : chars := list_ascii_of_string s.
Definition l2s (l : chars) : string := string_of_list_ascii l.

Lemma l2s_s2l : forall s, l2s (s2l s) = s.
Proof. exact string_of_list_ascii_of_string. Qed.
Lemma s2l_l2s : forall l, s2l (l2s l) = l.
Proof. exact list_ascii_of_string_of_list_ascii. Qed.
Lemma s2l_inj : forall a b, s2l a = s2l b -> a = b.
Proof. intros a b H. rewrite <- (l2s_s2l a), H, l2s_s2l; auto. Qed.

Definition ascii_eqb_spec := Ascii.eqb_spec.
Definition string_eqb_spec := String.eqb_spec.

(** [mem c l] *)
Definition has_char (c : ascii) (l : chars) : bool := existsb (Ascii.eqb c) l.

Lemma has_char_In : forall c l, has_char c l = true <-> In c l.
Proof.
  intros c l; unfold has_char. rewrite existsb_exists. split.
  - intros (x & Hx & E). apply Ascii.eqb_eq in E; subst; auto.
  - intros H; exists c; split; auto. apply Ascii.eqb_refl.
Qed.

Lemma has_char_false : forall c l, has_char c l = false <-> ~ In c l.
Proof.
  intros c l. rewrite <- has_char_In. destruct (has_char c l); split; intros; try congruence.
Qed.

(** List slices [l[a:b]] for in-range naturals. *)
Definition slice {A} (a b : nat) (l : list A) : list A := firstn (b - a) (skipn a l).

Lemma firstn_app_exact : forall A (a b : list A), firstn (length a) (a ++ b) = a.
Proof. intros. rewrite firstn_app, firstn_all, Nat.sub_diag; simpl; apply app_nil_r. Qed.
Lemma skipn_app_exact : forall A (a b : list A), skipn (length a) (a ++ b) = b.
Proof. intros. rewrite skipn_app, skipn_all, Nat.sub_diag; auto. Qed.

Lemma slice_app_mid : forall A (x y z : list A),
  slice (length x) (length x + length y) (x ++ y ++ z) = y.
Proof.
  intros. unfold slice. rewrite skipn_app_exact.
  replace (length x + length y - length x) with (length y) by lia.
  apply firstn_app_exact.
Qed.

Lemma slice_length : forall A a b (l : list A), a <= b -> b <= length l -> length (slice a b l) = b - a.
Proof. intros. unfold slice. rewrite firstn_length, skipn_length. lia. Qed.

Lemma skipn_skipn' : forall A a c (l : list A), skipn c (skipn a l) = skipn (a + c) l.
Proof.
  induction a as [|a IH]; intros c l; simpl; auto.
  destruct l; auto. rewrite skipn_nil; auto.
Qed.

Lemma slice_slice : forall A a b c d (l : list A),
  a <= b -> c <= d -> d <= b - a -> slice c d (slice a b l) = slice (a + c) (a + d) l.
Proof.
  intros A a b c d l H1 H2 H3. unfold slice.
  rewrite skipn_firstn_comm, firstn_firstn, skipn_skipn'.
  f_equal; lia.
Qed.

Lemma slice_app_r : forall A a b (x y : list A),
  slice (length x + a) (length x + b) (x ++ y) = slice a b y.
Proof.
  intros. unfold slice. rewrite skipn_app.
  rewrite skipn_all2 by lia. simpl.
  replace (length x + a - length x) with a by lia.
  f_equal; lia.
Qed.

Lemma slice_app_l : forall A a b (x y : list A),
  b <= length x -> slice a b (x ++ y) = slice a b x.
Proof.
  intros A a b x y H. unfold slice.
  destruct (le_lt_dec a b) as [Hab|Hab].
  - rewrite skipn_app, firstn_app.
    replace (b - a - length (skipn a x)) with 0 by (rewrite skipn_length; lia).
    simpl. apply app_nil_r.
  - replace (b - a) with 0 by lia. reflexivity.
Qed.

Lemma nth_error_slice : forall A a b i (l : list A),
  i < b - a -> nth_error (slice a b l) i = nth_error l (a + i).
Proof.
  intros A a b i l H. unfold slice.
  revert b l H. induction a as [|a IH]; intros b l H; simpl.
  - rewrite Nat.sub_0_r in *. revert l b H; induction i as [|i IHi]; intros l b H.
    + destruct b; [lia|]. destruct l; auto.
    + destruct b; [lia|]. destruct l; simpl; auto. apply IHi; lia.
  - destruct l; simpl.
    + rewrite firstn_nil. destruct i; auto.
    + destruct b; [lia|]. simpl. apply (IH b l). lia.
Qed.

Lemma repeat_length' : forall A (x : A) n, length (repeat x n) = n.
Proof. exact repeat_length. Qed.

Lemma NoDup_app_iff : forall A (l1 l2 : list A),
  NoDup (l1 ++ l2) <-> NoDup l1 /\ NoDup l2 /\ (forall x, In x l1 -> ~ In x l2).
Proof.
  induction l1 as [|a l1 IH]; intros l2; simpl.
  - split; [intros H; repeat split; auto; constructor | tauto].
  - split.
    + intros H; inversion H as [|? ? Hn Hd]; subst. apply IH in Hd as (H1 & H2 & H3).
      rewrite in_app_iff in Hn. repeat split; auto.
      * constructor; tauto.
      * intros x [->|Hx]; auto.
    + intros (H1 & H2 & H3). inversion H1 as [|? ? Hn Hd]; subst.
      constructor.
      * rewrite in_app_iff. intros [H|H]; [auto|apply (H3 a); auto].
      * apply IH; repeat split; auto.
Qed.
