(** C72: merging leaves the caller's tensors alone. *)
From Coq Require Import List Bool Arith ZArith Lia.
From Verif Require Import Base ModelNum ModelDrop ModelRegion ModelHeap.
Import ListNotations.
Open Scope list_scope.
Open Scope nat_scope.

Section Spec.
  Context {A : Type}.
  Variable conv : nat -> nat -> A -> A.

  (** ** what a recipe means: every leaf has the value it has in the caller's heap, converted; a merge is a function
      of the values of its inputs *)
  Inductive pnode := PLeaf (a : nat) | PMerge (f : list (cell A) -> result (cell A)) (args : list pnode).
  Section Value.
    Variables (dt : nat) (h : heap A).
    Fixpoint value_of (n : pnode) : result (cell A) :=
      match n with
      | PLeaf a => match nth_error h a with
                   | Some c => Ok (if c_dtype c =? dt then c else Cell dt (map (conv (c_dtype c) dt) (c_rows c)))
                   | None => Err Unmodelled
                   end
      | PMerge f args =>
        let* cs := (fix each l := match l with [] => Ok [] | x :: l' => let* c := value_of x in let* cs := each l' in Ok (c :: cs) end) args in
        f cs
      end.
  End Value.

  Definition same_up_to (n : nat) (h h' : heap A) : Prop := length h <= length h' /\ forall x, x < n -> nth_error h' x = nth_error h x.
  Definition holds (h : heap A) (a : nat) (c : cell A) : Prop := nth_error h a = Some c.

  (** a method that computes [f] without writing to any tensor there is *)
  Definition read_only (m : hmethod A) (f : list (cell A) -> result (cell A)) : Prop :=
    forall args h cs, Forall2 (holds h) args cs ->
      match m args h with
      | Ok (r, h') => exists c, f cs = Ok c /\ holds h' r c /\ same_up_to (length h) h h'
      | Err e => f cs = Err e
      end.
  (** a method that computes [f] and writes to nothing but the tensors it was given, if they are distinct *)
  Definition writes_own (m : hmethod A) (f : list (cell A) -> result (cell A)) : Prop :=
    forall args h cs, NoDup args -> Forall2 (holds h) args cs ->
      match m args h with
      | Ok (r, h') => exists c, f cs = Ok c /\ holds h' r c /\ length h <= length h' /\ (In r args \/ length h <= r) /\
                                (forall x, x < length h -> ~ In x args -> nth_error h' x = nth_error h x)
      | Err e => f cs = Err e
      end.

  (** a recipe whose methods are of a kind *)
  Inductive made_of (K : hmethod A -> (list (cell A) -> result (cell A)) -> Prop) : hnode A -> pnode -> Prop :=
  | made_leaf a : made_of K (HLeaf a) (PLeaf a)
  | made_merge m f args ps : K m f -> Forall2 (made_of K) args ps -> made_of K (HMerge m args) (PMerge f ps).
  (** the caller's tensors it reads, and their dtypes *)
  Inductive reads (P : nat -> Prop) : hnode A -> Prop :=
  | reads_leaf a : P a -> reads P (HLeaf a)
  | reads_merge m args : Forall (reads P) args -> reads P (HMerge m args).

  (** evaluating the recipe leaves the caller's heap alone and gives its meaning *)
  Definition undisturbed (dt : nat) (n : hnode A) (p : pnode) (h : heap A) : Prop :=
    match heval conv dt n h with
    | Ok (r, h') => (exists c, value_of dt h p = Ok c /\ holds h' r c) /\ forall x, x < length h -> nth_error h' x = nth_error h x
    | Err e => value_of dt h p = Err e
    end.
End Spec.
Arguments pnode A : clear implicits.

Section Ind.
  Context {A : Type}.
  Variable P : hnode A -> Prop.
  Hypothesis Hleaf : forall a, P (HLeaf a).
  Hypothesis Hmerge : forall m args, Forall P args -> P (HMerge m args).
  Fixpoint hnode_rect' (n : hnode A) : P n :=
    match n with
    | HLeaf a => Hleaf a
    | HMerge m args => Hmerge m args ((fix each l : Forall P l := match l with [] => Forall_nil _ | x :: l' => Forall_cons _ (hnode_rect' x) (each l') end) args)
    end.
End Ind.

Section Proofs.
  Context {A : Type}.
  Variable conv : nat -> nat -> A -> A.
  Variable dt : nat.

  Definition evals : list (hnode A) -> heap A -> result (list nat * heap A) :=
    fix each l h := match l with
                    | [] => Ok ([], h)
                    | x :: l' => let* r1 := heval conv dt x h in
                                 let* r2 := each l' (snd r1) in
                                 Ok (fst r1 :: fst r2, snd r2)
                    end.
  Definition values (h : heap A) : list (pnode A) -> result (list (cell A)) :=
    fix each l := match l with [] => Ok [] | x :: l' => let* c := value_of conv dt h x in let* cs := each l' in Ok (c :: cs) end.

  Lemma heval_merge : forall m args h, heval conv dt (HMerge m args) h = let* r := evals args h in m (fst r) (snd r).
  Proof. reflexivity. Qed.
  Lemma value_merge : forall h f args, value_of conv dt h (PMerge f args) = let* cs := values h args in f cs.
  Proof. reflexivity. Qed.

  (** the meaning depends on the leaves only *)
  Lemma value_same : forall n p K, made_of K n p -> forall h h', (forall x, x < length h -> nth_error h' x = nth_error h x) ->
    reads (fun a => a < length h) n -> value_of conv dt h' p = value_of conv dt h p.
  Proof.
    intros n; induction n as [a|m args IH] using hnode_rect'; intros p K M h h' S R; inversion M; subst; clear M.
    - inversion R; subst. cbn [value_of]. rewrite S by auto. reflexivity.
    - rewrite !value_merge. inversion R; subst. clear R H1.
      replace (values h' ps) with (values h ps); [reflexivity|]. symmetry.
      revert IH H0. induction H3; intros IH R; [reflexivity|].
      inversion IH; subst. inversion R; subst. cbn [values]. fold (values h') (values h).
      rewrite (H2 _ _ H _ _ S H5), IHForall2; auto.
  Qed.

  Lemma reads_mono : forall (P Q : nat -> Prop) n, (forall a, P a -> Q a) -> reads (A:=A) P n -> reads Q n.
  Proof.
    intros P Q n; induction n as [a|m args IH] using hnode_rect'; intros I R; inversion R; subst; constructor; auto.
    rewrite Forall_forall in *. intros; apply IH; auto.
  Qed.

  (** ** read-only methods *)
  Lemma read_only_eval : forall n p h, made_of read_only n p -> reads (fun a => a < length h) n ->
    match heval conv dt n h with
    | Ok (r, h') => (exists c, value_of conv dt h p = Ok c /\ holds h' r c) /\ same_up_to (length h) h h'
    | Err e => value_of conv dt h p = Err e
    end.
  Proof.
    intros n; induction n as [a|m args IH] using hnode_rect'; intros p h M R; inversion M; subst; clear M.
    - inversion R; subst. cbn [heval value_of]. unfold cast_h. destruct (nth_error h a) as [c|] eqn:E; [|reflexivity].
      destruct (c_dtype c =? dt).
      + split; [exists c; split; auto|]. split; auto.
      + unfold alloc. split.
        * eexists; split; [reflexivity|]. unfold holds. rewrite nth_error_app2, Nat.sub_diag by auto. reflexivity.
        * split; [rewrite app_length; simpl; lia|]. intros; apply nth_error_app1; auto.
    - rewrite heval_merge, value_merge. inversion R; subst. clear R.
      assert (L : match evals args h with
                  | Ok (rs, h') => (exists cs, values h ps = Ok cs /\ Forall2 (holds h') rs cs) /\ same_up_to (length h) h h'
                  | Err e => values h ps = Err e
                  end).
      { assert (G : forall h0, (forall x, x < length h -> nth_error h0 x = nth_error h x) -> length h <= length h0 ->
                  match evals args h0 with
                  | Ok (rs, h') => (exists cs, values h ps = Ok cs /\ Forall2 (holds h') rs cs) /\ same_up_to (length h0) h0 h'
                  | Err e => values h ps = Err e
                  end).
        { clear H1. revert IH H0. induction H3; intros IH R h0 S0 L0.
          - cbn. split; [exists []; auto|]. split; auto.
          - inversion IH; subst. inversion R; subst. cbn [evals values]. fold evals (values h).
            assert (R0 : reads (fun a => a < length h0) x) by (eapply reads_mono; [|eauto]; simpl; intros; lia).
            specialize (H2 y h0 H R0). rewrite (value_same _ _ _ H _ _ S0 H5) in H2.
            destruct (heval conv dt x h0) as [[r1 h1]|e] eqn:E1; [|rewrite H2; reflexivity].
            destruct H2 as ((c & V & Hr) & L1 & S1). rewrite V. cbn [bind fst snd].
            assert (S2 : forall x, x < length h -> nth_error h1 x = nth_error h x) by (intros; rewrite S1 by lia; auto).
            specialize (IHForall2 H4 H6 h1 S2 ltac:(lia)).
            destruct (evals l h1) as [[rs h2]|e] eqn:E2; [|rewrite IHForall2; reflexivity].
            destruct IHForall2 as ((cs & W & F) & L2 & S3). rewrite W. cbn [bind fst snd]. split.
            + exists (c :: cs). split; auto. constructor; auto. unfold holds in *. rewrite S3; auto.
              apply nth_error_Some. rewrite Hr. discriminate.
            + split; [lia|]. intros. rewrite S3 by lia. auto. }
        apply (G h); auto. }
      destruct (evals args h) as [[rs h1]|e]; [|rewrite L; reflexivity].
      destruct L as ((cs & W & F) & L1 & S1). rewrite W. cbn [bind fst snd].
      specialize (H1 rs h1 cs F). destruct (m rs h1) as [[r h2]|e]; auto.
      destruct H1 as (c & E & Hr & L2 & S2). split; [exists c; auto|]. split; [lia|]. intros. rewrite S2 by lia. auto.
  Qed.

  Theorem C72_read_only_partial : forall n p h, made_of read_only n p -> reads (fun a => a < length h) n -> undisturbed conv dt n p h.
  Proof.
    intros n p h M R. pose proof (read_only_eval n p h M R) as H. unfold undisturbed.
    destruct (heval conv dt n h) as [[r h']|e]; auto. destruct H as (V & L & S). split; auto.
  Qed.

  (** ** methods that write to their arguments, on converted inputs *)
  Definition copied (h : heap A) (a : nat) : Prop := exists c, nth_error h a = Some c /\ c_dtype c <> dt.

  Lemma copied_valid : forall h a, copied h a -> a < length h.
  Proof. intros h a (c & E & _). apply nth_error_Some. rewrite E. discriminate. Qed.

  Lemma own_eval : forall n p h, made_of writes_own n p -> reads (copied h) n ->
    match heval conv dt n h with
    | Ok (r, h') => (exists c, value_of conv dt h p = Ok c /\ holds h' r c) /\ same_up_to (length h) h h' /\ length h <= r
    | Err e => value_of conv dt h p = Err e
    end.
  Proof.
    intros n; induction n as [a|m args IH] using hnode_rect'; intros p h M R; inversion M; subst; clear M.
    - inversion R; subst. cbn [heval value_of]. unfold cast_h. destruct H0 as (c & E & D). rewrite E.
      apply Nat.eqb_neq in D. rewrite D. unfold alloc. split; [|split].
      + eexists; split; [reflexivity|]. unfold holds. rewrite nth_error_app2, Nat.sub_diag by auto. reflexivity.
      + split; [rewrite app_length; simpl; lia|]. intros; apply nth_error_app1; auto.
      + auto.
    - rewrite heval_merge, value_merge. inversion R; subst. clear R.
      assert (L : match evals args h with
                  | Ok (rs, h') => (exists cs, values h ps = Ok cs /\ Forall2 (holds h') rs cs) /\ same_up_to (length h) h h' /\
                                   NoDup rs /\ Forall (fun r => length h <= r) rs
                  | Err e => values h ps = Err e
                  end).
      { assert (G : forall h0, (forall x, x < length h -> nth_error h0 x = nth_error h x) -> length h <= length h0 ->
                  match evals args h0 with
                  | Ok (rs, h') => (exists cs, values h ps = Ok cs /\ Forall2 (holds h') rs cs) /\ same_up_to (length h0) h0 h' /\
                                   NoDup rs /\ Forall (fun r => length h0 <= r) rs
                  | Err e => values h ps = Err e
                  end).
        { clear H1. revert IH H0. induction H3; intros IH R h0 S0 L0.
          - cbn. split; [exists []; auto|]. repeat split; auto; constructor.
          - inversion IH; subst. inversion R; subst. cbn [evals values]. fold evals (values h).
            assert (R0 : reads (copied h0) x).
            { eapply reads_mono; [|eauto]. simpl. intros a C. pose proof (copied_valid _ _ C). destruct C as (c & E & D).
              exists c. rewrite S0; auto. }
            assert (Rv : reads (fun a => a < length h) x) by (eapply reads_mono; [|exact H5]; simpl; apply copied_valid).
            specialize (H2 y h0 H R0). rewrite (value_same _ _ _ H _ _ S0 Rv) in H2.
            destruct (heval conv dt x h0) as [[r1 h1]|e] eqn:E1; [|rewrite H2; reflexivity].
            destruct H2 as ((c & V & Hr) & (L1 & S1) & B). rewrite V. cbn [bind fst snd].
            assert (S2 : forall x, x < length h -> nth_error h1 x = nth_error h x) by (intros; rewrite S1 by lia; auto).
            specialize (IHForall2 H4 H6 h1 S2 ltac:(lia)).
            assert (r1 < length h1) by (apply nth_error_Some; rewrite Hr; discriminate).
            destruct (evals l h1) as [[rs h2]|e] eqn:E2; [|rewrite IHForall2; reflexivity].
            destruct IHForall2 as ((cs & W & F) & (L2 & S3) & N & Fr). rewrite W. cbn [bind fst snd]. split; [|split; [|split]].
            + exists (c :: cs). split; auto. constructor; auto. unfold holds in *. rewrite S3; auto.
            + split; [lia|]. intros. rewrite S3 by lia. auto.
            + constructor; auto. intros I. rewrite Forall_forall in Fr. apply Fr in I. lia.
            + constructor; auto. eapply Forall_impl; [|exact Fr]. simpl; intros; lia. }
        apply (G h); auto. }
      destruct (evals args h) as [[rs h1]|e]; [|rewrite L; reflexivity].
      destruct L as ((cs & W & F) & (L1 & S1) & N & Fr). rewrite W. cbn [bind fst snd].
      specialize (H1 rs h1 cs N F). destruct (m rs h1) as [[r h2]|e]; auto.
      destruct H1 as (c & E & Hr & L2 & B & S2). rewrite Forall_forall in Fr. split; [exists c; auto|]. split; [split; [lia|]|].
      + intros x Hx. rewrite S2; auto; [lia|]. intros I. apply Fr in I. lia.
      + destruct B as [I|B]; [apply Fr in I|]; lia.
  Qed.

  Theorem C72_copied_inputs_partial : forall n p h, made_of writes_own n p -> reads (copied h) n -> undisturbed conv dt n p h.
  Proof.
    intros n p h M R. pose proof (own_eval n p h M R) as H. unfold undisturbed.
    destruct (heval conv dt n h) as [[r h']|e]; auto. destruct H as (V & (L & S) & _). split; auto.
  Qed.
End Proofs.

(** ** the two kinds of methods *)

Lemma fresh_read_only : forall A (f : list (cell A) -> result (cell A)), read_only (fresh f) f.
Proof.
  intros A f args h cs F. unfold fresh.
  assert (E : mapM (fun a => match nth_error h a with Some c => Ok c | None => Err Unmodelled end) args = Ok cs).
  { induction F; simpl; auto. unfold holds in H. rewrite H. cbn [bind]. rewrite IHF. reflexivity. }
  rewrite E. cbn [bind]. destruct (f cs) as [c|e]; cbn [bind]; auto. unfold alloc. exists c. split; auto. split.
  - unfold holds. rewrite nth_error_app2, Nat.sub_diag by auto. reflexivity.
  - split; [rewrite app_length; simpl; lia|]. intros; apply nth_error_app1; auto.
Qed.

Lemma read_only_own : forall A m (f : list (cell A) -> result (cell A)), read_only m f ->
  (forall args h r h', m args h = Ok (r, h') -> In r args \/ length h <= r) -> writes_own m f.
Proof.
  intros A m f R B args h cs N F. specialize (R args h cs F). destruct (m args h) as [[r h']|e] eqn:E; auto.
  destruct R as (c & V & Hr & L & S). exists c. repeat split; auto. eapply B; eauto.
Qed.

Lemma update_same : forall A (c : cell A) h a, a < length h -> nth_error (update a c h) a = Some c.
Proof. induction h; intros b H; simpl in *; [lia|]. destruct b; simpl; auto. apply IHh; lia. Qed.
Lemma update_other : forall A (c : cell A) h a x, x <> a -> nth_error (update a c h) x = nth_error h x.
Proof. induction h; intros b x H; destruct b, x; simpl; auto; lia. Qed.
Lemma update_length : forall A (c : cell A) h a, length (update a c h) = length h.
Proof. induction h; intros b; destruct b; simpl; auto. Qed.

(** what tensor_sum computes from two tensors *)
Definition tensor_sum_value {A} (Ar : arith) (width offset : num Ar) (cs : list (cell A)) : result (cell A) :=
  match cs with
  | [ca; cb] =>
    if length (c_rows ca) =? length (c_rows cb) then
      match ratio_to_region Ar width offset (Z.of_nat (length (c_rows ca))) with
      | (_, _, inverted) => Ok (Cell (c_dtype (if inverted then cb else ca)) (tensor_sum Ar (c_rows ca) (c_rows cb) width offset))
      end
    else Err Unmodelled
  | _ => Err TypeError
  end.

Lemma tensor_sum_own : forall A (Ar : arith) (width offset : num Ar),
  writes_own (A:=A) (tensor_sum_h Ar width offset) (tensor_sum_value Ar width offset).
Proof.
  intros A Ar width offset args h cs N F. unfold tensor_sum_h, tensor_sum_value.
  destruct F as [|a ca args cs Ha F]; auto. destruct F as [|b cb args cs Hb F]; auto. destruct F; auto.
  unfold holds in Ha, Hb. rewrite Ha, Hb. destruct (length (c_rows ca) =? length (c_rows cb)) eqn:E; auto.
  unfold tensor_sum.
  destruct (ratio_to_region Ar width offset (Z.of_nat (length (c_rows ca)))) as [[s e] inv].
  assert (a < length h) by (apply nth_error_Some; rewrite Ha; discriminate).
  assert (b < length h) by (apply nth_error_Some; rewrite Hb; discriminate).
  destruct inv; eexists; (split; [reflexivity|]); unfold holds; rewrite update_length; (split; [apply update_same; auto|]);
    (split; [auto|]); (split; [simpl; auto|]); intros x Hx I; apply update_other; intros ->; apply I; simpl; auto.
Qed.

(** ** violated: the caller's tensor is overwritten, and another use of it sees the new value.  The recipe
    [second (tensor_sum a b) a], whose result should be [a], gives [b]; [second] returns its second input. *)
Definition second {A} : list (cell A) -> result (cell A) := fun cs => match cs with [_; c] => Ok c | _ => Err TypeError end.
Theorem C72_inputs_kept_refuted :
  let conv := fun (_ _ : nat) (x : nat) => x in
  let a := Cell 64 [1; 2] in let b := Cell 64 [3; 4] in
  let sum := tensor_sum_h double (sf_of_Z 1) (sf_of_Z 0) in
  let sum' := tensor_sum_value double (sf_of_Z 1) (sf_of_Z 0) in
  let n := HMerge (fresh second) [HMerge sum [HLeaf 0; HLeaf 1]; HLeaf 0] in
  let p := PMerge second [PMerge sum' [PLeaf 0; PLeaf 1]; PLeaf 0] in
  made_of writes_own n p /\ reads (fun x => x < length [a; b]) n /\
  value_of conv 64 [a; b] p = Ok a /\
  heval conv 64 n [a; b] = Ok (2, [b; b; b]).
Proof.
  cbv zeta. split; [|split; [|split]].
  - constructor; [apply read_only_own; [apply fresh_read_only|]|].
    + intros args h r h' E. right. unfold fresh in E. destruct (mapM _ args) as [cs|]; [|discriminate]. cbn [bind] in E.
      destruct (second cs); [|discriminate]. injection E as <- _. auto.
    + constructor; [|constructor; [constructor|constructor]]. constructor; [apply tensor_sum_own|].
      constructor; [constructor|constructor; [constructor|constructor]].
  - constructor. constructor; [constructor; constructor; [|constructor; [|constructor]]|constructor; [|constructor]]; constructor; simpl; lia.
  - vm_compute. reflexivity.
  - vm_compute. reflexivity.
Qed.

(** the same recipe on single precision tensors merged in double precision: nothing is overwritten *)
Example C72_applies :
  let conv := fun (_ _ : nat) (x : nat) => x in
  let a := Cell 32 [1; 2] in let b := Cell 32 [3; 4] in
  let sum := tensor_sum_h double (sf_of_Z 1) (sf_of_Z 0) in
  let n := HMerge (fresh second) [HMerge sum [HLeaf 0; HLeaf 1]; HLeaf 0] in
  reads (copied 64 [a; b]) n /\
  exists h, heval conv 64 n [a; b] = Ok (5, h) /\ nth_error h 5 = Some (Cell 64 [1; 2]) /\ firstn 2 h = [a; b].
Proof.
  cbv zeta. split.
  - constructor. constructor; [constructor; constructor; [|constructor; [|constructor]]|constructor; [|constructor]]; constructor;
      eexists; (split; [reflexivity|discriminate]).
  - eexists. split; [vm_compute; reflexivity|]. split; reflexivity.
Qed.

Print Assumptions C72_read_only_partial.
Print Assumptions C72_copied_inputs_partial.
Print Assumptions C72_inputs_kept_refuted.
