(** C116: the tensors that a merge returns are the caller's to change.  Read with ModelHeap.v and ModelOut.v. *)
From Coq Require Import List Bool Arith ZArith Lia.
From Verif Require Import Base ModelNum ModelDrop ModelRegion ModelHeap ModelOut PropsHeap.
Import ListNotations.
Open Scope list_scope.
Open Scope nat_scope.

Section Spec.
  Context {A : Type}.
  (** a method that writes to nothing there is, and whose result is in the dtype of its inputs *)
  Definition quiet (dt : nat) (m : hmethod A) : Prop := forall args h r h',
    Forall (fun a => exists c, nth_error h a = Some c /\ c_dtype c = dt) args -> m args h = Ok (r, h') ->
    same_up_to (length h) h h' /\ exists c, nth_error h' r = Some c /\ c_dtype c = dt.
  (** it gives a tensor that was not there before *)
  Definition gives_new (m : hmethod A) : Prop := forall args h r h', m args h = Ok (r, h') -> length h <= r.
  Inductive all_methods (P : hmethod A -> Prop) : hnode A -> Prop :=
  | am_leaf a : all_methods P (HLeaf a)
  | am_merge m args : P m -> Forall (all_methods P) args -> all_methods P (HMerge m args).
  Definition root_method (P : hmethod A -> Prop) (n : hnode A) : Prop := match n with HLeaf _ => False | HMerge m _ => P m end.

  (** whatever is written to a returned tensor, the caller's tensors and the other returned tensors stay as they are *)
  Definition separate (h h' : heap A) (out : list (nat * nat)) : Prop :=
    (forall x, x < length h -> nth_error h' x = nth_error h x) /\
    forall l1 k a l2 c, out = l1 ++ (k, a) :: l2 -> a < length h' /\
      (forall x, x < length h -> nth_error (update a c h') x = nth_error h x) /\
      (forall k' a', In (k', a') (l1 ++ l2) -> nth_error (update a c h') a' = nth_error h' a').
End Spec.

Section Proofs.
  Context {A : Type}.
  Variable conv : nat -> nat -> A -> A.
  Variable dt : nat.

  Lemma cast_new : forall d a (h : heap A) r h', cast_h conv d a h = Ok (r, h') ->
    same_up_to (length h) h h' /\ (exists c, nth_error h' r = Some c /\ c_dtype c = d) /\
    (r = a /\ h' = h \/ length h <= r) /\ ((exists c, nth_error h a = Some c /\ c_dtype c <> d) -> length h <= r).
  Proof.
    intros d a h r h' H. unfold cast_h in H. destruct (nth_error h a) as [c|] eqn:E; [|discriminate].
    destruct (Nat.eqb_spec (c_dtype c) d) as [D|D]; injection H as <- <-.
    - split; [split; auto|]. split; [eauto|]. split; [auto|]. intros (c' & E' & N). congruence.
    - split; [split; [rewrite app_length; simpl; lia|intros; apply nth_error_app1; auto]|]. split.
      + eexists. rewrite nth_error_app2, Nat.sub_diag by auto. split; reflexivity.
      + split; auto.
  Qed.

  Lemma same_trans : forall (h1 h2 h3 : heap A), same_up_to (length h1) h1 h2 -> same_up_to (length h2) h2 h3 -> same_up_to (length h1) h1 h3.
  Proof. intros h1 h2 h3 (L1 & S1) (L2 & S2). split; [lia|]. intros x Hx. rewrite S2 by lia. auto. Qed.

  Lemma quiet_eval : forall n, all_methods (quiet dt) n -> forall h r h', heval conv dt n h = Ok (r, h') ->
    same_up_to (length h) h h' /\ exists c, nth_error h' r = Some c /\ c_dtype c = dt.
  Proof.
    intros n. induction n as [a|m args IH] using hnode_rect'; intros Q h r h' H.
    - cbn [heval] in H. apply cast_new in H as (S & C & _). auto.
    - inversion Q as [|? ? Hm Ha]; subst. rewrite heval_merge in H. destruct (evals conv dt args h) as [[rs h1]|e] eqn:E; [|discriminate].
      cbn [bind fst snd] in H.
      assert (G : same_up_to (length h) h h1 /\ Forall (fun a => exists c, nth_error h1 a = Some c /\ c_dtype c = dt) rs).
      { clear H Hm Q. revert h rs h1 E. induction Ha as [|x l Hx Hl IHl]; intros h rs h1 E.
        - cbn in E. injection E as <- <-. split; [split; auto|constructor].
        - cbn [evals] in E. fold (evals conv dt) in E. destruct (heval conv dt x h) as [[r1 h2]|e] eqn:E1; [|discriminate]. cbn [bind fst snd] in E.
          destruct (evals conv dt l h2) as [[r2 h3]|e] eqn:E2; [|discriminate]. cbn [bind fst snd] in E. injection E as <- <-.
          destruct (Forall_inv IH Hx _ _ _ E1) as (S1 & c & C1 & D1). destruct (IHl (Forall_inv_tail IH) _ _ _ E2) as (S2 & F2).
          split; [eapply same_trans; eauto|]. constructor; auto. exists c. split; auto. destruct S2 as (_ & S2). rewrite S2; auto.
          apply nth_error_Some. rewrite C1. discriminate. }
      destruct G as (S & F). destruct (Hm rs h1 r h' F H) as (S' & C). split; auto. eapply same_trans; eauto.
  Qed.

  Lemma root_new : forall n, all_methods (quiet dt) n -> root_method gives_new n -> forall h r h', heval conv dt n h = Ok (r, h') -> length h <= r.
  Proof.
    intros [a|m args] Q G h r h' H; [destruct G|]. cbn [root_method] in G. rewrite heval_merge in H.
    destruct (evals conv dt args h) as [[rs h1]|e] eqn:E; [|discriminate]. cbn [bind fst snd] in H. apply G in H.
    assert (L : length h <= length h1); [|lia]. inversion Q as [|? ? _ Ha]; subst. clear -E Ha. revert h rs h1 E. induction Ha as [|x l Hx Hl IHl]; intros h rs h1 E.
    - cbn in E. injection E as <- <-. auto.
    - cbn [evals] in E. fold (evals conv dt) in E. destruct (heval conv dt x h) as [[r1 h2]|e] eqn:E1; [|discriminate]. cbn [bind fst snd] in E.
      destruct (evals conv dt l h2) as [[r2 h3]|e] eqn:E2; [|discriminate]. cbn [bind fst snd] in E. injection E as <- <-.
      destruct (quiet_eval x Hx _ _ _ E1) as ((L1 & _) & _). specialize (IHl _ _ _ E2). lia.
  Qed.

  (** every key gives a tensor that was not there before *)
  Lemma outputs_new : forall ot keys,
    Forall (fun p => all_methods (quiet dt) (snd p) /\ (dt <> ot \/ root_method gives_new (snd p))) keys ->
    forall h out h', merge_h conv dt ot keys h = Ok (out, h') ->
    same_up_to (length h) h h' /\ NoDup (map snd out) /\ Forall (fun p => length h <= snd p < length h') out /\ map fst out = map fst keys.
  Proof.
    intros ot keys. induction keys as [|(k, n) keys IH]; intros F h out h' H.
    - cbn in H. injection H as <- <-. split; [split; auto|]. repeat constructor.
    - cbn [merge_h] in H. unfold key_h in H. destruct (heval conv dt n h) as [[a h1]|e] eqn:E1; [|discriminate]. cbn [bind fst snd] in H.
      destruct (cast_h conv ot a h1) as [[r h2]|e] eqn:E2; [|discriminate]. cbn [bind fst snd] in H.
      destruct (merge_h conv dt ot keys h2) as [[rest h3]|e] eqn:E3; [|discriminate]. cbn [bind fst snd] in H. injection H as <- <-.
      destruct (Forall_inv F) as (Q & N). cbn [snd] in Q, N.
      destruct (quiet_eval n Q _ _ _ E1) as (S1 & c & C1 & D1). destruct (cast_new _ _ _ _ _ E2) as (S2 & (c2 & C2 & _) & B & B').
      destruct (IH (Forall_inv_tail F) _ _ _ E3) as (S3 & ND & F3 & K).
      assert (L1 : length h <= length h1) by apply S1. assert (L2 : length h1 <= length h2) by apply S2. assert (L3 : length h2 <= length h3) by apply S3.
      assert (R2 : r < length h2) by (apply nth_error_Some; rewrite C2; discriminate).
      assert (R1 : length h <= r).
      { destruct N as [N|N]; [assert (length h1 <= r) by (apply B'; exists c; split; congruence); lia|].
        destruct B as [(-> & _)|B]; [apply (root_new n Q N _ _ _ E1)|lia]. }
      split; [eapply same_trans; [exact S1|eapply same_trans; [exact S2|exact S3]]|]. split; [|split].
      + simpl. constructor; auto. intros I. apply in_map_iff in I as (p & Ep & Hp). rewrite Forall_forall in F3. apply F3 in Hp. lia.
      + constructor; [simpl; lia|]. eapply Forall_impl; [|exact F3]. simpl. intros; lia.
      + simpl. f_equal. exact K.
  Qed.

  (** The merge and the output dtypes differ, as they do by default, or every key's recipe ends in a method that gives a new
      tensor: the returned tensors are new, distinct, and one for each key; writing to one of them changes neither the
      models nor the other ones. *)
  Theorem C116_separate_partial : forall ot keys h out h',
    Forall (fun p => all_methods (quiet dt) (snd p) /\ (dt <> ot \/ root_method gives_new (snd p))) keys ->
    merge_h conv dt ot keys h = Ok (out, h') -> map fst out = map fst keys /\ separate h h' out.
  Proof.
    intros ot keys h out h' F H. destruct (outputs_new ot keys F h out h' H) as (S & N & B & K). split; auto. split; [apply S|].
    intros l1 k a l2 c E. subst out. rewrite Forall_forall in B. assert (Ba : length h <= a < length h') by (apply (B (k, a)); apply in_or_app; right; left; auto).
    split; [lia|]. split.
    - intros x Hx. rewrite update_other by lia. apply S; auto.
    - intros k' a' I. apply update_other. intros ->. rewrite map_app in N. simpl in N. apply NoDup_remove_2 in N. apply N. rewrite <- map_app.
      change a with (snd (k', a)). apply in_map. exact I.
  Qed.
End Proofs.

(** The methods that compute a new tensor in the dtype of their inputs are of this kind. *)
Theorem C116_new_methods : forall A dt (f : list (cell A) -> result (cell A)),
  (forall cs c, Forall (fun c => c_dtype c = dt) cs -> f cs = Ok c -> c_dtype c = dt) -> quiet dt (fresh f) /\ gives_new (fresh f).
Proof.
  intros A dt f D. split.
  - intros args h r h' F H. unfold fresh in H. destruct (mapM _ args) as [cs|e] eqn:M; [|discriminate]. cbn [bind] in H.
    destruct (f cs) as [c|e] eqn:E; [|discriminate]. injection H as <- <-. split.
    + split; [rewrite app_length; simpl; lia|]. intros; apply nth_error_app1; auto.
    + exists c. rewrite nth_error_app2, Nat.sub_diag by auto. split; auto. apply (D cs); auto. clear -F M.
      revert cs M. induction F as [|a l (c & C & D) F IH]; intros cs M; simpl in M; [injection M as <-; constructor|].
      rewrite C in M. cbn [bind] in M. destruct (mapM _ l) as [cs'|]; [|discriminate]. injection M as <-. constructor; auto.
  - intros args h r h' H. unfold fresh in H. destruct (mapM _ args) as [cs|e]; [|discriminate]. cbn [bind] in H.
    destruct (f cs) as [c|e]; [|discriminate]. injection H as <- _. auto.
Qed.

(** fallback and pick hand on one of their inputs; they are quiet but give no new tensor *)
Definition first_h {A} : hmethod A := fun args h => match args with a :: _ => Ok (a, h) | [] => Err TypeError end.
Lemma first_quiet : forall A dt, quiet (A:=A) dt first_h.
Proof.
  intros A dt args h r h' F H. destruct F as [|a l C F]; [discriminate|]. injection H as <- <-. split; [split; auto|exact C].
Qed.

(** A model in double precision, merged and returned in double precision: the returned tensor is the model's, and
    two keys that come from one tensor return the same one. *)
Theorem C116_same_dtype_refuted : exists keys (h : heap nat) out h',
  Forall (fun p => all_methods (quiet 64) (snd p)) keys /\ merge_h (fun _ _ x => x) 64 64 keys h = Ok (out, h') /\
  out = [(0, 0); (1, 0)] /\
  exists c, nth_error (update 0 c h') 0 <> nth_error h 0 /\ ~ separate h h' out.
Proof.
  exists [(0, HLeaf 0); (1, HMerge first_h [HLeaf 0])], [Cell 64 [1; 2]]. eexists. eexists. split; [|split; [vm_compute; reflexivity|split; [reflexivity|]]].
  - constructor; [constructor|constructor; [|constructor]]. constructor; [apply first_quiet|constructor; [constructor|constructor]].
  - exists (Cell 64 [7]). split; [vm_compute; discriminate|]. intros (_ & S). destruct (S [] 0 0 [(1, 0)] (Cell 64 [7]) eq_refl) as (_ & S1 & _).
    specialize (S1 0 ltac:(simpl; lia)). vm_compute in S1. discriminate.
Qed.

(** Two keys of a model in half precision (16), merged in double precision and returned in half precision, one of them a sum. *)
Definition sum2 (cs : list (cell nat)) : result (cell nat) :=
  match cs with [a; b] => Ok (Cell (c_dtype a) [hd 0 (c_rows a) + hd 0 (c_rows b)]) | _ => Err TypeError end.
Definition keys2 : list (nat * hnode nat) := [(0, HLeaf 0); (1, HMerge (fresh sum2) [HLeaf 0; HLeaf 1])].
Example C116_case : let h := [Cell 16 [1]; Cell 16 [2]] in
  exists out h', merge_h (fun _ _ x => x) 64 16 keys2 h = Ok (out, h') /\ out = [(0, 3); (1, 7)] /\ separate h h' out /\
    nth_error h' 3 = Some (Cell 16 [1]) /\ nth_error h' 7 = Some (Cell 16 [3]).
Proof.
  cbv zeta. eexists. eexists. split; [vm_compute; reflexivity|]. split; [reflexivity|]. split; [|split; reflexivity].
  apply (C116_separate_partial (fun _ _ x => x) 64 16 keys2); [|vm_compute; reflexivity].
  constructor; [split; [constructor|left; discriminate]|]. constructor; [|constructor]. split; [|left; discriminate].
  constructor; [|repeat constructor]. apply C116_new_methods. intros cs c F H. destruct F as [|a l Da F]; [discriminate|]. destruct F as [|b l Db F]; [discriminate|].
  destruct F; [|discriminate]. injection H as <-. exact Da.
Qed.

Print Assumptions C116_separate_partial.
Print Assumptions C116_new_methods.
Print Assumptions C116_same_dtype_refuted.
