(** Invariants of opening and closing inputs; no property is stated here. *)
From Coq Require Import String List Bool Arith NArith Lia.
From Verif Require Import Base Dec Json ModelStream ModelOpen SpecOpen.
Import ListNotations.
Open Scope list_scope.
Open Scope nat_scope.

Lemma onode_rec' : forall (P : onode -> Prop),
  P OLit ->
  (forall vals, (forall v, In (Some v) vals -> P v) -> P (ODict vals)) ->
  (forall id path, P (OModel id path)) ->
  (forall children, (forall v, In v children -> P v) -> P (OMerge children)) ->
  forall n, P n.
Proof.
  intros P HL HD HM HG. fix IH 1. intros [|vals|id path|children].
  - exact HL.
  - apply HD. revert vals. fix IHl 1. intros [|[v|] vals] w H.
    + destruct H.
    + destruct H as [E|H]; [injection E as <-; apply IH|exact (IHl vals w H)].
    + destruct H as [E|H]; [discriminate|exact (IHl vals w H)].
  - apply HM.
  - apply HG. revert children. fix IHl 1. intros [|v vals] w H.
    + destruct H.
    + destruct H as [E|H]; [rewrite <- E; apply IH|exact (IHl vals w H)].
Qed.

Section Open.
  Variable resolve : string -> string.
  Variable raises : nat -> option exn.
  Variable root : list (nat * string).

  Record inv (s : ostate) : Prop := Inv {
    i_open : forall i p b, nth_error (s_handles s) i = Some (p, b) -> b = true;
    i_cache1 : forall i p b, nth_error (s_handles s) i = Some (p, b) -> dget String.eqb p (s_cache s) = Some i;
    i_cache2 : forall i p, dget String.eqb p (s_cache s) = Some i -> nth_error (s_handles s) i = Some (p, true);
    i_nodup : NoDup (map fst (s_nodes s));
    i_nodes : forall id h, dget Nat.eqb id (s_nodes s) = Some h -> exists path, In (id, path) root /\ nth_error (s_handles s) h = Some (resolve path, true);
    i_used : forall h, h < length (s_handles s) -> exists id, dget Nat.eqb id (s_nodes s) = Some h }.

  Definition later (s s' : ostate) : Prop :=
    forall id h, dget Nat.eqb id (s_nodes s) = Some h -> dget Nat.eqb id (s_nodes s') = Some h.
  Definition has (s : ostate) (ms : list (nat * string)) : Prop :=
    forall id path, In (id, path) ms -> exists h, dget Nat.eqb id (s_nodes s) = Some h.

  Lemma inv0 : inv opened0.
  Proof.
    constructor; simpl; intros.
    - destruct i; discriminate.
    - destruct i; discriminate.
    - discriminate.
    - constructor.
    - discriminate.
    - lia.
  Qed.

  Lemma inv_tick : forall s, inv s -> inv (tick s).
  Proof. intros s [A B C D E F]. constructor; simpl; auto. Qed.

  Lemma load_model_inv : forall s id path s' e, inv s -> In (id, path) root ->
    load_model resolve raises s id path = (s', e) -> inv s' /\ later s s' /\ (e = None -> has s' [(id, path)]).
  Proof.
    intros s id path s' e I R. unfold load_model.
    destruct (dget Nat.eqb id (s_nodes s)) as [h|] eqn:N.
    { intros X; injection X as <- <-. split; [auto|split; [intros ? ? ?; auto|]].
      intros _ i p [X|[]]. injection X as -> ->. eauto. }
    destruct I as [A B C D E F].
    destruct (dget String.eqb (resolve path) (s_cache s)) as [h|] eqn:K.
    { intros X; injection X as <- <-. pose proof (C _ _ K) as K'.
      split; [|split].
      - constructor; simpl; auto.
        + apply (dset_NoDup Nat.eqb Nat.eqb_spec); auto.
        + intros i h'. rewrite (dget_dset Nat.eqb Nat.eqb_spec). destruct (Nat.eqb_spec i id) as [->|]; [|auto].
          intros X; injection X as <-. eauto.
        + intros h' L. destruct (F h' L) as (i & Hi). exists i. rewrite (dget_dset Nat.eqb Nat.eqb_spec).
          destruct (Nat.eqb_spec i id) as [->|]; [congruence|auto].
      - intros i h' X. simpl. rewrite (dget_dset Nat.eqb Nat.eqb_spec). destruct (Nat.eqb_spec i id) as [->|]; [congruence|auto].
      - intros _ i p [X|[]]. injection X as -> ->. simpl. exists h. rewrite (dget_dset Nat.eqb Nat.eqb_spec), Nat.eqb_refl. auto. }
    destruct (raises (s_tick s)) as [x|] eqn:T.
    { intros X; injection X as <- <-. split; [apply inv_tick; constructor; auto|split; [intros ? ? ?; auto|discriminate]]. }
    intros X; injection X as <- <-.
    assert (Hn : forall i p b, nth_error (s_handles s ++ [(resolve path, true)]) i = Some (p, b) ->
              (i < length (s_handles s) /\ nth_error (s_handles s) i = Some (p, b)) \/
              (i = length (s_handles s) /\ p = resolve path /\ b = true)).
    { intros i p b H. destruct (lt_dec i (length (s_handles s))) as [L|L].
      - rewrite nth_error_app1 in H by auto. auto.
      - right. rewrite nth_error_app2 in H by lia. destruct (i - length (s_handles s)) as [|m] eqn:M; simpl in H.
        + injection H as <- <-. repeat split; auto; lia.
        + destruct m; discriminate. }
    assert (Hold : forall i p, nth_error (s_handles s) i = Some p -> nth_error (s_handles s ++ [(resolve path, true)]) i = Some p).
    { intros i p H. rewrite nth_error_app1; auto. apply nth_error_Some. congruence. }
    split; [|split].
    - constructor; simpl.
      + intros i p b H. destruct (Hn _ _ _ H) as [(_ & H1)|(_ & _ & H1)]; eauto.
      + intros i p b H. rewrite (dget_dset String.eqb String.eqb_spec).
        destruct (Hn _ _ _ H) as [(_ & H1)|(-> & -> & _)].
        * destruct (String.eqb_spec p (resolve path)) as [->|]; [|eauto].
          rewrite (B _ _ _ H1) in K. discriminate.
        * rewrite String.eqb_refl. auto.
      + intros i p. rewrite (dget_dset String.eqb String.eqb_spec).
        destruct (String.eqb_spec p (resolve path)) as [->|].
        * intros X; injection X as <-. rewrite nth_error_app2, Nat.sub_diag by lia. reflexivity.
        * intros X. apply Hold. auto.
      + apply (dset_NoDup Nat.eqb Nat.eqb_spec); auto.
      + intros i h. rewrite (dget_dset Nat.eqb Nat.eqb_spec). destruct (Nat.eqb_spec i id) as [->|].
        * intros X; injection X as <-. exists path. split; auto. rewrite nth_error_app2, Nat.sub_diag by lia. reflexivity.
        * intros X. destruct (E _ _ X) as (q & Q1 & Q2). eauto.
      + intros h L. rewrite app_length in L. simpl in L.
        destruct (Nat.eq_dec h (length (s_handles s))) as [->|Nh].
        * exists id. rewrite (dget_dset Nat.eqb Nat.eqb_spec), Nat.eqb_refl. auto.
        * destruct (F h ltac:(lia)) as (i & Hi). exists i. rewrite (dget_dset Nat.eqb Nat.eqb_spec).
          destruct (Nat.eqb_spec i id) as [->|]; [congruence|auto].
    - intros i h' X. simpl. rewrite (dget_dset Nat.eqb Nat.eqb_spec). destruct (Nat.eqb_spec i id) as [->|]; [congruence|auto].
    - intros _ i p [X|[]]. injection X as -> ->. simpl. exists (length (s_handles s)).
      rewrite (dget_dset Nat.eqb Nat.eqb_spec), Nat.eqb_refl. auto.
  Qed.

  Definition good (f : ostate -> ostate * option exn) (ms : list (nat * string)) : Prop :=
    forall s s' e, inv s -> f s = (s', e) -> inv s' /\ later s s' /\ (e = None -> has s' ms).

  Lemma good_nil : good (fun s => (s, None)) [].
  Proof. intros s s' e I H. injection H as <- <-. split; [auto|split; [intros ? ? ?; auto|intros _ ? ? []]]. Qed.

  Lemma good_attempt : good (attempt raises) [].
  Proof.
    intros s s' e I H. injection H as <- <-. split; [apply inv_tick; auto|split; [intros ? ? ?; auto|intros _ ? ? []]].
  Qed.

  Lemma good_andthen : forall f g a b, good f a -> good g b -> good (fun s => andthen (f s) g) (a ++ b).
  Proof.
    intros f g a b Hf Hg s s' e I H. unfold andthen in H. destruct (f s) as [s1 [x|]] eqn:F.
    - injection H as <- <-. destruct (Hf _ _ _ I F) as (A & B & _). split; [auto|split; [auto|discriminate]].
    - destruct (Hf _ _ _ I F) as (A & B & C). destruct (Hg _ _ _ A H) as (A' & B' & C').
      split; [auto|split].
      + intros i h X. auto.
      + intros E i p X. apply in_app_or in X as [X|X].
        * destruct (C eq_refl i p X) as (h & Hh). eauto.
        * apply (C' E i p X).
  Qed.

  Lemma good_ext : forall f g ms, (forall s, f s = g s) -> good f ms -> good g ms.
  Proof. intros f g ms H G s s' e I X. rewrite <- H in X. eauto. Qed.

  Lemma load_good : forall n, (forall m, In m (inputs n) -> In m root) -> good (load resolve raises n) (inputs n).
  Proof.
    intros n; induction n as [|vals IH|id path|children IH] using onode_rec'; intros R.
    - exact good_nil.
    - simpl. rewrite <- (app_nil_r (flat_map _ _)). apply good_andthen; [|exact good_attempt].
      simpl in R. revert IH R. induction vals as [|[v|] vals IHv]; intros IH R.
      + exact good_nil.
      + simpl flat_map. apply good_andthen.
        * apply IH; [left; auto|]. intros m H. apply R. simpl. apply in_or_app. auto.
        * apply IHv; [intros w H; apply IH; right; auto|]. intros m H. apply R. simpl. apply in_or_app. auto.
      + simpl flat_map. apply IHv; [intros w H; apply IH; right; auto|]. intros m H. apply R. simpl. auto.
    - simpl. change [(id, path)] with ([(id, path)] ++ []).
      apply (good_andthen (fun s => load_model resolve raises s id path)); [|exact good_attempt].
      intros s s' e I H. apply load_model_inv; auto. apply R. left; auto.
    - cbn [load inputs]. simpl in R. revert IH R. induction children as [|v vals IHv]; intros IH R.
      + exact good_nil.
      + cbn [flat_map]. apply (good_andthen (attempt raises) _ []); [exact good_attempt|].
        apply good_andthen.
        * apply IH; [left; auto|]. intros m H. apply R. simpl. apply in_or_app. auto.
        * apply IHv; [intros w H; apply IH; right; auto|]. intros m H. apply R. simpl. apply in_or_app. auto.
  Qed.
End Open.

(** closing *)

Lemma close_handle_nth : forall h l i, nth_error (close_handle h l) i =
  match nth_error l i with Some x => Some (if i =? h then (fst x, false) else x) | None => None end.
Proof.
  intros h l. unfold close_handle.
  assert (G : forall l o i, nth_error (map (fun x : nat * (string * bool) => if fst x =? h then (fst (snd x), false) else snd x)
     (combine (seq o (length l)) l)) i =
     match nth_error l i with Some x => Some (if o + i =? h then (fst x, false) else x) | None => None end).
  { clear l. induction l as [|x l IH]; intros o i.
    - destruct i; reflexivity.
    - destruct i as [|i]; simpl.
      + rewrite Nat.add_0_r. destruct (o =? h); auto.
      + rewrite IH. replace (S o + i) with (o + S i) by lia. reflexivity. }
  intros i. exact (G l 0 i).
Qed.

Definition close_all (ids : list nat) (s : ostate) : ostate := fold_left close_model ids s.

Lemma close_uniform : forall n, uniform n -> forall s, close n s = (close_all (map fst (inputs n)) s, None).
Proof.
  intros n; induction n as [|vals IH|id path|children IH] using onode_rec'; intros U s.
  - reflexivity.
  - simpl in U. destruct U as [U|[U1 U2]].
    + assert (E : flat_map (fun v => match v with Some c => inputs c | None => [] end) vals = []).
      { clear IH. induction vals as [|v vals IHv]; simpl; auto.
        rewrite (U v) by (left; auto). apply IHv. intros w H. apply U. right; auto. }
      simpl. rewrite E. destruct vals as [|v vals]; [reflexivity|].
      rewrite (U v) by (left; auto). reflexivity.
    + assert (G : forall l s, (forall v, In v l -> In v vals) ->
        (fix each l := match l with [] => True | Some v :: l' => uniform v /\ each l' | None :: l' => each l' end) l ->
        (fix each l s := match l with
                         | [] => (s, None)
                         | Some v :: l' => andthen (close v s) (each l')
                         | None :: l' => (s, Some AttributeError)
                         end) l s = (close_all (map fst (flat_map (fun v => match v with Some c => inputs c | None => [] end) l)) s, None)).
      { clear s. intros l; induction l as [|[v|] l IHl]; intros s Hin Hu.
        - reflexivity.
        - destruct Hu as (Hv & Hl). rewrite IH; auto; [|apply Hin; left; auto].
          simpl. rewrite IHl; auto; [|intros w H; apply Hin; right; auto].
          rewrite map_app. unfold close_all. rewrite fold_left_app. reflexivity.
        - exfalso. apply (U1 None); [apply Hin; left; auto|auto]. }
      simpl. destruct vals as [|[v|] vals]; [reflexivity| |].
      * apply (G (Some v :: vals) s); auto.
      * exfalso. apply (U1 None); [left; auto|auto].
  - reflexivity.
  - simpl in U. simpl. revert s IH U. induction children as [|v l IHl]; intros s IH U.
    + reflexivity.
    + destruct U as (Hv & Hl). rewrite IH; auto; [|left; auto]. simpl.
      rewrite IHl; auto; [|intros w H; apply IH; right; auto].
      rewrite map_app. unfold close_all. rewrite fold_left_app. reflexivity.
Qed.

Lemma dget_ddel_nat : forall A (d : list (nat * A)) k k', NoDup (map fst d) ->
  dget Nat.eqb k' (ddel Nat.eqb k d) = if k' =? k then None else dget Nat.eqb k' d.
Proof.
  intros A d k k'. induction d as [|[k0 v] d IH]; simpl; intros ND.
  - destruct (k' =? k); auto.
  - inversion ND as [|? ? N ND']; subst. destruct (Nat.eqb_spec k k0) as [->|Nk].
    + destruct (Nat.eqb_spec k' k0) as [E|]; [rewrite E|auto]. apply (proj2 (dget_None Nat.eqb Nat.eqb_spec _ _)). auto.
    + simpl. rewrite IH by auto. destruct (Nat.eqb_spec k' k0) as [E|]; [|auto].
      subst. destruct (Nat.eqb_spec k0 k); [congruence|auto].
Qed.

Lemma ddel_NoDup_nat : forall A (d : list (nat * A)) k, NoDup (map fst d) -> NoDup (map fst (ddel Nat.eqb k d)).
Proof.
  intros A d k. induction d as [|[k0 v] d IH]; simpl; intros ND; auto.
  inversion ND as [|? ? N ND']; subst. destruct (Nat.eqb_spec k k0); auto.
  simpl. constructor; auto. intros H. apply N. clear - H.
  induction d as [|[k1 v1] d IH]; simpl in *; auto. destruct (k =? k1); simpl in *; tauto.
Qed.

Lemma close_all_facts : forall ids s, NoDup (map fst (s_nodes s)) ->
  (forall id, In id ids -> dget Nat.eqb id (s_nodes (close_all ids s)) = None) /\
  (forall id, dget Nat.eqb id (s_nodes s) = None -> dget Nat.eqb id (s_nodes (close_all ids s)) = None) /\
  (length (s_handles (close_all ids s)) = length (s_handles s)) /\
  (forall i p, nth_error (s_handles s) i = Some (p, false) -> nth_error (s_handles (close_all ids s)) i = Some (p, false)) /\
  (forall id h p b, In id ids -> dget Nat.eqb id (s_nodes s) = Some h -> nth_error (s_handles s) h = Some (p, b) ->
     nth_error (s_handles (close_all ids s)) h = Some (p, false)).
Proof.
  intros ids; induction ids as [|i ids IH]; intros s ND; simpl.
  - repeat split; auto; simpl; intros; contradiction.
  - assert (ND' : NoDup (map fst (s_nodes (close_model s i)))).
    { unfold close_model. destruct (dget Nat.eqb i (s_nodes s)); [apply ddel_NoDup_nat; auto|auto]. }
    destruct (IH _ ND') as (A & B & L & C & D). fold (close_all ids (close_model s i)) in *.
    assert (Gi : dget Nat.eqb i (s_nodes (close_model s i)) = None).
    { unfold close_model. destruct (dget Nat.eqb i (s_nodes s)) eqn:E; simpl; auto.
      rewrite dget_ddel_nat by auto. rewrite Nat.eqb_refl. auto. }
    assert (Hc : forall j p, nth_error (s_handles s) j = Some (p, false) -> nth_error (s_handles (close_model s i)) j = Some (p, false)).
    { intros j p X. unfold close_model. destruct (dget Nat.eqb i (s_nodes s)); simpl; auto.
      rewrite close_handle_nth, X. destruct (j =? n); auto. }
    split; [|split; [|split; [|split]]].
    + intros id [->|X]; auto.
    + intros id X. apply B. unfold close_model. destruct (dget Nat.eqb i (s_nodes s)); simpl; auto.
      rewrite dget_ddel_nat by auto. rewrite X. destruct (id =? i); auto.
    + rewrite L. unfold close_model. destruct (dget Nat.eqb i (s_nodes s)); simpl; auto.
      unfold close_handle. rewrite map_length, combine_length, seq_length. lia.
    + intros j p X. apply C, Hc, X.
    + intros id h p b [E|X] Hn Hh.
      * subst id. apply C. unfold close_model. rewrite Hn. simpl. rewrite close_handle_nth, Hh, Nat.eqb_refl. reflexivity.
      * destruct (Nat.eq_dec id i) as [->|Ni].
        { apply C. unfold close_model. rewrite Hn. simpl. rewrite close_handle_nth, Hh, Nat.eqb_refl. reflexivity. }
        destruct b.
        2:{ apply C, Hc, Hh. }
        assert (Hn' : dget Nat.eqb id (s_nodes (close_model s i)) = Some h).
        { unfold close_model. destruct (dget Nat.eqb i (s_nodes s)); simpl; auto.
          rewrite dget_ddel_nat by auto. destruct (Nat.eqb_spec id i); [congruence|auto]. }
        assert (Hh' : exists b', nth_error (s_handles (close_model s i)) h = Some (p, b')).
        { unfold close_model. destruct (dget Nat.eqb i (s_nodes s)); simpl; [|eauto].
          rewrite close_handle_nth, Hh. destruct (h =? n); simpl; eauto. }
        destruct Hh' as (b' & Hh'). eapply D; eauto.
Qed.

(** counting *)

Lemma count_models_spec : forall n seen,
  snd (count_models n seen) = seen ++ map fst (outside n) /\
  forall l, NoDup l -> (forall x, In x l -> In x (map fst (outside n)) /\ ~ In x seen) -> length l <= fst (count_models n seen).
Proof.
  assert (K : forall l, (forall x, In x l -> In x (@nil nat)) -> length l = 0).
  { intros [|x l] H; [auto|]. destruct (H x); left; auto. }
  intros n; induction n as [|vals IH|id path|children IH] using onode_rec'; intros seen.
  - simpl. rewrite app_nil_r. split; auto. intros l _ H. rewrite K; auto. intros x X. apply H in X. tauto.
  - simpl. rewrite app_nil_r. split; auto. intros l _ H. rewrite K; auto. intros x X. apply H in X. tauto.
  - simpl. split; auto. intros l ND H.
    destruct (existsb (Nat.eqb id) seen) eqn:E.
    + rewrite K; auto. intros x X. destruct (H x X) as ([->|[]] & N). exfalso. apply N.
      apply existsb_exists in E as (y & Y & E). apply Nat.eqb_eq in E. subst; auto.
    + change 1 with (length [id]). apply NoDup_incl_length; auto. intros x X. destruct (H x X) as ([->|[]] & N). left; auto.
  - simpl. revert seen IH. induction children as [|v l IHl]; intros seen IH.
    + simpl. rewrite app_nil_r. split; auto. intros l _ H. rewrite K; auto. intros x X. apply H in X. tauto.
    + destruct (IH v ltac:(left; auto) seen) as (A & B). destruct (count_models v seen) as [a s1] eqn:C. simpl in A, B. subst s1.
      destruct (IHl (seen ++ map fst (outside v)) ltac:(intros w H; apply IH; right; auto)) as (A' & B').
      set (r := (fix each l seen := match l with
                        | [] => (0, seen)
                        | v :: l' => let '(a, s1) := count_models v seen in let '(b, s2) := each l' s1 in (a + b, s2)
                        end) l (seen ++ map fst (outside v))) in *.
      destruct r as [b s2]. simpl in A', B' |- *. split.
      * rewrite A', map_app, app_assoc. reflexivity.
      * intros xs ND H.
        set (inb := fun x => existsb (Nat.eqb x) (map fst (outside v))).
        assert (Hin : forall x, inb x = true <-> In x (map fst (outside v))).
        { intros x. unfold inb. rewrite existsb_exists. split.
          - intros (y & Y & E). apply Nat.eqb_eq in E. subst; auto.
          - intros Y. exists x. split; auto. apply Nat.eqb_refl. }
        assert (Hlen : length xs = length (filter inb xs) + length (filter (fun x => negb (inb x)) xs)).
        { clear. induction xs as [|x xs IH]; simpl; auto. destruct (inb x); simpl; lia. }
        rewrite Hlen. apply Nat.add_le_mono.
        { apply B; [apply NoDup_filter; auto|]. intros x X. apply filter_In in X as (X & Y). split; [apply Hin; auto|apply H; auto]. }
        { apply B'; [apply NoDup_filter; auto|]. intros x X. apply filter_In in X as (X & Y).
          assert (Nv : ~ In x (map fst (outside v))).
          { intros Z. apply Hin in Z. rewrite Z in Y. discriminate. }
          destruct (H x X) as (P & Q). rewrite map_app in P. apply in_app_or in P as [P|P]; [contradiction|].
          split; auto. intros Z. apply in_app_or in Z as [Z|Z]; contradiction. }
Qed.

(** buffers *)

Lemma reader_bound : forall cap size s, reader cap size s -> in_bufsize s = size /\ length (cur_buf s) <= size.
Proof.
  intros cap size s R. induction R as [f s H|s k R IH F].
  - unfold in_open in H. apply bind_Ok in H as (p & _ & H). injection H as <-. split; [reflexivity|]. simpl. lia.
  - destruct IH as (B & L). unfold in_get.
    destruct (dget String.eqb k (in_header s)) as [v|] eqn:E; [|simpl; auto].
    destruct (String.eqb k "__metadata__"); [simpl; auto|].
    destruct (entry_info v) as [[[[d sh] a] b]|] eqn:EI; [|simpl; auto].
    destruct (b <? a)%N eqn:Lt; [simpl; auto|].
    destruct (N.to_nat (b - a) =? 0); [destruct (numel sh =? 0)%N; simpl; auto|].
    assert (G : forall st, in_bufsize (ensure_buffer cap s st (N.to_nat (b - a))) = size /\
                 length (cur_buf (ensure_buffer cap s st (N.to_nat (b - a)))) <= size).
    { intros st. unfold ensure_buffer. destruct (_ || _); [|auto]. simpl. split; auto.
      unfold cur_buf. simpl. rewrite app_nth2, Nat.sub_diag by lia. simpl.
      pose proof (F v eq_refl _ _ _ _ EI) as Fit. rewrite B.
      assert (RL : forall f pos buf, length (readinto cap f pos buf) = length buf).
      { intros f pos buf. unfold readinto. rewrite app_length, skipn_length.
        assert (length (fread cap f pos (length buf)) <= length buf).
        { unfold fread. rewrite firstn_length. lia. } lia. }
      rewrite RL. destruct (_ <? _).
      - unfold zeros. rewrite repeat_length. lia.
      - rewrite firstn_length. lia. }
    destruct (N.to_nat (b - a) / dtype_size d =? 0); [simpl; auto|].
    destruct (numel sh =? _)%N; simpl; auto.
Qed.

Definition wgood (size : nat) (ts : tstate) : Prop :=
  length (ts_buf ts) = size /\ ts_used ts <= size /\
  match ts_pc ts with
  | Idle => True
  | AtFlush _ t => length (t_bytes t) <= size
  | AtPublish _ t _ => length (t_bytes t) <= size /\ ts_used ts = 0
  | AtStore _ t => ts_used ts + length (t_bytes t) <= size
  end.
Definition winv (tids : list nat) (size : nat) (s : ost) : Prop :=
  o_min s = size /\ NoDup (map fst (o_thr s)) /\
  forall tid ts, In (tid, ts) (o_thr s) -> In tid tids /\ wgood size ts.

Lemma winv_set : forall tids size s tid ts, winv tids size s -> In tid tids -> wgood size ts -> winv tids size (set_thread s tid ts).
Proof.
  intros tids size s tid ts (A & B & C) H W. split; [auto|split].
  - simpl. apply (dset_NoDup Nat.eqb Nat.eqb_spec); auto.
  - simpl. intros i x X. apply (dset_In Nat.eqb Nat.eqb_spec) in X as [(-> & ->)|X]; auto.
Qed.

Lemma winv_step : forall cap tids size s o s', winv tids size s -> fitting tids size o -> ostep cap s o = Some s' -> winv tids size s'.
Proof.
  intros cap tids size s [tid k t|tid] s' W F H; simpl in F, H.
  - destruct F as (Fi & Fl). destruct W as (A & B & C).
    set (ts := match dget Nat.eqb tid (o_thr s) with Some ts => ts | None => new_tstate s end) in *.
    assert (Wt : wgood size ts).
    { unfold ts. destruct (dget Nat.eqb tid (o_thr s)) eqn:E.
      - apply dget_In in E; [|exact Nat.eqb_spec]. apply C in E. tauto.
      - unfold new_tstate, wgood. simpl. unfold zeros. rewrite repeat_length. repeat split; auto; lia. }
    destruct (ts_pc ts) eqn:P; try discriminate. injection H as <-. apply winv_set; [split; auto|auto|].
    destruct Wt as (L & U & _). unfold wgood. simpl. split; [auto|split; [auto|]].
    destruct (length (ts_buf ts) - ts_used ts <? length (t_bytes t)) eqn:Q; auto.
    apply Nat.ltb_ge in Q. lia.
  - destruct (dget Nat.eqb tid (o_thr s)) as [ts|] eqn:E; [|discriminate].
    apply dget_In in E; [|exact Nat.eqb_spec].
    destruct W as (A & B & C). destruct (C _ _ E) as (I & L & U & P).
    destruct (ts_pc ts) as [|k t|k t off|k t] eqn:Q; try discriminate.
    + injection H as <-. apply winv_set; auto; [split; auto|]. unfold wgood; simpl. repeat split; auto; lia.
    + injection H as <-. destruct P as (P1 & P2). apply winv_set; auto; [split; auto|].
      unfold wgood; simpl. rewrite P2, A, L. rewrite (Nat.max_l size) by auto. rewrite Nat.ltb_irrefl.
      rewrite firstn_length, L. repeat split; lia.
    + injection H as <-. apply winv_set; auto; [split; auto|].
      unfold wgood; simpl. unfold slice_assign. rewrite !app_length, firstn_length, skipn_length. repeat split; lia.
Qed.

Lemma writer_inv : forall cap size tids s, writer cap size tids s -> winv tids size s.
Proof.
  intros cap size tids s (dc & r & ops & F & R).
  assert (W : winv tids size (out_open dc r size)).
  { split; [reflexivity|split; [constructor|intros ? ? []]]. }
  revert W F R. generalize (out_open dc r size). induction ops as [|o ops IH]; intros s0 W F R; simpl in R.
  - injection R as <-. auto.
  - inversion F; subst. destruct (ostep cap s0 o) as [s1|] eqn:E; [|discriminate]. apply (IH s1); auto. eapply winv_step; eauto.
Qed.

Lemma sum_bound : forall A (f : A -> nat) l b, (forall x, In x l -> f x <= b) -> sum (map f l) <= length l * b.
Proof.
  intros A f l b. induction l as [|x l IH]; simpl; intros H; auto.
  pose proof (H x ltac:(auto)). specialize (IH ltac:(auto)). unfold sum in *. simpl. lia.
Qed.

Lemma nth_error_ext' : forall A (l l' : list A), (forall i, nth_error l i = nth_error l' i) -> l = l'.
Proof.
  intros A l; induction l as [|x l IH]; intros [|y l'] H; auto.
  - specialize (H 0). discriminate.
  - specialize (H 0). discriminate.
  - f_equal.
    + specialize (H 0). simpl in H. congruence.
    + apply IH. intros i. exact (H (S i)).
Qed.
