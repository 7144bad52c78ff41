(** Further lemmas about the reader (C13-C15) and the buffer bound (C10). *)
From Coq Require Import String Ascii List Bool Arith NArith Lia Permutation Sorted.
From Verif Require Import Base Dec Json JsonProofs JsonTrunc PyStr ModelStream SpecStream InProofs OutProofs OutProofs2 OutProofs3.
Import ListNotations.

Lemma dupdate_NoDup : forall (e d : list (string * json)), NoDup (map fst d) ->
  NoDup (map fst (dupdate String.eqb d e)).
Proof.
  unfold dupdate. induction e as [|[k v] e IH]; intros d H; simpl; auto.
  apply IH. apply (dset_NoDup String.eqb String.eqb_spec); auto.
Qed.

Lemma pvalue_obj_NoDup : forall fuel l h r, pvalue fuel l = Ok (JObj h, r) -> NoDup (map fst h).
Proof.
  intros [|f] l h r H; simpl in H; [discriminate|].
  destruct l as [|c l]; [discriminate|].
  destruct (Ascii.eqb c c_quote).
  { apply bind_Ok in H as (p & _ & H). discriminate. }
  destruct (Ascii.eqb c "{"%char).
  { destruct (skip_ws l) as [|c1 r1]; [discriminate|].
    destruct (Ascii.eqb c1 "}"%char); [inversion H; subst; constructor|].
    apply bind_Ok in H as (p & _ & H). inversion H; subst. apply dupdate_NoDup. constructor. }
  destruct (Ascii.eqb c "["%char).
  { destruct (skip_ws l) as [|c1 r1]; [discriminate|].
    destruct (Ascii.eqb c1 "]"%char); [discriminate|].
    apply bind_Ok in H as (p & _ & H). discriminate. }
  destruct (is_digit c).
  { apply bind_Ok in H as (p & _ & H). discriminate. }
  destruct (_ || _); discriminate.
Qed.

Lemma json_loads_NoDup : forall l h, json_loads l = Ok (JObj h) -> NoDup (map fst h).
Proof.
  intros l h H. unfold json_loads in H. apply bind_Ok in H as ([v r] & Hp & H). simpl in H.
  destruct (skip_ws r); inversion H; subst. eapply pvalue_obj_NoDup; eauto.
Qed.

Lemma StronglySorted_filter : forall A (R : A -> A -> Prop) f l,
  StronglySorted R l -> StronglySorted R (filter f l).
Proof.
  induction 1 as [|x l Hs IH Hf]; simpl; [constructor|].
  destruct (f x); auto. constructor; auto.
  rewrite Forall_forall in *. intros y Hy. apply filter_In in Hy as (Hy & _). auto.
Qed.

Lemma map_fst_filter : forall (g : string -> bool) (l : list (string * json)),
  filter g (map fst l) = map fst (filter (fun kv => g (fst kv)) l).
Proof. induction l as [|[k v] l IH]; simpl; auto. destruct (g k); simpl; rewrite IH; auto. Qed.

Lemma filter_len_meta : forall (l : list (string * json)), NoDup (map fst l) ->
  length (filter (fun k => negb (String.eqb k "__metadata__")) (map fst l)) =
  length l - (if dmem String.eqb "__metadata__"%string l then 1 else 0).
Proof.
  induction l as [|[k v] l IH]; intros H; [reflexivity|].
  inversion H as [|? ? Hn Hd]; subst. cbn [map fst filter length].
  unfold dmem in *. cbn [dget]. rewrite (String.eqb_sym "__metadata__" k).
  destruct (String.eqb_spec k "__metadata__") as [->|Hne]; cbn [negb].
  - assert (E : dget String.eqb "__metadata__"%string l = None).
    { destruct (dget String.eqb "__metadata__"%string l) eqn:E; auto.
      exfalso; apply Hn. apply (dget_In String.eqb String.eqb_spec) in E.
      apply in_map_iff. eexists; split; [|exact E]; auto. }
    rewrite IH by auto. rewrite E. lia.
  - cbn [length]. rewrite IH by auto.
    destruct (dget String.eqb "__metadata__"%string l) eqn:E; [|lia].
    destruct l; [discriminate|simpl; lia].
Qed.

Lemma in_keys_spec : forall cap f n s, in_open cap f n = Ok s ->
  NoDup (in_keys s) /\
  (forall k, In k (in_keys s) <-> (k <> "__metadata__"%string /\ In k (map fst (in_header s)))) /\
  in_len s = length (in_keys s) /\
  StronglySorted (fun a b => forall va vb x y,
     dget String.eqb a (in_header s) = Some va -> dget String.eqb b (in_header s) = Some vb ->
     sort_key va = Ok x -> sort_key vb = Ok y -> (x <= y)%N) (in_keys s).
Proof.
  intros cap f n s H. unfold in_open in H. apply bind_Ok in H as ([hs h'] & Hr & H).
  unfold read_header in Hr. apply bind_Ok in Hr as (n8 & _ & Hr). apply bind_Ok in Hr as (text & _ & Hr).
  apply bind_Ok in Hr as (j & Hj & Hr). destruct j as [| | |h]; try discriminate.
  apply bind_Ok in Hr as (h2 & Hs & Hr). inversion Hr; subst; clear Hr. inversion H; subst; clear H.
  unfold in_keys, in_len. cbn [in_header snd].
  destruct (sort_header_spec _ _ Hs) as (P & SS).
  assert (ND : NoDup (map fst h')).
  { eapply Permutation_NoDup; [apply Permutation_map; exact P|]. eapply json_loads_NoDup; eauto. }
  split; [apply NoDup_filter; auto|]. split; [|split].
  - intros k. rewrite filter_In, Bool.negb_true_iff, String.eqb_neq. tauto.
  - symmetry. apply filter_len_meta; auto.
  - rewrite map_fst_filter.
    assert (SS' := StronglySorted_filter _ _ (fun kv => negb (String.eqb (fst kv) "__metadata__")) _ SS).
    assert (Hin : forall kv, In kv (filter (fun kv => negb (String.eqb (fst kv) "__metadata__")) h') -> In kv h').
    { intros kv Hkv. apply filter_In in Hkv; tauto. }
    revert SS' Hin. generalize (filter (fun kv => negb (String.eqb (fst kv) "__metadata__")) h') as l.
    induction l as [|[k v] l IH]; intros SSl Hin; simpl; [constructor|].
    inversion SSl as [|? ? Hs1 Hf1]; subst. constructor; [apply IH; auto; intros; apply Hin; right; auto|].
    rewrite Forall_forall in *. intros k' Hk' va vb x y Ga Gb Ea Eb.
    apply in_map_iff in Hk' as ([k2 v2] & E & Hin2). simpl in E; subst k2.
    assert (G1 : dget String.eqb k h' = Some v) by (apply (dget_NoDup_In String.eqb String.eqb_spec); auto; apply Hin; left; auto).
    assert (G2 : dget String.eqb k' h' = Some v2) by (apply (dget_NoDup_In String.eqb String.eqb_spec); auto; apply Hin; right; auto).
    rewrite G1 in Ga; inversion Ga; subst. rewrite G2 in Gb; inversion Gb; subst.
    eapply (Hf1 _ Hin2); eauto.
Qed.

(** ** C10 *)
Definition bounded (minbuf : nat) (big : nat -> nat) (s : ost) : Prop :=
  o_min s = minbuf /\
  forall tid ts, dget Nat.eqb tid (o_thr s) = Some ts ->
    length (ts_buf ts) <= Nat.max minbuf (big tid) /\ ts_used ts <= length (ts_buf ts) /\
    match ts_pc ts with
    | Idle => True
    | AtFlush _ t => length (t_bytes t) <= big tid
    | AtPublish _ t _ => length (t_bytes t) <= big tid /\ ts_used ts = 0
    | AtStore _ t => length (t_bytes t) <= big tid /\ ts_used ts + length (t_bytes t) <= length (ts_buf ts)
    end.

Lemma bounded_set : forall minbuf big s tid ts, bounded minbuf big s ->
  (length (ts_buf ts) <= Nat.max minbuf (big tid) /\ ts_used ts <= length (ts_buf ts) /\
    match ts_pc ts with
    | Idle => True
    | AtFlush _ t => length (t_bytes t) <= big tid
    | AtPublish _ t _ => length (t_bytes t) <= big tid /\ ts_used ts = 0
    | AtStore _ t => length (t_bytes t) <= big tid /\ ts_used ts + length (t_bytes t) <= length (ts_buf ts)
    end) -> bounded minbuf big (set_thread s tid ts).
Proof.
  intros minbuf big s tid ts (Hm & H) Hts. split; [exact Hm|].
  intros tid' ts' E. cbn [set_thread o_thr] in E. rewrite (dget_dset Nat.eqb Nat.eqb_spec) in E.
  destruct (Nat.eqb_spec tid' tid) as [->|]; [inversion E; subst; auto|auto].
Qed.

Lemma bounded_step : forall cap minbuf big s o s', bounded minbuf big s ->
  (match o with Call tid _ t => length (t_bytes t) <= big tid | Run _ => True end) ->
  ostep cap s o = Some s' -> bounded minbuf big s'.
Proof.
  intros cap minbuf big s o s' Hb Ho E. pose proof Hb as (Hm & H). destruct o as [tid k t|tid]; simpl in E.
  - destruct (dget Nat.eqb tid (o_thr s)) as [ts|] eqn:Et.
    + destruct (H _ _ Et) as (A & B & C). destruct (ts_pc ts) eqn:Ep; inversion E; subst; clear E.
      apply bounded_set; auto. cbn [ts_buf ts_used ts_pc]. split; auto. split; auto.
      destruct (Nat.ltb_spec (length (ts_buf ts) - ts_used ts) (length (t_bytes t))); auto. split; auto; lia.
    + simpl in E. inversion E; subst; clear E. apply bounded_set; auto.
      unfold zeros. cbn [ts_buf ts_used ts_pc new_tstate]. rewrite repeat_length.
      split; [lia|]. split; [lia|].
      destruct (Nat.ltb_spec (o_min s - 0) (length (t_bytes t))); auto. split; auto; lia.
  - destruct (dget Nat.eqb tid (o_thr s)) as [ts|] eqn:Et; [|discriminate].
    destruct (H _ _ Et) as (A & B & C). destruct (ts_pc ts) eqn:Ep; inversion E; subst; clear E.
    + apply bounded_set; [split; auto|]. cbn [ts_buf ts_used ts_pc]. repeat split; auto; lia.
    + apply bounded_set; [split; auto|]. cbn [ts_buf ts_used ts_pc]. destruct C as (C1 & C2). rewrite C2.
      destruct (Nat.ltb_spec (length (ts_buf ts)) (Nat.max (o_min s) (length (t_bytes t)))).
      * unfold zeros. rewrite repeat_length. repeat split; auto; lia.
      * rewrite firstn_length. repeat split; auto; lia.
    + apply bounded_set; auto. cbn [ts_buf ts_used ts_pc]. destruct C as (C1 & C2).
      unfold slice_assign. rewrite !app_length, firstn_length, skipn_length. repeat split; auto; lia.
Qed.

Lemma bounded_run : forall cap minbuf big ops s s', bounded minbuf big s ->
  (forall tid k t, In (Call tid k t) ops -> length (t_bytes t) <= big tid) ->
  orun cap s ops = Some s' -> bounded minbuf big s'.
Proof.
  induction ops as [|o ops IH]; intros s s' Hb Ho E; simpl in E; [inversion E; subst; auto|].
  destruct (ostep cap s o) eqn:E1; [|discriminate].
  eapply IH; [|intros; eapply Ho; right; eauto|eauto].
  eapply bounded_step; eauto. destruct o; auto. eapply Ho; left; eauto.
Qed.

Lemma largest_ge : forall tid ops k t, In (Call tid k t) ops -> length (t_bytes t) <= largest tid ops.
Proof.
  induction ops as [|o ops IH]; intros k t H; [destruct H|]. destruct H as [->|H]; simpl.
  - rewrite Nat.eqb_refl. lia.
  - apply IH in H. destruct o; auto. destruct (_ =? _); lia.
Qed.

Lemma buffers_bounded : forall cap declared recipe minbuf ops s tid ts,
  orun cap (out_open declared recipe minbuf) ops = Some s -> In (tid, ts) (o_thr s) ->
  NoDup (map fst (o_thr s)) /\
  length (ts_buf ts) <= Nat.max minbuf (largest tid ops) /\ ts_used ts <= length (ts_buf ts).
Proof.
  intros cap declared recipe minbuf ops s tid ts Hrun Hin.
  assert (ND : NoDup (map fst (o_thr s))).
  { assert (G : forall ops s s', NoDup (map fst (o_thr s)) -> orun cap s ops = Some s' -> NoDup (map fst (o_thr s'))).
    { clear. induction ops as [|o ops IH]; intros s s' H E; simpl in E; [inversion E; subst; auto|].
      destruct (ostep cap s o) eqn:E1; [|discriminate]. eapply IH; [|eauto].
      destruct o as [tid k t|tid]; simpl in E1.
      - destruct (ts_pc _); inversion E1; subst. cbn [set_thread o_thr]. apply (dset_NoDup Nat.eqb Nat.eqb_spec); auto.
      - destruct (dget Nat.eqb tid (o_thr s)) as [ts|]; [|discriminate].
        destruct (ts_pc ts); inversion E1; subst; cbn [set_thread set_hdr o_thr]; apply (dset_NoDup Nat.eqb Nat.eqb_spec); auto. }
    eapply G; [|eauto]. constructor. }
  split; auto.
  assert (B : bounded minbuf (fun tid => largest tid ops) s).
  { eapply bounded_run; [| |exact Hrun].
    - split; [reflexivity|]. intros tid' ts' E. discriminate.
    - intros; eapply largest_ge; eauto. }
  destruct B as (_ & B). apply (dget_NoDup_In Nat.eqb Nat.eqb_spec) in Hin; auto.
  destruct (B _ _ Hin) as (B1 & B2 & _). auto.
Qed.
