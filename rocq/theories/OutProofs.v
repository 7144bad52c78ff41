(** Invariant of the writer of ModelStream.v over arbitrary interleavings. *)
From Coq Require Import String Ascii List Bool Arith NArith Lia Permutation.
From Verif Require Import Base Dec Json JsonProofs PyStr ModelStream.
Import ListNotations.

Definition seg := (string * tensor)%type.

Definition data_of (l : list seg) : list byte := concat (map (fun s => t_bytes (snd s)) l).

(** consecutive placement of the tensors of [l], starting at [off] *)
Fixpoint layout (off : nat) (l : list seg) : list (string * entry) :=
  match l with
  | [] => []
  | (k, t) :: l' =>
    (k, Entry (t_dtype t) (t_shape t) off (off + length (t_bytes t)))
    :: layout (off + length (t_bytes t)) l'
  end.

Definition ej (ke : string * entry) : string * json :=
  (fst ke, entry_json (e_dtype (snd ke)) (e_shape (snd ke)) (e_start (snd ke)) (e_stop (snd ke))).

Definition dtype_eq_dec : forall a b : dtype, {a = b} + {a <> b}.
Proof. decide equality. Defined.
Definition tensor_eq_dec : forall a b : tensor, {a = b} + {a <> b}.
Proof. decide equality; [apply (list_eq_dec ascii_dec)|apply (list_eq_dec N.eq_dec)|apply dtype_eq_dec]. Defined.
Definition seg_eq_dec : forall a b : seg, {a = b} + {a <> b}.
Proof. decide equality; [apply tensor_eq_dec|apply string_dec]. Defined.
Definition entry_eq_dec : forall a b : entry, {a = b} + {a <> b}.
Proof. decide equality; try apply Nat.eq_dec; [apply (list_eq_dec N.eq_dec)|apply dtype_eq_dec]. Defined.
Definition kentry_eq_dec : forall a b : string * entry, {a = b} + {a <> b}.
Proof. decide equality; [apply entry_eq_dec|apply string_dec]. Defined.

Lemma data_of_app : forall a b, data_of (a ++ b) = data_of a ++ data_of b.
Proof. intros; unfold data_of. rewrite map_app, concat_app; auto. Qed.

Lemma layout_app : forall a b off, layout off (a ++ b) = layout off a ++ layout (off + length (data_of a)) b.
Proof.
  induction a as [|[k t] a IH]; intros b off; simpl.
  - rewrite Nat.add_0_r; auto.
  - f_equal. rewrite IH. f_equal. f_equal. unfold data_of; simpl. rewrite app_length. lia.
Qed.

Lemma layout_keys : forall l off, map fst (layout off l) = map fst l.
Proof. induction l as [|[k t] l IH]; intros off; simpl; auto. f_equal; auto. Qed.

Lemma shift_layout : forall l b off, map (shift_entry off) (layout b l) = map ej (layout (b + off) l).
Proof.
  induction l as [|[k t] l IH]; intros b off; simpl; auto.
  rewrite IH. replace (b + length (t_bytes t) + off) with (b + off + length (t_bytes t)) by lia.
  f_equal. unfold shift_entry, ej; simpl.
  replace (b + length (t_bytes t) + off) with (b + off + length (t_bytes t)) by lia. auto.
Qed.

Lemma ej_keys : forall l, map fst (map ej l) = map fst l.
Proof. intros l. rewrite map_map. apply map_ext. intros [k e]; auto. Qed.

(** position of an entry in the data section *)
Lemma layout_in : forall l off k t, In (k, t) l ->
  exists x y e, data_of l = x ++ t_bytes t ++ y /\ In (k, e) (layout off l) /\
    e = Entry (t_dtype t) (t_shape t) (off + length x) (off + length x + length (t_bytes t)).
Proof.
  induction l as [|[k' t'] l IH]; intros off k t H; simpl in *; [tauto|].
  destruct H as [E|H].
  - inversion E; subst. exists [], (data_of l), (Entry (t_dtype t) (t_shape t) off (off + length (t_bytes t))).
    split; [reflexivity|]. split; [auto|]. simpl. rewrite Nat.add_0_r; auto.
  - destruct (IH (off + length (t_bytes t')) k t H) as (x & y & e & E1 & E2 & E3).
    exists (t_bytes t' ++ x), y, e. split; [|split].
    + unfold data_of in *; simpl. rewrite E1, <- app_assoc; auto.
    + right; auto.
    + subst e. rewrite app_length. f_equal; lia.
Qed.

(** ** shape of the file during writing *)
Definition fshape (f : list byte) (base : nat) (D : list byte) : Prop :=
  (D = [] /\ f = []) \/ (D <> [] /\ f = zeros base ++ D).

Lemma zeros_length : forall n, length (zeros n) = n.
Proof. intros; apply repeat_length. Qed.

Lemma fwrite_end : forall f d, fwrite f (length f) d = f ++ d.
Proof.
  intros f d. unfold fwrite. destruct d as [|x d]; [rewrite app_nil_r; auto|].
  rewrite Nat.sub_diag. unfold zeros; simpl repeat. rewrite app_nil_r, firstn_all.
  rewrite skipn_all2 by lia. rewrite app_nil_r; auto.
Qed.

Lemma fwrite_mid : forall a p r d, length p = length d -> fwrite (a ++ p ++ r) (length a) d = a ++ d ++ r.
Proof.
  intros a p r d H. unfold fwrite. destruct d as [|x d].
  - destruct p; simpl in H; [auto|discriminate].
  - rewrite app_length. replace (length a - (length a + length (p ++ r))) with 0 by lia.
    unfold zeros; simpl repeat. rewrite app_nil_r, firstn_app_exact. do 2 f_equal.
    rewrite app_assoc. rewrite <- H. rewrite <- app_length. apply skipn_app_exact.
Qed.

Lemma fwrite_gap : forall base d, d <> [] -> fwrite [] base d = zeros base ++ d.
Proof.
  intros base d H. unfold fwrite. destruct d as [|x d]; [congruence|].
  rewrite Nat.sub_0_r, app_nil_l. rewrite <- (zeros_length base) at 1. rewrite firstn_all.
  rewrite skipn_nil, app_nil_r; auto.
Qed.

Lemma fshape_write : forall f base D d, fshape f base D ->
  fshape (fwrite f (base + length D) d) base (D ++ d).
Proof.
  intros f base D d [[-> ->]|[Hne ->]].
  - simpl. rewrite Nat.add_0_r. destruct d as [|x d].
    + left; auto.
    + right; split; [discriminate|]. apply fwrite_gap; discriminate.
  - right. split; [destruct D; [congruence|discriminate]|].
    replace (base + length D) with (length (zeros base ++ D)) by (rewrite app_length, zeros_length; auto).
    rewrite fwrite_end, app_assoc; auto.
Qed.

(** ** thread invariant *)
Definition tinv (B : nat) (ts : tstate) (pend : list seg) : Prop :=
  length (ts_buf ts) <= B /\
  ts_sub ts = layout 0 pend /\
  match ts_pc ts with
  | AtPublish k t _ => ts_used ts = 0 /\ length (t_bytes t) <= B
  | p =>
    ts_used ts = length (data_of pend) /\
    ts_used ts <= length (ts_buf ts) /\
    firstn (ts_used ts) (ts_buf ts) = data_of pend /\
    match p with
    | AtStore k t => ts_used ts + length (t_bytes t) <= length (ts_buf ts)
    | AtFlush k t => length (t_bytes t) <= B
    | _ => True
    end
  end.

Definition tg := (nat * tstate * list seg)%type.

Definition pub_of (x : tg) : list (string * entry) :=
  match ts_pc (snd (fst x)) with AtPublish _ _ off => layout off (snd x) | _ => [] end.
Definition unfl_of (x : tg) : list seg :=
  match ts_pc (snd (fst x)) with AtPublish _ _ _ => [] | _ => snd x end.
Definition hand_of (x : tg) : list seg :=
  match ts_pc (snd (fst x)) with
  | Idle => [] | AtFlush k t | AtPublish k t _ | AtStore k t => [(k, t)] end.

Record inv (meta : string * json) (B : nat -> nat) (s : ost) (calls : list seg)
           (segs : list seg) (H : list (string * entry)) (g : list tg) : Prop := {
  inv_thr : o_thr s = map fst g;
  inv_tids : NoDup (map fst (o_thr s));
  inv_min : forall tid, o_min s <= B tid;
  inv_t : Forall (fun x : tg => tinv (B (fst (fst x))) (snd (fst x)) (snd x)) g;
  inv_hdr : o_hdr s = meta :: map ej H;
  inv_H : Permutation (H ++ flat_map pub_of g) (layout 0 segs);
  inv_calls : Permutation (segs ++ flat_map unfl_of g ++ flat_map hand_of g) calls;
  inv_flushed : o_flushed s = length (data_of segs);
  inv_pos : o_pos s = 8 + o_max s + length (data_of segs);
  inv_file : fshape (o_file s) (8 + o_max s) (data_of segs);
  inv_log : o_file s = apply_writes [] (o_writes s);
  inv_logpos : Forall (fun w => 8 + o_max s <= fst w) (o_writes s) }.

Lemma dget_split : forall (V : Type) tid (l : list (nat * V)) ts, dget Nat.eqb tid l = Some ts ->
  exists l1 l2, l = l1 ++ (tid, ts) :: l2 /\ (forall v, dset Nat.eqb tid v l = l1 ++ (tid, v) :: l2).
Proof.
  induction l as [|[i v] l IH]; intros ts H; simpl in *; [discriminate|].
  destruct (Nat.eqb_spec tid i) as [->|Hne].
  - inversion H; subst. exists [], l; split; auto.
  - destruct (IH _ H) as (l1 & l2 & -> & E). exists ((i, v) :: l1), l2. split; auto.
    intros v'. rewrite E; auto.
Qed.

Lemma g_split : forall (g : list tg) tid ts, dget Nat.eqb tid (map fst g) = Some ts ->
  exists g1 p g2, g = g1 ++ (tid, ts, p) :: g2 /\
    (forall v p', dset Nat.eqb tid v (map fst g) = map fst (g1 ++ (tid, v, p') :: g2)).
Proof.
  intros g tid ts H.
  destruct (@dget_split _ tid (map fst g) ts H) as (l1 & l2 & E & Es).
  apply map_eq_app in E as (g1 & g2' & -> & <- & E2).
  destruct g2' as [|[[i t] p] g2]; [discriminate|]. simpl in E2. inversion E2; subst.
  exists g1, p, g2. split; auto. intros v p'. rewrite Es, map_app. auto.
Qed.

(** permutations by counting *)
Lemma perm_count_seg : forall a b : list seg,
  (forall x, count_occ seg_eq_dec a x = count_occ seg_eq_dec b x) -> Permutation a b.
Proof. intros; apply (Permutation_count_occ seg_eq_dec); auto. Qed.
Lemma perm_count_kentry : forall a b : list (string * entry),
  (forall x, count_occ kentry_eq_dec a x = count_occ kentry_eq_dec b x) -> Permutation a b.
Proof. intros; apply (Permutation_count_occ kentry_eq_dec); auto. Qed.

Ltac perm_seg :=
  apply perm_count_seg; intros ?x;
  repeat match goal with
  | H : Permutation ?a ?b |- _ =>
    first [ pose proof (proj1 (Permutation_count_occ seg_eq_dec a b) H x);
            clear H ]
  end;
  repeat (rewrite ?count_occ_app, ?flat_map_app in *; cbn [flat_map count_occ app] in * ); rewrite ?count_occ_app in *;
  repeat match goal with |- context [if ?d then _ else _] => destruct d end; lia.
Ltac perm_ent :=
  apply perm_count_kentry; intros ?x;
  repeat match goal with
  | H : Permutation ?a ?b |- _ =>
    first [ pose proof (proj1 (Permutation_count_occ kentry_eq_dec a b) H x);
            clear H ]
  end;
  repeat (rewrite ?count_occ_app, ?flat_map_app in *; cbn [flat_map count_occ app] in * ); rewrite ?count_occ_app in *;
  repeat match goal with |- context [if ?d then _ else _] => destruct d end; lia.

Lemma inv_keys_nodup : forall meta B s calls segs H g,
  inv meta B s calls segs H g -> NoDup (fst meta :: map fst calls) ->
  NoDup (fst meta :: map fst (segs ++ flat_map unfl_of g ++ flat_map hand_of g)).
Proof.
  intros meta B s calls segs H g I ND.
  eapply Permutation_NoDup; [|exact ND]. constructor. apply Permutation_map.
  symmetry. apply (inv_calls _ _ _ _ _ _ _ I).
Qed.

Lemma Forall_mid : forall A (P : A -> Prop) l1 x l2, Forall P (l1 ++ x :: l2) <-> Forall P (l1 ++ l2) /\ P x.
Proof.
  intros. rewrite !Forall_app, Forall_cons_iff. tauto.
Qed.

Lemma NoDup_tids_mid : forall (g1 : list tg) tid ts ts' p p' g2,
  NoDup (map fst (map fst (g1 ++ (tid, ts, p) :: g2))) ->
  NoDup (map fst (map fst (g1 ++ (tid, ts', p') :: g2))).
Proof. intros until g2. rewrite !map_app; simpl; auto. Qed.

Lemma data_firstn_cap : forall cap used (buf : list byte), length buf <= cap ->
  firstn cap (firstn used buf) = firstn used buf.
Proof. intros. apply firstn_all2. rewrite firstn_length. lia. Qed.

Lemma apply_writes_app : forall a b f, apply_writes f (a ++ b) = apply_writes (apply_writes f a) b.
Proof. intros; unfold apply_writes; apply fold_left_app. Qed.

(** flush of one thread, in the model's two steps *)
Lemma step_inv : forall meta B cap s calls segs H g o s',
  inv meta B s calls segs H g ->
  (forall tid, B tid <= cap) ->
  (forall tid k t, o = Call tid k t -> length (t_bytes t) <= B tid) ->
  let calls' := match o with Call _ k t => calls ++ [(k, t)] | Run _ => calls end in
  NoDup (fst meta :: map fst calls') ->
  ostep cap s o = Some s' ->
  exists segs' H' g', inv meta B s' calls' segs' H' g'.
Proof.
  intros meta B cap s calls segs H g o s' I HB Hsz calls' ND Hstep.
  pose proof I as I0. destruct I as [Ithr Itids Imin It Ihdr IH Icalls Ifl Ipos Ifile Ilog Ilp].
  destruct o as [tid k t|tid]; simpl in Hstep.
  - (* Call *)
    destruct (dget Nat.eqb tid (o_thr s)) as [ts|] eqn:Eg.
    + rewrite Ithr in Eg. destruct (g_split _ _ _ Eg) as (g1 & p & g2 & -> & Eset).
      destruct (ts_pc ts) eqn:Epc; try discriminate. inversion Hstep; subst s'; clear Hstep.
      apply Forall_mid in It as (It & Hts). simpl in Hts.
      set (next := if length (ts_buf ts) - ts_used ts <? length (t_bytes t) then AtFlush k t else AtStore k t).
      exists segs, H, (g1 ++ (tid, TS (ts_buf ts) (ts_used ts) (ts_sub ts) next, p) :: g2).
      assert (Hnext: (next = AtFlush k t) \/ (next = AtStore k t /\ ts_used ts + length (t_bytes t) <= length (ts_buf ts))).
      { unfold next. destruct (Nat.ltb_spec (length (ts_buf ts) - ts_used ts) (length (t_bytes t))); auto.
        right. split; auto. destruct Hts as (_ & _ & Hts). rewrite Epc in Hts. lia. }
      constructor; simpl; auto.
      * rewrite Ithr. apply Eset.
      * rewrite Ithr, (Eset _ p). rewrite Ithr in Itids. eapply NoDup_tids_mid; eauto.
      * apply Forall_mid. split; auto. simpl.
        destruct Hts as (T1 & T2 & T3). rewrite Epc in T3. destruct T3 as (T3 & T4 & T5 & _).
        split; [|split]; simpl; auto.
        destruct Hnext as [->|[-> Hn]]; simpl; repeat split; auto. eapply Hsz; eauto.
      * assert (Hp1: pub_of (tid, ts, p) = []) by (unfold pub_of; simpl; rewrite Epc; auto).
        assert (Hp2: pub_of (tid, {| ts_buf := ts_buf ts; ts_used := ts_used ts; ts_sub := ts_sub ts; ts_pc := next |}, p) = []).
        { unfold pub_of; simpl. destruct Hnext as [->|[-> _]]; auto. }
        rewrite flat_map_app in *. simpl in *. rewrite Hp1 in IH. rewrite Hp2. auto.
      * unfold calls'.
        assert (Hu1: unfl_of (tid, ts, p) = p) by (unfold unfl_of; simpl; rewrite Epc; auto).
        assert (Hh1: hand_of (tid, ts, p) = []) by (unfold hand_of; simpl; rewrite Epc; auto).
        assert (Hu2: unfl_of (tid, {| ts_buf := ts_buf ts; ts_used := ts_used ts; ts_sub := ts_sub ts; ts_pc := next |}, p) = p).
        { unfold unfl_of; simpl. destruct Hnext as [->|[-> _]]; auto. }
        assert (Hh2: hand_of (tid, {| ts_buf := ts_buf ts; ts_used := ts_used ts; ts_sub := ts_sub ts; ts_pc := next |}, p) = [(k, t)]).
        { unfold hand_of; simpl. destruct Hnext as [->|[-> _]]; auto. }
        rewrite !flat_map_app in *. cbn [flat_map] in *. rewrite Hu1, Hh1 in Icalls. rewrite Hu2, Hh2.
        clear - Icalls. perm_seg.
    + simpl in Hstep. inversion Hstep; subst s'; clear Hstep.
      set (next := if _ <? _ then AtFlush k t else AtStore k t).
      assert (Hnext: (next = AtFlush k t) \/ (next = AtStore k t /\ 0 + length (t_bytes t) <= length (zeros (o_min s)))).
      { unfold next. destruct (Nat.ltb_spec (length (zeros (o_min s)) - 0) (length (t_bytes t))); auto.
        right. split; auto. lia. }
      assert (Hfresh: ~ In tid (map fst (o_thr s))) by (apply (dget_None Nat.eqb Nat.eqb_spec); auto).
      exists segs, H, (g ++ [(tid, TS (zeros (o_min s)) 0 [] next, [])]).
      constructor; simpl; auto.
      * rewrite (dset_fresh Nat.eqb Nat.eqb_spec), map_app, Ithr; auto.
      * apply (dset_NoDup Nat.eqb Nat.eqb_spec); auto.
      * apply Forall_app; split; auto. constructor; auto. simpl. split; [|split]; simpl; auto.
        { rewrite zeros_length; auto. }
        destruct Hnext as [->|[-> Hn]]; simpl; repeat split; auto; try lia. eapply Hsz; eauto.
      * rewrite flat_map_app; simpl.
        assert (Hp2: pub_of (tid, {| ts_buf := zeros (o_min s); ts_used := 0; ts_sub := []; ts_pc := next |}, []) = []).
        { unfold pub_of; simpl. destruct Hnext as [->|[-> _]]; auto. }
        rewrite Hp2. rewrite !app_nil_r; auto.
      * unfold calls'.
        assert (Hu2: unfl_of (tid, {| ts_buf := zeros (o_min s); ts_used := 0; ts_sub := []; ts_pc := next |}, []) = []).
        { unfold unfl_of; simpl. destruct Hnext as [->|[-> _]]; auto. }
        assert (Hh2: hand_of (tid, {| ts_buf := zeros (o_min s); ts_used := 0; ts_sub := []; ts_pc := next |}, []) = [(k, t)]).
        { unfold hand_of; simpl. destruct Hnext as [->|[-> _]]; auto. }
        rewrite !flat_map_app. cbn [flat_map]. rewrite Hu2, Hh2.
        clear - Icalls. perm_seg.
  - (* Run *)
    destruct (dget Nat.eqb tid (o_thr s)) as [ts|] eqn:Eg; [|discriminate].
    rewrite Ithr in Eg. destruct (g_split _ _ _ Eg) as (g1 & p & g2 & -> & Eset).
    apply Forall_mid in It as (It & Hts). simpl in Hts.
    destruct Hts as (T1 & T2 & T3).
    destruct (ts_pc ts) as [|k t|k t off|k t] eqn:Epc; try discriminate; inversion Hstep; subst s'; clear Hstep.
    + (* AtFlush *)
      destruct T3 as (T3 & T4 & T5 & T6).
      rewrite data_firstn_cap by (specialize (HB tid); lia). rewrite T5.
      exists (segs ++ p), H, (g1 ++ (tid, TS (ts_buf ts) 0 (ts_sub ts) (AtPublish k t (o_flushed s)), p) :: g2).
      constructor; simpl; auto.
      * rewrite Ithr. apply Eset.
      * rewrite Ithr, (Eset _ p). rewrite Ithr in Itids. eapply NoDup_tids_mid; eauto.
      * apply Forall_mid. split; auto. simpl. split; [|split]; simpl; auto.
      * rewrite layout_app. simpl. rewrite <- Ifl.
        rewrite !flat_map_app in *. cbn [flat_map] in *. unfold pub_of at 2. unfold pub_of at 2 in IH.
        simpl in *. rewrite Epc in IH. clear - IH. perm_ent.
      * rewrite !flat_map_app in *. cbn [flat_map] in *.
        assert (Hu1: unfl_of (tid, ts, p) = p) by (unfold unfl_of; simpl; rewrite Epc; auto).
        assert (Hh1: hand_of (tid, ts, p) = [(k, t)]) by (unfold hand_of; simpl; rewrite Epc; auto).
        rewrite Hu1, Hh1 in Icalls. unfold calls'.
        unfold unfl_of at 2, hand_of at 2; simpl. clear - Icalls. perm_seg.
      * rewrite data_of_app, app_length, Ifl, T3; auto.
      * rewrite data_of_app, app_length, Ipos. lia.
      * rewrite data_of_app, Ipos. apply (fshape_write _ (8 + o_max s)); auto.
      * rewrite apply_writes_app. rewrite <- Ilog. reflexivity.
      * apply Forall_app; split; auto. constructor; auto. simpl. lia.
    + (* AtPublish *)
      destruct T3 as (T3 & T4).
      assert (Hpub: pub_of (tid, ts, p) = layout off p) by (unfold pub_of; simpl; rewrite Epc; auto).
      assert (Hk: map (shift_entry off) (ts_sub ts) = map ej (layout off p)).
      { rewrite T2, shift_layout. auto. }
      assert (Hup: dupdate String.eqb (o_hdr s) (map (shift_entry off) (ts_sub ts)) = meta :: map ej (H ++ layout off p)).
      { rewrite Hk, Ihdr. rewrite (dupdate_fresh String.eqb String.eqb_spec).
        - rewrite map_app; auto.
        - pose proof (inv_keys_nodup _ _ _ _ _ _ _ I0 ND) as ND2.
          rewrite map_app in ND2.
          cbn [map app]. rewrite map_app, !ej_keys.
          inversion ND2 as [|? ? Hn ND3]; subst. apply NoDup_app_iff in ND3 as (ND3 & _ & _).
          rewrite in_app_iff in Hn.
          assert (Hperm: Permutation (map fst H ++ map fst (flat_map pub_of (g1 ++ (tid, ts, p) :: g2))) (map fst segs)).
          { rewrite <- map_app. rewrite <- (layout_keys segs 0). apply Permutation_map; auto. }
          constructor.
          + intros Hin. apply Hn. left. eapply Permutation_in; [exact Hperm|].
            rewrite flat_map_app. cbn [flat_map]. rewrite Hpub, !map_app.
            rewrite !in_app_iff in *. tauto.
          + eapply Permutation_NoDup in ND3; [|symmetry; exact Hperm].
            rewrite flat_map_app in ND3. cbn [flat_map] in ND3. rewrite Hpub, !map_app in ND3.
            apply NoDup_app_iff in ND3 as (N1 & N2 & N3).
            apply NoDup_app_iff in N2 as (_ & N2 & _). apply NoDup_app_iff in N2 as (N2 & _ & _).
            apply NoDup_app_iff. repeat split; auto.
            intros x Hx Hx2. apply (N3 x); auto. rewrite !in_app_iff; auto. }
      rewrite Hup.
      set (req := Nat.max (o_min s) (length (t_bytes t))).
      set (buf := if length (ts_buf ts) <? req then zeros req else firstn req (ts_buf ts)).
      assert (Lb : length buf = req).
      { unfold buf. destruct (Nat.ltb_spec (length (ts_buf ts)) req).
        - apply zeros_length. - rewrite firstn_length. lia. }
      exists segs, (H ++ layout off p), (g1 ++ (tid, TS buf (ts_used ts) [] (AtStore k t), []) :: g2).
      constructor; simpl; auto.
      * rewrite Ithr. apply Eset.
      * rewrite Ithr, (Eset _ p). rewrite Ithr in Itids. eapply NoDup_tids_mid; eauto.
      * apply Forall_mid. split; auto. simpl. split; [|split]; simpl; auto.
        { rewrite Lb. unfold req. specialize (Imin tid). lia. }
        rewrite T3. simpl. rewrite Lb. unfold req. repeat split; auto; lia.
      * rewrite !flat_map_app in *. cbn [flat_map] in *. rewrite Hpub in IH.
        unfold pub_of at 2; simpl. clear - IH. perm_ent.
      * rewrite !flat_map_app in *. cbn [flat_map] in *.
        assert (Hu1: unfl_of (tid, ts, p) = []) by (unfold unfl_of; simpl; rewrite Epc; auto).
        assert (Hh1: hand_of (tid, ts, p) = [(k, t)]) by (unfold hand_of; simpl; rewrite Epc; auto).
        rewrite Hu1, Hh1 in Icalls. unfold calls'.
        unfold unfl_of at 2, hand_of at 2; simpl. clear - Icalls. perm_seg.
    + (* AtStore *)
      destruct T3 as (T3 & T4 & T5 & T6).
      assert (Hdata : data_of (p ++ [(k, t)]) = data_of p ++ t_bytes t).
      { rewrite data_of_app. unfold data_of at 2; simpl. rewrite app_nil_r; auto. }
      exists segs, H, (g1 ++ (tid, TS (slice_assign (ts_buf ts) (ts_used ts) (t_bytes t))
         (ts_used ts + length (t_bytes t))
         (dset String.eqb k (Entry (t_dtype t) (t_shape t) (ts_used ts) (ts_used ts + length (t_bytes t))) (ts_sub ts)) Idle, p ++ [(k, t)]) :: g2).
      constructor; simpl; auto.
      * rewrite Ithr. apply Eset.
      * rewrite Ithr, (Eset _ p). rewrite Ithr in Itids. eapply NoDup_tids_mid; eauto.
      * apply Forall_mid. split; auto. simpl.
        assert (Lsa : length (slice_assign (ts_buf ts) (ts_used ts) (t_bytes t)) = length (ts_buf ts)).
        { unfold slice_assign. rewrite !app_length, firstn_length, skipn_length. lia. }
        split; [|split]; simpl.
        -- rewrite Lsa; auto.
        -- rewrite (dset_fresh String.eqb String.eqb_spec).
           ++ rewrite T2, layout_app. simpl. rewrite <- T3. auto.
           ++ rewrite T2, layout_keys. intros Hin.
              pose proof (inv_keys_nodup _ _ _ _ _ _ _ I0 ND) as ND2.
              inversion ND2 as [|? ? _ ND3]; subst.
              rewrite !flat_map_app in ND3. cbn [flat_map] in ND3.
              assert (Hu1: unfl_of (tid, ts, p) = p) by (unfold unfl_of; simpl; rewrite Epc; auto).
              assert (Hh1: hand_of (tid, ts, p) = [(k, t)]) by (unfold hand_of; simpl; rewrite Epc; auto).
              rewrite Hu1, Hh1 in ND3. rewrite !map_app in ND3.
              apply NoDup_app_iff in ND3 as (_ & ND3 & _).
              apply NoDup_app_iff in ND3 as (_ & _ & ND3).
              apply (ND3 k); rewrite !in_app_iff; simpl; auto.
        -- rewrite Hdata, app_length, Lsa, <- T3. repeat split; auto.
           unfold slice_assign. rewrite app_assoc.
           replace (ts_used ts + length (t_bytes t)) with (length (firstn (ts_used ts) (ts_buf ts) ++ t_bytes t)).
           ++ rewrite firstn_app_exact, T5; auto.
           ++ rewrite app_length, firstn_length. lia.
      * rewrite !flat_map_app in *. cbn [flat_map] in *.
        assert (Hp1: pub_of (tid, ts, p) = []) by (unfold pub_of; simpl; rewrite Epc; auto).
        rewrite Hp1 in IH. unfold pub_of at 2; simpl. auto.
      * rewrite !flat_map_app in *. cbn [flat_map] in *.
        assert (Hu1: unfl_of (tid, ts, p) = p) by (unfold unfl_of; simpl; rewrite Epc; auto).
        assert (Hh1: hand_of (tid, ts, p) = [(k, t)]) by (unfold hand_of; simpl; rewrite Epc; auto).
        rewrite Hu1, Hh1 in Icalls. unfold calls'.
        unfold unfl_of at 2, hand_of at 2; simpl. clear - Icalls. perm_seg.
Qed.
