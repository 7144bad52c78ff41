(** Lemmas behind the streaming properties. *)
From Coq Require Import String Ascii List Bool Arith NArith Lia Permutation Sorted.
From Verif Require Import Base Dec Json JsonProofs JsonTrunc PyStr ModelStream SpecStream
  InProofs OutProofs OutProofs2 OutProofs3 CrashProofs.
Import ListNotations.

Lemma written_calls : forall ops, calls_of ops = written ops.
Proof. reflexivity. Qed.

Lemma quiescent_idle : forall s, quiescent s -> all_idle s.
Proof. intros s H. unfold all_idle. apply Forall_forall. intros [tid ts] Hin. eapply H; eauto. Qed.

Lemma in_written : forall ops tid k t, In (Call tid k t) ops -> In (k, t) (written ops).
Proof. intros. unfold written. apply in_flat_map. eexists; split; [eauto|]. simpl; auto. Qed.

(** everything known about a file after close() *)
Lemma close_full : forall cap declared recipe minbuf ops s,
  orun cap (out_open declared recipe minbuf) ops = Some s -> quiescent s ->
  good_calls (written ops) -> transfers_fit cap declared recipe minbuf (written ops) ->
  exists segs H,
    Permutation segs (written ops) /\ Permutation H (layout 0 segs) /\
    o_hdr (close_flush cap s) = meta_entry recipe :: map ej H /\
    o_max (close_flush cap s) = max_header declared recipe /\
    o_min (close_flush cap s) = minbuf /\
    fshape (o_file (close_flush cap s)) (8 + max_header declared recipe) (data_of segs) /\
    wfj (JObj (meta_entry recipe :: map ej H)) /\
    length (json_dumps (JObj (meta_entry recipe :: map ej H))) <= cap /\
    (length (json_dumps (JObj (meta_entry recipe :: map ej H))) <= max_header declared recipe \/ 0 < minbuf ->
     exists size8,
       pack_Q (N.of_nat (Nat.max (max_header declared recipe) (length (json_dumps (JObj (meta_entry recipe :: map ej H)))))) = Ok size8 /\
       out_close cap s = Ok (final_file size8 (json_dumps (JObj (meta_entry recipe :: map ej H)))
           (max_header declared recipe - length (json_dumps (JObj (meta_entry recipe :: map ej H)))) (data_of segs))).
Proof.
  intros cap declared recipe minbuf ops s Hrun Hq (ND & Hwf) (H8 & H64 & Hmin & Hsz & Hmax & Hmax2).
  set (meta := meta_entry recipe).
  assert (I0 : inv meta (fun _ => cap) (out_open declared recipe minbuf) [] [] [] []).
  { unfold meta. rewrite <- meta_entry_hd. apply open_inv. auto. }
  destruct (run_inv meta (fun _ => cap) cap ops _ [] [] [] [] s I0) as (segs0 & H0 & g0 & I1); auto.
  { intros tid k t Hin. eapply Hsz. eapply in_written; eauto. }
  simpl app in I1. rewrite written_calls in I1.
  destruct (close_flush_inv meta (fun _ => cap) cap s (written ops) segs0 H0 g0 I1) as
    (segs & H & g & I2 & P1 & P2 & E1 & E2); auto.
  { apply quiescent_idle; auto. }
  assert (Emax : o_max s = max_header declared recipe /\ o_min s = minbuf).
  { clear - Hrun. assert (Hg: forall ops s s', orun cap s ops = Some s' -> o_max s' = o_max s /\ o_min s' = o_min s).
    { clear. induction ops as [|o ops IH]; intros s s' H; simpl in H; [inversion H; auto|].
      destruct (ostep cap s o) as [s1|] eqn:E; [|discriminate]. apply IH in H as (-> & ->).
      destruct o as [tid k t|tid]; simpl in E.
      - destruct (ts_pc _); inversion E; auto.
      - destruct (dget Nat.eqb tid (o_thr s)) as [ts|]; [|discriminate].
        destruct (ts_pc ts); inversion E; auto. }
    apply Hg in Hrun. exact Hrun. }
  destruct Emax as (Em & En).
  pose proof (inv_hdr _ _ _ _ _ _ _ I2) as Ehdr.
  assert (NDH : NoDup ("__metadata__"%string :: map fst H)).
  { inversion ND as [|? ? Hn ND']; subst.
    assert (HP : Permutation (map fst H) (map fst (written ops))).
    { rewrite P2. rewrite layout_keys. apply Permutation_map; auto. }
    constructor.
    - intros Hx. apply Hn. eapply Permutation_in; eauto.
    - eapply Permutation_NoDup; [symmetry; exact HP|auto]. }
  assert (Hw : wfj (JObj (meta :: map ej H))).
  { unfold meta. rewrite <- meta_entry_hd. apply header_wf; auto. }
  assert (Hlen : length (json_dumps (JObj (meta :: map ej H))) <= cap).
  { eapply Nat.le_trans; [|exact Hmax2]. apply (header_fits (decls_of (written ops)) recipe segs H); auto.
    - unfold decls_of. rewrite map_map. simpl. auto.
    - eapply Permutation_NoDup; [apply Permutation_map; symmetry; exact P1|]. inversion ND; auto.
    - intros k t Hin. assert (Hin' : In (k, t) (written ops)) by (eapply Permutation_in; eauto). split.
      + rewrite Forall_forall in Hwf. apply (Hwf _ Hin').
      + unfold decls_of. apply in_map_iff. exists (k, t). auto. }
  exists segs, H. rewrite E1, E2, Em, En.
  repeat split; auto.
  - rewrite <- Em, <- E1. apply (inv_file _ _ _ _ _ _ _ I2).
  - intros Hor.
    destruct (out_close_file cap s (close_flush cap s) segs H meta (fun _ => cap) (written ops) g eq_refl I2 P2) as (size8 & Hp & Hc);
      rewrite ?Ehdr, ?E1, ?E2, ?Em, ?En in *; auto.
    + lia.
    + exists size8. split; auto.
Qed.

Lemma entry_in_sorted : forall h h' k v, sort_header h = Ok h' -> NoDup (map fst h) -> In (k, v) h ->
  dget String.eqb k h' = Some v.
Proof.
  intros h h' k v Hs ND Hin. destruct (sort_header_spec _ _ Hs) as (HP & _).
  apply (dget_NoDup_In String.eqb String.eqb_spec).
  - eapply Permutation_NoDup; [apply Permutation_map; exact HP|auto].
  - eapply Permutation_in; eauto.
Qed.

Lemma header_sorts : forall recipe H, exists h', sort_header (meta_entry recipe :: map ej H) = Ok h'.
Proof.
  intros recipe H. apply sort_header_ok. constructor.
  - exists 0%N. apply sort_key_meta.
  - apply Forall_forall. intros x Hx. apply in_map_iff in Hx as ([k e] & <- & _).
    eexists. simpl. reflexivity.
Qed.

(** the closed file opens; its header is the one written *)
Lemma open_full : forall cap recipe H size8 overhead D n bufsize,
  let h := meta_entry recipe :: map ej H in
  wfj (JObj h) -> n = length (json_dumps (JObj h)) + overhead ->
  pack_Q (N.of_nat n) = Ok size8 -> 8 <= cap -> n <= cap ->
  exists h', sort_header h = Ok h' /\
    in_open cap (final_file size8 (json_dumps (JObj h)) overhead D) bufsize =
      Ok (INS (final_file size8 (json_dumps (JObj h)) overhead D) bufsize n h' [[]] 0 (8 + n)).
Proof.
  intros cap recipe H size8 overhead D n bufsize h Hw Hn Hp H8 Hc.
  destruct (header_sorts recipe H) as (h' & Hs). fold h in Hs. exists h'. split; auto.
  unfold in_open. erewrite read_final; eauto. rewrite Hs. reflexivity.
Qed.

Lemma wfj_keys : forall h, wfj (JObj h) -> NoDup (map fst h).
Proof. intros h Hw; inversion Hw; auto. Qed.

Lemma keys_filter : forall (h h' : list (string * json)) keys,
  Permutation h h' -> map fst h = "__metadata__"%string :: keys -> NoDup (map fst h) ->
  Permutation (filter (fun k => negb (String.eqb k "__metadata__")) (map fst h')) keys.
Proof.
  intros h h' keys HP Hk ND.
  assert (HP2 : Permutation (map fst h') ("__metadata__"%string :: keys)).
  { rewrite <- Hk. apply Permutation_map. symmetry; auto. }
  assert (Hf : forall a b : list string, Permutation a b ->
     Permutation (filter (fun k => negb (String.eqb k "__metadata__")) a) (filter (fun k => negb (String.eqb k "__metadata__")) b)).
  { clear. induction 1; simpl; auto.
    - destruct (negb _); auto.
    - destruct (negb (x =? _)%string), (negb (y =? _)%string); auto. apply perm_swap.
    - etransitivity; eauto. }
  rewrite (Hf _ _ HP2). rewrite Hk in ND. inversion ND as [|? ? Hn _]; subst. simpl.
  assert (E : filter (fun k => negb (String.eqb k "__metadata__")) keys = keys).
  { clear - Hn. induction keys as [|k keys IH]; simpl in *; auto.
    destruct (String.eqb_spec k "__metadata__"); [subst; tauto|]. simpl. f_equal. apply IH. tauto. }
  rewrite E. auto.
Qed.

Lemma entries_fit_closed : forall cap recipe H segs h',
  Permutation H (layout 0 segs) -> (forall k t, In (k, t) segs -> length (t_bytes t) <= cap) ->
  sort_header (meta_entry recipe :: map ej H) = Ok h' -> entries_fit cap h'.
Proof.
  intros cap recipe H segs h' HP Hsz Hs k v d sh a b Hin Hv.
  destruct (sort_header_spec _ _ Hs) as (HP2 & _).
  assert (In (k, v) (meta_entry recipe :: map ej H)) as [E|E] by (eapply Permutation_in; [symmetry; exact HP2|auto]).
  - inversion E; subst. destruct recipe; discriminate Hv.
  - apply in_map_iff in E as ([k' e] & E & He). unfold ej in E. simpl in E. inversion E; subst.
    rewrite entry_info_entry in Hv. inversion Hv; subst.
    assert (In (k, e) (layout 0 segs)) as Hl by (eapply Permutation_in; eauto).
    destruct (layout_from _ _ _ _ Hl) as (t & x & H1 & _ & _ & H4 & H5 & _).
    specialize (Hsz _ _ H1). rewrite H4, H5. lia.
Qed.

Lemma size_sum : forall mx len, len + (mx - len) = Nat.max mx len.
Proof. intros; lia. Qed.

(** C05 *)
Lemma written_reads_back : forall cap declared recipe minbuf ops s bufsize,
  orun cap (out_open declared recipe minbuf) ops = Some s -> quiescent s ->
  good_calls (written ops) -> transfers_fit cap declared recipe minbuf (written ops) ->
  0 < minbuf -> bufsize <= cap ->
  exists f r,
    out_close cap s = Ok f /\ in_open cap f bufsize = Ok r /\
    Permutation (in_keys r) (map fst (written ops)) /\
    dget String.eqb "__metadata__"%string (in_header r) =
      Some (JObj (match recipe with Some x => [("mecha_recipe"%string, JStr x)] | None => [] end)) /\
    forall reads k t, In (k, t) (written ops) ->
      exists w, fst (in_get cap (in_gets cap r reads) k) = Ok w /\
                view_tensor (in_heap (snd (in_get cap (in_gets cap r reads) k))) w = t.
Proof.
  intros cap declared recipe minbuf ops s bufsize Hrun Hq Hg Hfit Hmin Hbuf.
  destruct (close_full _ _ _ _ _ _ Hrun Hq Hg Hfit) as (segs & H & P1 & P2 & Eh & Em & En & Hf & Hw & Hl & Hc).
  destruct (Hc (or_intror Hmin)) as (size8 & Hp & Hclose). clear Hc.
  set (h := meta_entry recipe :: map ej H) in *. set (text := json_dumps (JObj h)) in *.
  destruct Hfit as (H8 & H64 & Hm1 & Hsz & Hmax & Hmax2). destruct Hg as (ND & Hwf).
  destruct (open_full cap recipe H size8 (max_header declared recipe - length text) (data_of segs)
             (Nat.max (max_header declared recipe) (length text)) bufsize) as (h' & Hs & Hopen); auto.
  { fold h text. rewrite size_sum; auto. }
  { fold h text. lia. }
  fold h in Hs, Hopen. fold text in Hopen.
  eexists _, _. split; [exact Hclose|]. split; [exact Hopen|].
  set (F := final_file _ _ _ _) in *. set (n := Nat.max _ _) in *.
  set (r := INS F bufsize n h' [[]] 0 (8 + n)) in *.
  destruct (sort_header_spec _ _ Hs) as (HP & _).
  assert (NDh : NoDup (map fst h)) by (apply wfj_keys; auto).
  split; [|split].
  - unfold in_keys. simpl in_header.
    assert (HK : Permutation (map fst H) (map fst (written ops))).
    { rewrite P2, layout_keys. apply Permutation_map; auto. }
    rewrite <- HK. eapply keys_filter; eauto. unfold h. cbn [map]. rewrite ej_keys. reflexivity.
  - eapply entry_in_sorted; eauto. left. reflexivity.
  - intros reads k t Hin.
    assert (Hin' : In (k, t) segs) by (eapply Permutation_in; [symmetry; exact P1|auto]).
    destruct (permutation_in_layout _ _ P2 _ _ Hin') as (x & y & ED & HinH).
    destruct (in_open_window _ _ _ _ Hopen) as (Hwin & _ & _).
    assert (Hef : entries_fit cap (in_header r)).
    { eapply entries_fit_closed; eauto. intros k0 t0 Hx. eapply Hsz. eapply Permutation_in; eauto. }
    destruct (in_gets_keeps cap reads r Hwin Hbuf Hef) as (Hwin' & (F1 & F2 & F3 & F4 & F5)).
    set (r' := in_gets cap r reads) in *.
    destruct (in_get_spec cap r' k (entry_json (t_dtype t) (t_shape t) (length x) (length x + length (t_bytes t)))
      (t_dtype t) (t_shape t) (N.of_nat (length x)) (N.of_nat (length x + length (t_bytes t)))) as (w & Hw1 & Hw2); auto.
    + rewrite F2; auto.
    + rewrite F4; auto.
    + rewrite F4. eapply entry_in_sorted; eauto. right.
      apply in_map_iff. eexists; split; [|exact HinH]. reflexivity.
    + intros ->. inversion ND as [|? ? Hn _]; subst. apply Hn. apply (in_map fst) in Hin; auto.
    + apply entry_info_entry.
    + rewrite Forall_forall in Hwf. specialize (Hwf _ Hin). unfold wf_tensor in Hwf. simpl in Hwf. lia.
    + rewrite F1, F3, Nat2N.id. cbn [r in_file in_hsize]. unfold F, final_file.
      rewrite ED, !app_length, repeat_length. destruct (unpack_pack _ _ Hp) as (_ & L8).
      unfold n. lia.
    + exists w. split; auto. rewrite Hw2. rewrite F1, F3, !Nat2N.id. cbn [r in_file in_hsize].
      destruct t as [d sh bs]. cbn [t_dtype t_shape t_bytes] in *. f_equal.
      unfold F, final_file. rewrite ED.
      set (pre := size8 ++ text ++ repeat " "%char (max_header declared recipe - length text)).
      assert (Epre : size8 ++ text ++ repeat " "%char (max_header declared recipe - length text) ++ x ++ bs ++ y = (pre ++ x) ++ bs ++ y)
        by (unfold pre; rewrite <- !app_assoc; auto).
      rewrite Epre.
      assert (Lpre : length (pre ++ x) = 8 + n + length x).
      { unfold pre. rewrite !app_length, repeat_length. destruct (unpack_pack _ _ Hp) as (_ & L8). unfold n. lia. }
      rewrite <- Lpre. replace (8 + n + (length x + length bs)) with (length (pre ++ x) + length bs) by lia.
      apply slice_app_mid.
Qed.

(** C06: offsets of the entries are those of [layout] *)
Lemma layout_cover : forall l off p, p < length (data_of l) ->
  exists k e, In (k, e) (layout off l) /\ e_start e <= off + p < e_stop e.
Proof.
  induction l as [|[k t] l IH]; intros off p Hp; [unfold data_of in Hp; simpl in Hp; lia|].
  unfold data_of in Hp. simpl in Hp. rewrite app_length in Hp. fold (data_of l) in Hp.
  destruct (le_lt_dec (length (t_bytes t)) p) as [H|H].
  - destruct (IH (off + length (t_bytes t)) (p - length (t_bytes t))) as (k' & e & H1 & H2); [lia|].
    exists k', e. split; [right; auto|lia].
  - exists k, (Entry (t_dtype t) (t_shape t) off (off + length (t_bytes t))). split; [left; auto|simpl; lia].
Qed.

Lemma layout_bounds : forall l off k e, In (k, e) (layout off l) ->
  off <= e_start e /\ e_start e <= e_stop e /\ e_stop e <= off + length (data_of l).
Proof.
  intros l off k e H. destruct (layout_from _ _ _ _ H) as (t & x & _ & _ & _ & H4 & H5 & H6). lia.
Qed.

Lemma layout_disjoint : forall l off k1 e1 k2 e2, NoDup (map fst l) ->
  In (k1, e1) (layout off l) -> In (k2, e2) (layout off l) -> k1 <> k2 ->
  e_stop e1 <= e_start e2 \/ e_stop e2 <= e_start e1.
Proof.
  induction l as [|[k t] l IH]; intros off k1 e1 k2 e2 ND H1 H2 Hne; simpl in *; [tauto|].
  inversion ND; subst.
  destruct H1 as [H1|H1], H2 as [H2|H2].
  - inversion H1; inversion H2; congruence.
  - inversion H1; subst. left. simpl. apply layout_bounds in H2. lia.
  - inversion H2; subst. right. simpl. apply layout_bounds in H1. lia.
  - eapply IH; eauto.
Qed.

Lemma tensors_tile : forall cap declared recipe minbuf ops s bufsize,
  orun cap (out_open declared recipe minbuf) ops = Some s -> quiescent s ->
  good_calls (written ops) -> transfers_fit cap declared recipe minbuf (written ops) ->
  0 < minbuf ->
  exists f r (start stop : string -> nat),
    out_close cap s = Ok f /\ in_open cap f bufsize = Ok r /\
    (forall k t, In (k, t) (written ops) ->
       dget String.eqb k (in_header r) = Some (entry_json (t_dtype t) (t_shape t) (start k) (stop k)) /\
       stop k = start k + length (t_bytes t) /\ 8 + in_hsize r + stop k <= length f) /\
    (forall k1 k2, In k1 (map fst (written ops)) -> In k2 (map fst (written ops)) -> k1 <> k2 ->
       stop k1 <= start k2 \/ stop k2 <= start k1) /\
    (forall p, 8 + in_hsize r <= p < length f ->
       exists k, In k (map fst (written ops)) /\ 8 + in_hsize r + start k <= p < 8 + in_hsize r + stop k).
Proof.
  intros cap declared recipe minbuf ops s bufsize Hrun Hq Hg Hfit Hmin.
  destruct (close_full _ _ _ _ _ _ Hrun Hq Hg Hfit) as (segs & H & P1 & P2 & Eh & Em & En & Hf & Hw & Hl & Hc).
  destruct (Hc (or_intror Hmin)) as (size8 & Hp & Hclose). clear Hc.
  set (h := meta_entry recipe :: map ej H) in *. set (text := json_dumps (JObj h)) in *.
  destruct Hfit as (H8 & H64 & Hm1 & Hsz & Hmax & Hmax2). destruct Hg as (ND & Hwf).
  destruct (open_full cap recipe H size8 (max_header declared recipe - length text) (data_of segs)
             (Nat.max (max_header declared recipe) (length text)) bufsize) as (h' & Hs & Hopen); auto.
  { fold h text. rewrite size_sum; auto. }
  { fold h text. lia. }
  fold h in Hs, Hopen. fold text in Hopen.
  set (st := fun k => match dget String.eqb k H with Some e => e_start e | None => 0 end).
  set (sp := fun k => match dget String.eqb k H with Some e => e_stop e | None => 0 end).
  exists (final_file size8 text (max_header declared recipe - length text) (data_of segs)).
  eexists. exists st, sp. split; [exact Hclose|]. split; [exact Hopen|]. cbn [in_header in_hsize].
  set (n := Nat.max _ _) in *.
  assert (NDs : NoDup (map fst segs)).
  { inversion ND; subst. eapply Permutation_NoDup; [apply Permutation_map; symmetry; exact P1|auto]. }
  assert (NDH : NoDup (map fst H)).
  { eapply Permutation_NoDup; [apply Permutation_map; symmetry; exact P2|]. rewrite layout_keys; auto. }
  assert (HgetL : forall k, In k (map fst (written ops)) -> exists e, dget String.eqb k H = Some e /\ In (k, e) (layout 0 segs)).
  { intros k Hk. assert (Hk' : In k (map fst H)).
    { eapply Permutation_in; [apply Permutation_map; symmetry; exact P2|]. rewrite layout_keys.
      eapply Permutation_in; [apply Permutation_map; symmetry; exact P1|auto]. }
    apply in_map_iff in Hk' as ([k' e] & E & Hin). simpl in E; subst k'. exists e. split.
    - apply (dget_NoDup_In String.eqb String.eqb_spec); auto.
    - eapply Permutation_in; eauto. }
  assert (LF : length (final_file size8 text (max_header declared recipe - length text) (data_of segs)) = 8 + n + length (data_of segs)).
  { unfold final_file. rewrite !app_length, repeat_length. destruct (unpack_pack _ _ Hp) as (_ & L8). unfold n; lia. }
  rewrite LF.
  split; [|split].
  - intros k t Hin.
    assert (Hin' : In (k, t) segs) by (eapply Permutation_in; [symmetry; exact P1|auto]).
    destruct (permutation_in_layout _ _ P2 _ _ Hin') as (x & y & ED & HinH).
    assert (Eg : dget String.eqb k H = Some (Entry (t_dtype t) (t_shape t) (length x) (length x + length (t_bytes t)))).
    { apply (dget_NoDup_In String.eqb String.eqb_spec); auto. }
    unfold st, sp. rewrite Eg. cbn [e_start e_stop]. split; [|split; [auto|]].
    + eapply entry_in_sorted; eauto; [apply wfj_keys; auto|]. right.
      apply in_map_iff. eexists; split; [|exact HinH]. reflexivity.
    + rewrite ED, !app_length. lia.
  - intros k1 k2 Hk1 Hk2 Hne. destruct (HgetL _ Hk1) as (e1 & G1 & L1). destruct (HgetL _ Hk2) as (e2 & G2 & L2).
    unfold st, sp. rewrite G1, G2. eapply layout_disjoint; eauto.
  - intros p Hpp. destruct (layout_cover segs 0 (p - (8 + n))) as (k & e & Hin & He); [lia|].
    assert (Hk : In k (map fst (written ops))).
    { eapply Permutation_in; [apply Permutation_map; exact P1|]. rewrite <- (layout_keys segs 0).
      apply (in_map fst) in Hin; auto. }
    exists k. split; auto.
    assert (Eg : dget String.eqb k H = Some e).
    { apply (dget_NoDup_In String.eqb String.eqb_spec); auto. eapply Permutation_in; [symmetry; exact P2|auto]. }
    unfold st, sp. rewrite Eg. lia.
Qed.

(** C07 *)
Lemma reservation_suffices : forall cap declared recipe minbuf ops s bufsize,
  orun cap (out_open declared recipe minbuf) ops = Some s -> quiescent s ->
  good_calls (written ops) -> transfers_fit cap declared recipe minbuf (written ops) ->
  NoDup ("__metadata__"%string :: map fst declared) ->
  (forall k t, In (k, t) (written ops) -> In (k, (Some (t_dtype t), Some (t_shape t))) declared) ->
  length (json_dumps (JObj (o_hdr (close_flush cap s)))) <= max_header declared recipe /\
  exists f r, out_close cap s = Ok f /\ in_open cap f bufsize = Ok r /\
    in_hsize r = max_header declared recipe /\
    skipn (8 + max_header declared recipe) f = skipn (8 + max_header declared recipe) (o_file (close_flush cap s)).
Proof.
  intros cap declared recipe minbuf ops s bufsize Hrun Hq Hg Hfit NDd Hdecl.
  destruct (close_full _ _ _ _ _ _ Hrun Hq Hg Hfit) as (segs & H & P1 & P2 & Eh & Em & En & Hf & Hw & Hl & Hc).
  destruct Hfit as (H8 & H64 & Hm1 & Hsz & Hmax & Hmax2). destruct Hg as (ND & Hwf).
  assert (Hle : length (json_dumps (JObj (meta_entry recipe :: map ej H))) <= max_header declared recipe).
  { apply (header_fits declared recipe segs H); auto.
    - inversion ND; subst. eapply Permutation_NoDup; [apply Permutation_map; symmetry; exact P1|auto].
    - intros k t Hin. assert (Hin' : In (k, t) (written ops)) by (eapply Permutation_in; eauto).
      split; auto. rewrite Forall_forall in Hwf. apply (Hwf _ Hin'). }
  rewrite Eh. split; [exact Hle|].
  destruct (Hc (or_introl Hle)) as (size8 & Hp & Hclose). clear Hc.
  set (h := meta_entry recipe :: map ej H) in *. set (text := json_dumps (JObj h)) in *.
  destruct (open_full cap recipe H size8 (max_header declared recipe - length text) (data_of segs)
             (Nat.max (max_header declared recipe) (length text)) bufsize) as (h' & Hs & Hopen); auto.
  { fold h text. rewrite size_sum; auto. }
  { fold h text. lia. }
  fold h in Hs, Hopen. fold text in Hopen.
  eexists _, _. split; [exact Hclose|]. split; [exact Hopen|]. cbn [in_hsize]. split; [lia|].
  destruct (unpack_pack _ _ Hp) as (_ & L8).
  unfold final_file. rewrite !app_assoc.
  replace (8 + max_header declared recipe) with (length ((size8 ++ text) ++ repeat " "%char (max_header declared recipe - length text))) at 1
    by (rewrite !app_length, repeat_length; lia).
  rewrite skipn_app_exact.
  destruct Hf as [[-> ->]|[_ ->]].
  - rewrite skipn_nil. auto.
  - replace (8 + max_header declared recipe) with (length (zeros (8 + max_header declared recipe))) at 1 by apply zeros_length.
    rewrite skipn_app_exact. auto.
Qed.

(** C08 *)
Lemma relocation_moves : forall P D shift chunk,
  0 < chunk ->
  let lo := length P in
  let f := relocate (S (length D)) (ftruncate (P ++ D) (lo + length D + shift)) (lo + length D) lo chunk shift in
  length f = lo + shift + length D /\ skipn (lo + shift) f = D /\ firstn lo f = P.
Proof.
  intros P D shift chunk Hc lo.
  set (f1 := ftruncate (P ++ D) (lo + length D + shift)).
  assert (E1 : f1 = P ++ D ++ zeros shift).
  { unfold f1, ftruncate. rewrite app_length. fold lo.
    replace (lo + length D + shift - (lo + length D)) with shift by lia.
    rewrite <- app_assoc. apply firstn_all2. rewrite !app_length, zeros_length. fold lo. lia. }
  assert (L1 : length f1 = lo + length D + shift) by (rewrite E1, !app_length, zeros_length; fold lo; lia).
  cbv zeta. fold f1.
  destruct (relocate_ok (S (length D)) f1 (lo + length D) lo chunk shift D) as (A & B); auto; try lia.
  - replace (lo + length D - lo) with (length D) by lia. rewrite firstn_all, E1. unfold lo.
    rewrite skipn_app_exact, firstn_app_exact. auto.
  - replace (lo + length D - lo) with (length D) by lia. rewrite skipn_all. apply skipn_all2. lia.
  - rewrite A, L1. split; [lia|]. split; [auto|].
    assert (Hkeep : forall ws f, Forall (fun w => lo <= fst w) ws -> lo <= length f ->
       firstn lo (apply_writes f ws) = firstn lo f).
    { clear. unfold apply_writes. induction ws as [|[p d] ws IH]; intros f HF HL; simpl; auto.
      inversion HF; subst. simpl in *.
      assert (E : firstn lo (fwrite f p d) = firstn lo f /\ lo <= length (fwrite f p d)).
      { unfold fwrite. destruct d as [|x d]; auto. split.
        - rewrite firstn_app, firstn_firstn. rewrite Nat.min_l by lia. rewrite firstn_length, app_length, zeros_length.
          replace (lo - Nat.min p (length f + (p - length f))) with 0 by lia. simpl. rewrite app_nil_r.
          rewrite firstn_app. replace (lo - length f) with 0 by lia. simpl. apply app_nil_r.
        - rewrite app_length, firstn_length, app_length, zeros_length. lia. }
      destruct E as (E1 & E2). rewrite IH; auto. }
    rewrite relocate_as_writes, Hkeep; [|eapply Forall_impl; [|apply relocate_writes_pos]; simpl; intros; lia|lia].
    rewrite E1. apply firstn_app_exact.
Qed.

(** C09 *)
Lemma crash_is : forall W f, crash W f <-> crash_of W f.
Proof.
  intros W f. unfold crash, crash_of. split.
  - intros [H|(W1 & p & d & d' & W2 & E & H)]; [right; auto|left; exists W1, W2, p, d, d'; auto].
  - intros [(W1 & W2 & p & d & d' & E & H)|H]; [right; exists W1, p, d, d', W2; auto|left; auto].
Qed.

Lemma unreadable_of : forall cap f, read_header cap f = Err StructError \/ read_header cap f = Err JSONDecodeError -> unreadable cap f.
Proof.
  intros cap f [H|H]; eexists; intros b; unfold in_open; rewrite H; reflexivity.
Qed.

(** a simple invariant that needs no assumption on keys or sizes *)
Definition log_inv (s : ost) : Prop :=
  o_file s = apply_writes [] (o_writes s) /\ 8 + o_max s <= o_pos s /\
  Forall (fun w => 8 + o_max s <= fst w) (o_writes s).

Lemma log_inv_flush : forall cap s ts, log_inv s -> log_inv (fst (fst (flush_locked cap s ts))).
Proof.
  intros cap s ts (A & B & C). unfold flush_locked. cbn [fst]. repeat split; cbn [o_file o_pos o_max o_writes].
  - rewrite apply_writes_app, <- A. reflexivity.
  - lia.
  - apply Forall_app; split; auto.
Qed.

Lemma log_inv_step : forall cap s o s', log_inv s -> ostep cap s o = Some s' -> log_inv s'.
Proof.
  intros cap s o s' H E. destruct o as [tid k t|tid]; simpl in E.
  - destruct (ts_pc _); inversion E; auto.
  - destruct (dget Nat.eqb tid (o_thr s)) as [ts|]; [|discriminate].
    destruct (ts_pc ts); inversion E; auto. apply (log_inv_flush cap s ts H).
Qed.

Lemma log_inv_run : forall cap ops s s', log_inv s -> orun cap s ops = Some s' -> log_inv s'.
Proof.
  induction ops as [|o ops IH]; intros s s' H E; simpl in E; [inversion E; subst; auto|].
  destruct (ostep cap s o) eqn:E1; [|discriminate]. eapply IH; [|eauto]. eapply log_inv_step; eauto.
Qed.

Lemma log_inv_close : forall cap s, log_inv s -> log_inv (close_flush cap s).
Proof.
  intros cap s. unfold close_flush. generalize (map fst (o_thr s)). intros l. revert s.
  induction l as [|tid l IH]; intros s H; simpl; auto. apply IH.
  unfold flush_close. destruct (dget Nat.eqb tid (o_thr s)) as [ts|]; auto.
  apply (log_inv_flush cap s ts H).
Qed.

Lemma log_inv_open : forall declared recipe minbuf, log_inv (out_open declared recipe minbuf).
Proof. intros. unfold out_open, log_inv. repeat split; simpl; auto. Qed.

Lemma crash_before_header : forall cap declared recipe minbuf ops s,
  8 <= cap -> orun cap (out_open declared recipe minbuf) ops = Some s ->
  forall f, crash (o_writes (close_flush cap s)) f -> unreadable cap f.
Proof.
  intros cap declared recipe minbuf ops s H8 Hrun f Hf.
  assert (I : log_inv (close_flush cap s)).
  { apply log_inv_close. eapply log_inv_run; [|eauto]. apply log_inv_open. }
  destruct I as (_ & _ & HF). apply unreadable_of. apply zero_head_unreadable; auto.
  apply crash_is in Hf. apply (crash_pos 8) in Hf; auto.
  eapply Forall_impl; [|exact HF]. simpl; intros; lia.
Qed.

(** the log of an earlier moment is a prefix of the log at close *)
Lemma crash_prefix : forall W1 W2 f, crash W1 f -> crash (W1 ++ W2) f \/ f = apply_writes [] W1.
Proof.
  intros W1 W2 f [->|(A & p & d & d' & B & -> & ->)]; auto.
  left. right. exists A, p, d, d', (B ++ W2). split; auto. rewrite <- app_assoc; auto.
Qed.

Lemma zero_head_truncate : forall f n, 8 <= n -> zero_head 8 f -> zero_head 8 (ftruncate f n).
Proof.
  intros f n Hn [->|[D ->]]; right; unfold ftruncate.
  - replace n with (8 + (n - 8)) by lia. set (m := n - 8). exists (zeros m).
    rewrite app_nil_l. cbn [length]. rewrite Nat.sub_0_r, <- zeros_app. apply firstn_all2. rewrite zeros_length; auto.
  - set (Z := zeros (n - length (zeros 8 ++ D))). exists (firstn (n - 8) (D ++ Z)).
    rewrite <- app_assoc, firstn_app, zeros_length. f_equal. apply firstn_all2. rewrite zeros_length; auto.
Qed.

(** crash while the data section is being moved: streaming.py:308-323 *)
Lemma crash_during_relocation : forall cap declared recipe minbuf ops s hsize,
  8 <= cap -> orun cap (out_open declared recipe minbuf) ops = Some s ->
  let s1 := close_flush cap s in
  forall f W1 W2 p d d',
    relocate_writes (S (o_flushed s1)) (ftruncate (o_file s1) (8 + hsize + o_flushed s1))
      (8 + o_max s1 + o_flushed s1) (8 + o_max s1) (o_min s1) (hsize - o_max s1) = W1 ++ (p, d ++ d') :: W2 ->
    f = apply_writes (ftruncate (o_file s1) (8 + hsize + o_flushed s1)) (W1 ++ [(p, d)]) ->
    unreadable cap f.
Proof.
  intros cap declared recipe minbuf ops s hsize H8 Hrun s1 f W1 W2 p d d' HW Hf.
  assert (I : log_inv s1).
  { apply log_inv_close. eapply log_inv_run; [|eauto]. apply log_inv_open. }
  destruct I as (Ef & _ & HF). apply unreadable_of. apply zero_head_unreadable; auto.
  assert (HZ : zero_head 8 (o_file s1)).
  { rewrite Ef. apply zero_head_apply; [|left; auto]. eapply Forall_impl; [|exact HF]. simpl; intros; lia. }
  subst f. apply zero_head_apply.
  - pose proof (relocate_writes_pos (S (o_flushed s1)) (ftruncate (o_file s1) (8 + hsize + o_flushed s1))
      (8 + o_max s1 + o_flushed s1) (8 + o_max s1) (o_min s1) (hsize - o_max s1)) as HP.
    rewrite HW in HP. apply Forall_app in HP as (HP1 & HP2). inversion HP2; subst. simpl in *.
    apply Forall_app. split; [eapply Forall_impl; [|exact HP1]; simpl; intros; lia|].
    constructor; auto. simpl. lia.
  - apply zero_head_truncate; auto. lia.
Qed.

(** a closed file cut before the end of its header text cannot be opened *)
Lemma truncated_header_unreadable : forall cap declared recipe minbuf ops s f n,
  orun cap (out_open declared recipe minbuf) ops = Some s -> quiescent s ->
  good_calls (written ops) -> transfers_fit cap declared recipe minbuf (written ops) ->
  0 < minbuf -> out_close cap s = Ok f ->
  n < 8 + length (json_dumps (JObj (o_hdr (close_flush cap s)))) ->
  unreadable cap (firstn n f).
Proof.
  intros cap declared recipe minbuf ops s f n Hrun Hq Hg Hfit Hmin Hf0 Hn.
  destruct (close_full _ _ _ _ _ _ Hrun Hq Hg Hfit) as (segs & H & P1 & P2 & Eh & Em & En & Hf & Hw & Hl & Hc).
  destruct (Hc (or_intror Hmin)) as (size8 & Hp & Hclose). clear Hc.
  set (FF := final_file _ _ _ _) in Hclose. assert (f = FF) by congruence. subst f FF. clear Hf0. rewrite Eh in Hn.
  set (h := meta_entry recipe :: map ej H) in *. set (text := json_dumps (JObj h)) in *.
  destruct Hfit as (H8 & H64 & Hm1 & Hsz & Hmax & Hmax2).
  destruct (unpack_pack _ _ Hp) as (Hu & L8).
  apply unreadable_of. unfold final_file.
  destruct (le_lt_dec 8 n) as [H8n|H8n].
  - right. set (rest := repeat " "%char (max_header declared recipe - length text) ++ data_of segs).
    assert (Ecut : firstn n (size8 ++ text ++ rest) = size8 ++ firstn (n - 8) text ++ []).
    { rewrite firstn_app, (firstn_all2 size8) by lia. rewrite L8. f_equal.
      rewrite firstn_app. f_equal. replace (n - 8 - length text) with 0 by lia. reflexivity. }
    rewrite Ecut.
    rewrite (read_region cap size8 (Nat.max (max_header declared recipe) (length text))); auto; try lia.
    + destruct (Nat.eq_dec (n - 8) 0) as [E|E].
      * rewrite E. reflexivity.
      * destruct (head_brace h (n - 8) ltac:(lia)) as (r & Er). fold text in Er. rewrite Er, strip_brace, <- Er.
        destruct (rstrip_firstn (firstn (n - 8) text)) as (i' & ->). rewrite firstn_firstn.
        rewrite <- (app_nil_r (firstn _ text)). unfold text at 1.
        rewrite json_loads_trunc; auto; [left; auto|fold text; lia].
    + right. rewrite firstn_length. split; auto; lia.
    + intros x Hx. assert (In x text) by (rewrite <- (firstn_skipn (n - 8) text); apply in_app_iff; auto).
      eapply json_dumps_ascii; eauto.
  - left. unfold read_header, unpack_Q, fread.
    rewrite skipn_O, firstn_firstn. rewrite Nat.min_r by lia.
    rewrite firstn_length, app_length.
    destruct (Nat.eqb_spec (Nat.min n (length size8 + length (text ++ repeat " "%char (max_header declared recipe - length text) ++ data_of segs))) 8); [lia|reflexivity].
Qed.

(** a crash while close() writes the header, no relocation: the file cannot be
    opened, or it opens exactly like the complete file *)
Lemma torn_header : forall cap declared recipe minbuf ops s bufsize size8 V U p d d',
  orun cap (out_open declared recipe minbuf) ops = Some s -> quiescent s ->
  good_calls (written ops) -> transfers_fit cap declared recipe minbuf (written ops) ->
  let s1 := close_flush cap s in
  let text := json_dumps (JObj (o_hdr s1)) in
  length text <= max_header declared recipe ->
  pack_Q (N.of_nat (max_header declared recipe)) = Ok size8 ->
  header_writes cap size8 text (max_header declared recipe - length text) = V ++ (p, d ++ d') :: U ->
  let f := apply_writes (o_file s1) (V ++ [(p, d)]) in
  unreadable cap f \/
  exists full r0 r, out_close cap s = Ok full /\ in_open cap full bufsize = Ok r0 /\ in_open cap f bufsize = Ok r /\
    in_header r = in_header r0 /\ in_hsize r = in_hsize r0 /\
    skipn (8 + in_hsize r) f = skipn (8 + in_hsize r) full.
Proof.
  intros cap declared recipe minbuf ops s bufsize size8 V U p d d' Hrun Hq Hg Hfit s1 text Hle Hp HW f.
  destruct (close_full _ _ _ _ _ _ Hrun Hq Hg Hfit) as (segs & H & P1 & P2 & Eh & Em & En & Hf & Hw & Hl & Hc).
  fold s1 in Eh, Em, Hf. unfold text in *. rewrite Eh in *. clear text.
  set (h := meta_entry recipe :: map ej H) in *. set (text := json_dumps (JObj h)) in *.
  destruct (Hc (or_introl Hle)) as (size8' & Hp' & Hclose). clear Hc.
  rewrite Nat.max_l in Hp' by auto. rewrite Hp in Hp'. inversion Hp'; subst size8'; clear Hp'.
  destruct Hfit as (H8 & H64 & Hm1 & Hsz & Hmax & Hmax2).
  assert (Em' : length text + (max_header declared recipe - length text) = max_header declared recipe) by lia.
  destruct (crash_header cap (o_file s1) (data_of segs) size8 h (max_header declared recipe - length text) f V U p d d') as [A|(A & B)];
    fold text; rewrite ?Em'; auto.
  - left. apply unreadable_of; auto.
  - right. fold text in A, B. rewrite Em' in B.
    destruct (open_full cap recipe H size8 (max_header declared recipe - length text) (data_of segs)
             (max_header declared recipe) bufsize) as (h' & Hs & Hopen); auto.
    fold h in Hopen, Hs. fold text in Hopen.
    exists (final_file size8 text (max_header declared recipe - length text) (data_of segs)).
    eexists. eexists. split; [exact Hclose|]. split; [exact Hopen|]. split.
    + unfold in_open in *. rewrite A. destruct (read_header cap (final_file _ _ _ _)) as [pp|]; [|cbn [bind] in Hopen; congruence].
      cbn [bind] in *.
      assert (E1 : fst pp = max_header declared recipe) by congruence. assert (E2 : snd pp = h') by congruence.
      rewrite E1, E2. reflexivity.
    + cbn [in_header in_hsize]. split; auto. split; auto. rewrite B.
      unfold final_file. rewrite !app_assoc.
      destruct (unpack_pack _ _ Hp) as (_ & L8).
      replace (8 + max_header declared recipe) with (length ((size8 ++ text) ++ repeat " "%char (max_header declared recipe - length text)))
        by (rewrite !app_length, repeat_length; lia).
      rewrite skipn_app_exact. auto.
Qed.
