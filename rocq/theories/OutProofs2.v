(** Closing the file: flushing, relocation, header; and reading the result back. *)
From Coq Require Import String Ascii List Bool Arith NArith Lia Permutation.
From Verif Require Import Base Dec Json JsonProofs PyStr ModelStream InProofs OutProofs.
Import ListNotations.

Definition calls_of (ops : list op) : list seg :=
  flat_map (fun o => match o with Call _ k t => [(k, t)] | Run _ => [] end) ops.

Lemma calls_of_app : forall a b, calls_of (a ++ b) = calls_of a ++ calls_of b.
Proof. intros; unfold calls_of; apply flat_map_app. Qed.

Lemma NoDup_prefix : forall (m : string) (a b : list string), NoDup (m :: a ++ b) -> NoDup (m :: a).
Proof. intros m a b H. rewrite app_comm_cons in H. apply NoDup_app_iff in H; tauto. Qed.

Lemma run_inv : forall meta B cap ops s calls segs H g s',
  inv meta B s calls segs H g ->
  (forall tid, B tid <= cap) ->
  (forall tid k t, In (Call tid k t) ops -> length (t_bytes t) <= B tid) ->
  NoDup (fst meta :: map fst (calls ++ calls_of ops)) ->
  orun cap s ops = Some s' ->
  exists segs' H' g', inv meta B s' (calls ++ calls_of ops) segs' H' g'.
Proof.
  induction ops as [|o ops IH]; intros s calls segs H g s' I HB Hsz ND Hrun; simpl in Hrun.
  - inversion Hrun; subst. simpl. rewrite app_nil_r. eauto.
  - destruct (ostep cap s o) as [s1|] eqn:E; [|discriminate].
    assert (Heq : calls ++ calls_of (o :: ops) =
       (match o with Call _ k t => calls ++ [(k, t)] | Run _ => calls end) ++ calls_of ops).
    { destruct o; simpl; [rewrite <- app_assoc|]; auto. }
    rewrite Heq in *.
    destruct (step_inv meta B cap s calls segs H g o s1 I HB) as (segs1 & H1 & g1 & I1); auto.
    + intros tid k t ->. eapply Hsz; simpl; eauto.
    + rewrite map_app in ND. eapply NoDup_prefix; eauto.
    + eapply IH; eauto. intros; eapply Hsz; simpl; eauto.
Qed.

Lemma open_inv : forall B declared recipe minbuf, (forall tid, minbuf <= B tid) ->
  inv (hd ("", JStr "")%string (base_header recipe)) B (out_open declared recipe minbuf) [] [] [] [].
Proof.
  intros. constructor; simpl; auto; try constructor; try (left; auto; fail); try lia; auto.
  unfold max_header; cbn. lia.
Qed.

Definition all_idle (s : ost) : Prop := Forall (fun x => ts_pc (snd x) = Idle) (o_thr s).

Lemma flush_close_inv : forall meta B cap s calls segs H g tid,
  inv meta B s calls segs H g -> (forall tid, B tid <= cap) ->
  NoDup (fst meta :: map fst calls) -> all_idle s ->
  exists segs' H' g', inv meta B (flush_close cap s tid) calls segs' H' g' /\
    all_idle (flush_close cap s tid) /\
    map fst (o_thr (flush_close cap s tid)) = map fst (o_thr s) /\
    (forall i ts, In (i, ts) (o_thr (flush_close cap s tid)) ->
        (i = tid /\ ts_sub ts = []) \/ (i <> tid /\ In (i, ts) (o_thr s))) /\
    o_max (flush_close cap s tid) = o_max s /\ o_min (flush_close cap s tid) = o_min s.
Proof.
  intros meta B cap s calls segs H g tid I HB ND Hidle. unfold flush_close.
  pose proof I as I0. destruct I as [Ithr Itids Imin It Ihdr IH Icalls Ifl Ipos Ifile Ilog Ilp].
  destruct (dget Nat.eqb tid (o_thr s)) as [ts|] eqn:Eg.
  2:{ exists segs, H, g. repeat split; auto. intros i ts Hin.
      destruct (Nat.eq_dec i tid) as [->|]; auto.
      apply (dget_None Nat.eqb Nat.eqb_spec) in Eg. exfalso; apply Eg.
      apply (in_map fst) in Hin; auto. }
  assert (Epc : ts_pc ts = Idle).
  { apply (dget_In Nat.eqb Nat.eqb_spec) in Eg. unfold all_idle in Hidle. rewrite Forall_forall in Hidle.
    apply (Hidle _ Eg). }
  rewrite Ithr in Eg. destruct (g_split _ _ _ Eg) as (g1 & p & g2 & -> & Eset).
  apply Forall_mid in It as (It & Hts). simpl in Hts. destruct Hts as (T1 & T2 & T3).
  rewrite Epc in T3. destruct T3 as (T3 & T4 & T5 & _).
  cbn [flush_locked set_hdr set_thread o_hdr].
  rewrite data_firstn_cap by (specialize (HB tid); lia). rewrite T5.
  assert (Hk: map (shift_entry (o_flushed s)) (ts_sub ts) = map ej (layout (o_flushed s) p)).
  { rewrite T2, shift_layout. auto. }
  assert (Hpub: pub_of (tid, ts, p) = []) by (unfold pub_of; simpl; rewrite Epc; auto).
  assert (Hu1: unfl_of (tid, ts, p) = p) by (unfold unfl_of; simpl; rewrite Epc; auto).
  assert (Hh1: hand_of (tid, ts, p) = []) by (unfold hand_of; simpl; rewrite Epc; auto).
  assert (Hup: dupdate String.eqb (o_hdr s) (map (shift_entry (o_flushed s)) (ts_sub ts)) = meta :: map ej (H ++ layout (o_flushed s) p)).
  { rewrite Hk, Ihdr. rewrite (dupdate_fresh String.eqb String.eqb_spec).
    - rewrite map_app; auto.
    - pose proof (inv_keys_nodup _ _ _ _ _ _ _ I0 ND) as ND2.
      cbn [map app]. rewrite map_app, !ej_keys, layout_keys.
      rewrite flat_map_app in ND2. cbn [flat_map] in ND2. rewrite Hu1, !map_app in ND2.
      inversion ND2 as [|? ? Hn ND3]; subst.
      rewrite !in_app_iff in Hn.
      assert (Hperm: Permutation (map fst H ++ map fst (flat_map pub_of (g1 ++ (tid, ts, p) :: g2))) (map fst segs)).
      { rewrite <- map_app. rewrite <- (layout_keys segs 0). apply Permutation_map; auto. }
      assert (Hsub: forall x, In x (map fst H) -> In x (map fst segs)).
      { intros x Hx. eapply Permutation_in; [exact Hperm|]. apply in_app_iff; auto. }
      apply NoDup_app_iff in ND3 as (N1 & N2 & N3).
      constructor.
      + rewrite in_app_iff. intros [Hin|Hin]; apply Hn; auto.
      + apply NoDup_app_iff. split; [|split].
        * eapply Permutation_NoDup in N1; [|symmetry; exact Hperm]. apply NoDup_app_iff in N1; tauto.
        * apply NoDup_app_iff in N2 as (N2 & _). apply NoDup_app_iff in N2 as (_ & N2 & _).
          apply NoDup_app_iff in N2; tauto.
        * intros x Hx Hx2. apply (N3 x); auto. rewrite !in_app_iff; auto. }
  rewrite Hup.
  exists (segs ++ p), (H ++ layout (o_flushed s) p), (g1 ++ (tid, TS [] 0 [] Idle, []) :: g2).
  split; [|split; [|split; [|split]]].
  - constructor; simpl; auto.
    + rewrite Ithr, Epc. apply Eset.
    + rewrite Ithr, (Eset _ p). rewrite Ithr in Itids. eapply NoDup_tids_mid; eauto.
    + apply Forall_mid. split; auto. simpl. split; [|split]; simpl; auto. lia.
    + rewrite layout_app. simpl. rewrite <- Ifl. rewrite !flat_map_app in *. cbn [flat_map] in *.
      rewrite Hpub in IH. unfold pub_of at 2; simpl. clear - IH. perm_ent.
    + rewrite !flat_map_app in *. cbn [flat_map] in *. rewrite Hu1, Hh1 in Icalls.
      unfold unfl_of at 2, hand_of at 2; simpl. clear - Icalls. perm_seg.
    + rewrite data_of_app, app_length, Ifl, T3; auto.
    + rewrite data_of_app, app_length, Ipos. lia.
    + rewrite data_of_app, Ipos. apply (fshape_write _ (8 + o_max s)); auto.
    + rewrite apply_writes_app. rewrite <- Ilog. reflexivity.
    + apply Forall_app; split; auto. constructor; auto. simpl. lia.
  - unfold all_idle in *; simpl. rewrite Ithr, Epc, (Eset _ p). rewrite Ithr in Hidle.
    rewrite map_app in *. simpl in *. apply Forall_mid in Hidle as (Hid & _). apply Forall_mid. split; auto.
  - simpl. rewrite Ithr, (Eset _ p), !map_app. auto.
  - simpl. rewrite Ithr, Epc, (Eset _ p). rewrite Ithr in Itids. intros i ts' Hin.
    rewrite !map_app in *; simpl in *. apply in_app_or in Hin.
    apply NoDup_remove_2 in Itids. rewrite in_app_iff in Itids.
    destruct Hin as [Hin|[Hin|Hin]].
    + right. split; [|rewrite in_app_iff; auto]. intros ->. apply Itids. left. apply (in_map fst) in Hin; auto.
    + inversion Hin; subst. left; auto.
    + right. split; [|rewrite in_app_iff; simpl; auto]. intros ->. apply Itids. right. apply (in_map fst) in Hin; auto.
  - split; reflexivity.
Qed.

Lemma close_flush_inv : forall meta B cap s calls segs H g,
  inv meta B s calls segs H g -> (forall tid, B tid <= cap) ->
  NoDup (fst meta :: map fst calls) -> all_idle s ->
  exists segs' H' g', inv meta B (close_flush cap s) calls segs' H' g' /\
    Permutation segs' calls /\ Permutation H' (layout 0 segs') /\
    o_max (close_flush cap s) = o_max s /\ o_min (close_flush cap s) = o_min s.
Proof.
  intros meta B cap s0 calls segs0 H0 g0 I0 HB ND Hidle0.
  assert (Hgen : forall tids s segs H g done,
    inv meta B s calls segs H g -> all_idle s ->
    (forall i ts, In (i, ts) (o_thr s) -> In i done -> ts_sub ts = []) ->
    exists segs' H' g', inv meta B (fold_left (flush_close cap) tids s) calls segs' H' g' /\
      all_idle (fold_left (flush_close cap) tids s) /\
      map fst (o_thr (fold_left (flush_close cap) tids s)) = map fst (o_thr s) /\
      (forall i ts, In (i, ts) (o_thr (fold_left (flush_close cap) tids s)) -> In i (done ++ tids) -> ts_sub ts = []) /\
      o_max (fold_left (flush_close cap) tids s) = o_max s /\ o_min (fold_left (flush_close cap) tids s) = o_min s).
  { induction tids as [|tid tids IH]; intros s segs H g done I Hidle Hdone; simpl.
    - exists segs, H, g. rewrite app_nil_r. split; [auto|]. split; [auto|]. split; [auto|]. split; [auto|]. split; auto.
    - destruct (flush_close_inv meta B cap s calls segs H g tid I HB ND Hidle)
        as (segs1 & H1 & g1 & I1 & Hidle1 & Hk1 & Hin1 & Hm1 & Hn1).
      destruct (IH (flush_close cap s tid) segs1 H1 g1 (done ++ [tid]) I1 Hidle1) as (segs2 & H2 & g2 & A1 & A2 & A3 & A4 & A5 & A6).
      + intros i ts Hi Hd. apply in_app_or in Hd.
        destruct (Hin1 i ts Hi) as [[_ E]|[Hne Hi']]; auto.
        destruct Hd as [Hd|[Hd|[]]]; [eauto|congruence].
      + exists segs2, H2, g2. split; [auto|]. split; [auto|]. split; [congruence|].
        split; [|split; congruence]. intros i ts Hi Hd. eapply A4; eauto. rewrite <- app_assoc; auto. }
  destruct (Hgen (map fst (o_thr s0)) s0 segs0 H0 g0 [] I0 Hidle0) as (segs & H & g & I & Hidle & Hk & Hd & Hm & Hn).
  { intros i ts _ []. }
  exists segs, H, g. unfold close_flush. split; [exact I|].
  set (s := fold_left (flush_close cap) (map fst (o_thr s0)) s0) in *.
  destruct I as [Ithr Itids Imin It Ihdr IHH Icalls Ifl Ipos Ifile Ilog Ilp].
  assert (Hg : Forall (fun x : tg => ts_pc (snd (fst x)) = Idle /\ snd x = []) g).
  { rewrite Forall_forall. intros [[i ts] p] Hin. simpl.
    assert (Hin' : In (i, ts) (o_thr s)) by (rewrite Ithr; apply (in_map fst) in Hin; auto).
    unfold all_idle in Hidle. rewrite Forall_forall in Hidle. split; [apply (Hidle _ Hin')|].
    assert (Hs: ts_sub ts = []).
    { eapply Hd; eauto. simpl. rewrite <- Hk. apply (in_map fst) in Hin'; auto. }
    rewrite Forall_forall in It. destruct (It _ Hin) as (_ & T2 & _). simpl in T2.
    rewrite Hs in T2. destruct p as [|[? ?] ?]; [auto|discriminate]. }
  assert (Hz : flat_map pub_of g = [] /\ flat_map unfl_of g = [] /\ flat_map hand_of g = []).
  { clear - Hg. induction Hg as [|[[i ts] p] g (Hx & Hp) Hg IH]; simpl; auto. simpl in *. subst p.
    destruct IH as (-> & -> & ->). unfold pub_of, unfl_of, hand_of; simpl. rewrite Hx. auto. }
  destruct Hz as (Z1 & Z2 & Z3). rewrite Z1 in IHH. rewrite Z2, Z3 in Icalls. rewrite !app_nil_r in *.
  auto.
Qed.

(** ** relocation *)
Lemma fwrite_within : forall f pos d, pos + length d <= length f ->
  fwrite f pos d = firstn pos f ++ d ++ skipn (pos + length d) f.
Proof.
  intros f pos d H. unfold fwrite. destruct d as [|x d].
  - simpl. rewrite Nat.add_0_r, firstn_skipn; auto.
  - replace (pos - length f) with 0 by lia. unfold zeros; simpl repeat. rewrite app_nil_r. auto.
Qed.

Lemma relocate_ok : forall fuel f e lo chunk shift D,
  0 < chunk -> lo <= e -> e - lo < fuel -> e <= lo + length D ->
  length f = lo + length D + shift ->
  firstn (e - lo) (skipn lo f) = firstn (e - lo) D ->
  skipn (e + shift) f = skipn (e - lo) D ->
  let f' := relocate fuel f e lo chunk shift in
  length f' = length f /\ skipn (lo + shift) f' = D.
Proof.
  induction fuel as [|fuel IH]; intros f e lo chunk shift D Hc Hlo Hf He Hlen Hlow Hhigh; [lia|].
  cbn [relocate]. destruct (Nat.leb_spec e lo) as [Hle|Hgt].
  - assert (e = lo) by lia. subst e. rewrite Nat.sub_diag in Hhigh. simpl in Hhigh. auto.
  - set (cs := Nat.max (e - chunk) lo).
    assert (Hcs : lo <= cs /\ cs < e) by (unfold cs; lia).
    set (data := firstn (e - cs) (skipn cs f)).
    assert (Ld : length data = e - cs) by (unfold data; rewrite firstn_length, skipn_length; lia).
    assert (Hw : fwrite f (cs + shift) data = firstn (cs + shift) f ++ data ++ skipn (e + shift) f).
    { rewrite fwrite_within by (rewrite Ld; lia). rewrite Ld. do 3 f_equal. lia. }
    assert (Ldata : data = slice (cs - lo) (e - lo) D).
    { unfold data, slice. replace (e - lo - (cs - lo)) with (e - cs) by lia.
      assert (E: skipn cs f = skipn (cs - lo) (skipn lo f)).
      { rewrite skipn_skipn'. f_equal. lia. }
      rewrite E. replace (e - cs) with ((e - lo) - (cs - lo)) by lia.
      rewrite <- (skipn_firstn_comm (cs - lo) (e - lo) (skipn lo f)).
      rewrite <- (skipn_firstn_comm (cs - lo) (e - lo) D). rewrite Hlow. auto. }
    assert (Hlen' : length (fwrite f (cs + shift) data) = length f).
    { rewrite Hw, !app_length, firstn_length, skipn_length, Ld. lia. }
    assert (Hrec: relocate fuel (fwrite f (cs + shift) data) (e - chunk) lo chunk shift
                  = relocate fuel (fwrite f (cs + shift) data) cs lo chunk shift).
    { destruct (le_lt_dec lo (e - chunk)) as [H1|H1].
      - assert (cs = e - chunk) by (unfold cs; lia). congruence.
      - assert (cs = lo) by (unfold cs; lia).
        destruct fuel; [lia|]. cbn [relocate].
        replace (e - chunk <=? lo) with true by (symmetry; apply Nat.leb_le; lia).
        replace (cs <=? lo) with true by (symmetry; apply Nat.leb_le; lia). auto. }
    cbv zeta. rewrite Hrec.
    destruct (IH (fwrite f (cs + shift) data) cs lo chunk shift D) as (A1 & A2); auto; try lia.
    + rewrite Hw.
      rewrite skipn_app, firstn_app.
      replace (length (skipn lo (firstn (cs + shift) f))) with (cs + shift - lo) by (rewrite skipn_length, firstn_length; lia).
      replace (cs - lo - (cs + shift - lo)) with 0 by lia.
      cbn [firstn]. rewrite app_nil_r.
      rewrite skipn_firstn_comm, firstn_firstn. replace (Nat.min (cs - lo) (cs + shift - lo)) with (cs - lo) by lia.
      assert (E := f_equal (firstn (cs - lo)) Hlow). rewrite !firstn_firstn in E.
      replace (Nat.min (cs - lo) (e - lo)) with (cs - lo) in E by lia. auto.
    + rewrite Hw.
      rewrite skipn_app. rewrite skipn_all2 by (rewrite firstn_length; lia).
      rewrite firstn_length. replace (cs + shift - Nat.min (cs + shift) (length f)) with 0 by lia.
      simpl. rewrite Hhigh, Ldata. unfold slice.
      assert (E: skipn (e - lo) D = skipn (e - lo - (cs - lo)) (skipn (cs - lo) D)).
      { rewrite skipn_skipn'. f_equal. lia. }
      rewrite E. apply firstn_skipn.
    + split; [congruence|auto].
Qed.

(** ** the header text *)
Lemma entry_json_wf : forall d sh a b, wfj (entry_json d sh a b).
Proof.
  intros. constructor.
  - simpl. repeat constructor; simpl; intuition discriminate.
  - repeat constructor; simpl.
    induction sh; simpl; constructor; auto; constructor.
Qed.

Lemma header_wf : forall recipe H, NoDup ("__metadata__"%string :: map fst H) ->
  wfj (JObj (hd ("", JStr "")%string (base_header recipe) :: map ej H)).
Proof.
  intros recipe H ND. constructor.
  - cbn [map hd base_header fst]. rewrite ej_keys. auto.
  - constructor.
    + simpl. destruct recipe; constructor; simpl; repeat constructor. simpl; tauto.
    + rewrite Forall_forall. intros x Hx. apply in_map_iff in Hx as (y & <- & _). apply entry_json_wf.
Qed.

Lemma digit_ascii : forall c, is_digit c = true -> (N_of_ascii c < 128)%N.
Proof. intros [[] [] [] [] [] [] [] []]; vm_compute; congruence. Qed.

Lemma join_in : forall sep ps x, In x (join sep ps) -> In x sep \/ exists p, In p ps /\ In x p.
Proof.
  induction ps as [|p ps IH]; intros x H; [destruct H|].
  rewrite join_cons in H. apply in_app_or in H as [H|H].
  - right; exists p; simpl; auto.
  - destruct ps as [|q ps]; [destruct H|]. apply in_app_or in H as [H|H]; auto.
    destruct (IH x H) as [H1|(p' & H1 & H2)]; auto. right; exists p'; simpl in *; auto.
Qed.

Lemma json_dumps_ascii : forall j x, In x (json_dumps j) -> (N_of_ascii x < 128)%N.
Proof.
  assert (Hq : forall s x, In x (jquote s) -> (N_of_ascii x < 128)%N).
  { intros s x H. unfold jquote in H. destruct H as [<-|H]; [reflexivity|].
    apply in_app_or in H as [H|[<-|[]]]; [|reflexivity].
    apply in_flat_map in H as (c & _ & H). eapply jescape_ascii; eauto. }
  apply (json_ind' (fun j => forall x, In x (json_dumps j) -> (N_of_ascii x < 128)%N)).
  - intros s x H. eauto.
  - intros n x H. simpl in H. apply digit_ascii. eapply dec_digits; eauto.
  - intros l HF x H. cbn [json_dumps] in H. destruct H as [<-|H]; [reflexivity|].
    apply in_app_or in H as [H|[<-|[]]]; [|reflexivity].
    apply join_in in H as [[<-|[]]|(p & Hp & Hx)]; [reflexivity|].
    apply in_map_iff in Hp as (j & <- & Hj). rewrite Forall_forall in HF. eauto.
  - intros l HF x H. cbn [json_dumps] in H. destruct H as [<-|H]; [reflexivity|].
    apply in_app_or in H as [H|[<-|[]]]; [|reflexivity].
    apply join_in in H as [[<-|[]]|(p & Hp & Hx)]; [reflexivity|].
    apply in_map_iff in Hp as ([k j] & <- & Hj). rewrite Forall_forall in HF.
    apply in_app_or in Hx as [Hx|[<-|Hx]]; [eauto|reflexivity|]. apply (HF _ Hj); auto.
Qed.

Lemma json_obj_shape : forall l, exists m, json_dumps (JObj l) = "{"%char :: m ++ ["}"%char].
Proof. intros l. eexists. reflexivity. Qed.

Lemma le_value_bytes : forall k n, (n < 256 ^ N.of_nat k)%N -> le_value (le_bytes k n) = n.
Proof.
  induction k as [|k IH]; intros n H.
  - change (256 ^ N.of_nat 0)%N with 1%N in H. simpl. lia.
  - cbn [le_bytes le_value]. rewrite N_ascii_embedding by (apply N.mod_lt; lia).
    rewrite IH.
    + pose proof (N.div_mod n 256). lia.
    + rewrite Nat2N.inj_succ, N.pow_succ_r' in H. apply N.div_lt_upper_bound; lia.
Qed.

Lemma le_bytes_length : forall k n, length (le_bytes k n) = k.
Proof. induction k; intros; simpl; auto. Qed.

Lemma unpack_pack : forall n b, pack_Q n = Ok b -> unpack_Q b = Ok n /\ length b = 8.
Proof.
  intros n b H. unfold pack_Q in H. destruct (N.ltb_spec n (2 ^ 64)); [|discriminate].
  assert (E: le_bytes 8 n = b) by congruence. clear H. subst b. split; [|apply le_bytes_length].
  unfold unpack_Q. rewrite le_bytes_length. simpl Nat.eqb. cbv iota. f_equal.
  apply le_value_bytes. exact H0.
Qed.

(** ** the final file *)
Definition final_file (size8 text : list byte) (overhead : nat) (D : list byte) : list byte :=
  size8 ++ text ++ repeat " "%char overhead ++ D.

Lemma header_writes_file : forall cap f size8 text overhead D,
  length size8 = 8 -> length text <= cap -> overhead <= cap ->
  (D = [] /\ f = []) \/ (exists p, length p = 8 + length text + overhead /\ f = p ++ D) ->
  apply_writes f (header_writes cap size8 text overhead) = final_file size8 text overhead D.
Proof.
  intros cap f size8 text overhead D H8 Ht Ho Hf.
  unfold header_writes. rewrite (firstn_all2 text) by lia.
  rewrite (firstn_all2 (repeat _ _)) by (rewrite repeat_length; lia).
  rewrite (Nat.min_r cap (length text)) by lia.
  unfold apply_writes; cbn [fold_left fst snd].
  destruct Hf as [[-> ->]|(p & Hp & ->)].
  - pose proof (fwrite_end [] size8) as E. simpl in E. rewrite E. clear E.
    pose proof (fwrite_end size8 text) as E. rewrite H8 in E. rewrite E. clear E.
    assert (E8 : 8 + length text = length (size8 ++ text)) by (rewrite app_length, H8; reflexivity).
    rewrite E8, fwrite_end. unfold final_file. rewrite !app_nil_r, <- app_assoc. auto.
  - assert (Hsplit : exists p1 p2 p3, p = p1 ++ p2 ++ p3 /\ length p1 = 8 /\ length p2 = length text /\ length p3 = overhead).
    { exists (firstn 8 p), (firstn (length text) (skipn 8 p)), (skipn (length text) (skipn 8 p)).
      rewrite !firstn_skipn. split; auto.
      repeat split; rewrite ?firstn_length, ?skipn_length; lia. }
    destruct Hsplit as (p1 & p2 & p3 & -> & L1 & L2 & L3).
    rewrite <- !app_assoc.
    pose proof (fwrite_mid [] p1 (p2 ++ p3 ++ D) size8) as E. simpl in E. rewrite E by congruence. clear E.
    pose proof (fwrite_mid size8 p2 (p3 ++ D) text L2) as E. rewrite H8 in E. rewrite E. clear E.
    assert (E8 : 8 + length text = length (size8 ++ text)) by (rewrite app_length, H8; reflexivity).
    rewrite E8. rewrite (app_assoc size8 text (p3 ++ D)).
    rewrite fwrite_mid by (rewrite repeat_length; auto).
    unfold final_file. rewrite <- app_assoc; auto.
Qed.

Lemma out_close_file : forall cap s0 s segs H meta B calls g,
  s = close_flush cap s0 ->
  inv meta B s calls segs H g ->
  Permutation H (layout 0 segs) ->
  let text := json_dumps (JObj (o_hdr s)) in
  length text <= cap -> o_max s <= cap ->
  (N.of_nat (Nat.max (o_max s) (length text)) < 2 ^ 64)%N ->
  (length text <= o_max s \/ 0 < o_min s) ->
  exists size8, pack_Q (N.of_nat (Nat.max (o_max s) (length text))) = Ok size8 /\
  out_close cap s0 = Ok (final_file size8 text (o_max s - length text) (data_of segs)).
Proof.
  intros cap s0 s segs H meta B calls g Hs I HH text Hcap Hcap2 H64 Hor.
  unfold out_close. rewrite <- Hs. fold text.
  assert (Hpack : pack_Q (N.of_nat (Nat.max (o_max s) (length text))) =
     Ok (le_bytes 8 (N.of_nat (Nat.max (o_max s) (length text))))).
  { unfold pack_Q. destruct (N.ltb_spec (N.of_nat (Nat.max (o_max s) (length text))) (2 ^ 64)); auto; lia. }
  exists (le_bytes 8 (N.of_nat (Nat.max (o_max s) (length text)))). split; [exact Hpack|].
  rewrite Hpack. cbn [bind].
  set (size8 := le_bytes 8 _) in *.
  assert (L8 : length size8 = 8) by apply le_bytes_length.
  destruct I as [Ithr Itids Imin It Ihdr IHH Icalls Ifl Ipos Ifile Ilog Ilp].
  destruct (Nat.leb_spec (length text) (o_max s)) as [Hle|Hgt].
  - f_equal. apply header_writes_file; auto; try lia.
    destruct Ifile as [[E1 E2]|[E1 E2]]; [left; auto|].
    right. exists (zeros (8 + o_max s)). rewrite zeros_length. split; [lia|auto].
  - destruct Hor as [Hor|Hor]; [lia|].
    destruct (Nat.eqb_spec (o_min s) 0) as [E0|E0]; [lia|].
    f_equal. replace (o_max s - length text) with 0 by lia.
    assert (Hgoal: forall f2, (exists p, length p = 8 + length text + 0 /\ f2 = p ++ data_of segs) ->
      apply_writes f2 (header_writes (8 + length text) size8 text 0) = final_file size8 text 0 (data_of segs)).
    { intros f2 Hf2. apply header_writes_file; auto; lia. }
    set (f2 := relocate _ _ _ _ _ _).
    apply Hgoal.
    assert (Hrel: length f2 = 8 + o_max s + length (data_of segs) + (length text - o_max s) /\
                  skipn (8 + o_max s + (length text - o_max s)) f2 = data_of segs).
    { unfold f2. rewrite Ifl.
      set (f1 := ftruncate (o_file s) (8 + length text + length (data_of segs))).
      assert (Lf1 : length f1 = 8 + o_max s + length (data_of segs) + (length text - o_max s)).
      { unfold f1, ftruncate. rewrite firstn_length, app_length, zeros_length.
        destruct Ifile as [[E1 ->]|[E1 ->]]; rewrite ?app_length, ?zeros_length; cbn [length]; lia.  }
      destruct (relocate_ok (S (length (data_of segs))) f1 (8 + o_max s + length (data_of segs)) (8 + o_max s) (o_min s) (length text - o_max s) (data_of segs)) as (A & Bq); auto; try lia.
      - replace (8 + o_max s + length (data_of segs) - (8 + o_max s)) with (length (data_of segs)) by lia.
        rewrite firstn_all.
        destruct Ifile as [[E1 E2]|[E1 E2]].
        + rewrite E1. reflexivity.
        + unfold f1, ftruncate. rewrite E2.
          rewrite skipn_firstn_comm, firstn_firstn.
          rewrite <- app_assoc.
          assert (Esk : forall X, skipn (8 + o_max s) (zeros (8 + o_max s) ++ X) = X).
          { intros X. pose proof (skipn_app_exact (zeros (8 + o_max s)) X) as E. rewrite zeros_length in E. exact E. }
          rewrite Esk.
          replace (Nat.min _ _) with (length (data_of segs)) by lia.
          apply firstn_app_exact.
      - replace (8 + o_max s + length (data_of segs) - (8 + o_max s)) with (length (data_of segs)) by lia.
        rewrite skipn_all. apply skipn_all2. lia.
      - rewrite A. auto. }
    destruct Hrel as (L & Sk).
    exists (firstn (8 + length text) f2). split.
    + rewrite firstn_length. lia.
    + replace (8 + o_max s + (length text - o_max s)) with (8 + length text) in Sk by lia.
      rewrite <- Sk. rewrite firstn_skipn; auto.
Qed.
