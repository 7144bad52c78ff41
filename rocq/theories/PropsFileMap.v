(** C123: an open safetensors file is a mapping *)
From Coq Require Import String Ascii List Bool Arith NArith Lia Permutation Sorted.
From Verif Require Import Base Dec Json PyStr ModelStream SpecStream ModelEval ModelFileMap
  InProofs InProofs2 OutProofs OutProofs2 OutProofs3 CrashProofs PropsStreamLemmas PropsStream.
Import ListNotations.
Open Scope string_scope.
Open Scope nat_scope.
Open Scope list_scope.

(** a file that was opened, after any reads *)
Definition opened (cap : nat) (f : list byte) (r : ins) (reads : list string) : handle :=
  Handle (in_gets cap r reads) true.

Lemma in_gets_app : forall cap a b s, in_gets cap s (a ++ b) = in_gets cap (in_gets cap s a) b.
Proof. intros. unfold in_gets. apply fold_left_app. Qed.

Section File.
  Variables (cap : nat) (f : list byte) (n : nat) (r : ins).
  Hypothesis Hopen : in_open cap f n = Ok r.
  Hypothesis Hcap : n <= cap.
  Hypothesis Hfit : entries_fit cap (in_header r).

  Lemma after_reads : forall reads,
    window_ok (in_gets cap r reads) /\ same_file r (in_gets cap r reads) /\
    in_bufsize (in_gets cap r reads) <= cap /\ entries_fit cap (in_header (in_gets cap r reads)).
  Proof.
    intros reads. destruct (in_open_window _ _ _ _ Hopen) as (W & Ef & Eb).
    destruct (in_gets_keeps cap reads r W) as (W' & S); [lia|auto|].
    pose proof S as (F1 & F2 & F3 & F4 & F5). repeat split; auto; try apply W'; try (rewrite F2; lia). rewrite F4; auto.
  Qed.

  Lemma keys_after : forall reads, in_keys (in_gets cap r reads) = in_keys r.
  Proof.
    intros reads. destruct (after_reads reads) as (_ & (_ & _ & _ & F4 & _) & _).
    unfold in_keys. rewrite F4. reflexivity.
  Qed.

  (** using the mapping leaves it open, and is one more read *)
  Theorem C123_stays : forall reads k,
    snd (h_getitem cap (opened cap f r reads) k) = opened cap f r (reads ++ [k]) /\
    snd (h_contains cap (opened cap f r reads) k) = opened cap f r (reads ++ [k]).
  Proof.
    intros reads k. unfold h_contains, h_getitem, opened. cbn [h_open h_ins snd].
    rewrite in_gets_app. split; reflexivity.
  Qed.

  (** the keys listed, their number and iteration say the same, at any moment; a key is
      listed once, [__metadata__] never *)
  Theorem C123_keys : forall reads, let h := opened cap f r reads in
    h_keys h = Ok (in_keys r) /\ h_len h = Ok (length (in_keys r)) /\ NoDup (in_keys r) /\
    ~ In "__metadata__" (in_keys r).
  Proof.
    intros reads h. unfold h, h_keys, h_len, opened. cbn [h_open h_ins]. rewrite keys_after.
    destruct (C15_keys_of_an_input_file _ _ _ _ Hopen) as (ND & K & L & _).
    split; [reflexivity|]. split; [|split; [exact ND|]].
    - f_equal. rewrite <- L. destruct (after_reads reads) as (_ & (_ & _ & _ & F4 & _) & _).
      unfold in_len. rewrite F4. reflexivity.
    - intros I. apply K in I. tauto.
  Qed.

  (** [k in d] says whether [d[k]] gives a tensor or a KeyError; other exceptions come through *)
  Theorem C123_contains : forall reads k, let h := opened cap f r reads in
    (fst (h_contains cap h k) = Ok true <-> exists w, fst (h_getitem cap h k) = Ok w) /\
    (fst (h_contains cap h k) = Ok false <->
       fst (h_getitem cap h k) = Err KeyError \/ exists x, fst (h_getitem cap h k) = Err (StateDictKeyError x)) /\
    (~ In k (in_keys r) -> fst (h_contains cap h k) = Ok false) /\
    (forall v d sh a b, dget String.eqb k (in_header r) = Some v -> k <> "__metadata__" ->
       complete f (in_hsize r) v d sh a b -> fst (h_contains cap h k) = Ok true).
  Proof.
    intros reads k h. unfold h_contains. cbn [fst].
    split; [|split; [|split]].
    - destruct (fst (h_getitem cap h k)) as [w|e]; [split; eauto|].
      split; [destruct (is_key_error e); discriminate|intros (w & E); discriminate].
    - destruct (fst (h_getitem cap h k)) as [w|e].
      + split; [discriminate|]. intros [E|(x & E)]; discriminate.
      + split.
        * destruct e; simpl; intros E; try discriminate; eauto.
        * intros [E|(x & E)]; inversion E; reflexivity.
    - intros N. unfold h, opened, h_getitem. cbn [h_open h_ins fst].
      destruct (C15_keys_of_an_input_file _ _ _ _ Hopen) as (_ & K & _).
      destruct (after_reads reads) as (_ & (_ & _ & _ & F4 & _) & _).
      unfold in_get. rewrite F4. destruct (dget String.eqb k (in_header r)) as [v|] eqn:E; [|reflexivity].
      destruct (String.eqb_spec k "__metadata__"); [reflexivity|].
      exfalso. apply N, K. split; auto. apply (dget_In String.eqb String.eqb_spec) in E.
      apply (in_map fst) in E. exact E.
    - intros v d sh a b E Nm C. unfold h, opened, h_getitem. cbn [h_open h_ins fst].
      destruct (C11_buffered_reads_equal_direct_reads cap f n r reads k v d sh a b Hopen Hcap Hfit E Nm C) as (w & Ew & _).
      rewrite Ew. reflexivity.
  Qed.

  (** reading everything: what happened to each key, in order *)
  Lemma read_all_spec : forall ks reads,
    match fst (read_all cap (in_gets cap r reads) ks) with
    | Ok l =>
        map fst l = ks /\ snd (read_all cap (in_gets cap r reads) ks) = in_gets cap r (reads ++ ks) /\
        forall pre k w post, l = pre ++ (k, w) :: post ->
          fst (in_get cap (in_gets cap r (reads ++ map fst pre)) k) = Ok w
    | Err e =>
        exists pre k post, ks = pre ++ k :: post /\
          fst (in_get cap (in_gets cap r (reads ++ pre)) k) = Err e /\
          forall p1 k1 q1, pre = p1 ++ k1 :: q1 ->
            exists w, fst (in_get cap (in_gets cap r (reads ++ p1)) k1) = Ok w
    end.
  Proof.
    induction ks as [|k ks IH]; intros reads.
    - simpl. split; [reflexivity|]. split; [rewrite app_nil_r; reflexivity|].
      intros pre k w post E. destruct pre; discriminate.
    - cbn [read_all]. destruct (in_get cap (in_gets cap r reads) k) as [[w|e] s1] eqn:G.
      + assert (S1 : s1 = in_gets cap r (reads ++ [k])).
        { rewrite in_gets_app. unfold in_gets at 1. simpl. rewrite G. reflexivity. }
        subst s1. cbn [fst snd]. specialize (IH (reads ++ [k])).
        destruct (fst (read_all cap (in_gets cap r (reads ++ [k])) ks)) as [l|e] eqn:R; cbn [bind].
        * destruct IH as (I1 & I2 & I3). split; [simpl; rewrite I1; reflexivity|]. split.
          { rewrite I2, <- app_assoc. reflexivity. }
          intros pre k' w' post E. destruct pre as [|p pre]; simpl in E; inversion E; subst.
          { simpl. rewrite app_nil_r, G. reflexivity. }
          specialize (I3 pre k' w' post eq_refl). rewrite <- app_assoc in I3. exact I3.
        * destruct IH as (pre & k' & post & E & X & Y). exists (k :: pre), k', post.
          split; [simpl; rewrite E; reflexivity|]. rewrite <- app_assoc in X. split; [exact X|].
          intros p1 k1 q1 Q. destruct p1 as [|p p1]; simpl in Q; inversion Q; subst.
          { exists w. rewrite app_nil_r, G. reflexivity. }
          destruct (Y p1 k1 q1 eq_refl) as (w' & Z). exists w'. rewrite <- app_assoc in Z. exact Z.
      + cbn [fst]. exists [], k, ks. split; [reflexivity|]. rewrite app_nil_r, G. split; [reflexivity|].
        intros p1 k1 q1 Q. destruct p1; discriminate.
  Qed.

  (** items() raises for the first key, in the order listed, whose tensor cannot be read,
      and for no other reason *)
  Theorem C123_items_raises : forall reads e, let h := opened cap f r reads in
    fst (h_items cap h) = Err e ->
    exists pre k post, in_keys r = pre ++ k :: post /\
      fst (h_getitem cap (opened cap f r (reads ++ pre)) k) = Err e /\
      forall p1 k1 q1, pre = p1 ++ k1 :: q1 ->
        exists w, fst (h_getitem cap (opened cap f r (reads ++ p1)) k1) = Ok w.
  Proof.
    intros reads e h. unfold h, h_items, opened, h_keys. cbn [h_open h_ins]. rewrite keys_after. cbn [fst].
    intros E. assert (S := read_all_spec (in_keys r) reads). rewrite E in S. exact S.
  Qed.

  (** when it does not raise it gives each key listed once with the tensor that reading
      the key gives, and values() gives the same tensors *)
  Theorem C123_items : forall reads l, let h := opened cap f r reads in
    fst (h_items cap h) = Ok l ->
    map fst l = in_keys r /\ fst (h_values cap h) = Ok (map snd l) /\
    snd (h_items cap h) = opened cap f r (reads ++ in_keys r) /\
    forall k w, In (k, w) l -> exists before,
      fst (h_getitem cap (opened cap f r before) k) = Ok w.
  Proof.
    intros reads l h. unfold h_values. intros E. rewrite E. cbn [bind fst].
    unfold h, h_items, opened, h_keys in *. cbn [h_open h_ins] in *. rewrite keys_after in *. cbn [fst snd] in *.
    assert (S := read_all_spec (in_keys r) reads). rewrite E in S. destruct S as (S1 & S2 & S3).
    split; [exact S1|]. split; [reflexivity|]. split; [rewrite S2; reflexivity|].
    intros k w I. apply in_split in I. destruct I as (pre & post & I).
    exists (reads ++ map fst pre). unfold h_getitem. cbn [h_open h_ins fst]. eapply S3. exact I.
  Qed.

  (** on a complete file items() succeeds, and afterwards, whatever is read later, each
      tensor still is the slice of the file that its header entry names *)
  Theorem C123_items_complete : forall reads,
    (forall k, In k (in_keys r) -> exists v d sh a b,
       dget String.eqb k (in_header r) = Some v /\ complete f (in_hsize r) v d sh a b) ->
    exists l, fst (h_items cap (opened cap f r reads)) = Ok l /\ map fst l = in_keys r /\
      forall k w later v d sh a b, In (k, w) l ->
        dget String.eqb k (in_header r) = Some v -> complete f (in_hsize r) v d sh a b ->
        view_tensor (in_heap (in_gets cap (h_ins (snd (h_items cap (opened cap f r reads)))) later)) w =
        Tensor d sh (slice (8 + in_hsize r + N.to_nat a) (8 + in_hsize r + N.to_nat b) f).
  Proof.
    intros reads C.
    destruct (C15_keys_of_an_input_file _ _ _ _ Hopen) as (_ & K & _).
    destruct (fst (h_items cap (opened cap f r reads))) as [l|e] eqn:E.
    - exists l. split; [reflexivity|]. assert (E' := E).
      apply C123_items in E. destruct E as (E1 & _ & E3 & _). split; [exact E1|].
      intros k w later v d sh a b I D Cv. rewrite E3. unfold opened. cbn [h_ins].
      unfold h_items, opened, h_keys in E'. cbn [h_open h_ins] in E'. rewrite keys_after in E'. cbn [fst] in E'.
      assert (S := read_all_spec (in_keys r) reads). rewrite E' in S. destruct S as (S1 & _ & S3).
      apply in_split in I. destruct I as (pre & post & I). specialize (S3 pre k w post I).
      assert (Nm : k <> "__metadata__").
      { assert (X : In k (in_keys r)) by (rewrite <- E1, I, map_app; apply in_or_app; right; left; reflexivity).
        apply K in X. tauto. }
      destruct (C11_buffered_reads_equal_direct_reads cap f n r (reads ++ map fst pre) k v d sh a b Hopen Hcap Hfit D Nm Cv)
        as (w' & X & Y).
      assert (w' = w) by congruence. subst w'. rewrite <- Y.
      assert (T := C12_returned_tensors_are_stable cap f n r (reads ++ map fst pre) k w (map fst post ++ later) Hopen Hcap Hfit S3).
      cbv zeta in T. rewrite <- T. f_equal. f_equal.
      rewrite <- E1, I, map_app. cbn [map fst]. rewrite app_assoc, in_gets_app, <- (in_gets_app cap _ later).
      cbn [in_gets app fold_left]. reflexivity.
    - exfalso. apply C123_items_raises in E. destruct E as (pre & k & post & Q & X & _).
      assert (I : In k (in_keys r)) by (rewrite Q; apply in_or_app; right; left; reflexivity).
      destruct (C k I) as (v & d & sh & a & b & D & Cv). apply K in I. destruct I as (Nm & _).
      destruct (C11_buffered_reads_equal_direct_reads cap f n r (reads ++ pre) k v d sh a b Hopen Hcap Hfit D Nm Cv)
        as (w' & Y & _).
      unfold h_getitem, opened in X. cbn [h_open h_ins fst] in X. congruence.
  Qed.

  (** metadata() lists the same keys, without reading tensors, with the shape and dtype
      that the tensors have when they are read *)
  Theorem C123_metadata : forall reads, let h := opened cap f r reads in
    (forall l, h_metadata h = Ok l -> map fst l = in_keys r /\
       forall k sh d before w, In (k, (sh, d)) l ->
         fst (h_getitem cap (opened cap f r before) k) = Ok w -> view_shape w = sh /\ view_dtype w = d) /\
    ((forall k, In k (in_keys r) -> exists v x, dget String.eqb k (in_header r) = Some v /\ entry_info v = Ok x) ->
       exists l, h_metadata h = Ok l).
  Proof.
    intros reads h. unfold h, h_metadata, opened, h_keys. cbn [h_open h_ins bind]. rewrite keys_after.
    destruct (after_reads reads) as (_ & (_ & _ & _ & F4 & _) & _). rewrite F4.
    set (g := fun k => match dget String.eqb k (in_header r) with
                       | Some v => let* m := meta_info v in Ok (k, m)
                       | None => Err KeyError end).
    split.
    - intros l E. apply mapM_Ok_Forall2 in E.
      assert (G : forall k y, g k = Ok y -> fst y = k /\ exists v, dget String.eqb k (in_header r) = Some v /\ meta_info v = Ok (snd y)).
      { intros k y Y. unfold g in Y. destruct (dget String.eqb k (in_header r)) as [v|]; [|discriminate].
        apply bind_Ok in Y. destruct Y as (m & M & Y). inversion Y; subst. eauto. }
      split.
      + clear - E G. induction E as [|k y ks l Hy E IH]; simpl; auto. rewrite IH, (proj1 (G _ _ Hy)). reflexivity.
      + intros k sh d before w I W.
        assert (X : exists v, dget String.eqb k (in_header r) = Some v /\ meta_info v = Ok (sh, d)).
        { clear - E G I. induction E as [|k0 y ks l Hy E IH]; [destruct I|]. destruct I as [I|I]; [|auto].
          subst y. destruct (G _ _ Hy) as (G1 & G2). simpl in G1. subst k0. exact G2. }
        destruct X as (v & D & M).
        unfold h_getitem, opened, in_get in W. cbn [h_open h_ins fst] in W.
        destruct (after_reads before) as (_ & (_ & _ & _ & F4' & _) & _). rewrite F4', D in W.
        destruct (String.eqb k "__metadata__"); [discriminate|].
        destruct (entry_info v) as [[[[d' sh'] a] b]|e] eqn:V; [|discriminate].
        assert (Z : sh' = sh /\ d' = d).
        { unfold entry_info, meta_info in *. destruct v as [| | |fields]; try discriminate.
          destruct (dget String.eqb "data_offsets" fields) as [[]|]; try discriminate.
          destruct l0 as [|[] [|[] l0]]; try discriminate.
          destruct (dget String.eqb "dtype" fields) as [[]|]; try discriminate;
            destruct (dget String.eqb "shape" fields) as [[]|]; try discriminate;
            destruct (dtype_of_name s); try discriminate.
          destruct (get_nums l1); try discriminate. simpl in V, M. inversion V; inversion M; subst. auto. }
        destruct Z as (Z1 & Z2). subst sh' d'.
        destruct (b <? a)%N; [discriminate|]. destruct (N.to_nat (b - a) =? 0).
        { destruct (numel sh =? 0)%N; [|discriminate]. inversion W; subst; auto. }
        destruct (N.to_nat (b - a) / dtype_size d =? 0); [discriminate|].
        match type of W with fst (if ?c then _ else _) = _ => destruct c end; [|discriminate].
        inversion W; subst; auto.
    - intros C. assert (X : exists l, Forall2 (fun k y => g k = Ok y) (in_keys r) l).
      { assert (Q : Forall (fun k => exists y, g k = Ok y) (in_keys r)).
        { apply Forall_forall. intros k I. destruct (C k I) as (v & x & D & V). unfold g. rewrite D.
          unfold entry_info, meta_info in *. destruct v as [| | |fields]; try discriminate.
          destruct (dget String.eqb "data_offsets" fields) as [[]|]; try discriminate.
          destruct l as [|[] [|[] l]]; try discriminate.
          destruct (dget String.eqb "dtype" fields) as [[]|]; try discriminate;
            destruct (dtype_of_name s); try discriminate;
            destruct (dget String.eqb "shape" fields) as [[]|]; try discriminate.
          destruct (get_nums l0); try discriminate. simpl. eauto. }
        induction Q as [|k ks (y & Y) Q IH]; [exists []; constructor|]. destruct IH as (l & L).
        - intros k' I. apply C. right. exact I.
        - exists (y :: l). constructor; auto. }
      destruct X as (l & L). exists l. apply mapM_Ok_Forall2. exact L.
  Qed.
End File.

(** a closed file: every use raises, closing again does nothing *)
Theorem C123_closed : forall cap h k,
  fst (h_getitem cap (h_close h) k) = Err TypeError /\
  fst (h_contains cap (h_close h) k) = Err TypeError /\
  h_len (h_close h) = Err TypeError /\ h_keys (h_close h) = Err AttributeError /\
  fst (h_items cap (h_close h)) = Err AttributeError /\ fst (h_values cap (h_close h)) = Err AttributeError /\
  h_metadata (h_close h) = Err AttributeError /\ h_close (h_close h) = h_close h.
Proof. intros cap h k. repeat split. Qed.

(** a file written by the library, opened again: its items are what was written *)
Theorem C123_written : forall cap declared recipe minbuf ops s bufsize,
  orun cap (out_open declared recipe minbuf) ops = Some s -> quiescent s ->
  good_calls (written ops) -> transfers_fit cap declared recipe minbuf (written ops) ->
  0 < minbuf -> bufsize <= cap ->
  exists g r l h, out_close cap s = Ok g /\ in_open cap g bufsize = Ok r /\
    h_items cap (Handle r true) = (Ok l, h) /\
    Permutation (map fst l) (map fst (written ops)) /\
    forall k w, In (k, w) l ->
      exists t before, In (k, t) (written ops) /\
        fst (h_getitem cap (opened cap g r before) k) = Ok w /\
        view_tensor (in_heap (h_ins (snd (h_getitem cap (opened cap g r before) k)))) w = t.
Proof.
  intros cap declared recipe minbuf ops s bufsize Hrun Hq Hg Ht Hm Hb.
  destruct (C05_written_file_reads_back cap declared recipe minbuf ops s bufsize Hrun Hq Hg Ht Hm Hb)
    as (g & r & Hc & Ho & Hp & _ & Hr).
  destruct (h_items cap (Handle r true)) as [res h] eqn:E.
  assert (Ek : h_items cap (Handle r true) =
    (fst (read_all cap r (in_keys r)), Handle (snd (read_all cap r (in_keys r))) true)) by reflexivity.
  assert (S : match fst (read_all cap r (in_keys r)) with
    | Ok l => map fst l = in_keys r /\ forall k w, In (k, w) l ->
                exists before, fst (in_get cap (in_gets cap r before) k) = Ok w
    | Err e => exists before k, In k (in_keys r) /\ fst (in_get cap (in_gets cap r before) k) = Err e
    end).
  { assert (S := read_all_spec cap r (in_keys r) []). cbn [in_gets fold_left app] in S.
    change (in_gets cap r []) with r in S.
    destruct (fst (read_all cap r (in_keys r))) as [l|e].
    - destruct S as (S1 & _ & S3). split; [exact S1|]. intros k w I. apply in_split in I.
      destruct I as (pre & post & I). exists (map fst pre). eapply S3; exact I.
    - destruct S as (pre & k & post & S1 & S2 & _). exists pre, k. split; [|exact S2].
      rewrite S1. apply in_or_app; right; left; reflexivity. }
  rewrite E in Ek. destruct (fst (read_all cap r (in_keys r))) as [l|e].
  - exists g, r, l, h. split; [exact Hc|]. split; [exact Ho|]. inversion Ek; subst. destruct S as (S1 & S2).
    split; [exact E|]. rewrite S1. split; [exact Hp|].
    intros k w I. destruct (S2 k w I) as (before & B).
    assert (Ik : In k (map fst (written ops))).
    { eapply Permutation_in; [exact Hp|]. rewrite <- S1. apply (in_map fst) in I. exact I. }
    apply in_map_iff in Ik. destruct Ik as ([k' t] & K' & Ik). simpl in K'. subst k'.
    exists t, before. split; [exact Ik|]. split; [exact B|].
    destruct (Hr before k t Ik) as (w' & W1 & W2). assert (w' = w) by congruence. subst w'. exact W2.
  - exfalso. destruct S as (before & k & Ik & B).
    assert (Ik' : In k (map fst (written ops))) by (eapply Permutation_in; eauto).
    apply in_map_iff in Ik'. destruct Ik' as ([k' t] & K' & Ik'). simpl in K'. subst k'.
    destruct (Hr before k t Ik') as (w' & W1 & _). congruence.
Qed.

(** the length of the mapping that is written is one more than the number of tensors
    written, once all are out *)
Theorem C123_out_len : forall cap declared recipe minbuf ops s,
  orun cap (out_open declared recipe minbuf) ops = Some s -> quiescent s ->
  good_calls (written ops) -> transfers_fit cap declared recipe minbuf (written ops) ->
  out_len (close_flush cap s) = S (length (written ops)).
Proof.
  intros cap declared recipe minbuf ops s Hrun Hq Hg Ht.
  destruct (close_full cap declared recipe minbuf ops s Hrun Hq Hg Ht) as (segs & H & P1 & P2 & E & _).
  unfold out_len. rewrite E. simpl. rewrite map_length, (Permutation_length P2).
  assert (L : forall l off, length (layout off l) = length l).
  { induction l as [|[k t] l IH]; intros off; simpl; auto. }
  f_equal. etransitivity; [apply L|apply Permutation_length; exact P1].
Qed.

(** a file with two tensors, one of a dtype the library does not know *)
Definition odd_file : list byte :=
  let text := json_dumps (JObj [("x", JObj [("dtype", JStr "F4"); ("shape", JArr [JNum 2]); ("data_offsets", JArr [JNum 0; JNum 1])]);
                                ("y", JObj [("dtype", JStr "U8"); ("shape", JArr [JNum 1]); ("data_offsets", JArr [JNum 1; JNum 2])])]) in
  match pack_Q (N.of_nat (length text)) with Ok b => b ++ text ++ bys [7; 9]%N | Err _ => [] end.

(** ... its key is listed and is not in the mapping, items() and metadata() raise *)
Theorem C123_listed_refuted : exists r, in_open 4096 odd_file 4 = Ok r /\
  let h := Handle r true in
  h_keys h = Ok ["x"; "y"] /\ h_len h = Ok 2 /\
  fst (h_contains 4096 h "x") = Ok false /\ fst (h_contains 4096 h "y") = Ok true /\
  fst (h_items 4096 h) = Err KeyError /\ h_metadata h = Err KeyError.
Proof. eexists. split; [vm_compute; reflexivity|]. repeat split; vm_compute; reflexivity. Qed.

(** a mapping to which nothing was written has length 1 *)
Theorem C123_out_len_refuted : forall declared recipe minbuf, out_len (out_open declared recipe minbuf) = 1.
Proof. intros. destruct recipe; reflexivity. Qed.

(** the file of ex_runs, read after one of its tensors was *)
Example C123_case : exists r l h,
  in_open 4096 ex_file 5 = Ok r /\ h_items 4096 (opened 4096 ex_file r ["b"]) = (Ok l, h) /\
  map (fun kw => (fst kw, view_tensor (in_heap (h_ins h)) (snd kw))) l = [("a", tA); ("c", tC); ("b", tB)] /\
  fst (h_contains 4096 h "__metadata__") = Ok false /\ fst (h_contains 4096 h "c") = Ok true /\
  h_metadata h = Ok [("a", ([3%N], U8)); ("c", ([2%N], U8)); ("b", ([2%N; 2%N], F16))] /\
  fst (h_getitem 4096 (h_close h) "a") = Err TypeError.
Proof.
  eexists _, _, _. split; [vm_compute; reflexivity|]. split; [vm_compute; reflexivity|].
  repeat split; vm_compute; reflexivity.
Qed.

Print Assumptions C123_keys.
Print Assumptions C123_stays.
Print Assumptions C123_contains.
Print Assumptions C123_items_raises.
Print Assumptions C123_items.
Print Assumptions C123_items_complete.
Print Assumptions C123_metadata.
Print Assumptions C123_closed.
Print Assumptions C123_written.
Print Assumptions C123_out_len.
Print Assumptions C123_listed_refuted.
Print Assumptions C123_out_len_refuted.
