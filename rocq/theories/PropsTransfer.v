(** C100: the buffer size does not change what is read or written, and where it does.
    One raw read or write transfers at most [cap] bytes (2^31 - 4096 on Linux, read(2) and write(2));
    streaming.py:149 and 266 do not look at how many were. *)
From Coq Require Import String Ascii List Bool Arith NArith Lia Permutation.
From Verif Require Import Base Dec Json JsonProofs PyStr ModelStream SpecStream InProofs InProofs2
  OutProofs OutProofs2 OutProofs3 PropsStreamLemmas PropsStream.
Import ListNotations.
Open Scope string_scope.
Open Scope list_scope.

(** [reads k of the file as opened with a buffer of that size, after other reads] *)
Definition read_after (cap : nat) (r : ins) (reads : list string) (k : string) : result tensor :=
  match in_get cap (in_gets cap r reads) k with
  | (Ok w, r') => Ok (view_tensor (in_heap r') w)
  | (Err e, _) => Err e
  end.

Lemma read_after_ok : forall cap r reads k w t, fst (in_get cap (in_gets cap r reads) k) = Ok w ->
  view_tensor (in_heap (snd (in_get cap (in_gets cap r reads) k))) w = t -> read_after cap r reads k = Ok t.
Proof.
  intros cap r reads k w t E V. unfold read_after. destruct (in_get cap (in_gets cap r reads) k) as [x r'].
  simpl in *. subst x. simpl. now rewrite V.
Qed.

(** Within the limit, no buffer size matters: two histories of writes with any number of threads, any
    interleaving, any declared keys, recipes and buffer sizes, of the same tensors, read with any buffer
    sizes and in any order, give the same tensors. *)
Theorem C100_any_buffers_partial : forall cap declared declared' recipe recipe' minbuf minbuf' ops ops' s s' n n',
  orun cap (out_open declared recipe minbuf) ops = Some s -> quiescent s ->
  orun cap (out_open declared' recipe' minbuf') ops' = Some s' -> quiescent s' ->
  good_calls (written ops) -> Permutation (written ops) (written ops') ->
  transfers_fit cap declared recipe minbuf (written ops) -> transfers_fit cap declared' recipe' minbuf' (written ops') ->
  0 < minbuf -> 0 < minbuf' -> n <= cap -> n' <= cap ->
  exists f f' r r', out_close cap s = Ok f /\ out_close cap s' = Ok f' /\
    in_open cap f n = Ok r /\ in_open cap f' n' = Ok r' /\
    Permutation (in_keys r) (in_keys r') /\
    forall reads reads' k, In k (in_keys r) ->
      exists t, In (k, t) (written ops) /\ read_after cap r reads k = Ok t /\ read_after cap r' reads' k = Ok t.
Proof.
  intros cap declared declared' recipe recipe' minbuf minbuf' ops ops' s s' n n' R Q R' Q' G P T T' M M' N N'.
  assert (G' : good_calls (written ops')).
  { destruct G as [D W]. split.
    - eapply Permutation_NoDup; [|exact D]. constructor. now apply Permutation_map.
    - rewrite Forall_forall in *. intros x I. apply W. now apply (Permutation_in _ (Permutation_sym P)). }
  destruct (C05_written_file_reads_back _ _ _ _ _ _ n R Q G T M N) as (f & r & C & O & K & _ & V).
  destruct (C05_written_file_reads_back _ _ _ _ _ _ n' R' Q' G' T' M' N') as (f' & r' & C' & O' & K' & _ & V').
  exists f, f', r, r'. do 4 (split; [assumption|]). split.
  - eapply perm_trans; [exact K|]. eapply perm_trans; [apply Permutation_map; exact P|]. now apply Permutation_sym.
  - intros reads reads' k I. apply (Permutation_in _ K) in I. apply in_map_iff in I as ((k' & t) & E & I).
    simpl in E. subst k'. exists t. split; [assumption|].
    destruct (V reads k t I) as (w & Ew & Tw). destruct (V' reads' k t (Permutation_in _ P I)) as (w' & Ew' & Tw').
    split; eapply read_after_ok; eassumption.
Qed.
Print Assumptions C100_any_buffers_partial.

Lemma skipn_zeros : forall m n, skipn m (zeros n) = zeros (n - m).
Proof. intros m n. unfold zeros. revert n. induction m; intros [|n]; simpl; auto. Qed.
Lemma firstn_zeros : forall m n, m <= n -> firstn m (zeros n) = zeros m.
Proof. intros m n. unfold zeros. revert n. induction m; intros [|n] H; simpl; auto; try lia. f_equal. apply IHm. lia. Qed.

(** Past the limit of one read, the buffer is taken to hold what was never read: with a buffer larger than
    the limit, after a first tensor every tensor that lies further than the limit behind its start, but
    inside the buffer, is read as zeros, whatever the file holds. *)
Theorem C100_read_refuted : forall cap f bufsize r k v d sh a b k' v' d' sh' a' b',
  in_open cap f bufsize = Ok r ->
  dget String.eqb k (in_header r) = Some v -> k <> "__metadata__" -> complete f (in_hsize r) v d sh a b -> (a < b)%N ->
  dget String.eqb k' (in_header r) = Some v' -> k' <> "__metadata__" -> complete f (in_hsize r) v' d' sh' a' b' -> (a' < b')%N ->
  N.to_nat a + cap <= N.to_nat a' -> N.to_nat b' <= N.to_nat a + bufsize ->
  read_after cap r [k] k' = Ok (Tensor d' sh' (zeros (N.to_nat (b' - a')))).
Proof.
  intros cap f bufsize r k v d sh a b k' v' d' sh' a' b' O G K (I & S & L) AB G' K' (I' & S' & L') AB' FAR NEAR.
  unfold in_open in O. destruct (read_header cap f) as [[hs h]|e] eqn:E; [|discriminate].
  assert (R : r = INS f bufsize hs h [[]] 0 (8 + hs)) by (injection O as <-; reflexivity). subst r. clear O.
  cbn [in_header in_hsize] in *. unfold read_after. unfold in_gets, fold_left.
  assert (X : snd (in_get cap (INS f bufsize hs h [[]] 0 (8 + hs)) k) =
              INS f bufsize hs h [[]; readinto cap f (8 + hs + N.to_nat a) (zeros (Nat.max bufsize (N.to_nat (b - a))))] 1 (8 + hs + N.to_nat a)).
  { unfold in_get. cbn [in_header in_hsize]. rewrite G. destruct (String.eqb_spec k "__metadata__"); [contradiction|].
    rewrite I. destruct (N.ltb_spec b a); [lia|]. destruct (Nat.eqb_spec (N.to_nat (b - a)) 0); [lia|].
    replace (ensure_buffer cap (INS f bufsize hs h [[]] 0 (8 + hs)) (8 + hs + N.to_nat a) (N.to_nat (b - a))) with
      (INS f bufsize hs h [[]; readinto cap f (8 + hs + N.to_nat a) (zeros (Nat.max bufsize (N.to_nat (b - a))))] 1 (8 + hs + N.to_nat a)).
    2:{ unfold ensure_buffer. cbn [in_start cur_buf in_cur in_heap nth length in_bufsize in_file in_hsize in_header].
        change (length (@nil byte)) with 0.
        destruct (Nat.ltb_spec (8 + hs + N.to_nat a) (8 + hs)); [lia|].
        destruct (Nat.ltb_spec (8 + hs + 0) (8 + hs + N.to_nat a + N.to_nat (b - a))); [|lia].
        cbn [orb]. destruct (Nat.ltb_spec 0 (Nat.max bufsize (N.to_nat (b - a)))); [reflexivity|lia]. }
    repeat match goal with |- context [if ?c then _ else _] => destruct c end; reflexivity. }
  rewrite X. clear X.
  unfold in_get. cbn [in_header in_hsize]. rewrite G'. destruct (String.eqb_spec k' "__metadata__"); [contradiction|].
  rewrite I'. destruct (N.ltb_spec b' a'); [lia|]. destruct (Nat.eqb_spec (N.to_nat (b' - a')) 0); [lia|].
  set (buf := readinto cap f (8 + hs + N.to_nat a) (zeros (Nat.max bufsize (N.to_nat (b - a))))).
  assert (LB : length buf = Nat.max bufsize (N.to_nat (b - a))).
  { unfold buf. rewrite readinto_length. apply zeros_length. }
  assert (Z : forall x, cap <= x -> skipn x buf = zeros (length buf - x)).
  { intros x X. rewrite LB. unfold buf, readinto. rewrite zeros_length.
    set (dd := fread cap f (8 + hs + N.to_nat a) (Nat.max bufsize (N.to_nat (b - a)))).
    assert (length dd <= cap). { unfold dd, fread. rewrite firstn_length. lia. }
    rewrite skipn_app, skipn_all2, skipn_zeros, skipn_zeros by lia. simpl. f_equal. lia. }
  replace (ensure_buffer cap (INS f bufsize hs h [[]; buf] 1 (8 + hs + N.to_nat a)) (8 + hs + N.to_nat a') (N.to_nat (b' - a')))
    with (INS f bufsize hs h [[]; buf] 1 (8 + hs + N.to_nat a)).
  2:{ unfold ensure_buffer. cbn [in_start in_cur in_heap]. unfold cur_buf at 1. cbn [in_cur in_heap nth].
      destruct (Nat.ltb_spec (8 + hs + N.to_nat a') (8 + hs + N.to_nat a)); [lia|].
      destruct (Nat.ltb_spec (8 + hs + N.to_nat a + length buf) (8 + hs + N.to_nat a' + N.to_nat (b' - a'))); [lia|]. reflexivity. }
  cbn [in_start in_cur]. pose proof (dtype_size_pos d').
  assert (TOT : N.to_nat (b' - a') = N.to_nat (numel sh') * dtype_size d').
  { unfold byte_size in S'. nia. }
  rewrite TOT, Nat.div_mul by lia.
  destruct (Nat.eqb_spec (N.to_nat (numel sh')) 0); [nia|]. rewrite N2Nat.id, N.eqb_refl.
  cbn [fst snd in_heap]. unfold view_tensor. cbn [view_dtype view_shape view_bytes nth].
  f_equal. f_equal. rewrite Z by lia. apply firstn_zeros. rewrite <- TOT, LB. lia.
Qed.
Print Assumptions C100_read_refuted.

(** Writing: a tensor larger than the limit is cut, and the file opens all the same.  Read back without any
    limit, it has zeros instead of the rest. *)
Definition one_call (minbuf : nat) (k : string) (t : tensor) : list op :=
  if Nat.ltb minbuf (length (t_bytes t)) then [Call 1 k t; Run 1; Run 1; Run 1] else [Call 1 k t; Run 1].

Lemma one_call_ran : forall cap minbuf k t, exists buf log,
  firstn (length (t_bytes t)) buf = t_bytes t /\
  let declared := decls_of [(k, t)] in let m := max_header declared None in
  orun cap (out_open declared None minbuf) (one_call minbuf k t) =
    Some (OST [] (8 + m) 0 (base_header None)
      [(1, TS buf (length (t_bytes t)) [(k, Entry (t_dtype t) (t_shape t) 0 (length (t_bytes t)))] Idle)] minbuf m log).
Proof.
  intros cap minbuf k t. cbv zeta. unfold out_open. set (m := max_header _ None). unfold one_call.
  remember (8 + m) as base. destruct (Nat.ltb_spec minbuf (length (t_bytes t))) as [L|L].
  - exists (slice_assign (zeros (length (t_bytes t))) 0 (t_bytes t)), [(base, [])]. split.
    { unfold slice_assign. simpl. rewrite skipn_all2 by (rewrite zeros_length; lia). now rewrite app_nil_r, firstn_all. }
    cbn [orun ostep]. unfold new_tstate. cbn [o_thr dget ts_pc ts_buf ts_used ts_sub o_min].
    rewrite zeros_length, Nat.sub_0_r. destruct (Nat.ltb_spec minbuf (length (t_bytes t))); [|lia].
    unfold set_thread. cbn [o_thr dset dget Nat.eqb]. cbn [ts_pc]. unfold flush_locked. cbn [ts_used ts_buf].
    rewrite firstn_nil.
    cbn [o_file o_pos o_flushed o_hdr o_thr o_min o_max o_writes dset dget Nat.eqb ts_pc ts_used ts_sub ts_buf app length map].
    rewrite zeros_length, Nat.max_r by lia. destruct (Nat.ltb_spec minbuf (length (t_bytes t))); [|lia].
    cbn [set_hdr o_file o_pos o_flushed o_hdr o_thr o_min o_max o_writes dset dget Nat.eqb ts_pc ts_used ts_sub ts_buf app length map dupdate fold_left].
    rewrite Nat.add_0_r. reflexivity.
  - exists (slice_assign (zeros minbuf) 0 (t_bytes t)), []. split.
    { unfold slice_assign. simpl. now rewrite firstn_app, Nat.sub_diag, firstn_all, app_nil_r. }
    cbn [orun ostep]. unfold new_tstate. cbn [o_thr dget ts_pc ts_buf ts_used ts_sub o_min].
    rewrite zeros_length, Nat.sub_0_r. destruct (Nat.ltb_spec minbuf (length (t_bytes t))); [lia|].
    unfold set_thread. cbn [o_thr dset dget Nat.eqb ts_pc ts_used ts_sub ts_buf]. reflexivity.
Qed.

Definition one_header (k : string) (t : tensor) : list (string * json) :=
  meta_entry None :: map ej [(k, Entry (t_dtype t) (t_shape t) 0 (length (t_bytes t)))].

Lemma one_flushed : forall cap minbuf k t buf log m, k <> "__metadata__" -> firstn (length (t_bytes t)) buf = t_bytes t ->
  exists log', close_flush cap (OST [] (8 + m) 0 (base_header None)
      [(1, TS buf (length (t_bytes t)) [(k, Entry (t_dtype t) (t_shape t) 0 (length (t_bytes t)))] Idle)] minbuf m log) =
    OST (fwrite [] (8 + m) (firstn cap (t_bytes t))) (8 + m + length (firstn cap (t_bytes t))) (length (t_bytes t)) (one_header k t)
      [(1, TS [] 0 [] Idle)] minbuf m log'.
Proof.
  intros cap minbuf k t buf log m NK B. eexists. unfold close_flush. cbn [o_thr map fst fold_left]. unfold flush_close. cbn [o_thr dget Nat.eqb].
  unfold flush_locked. cbn [ts_used ts_buf ts_sub ts_pc]. rewrite B.
  unfold set_thread, set_hdr. cbn [o_file o_pos o_flushed o_hdr o_thr o_min o_max o_writes dset Nat.eqb].
  unfold one_header. cbn [map]. unfold shift_entry, ej. cbn [fst snd e_dtype e_shape e_start e_stop]. rewrite !Nat.add_0_r.
  unfold base_header, meta_entry. unfold dupdate. cbn [fold_left fst snd]. cbn [dset].
  destruct (String.eqb_spec k "__metadata__") as [?|_]; [contradiction|]. reflexivity.
Qed.

Lemma one_closed : forall cap s k t log minbuf m size8, 8 <= cap ->
  close_flush cap s = OST (fwrite [] (8 + m) (firstn cap (t_bytes t))) (8 + m + length (firstn cap (t_bytes t))) (length (t_bytes t)) (one_header k t)
      [(1, TS [] 0 [] Idle)] minbuf m log ->
  length (json_dumps (JObj (one_header k t))) <= m -> m <= cap -> cap < length (t_bytes t) -> pack_Q (N.of_nat m) = Ok size8 ->
  out_close cap s = Ok (final_file size8 (json_dumps (JObj (one_header k t))) (m - length (json_dumps (JObj (one_header k t)))) (firstn cap (t_bytes t))).
Proof.
  intros cap s k t log minbuf m size8 C8 CF FIT MC CUT PK. unfold out_close. rewrite CF. cbn [o_hdr o_max o_file o_flushed o_min].
  rewrite Nat.max_l by exact FIT. rewrite PK. cbn [bind].
  destruct (Nat.leb_spec (length (json_dumps (JObj (one_header k t)))) m); [|lia]. f_equal.
  apply header_writes_file; try lia.
  - eapply unpack_pack. exact PK.
  - right. exists (zeros (8 + m)). split; [rewrite zeros_length; lia|]. apply fwrite_gap. intros E.
    assert (length (firstn cap (t_bytes t)) = 0) by now rewrite E. rewrite firstn_length in *. lia.
Qed.

Lemma one_fits : forall k t, good_calls [(k, t)] ->
  length (json_dumps (JObj (one_header k t))) <= max_header (decls_of [(k, t)]) None.
Proof.
  intros k t [ND WF]. unfold one_header. apply header_fits with (segs := [(k, t)]).
  - exact ND.
  - inversion ND; assumption.
  - intros k' t' [E|[]]. injection E as <- <-. split; [now inversion WF|]. now left.
  - reflexivity.
Qed.

(** reading a tensor of which only a part is in the file *)
Lemma read_short : forall cap f bufsize m h k t data, 0 < length (t_bytes t) -> wf_tensor t ->
  dget String.eqb k h = Some (entry_json (t_dtype t) (t_shape t) 0 (length (t_bytes t))) -> k <> "__metadata__" ->
  skipn (8 + m) f = data -> length data <= length (t_bytes t) -> length (t_bytes t) <= cap ->
  read_after cap (INS f bufsize m h [[]] 0 (8 + m)) [] k =
    Ok (Tensor (t_dtype t) (t_shape t) (data ++ zeros (length (t_bytes t) - length data))).
Proof.
  intros cap f bufsize m h k t data P W DG NK SK LD LC. set (n := length (t_bytes t)) in *.
  unfold read_after, in_gets. cbn [fold_left]. unfold in_get. cbn [in_header in_hsize]. rewrite DG.
  destruct (String.eqb_spec k "__metadata__") as [?|_]; [contradiction|].
  rewrite entry_info_entry. destruct (N.ltb_spec (N.of_nat n) (N.of_nat 0)); [lia|].
  replace (N.to_nat (N.of_nat n - N.of_nat 0)) with n by lia. destruct (Nat.eqb_spec n 0); [lia|].
  replace (8 + m + N.to_nat (N.of_nat 0)) with (8 + m) by lia.
  assert (EB : ensure_buffer cap (INS f bufsize m h [[]] 0 (8 + m)) (8 + m) n =
     INS f bufsize m h [[]; readinto cap f (8 + m) (zeros (Nat.max bufsize n))] 1 (8 + m)).
  { unfold ensure_buffer. cbn [in_start cur_buf in_cur in_heap nth length in_bufsize in_file in_hsize in_header].
    change (length (@nil byte)) with 0.
    destruct (Nat.ltb_spec (8 + m) (8 + m)); [lia|]. destruct (Nat.ltb_spec (8 + m + 0) (8 + m + n)); [|lia].
    cbn [orb]. destruct (Nat.ltb_spec 0 (Nat.max bufsize n)); [reflexivity|lia]. }
  rewrite EB. cbn [in_start in_cur]. rewrite Nat.sub_diag.
  unfold wf_tensor, byte_size in W. fold n in W. pose proof (dtype_size_pos (t_dtype t)).
  assert (TOT : N.to_nat (numel (t_shape t)) * dtype_size (t_dtype t) = n) by nia.
  replace (n / dtype_size (t_dtype t)) with (N.to_nat (numel (t_shape t))) by (rewrite <- TOT; symmetry; apply Nat.div_mul; lia).
  destruct (Nat.eqb_spec (N.to_nat (numel (t_shape t))) 0) as [Z|_]; [rewrite Z in TOT; simpl in TOT; lia|]. rewrite N2Nat.id, N.eqb_refl. rewrite TOT.
  cbn [fst snd in_heap]. unfold view_tensor. cbn [view_dtype view_shape view_bytes nth skipn].
  f_equal. f_equal. unfold readinto. rewrite zeros_length.
  assert (FR : fread cap f (8 + m) (Nat.max bufsize n) = data).
  { unfold fread. rewrite SK. apply firstn_all2. lia. }
  rewrite FR, skipn_zeros, firstn_app, firstn_all2 by lia. f_equal. apply firstn_zeros. lia.
Qed.

Lemma one_lost : forall cap minbuf k t buf log m, good_calls [(k, t)] -> 8 <= cap -> cap < length (t_bytes t) ->
  m <= cap -> (N.of_nat m < 2 ^ 64)%N -> length (json_dumps (JObj (one_header k t))) <= m ->
  firstn (length (t_bytes t)) buf = t_bytes t ->
  exists f, out_close cap (OST [] (8 + m) 0 (base_header None)
      [(1, TS buf (length (t_bytes t)) [(k, Entry (t_dtype t) (t_shape t) 0 (length (t_bytes t)))] Idle)] minbuf m log) = Ok f /\
    length f = 8 + m + cap /\
    forall cap' bufsize, Nat.max m (length (t_bytes t)) <= cap' -> 8 <= cap' ->
      exists r, in_open cap' f bufsize = Ok r /\
        read_after cap' r [] k =
          Ok (Tensor (t_dtype t) (t_shape t) (firstn cap (t_bytes t) ++ zeros (length (t_bytes t) - cap))).
Proof.
  intros cap minbuf k t buf log m [ND WF] C8 CUT MC M64 FIT B.
  assert (NK : k <> "__metadata__"). { intros ->. simpl in ND. inversion ND as [|? ? NI _]. apply NI. now left. }
  assert (WFJ : wfj (JObj (one_header k t))). { unfold one_header. rewrite <- meta_entry_hd. apply header_wf. exact ND. }
  destruct (one_flushed cap minbuf k t buf log m NK B) as (log' & CF).
  destruct (pack_Q (N.of_nat m)) as [size8|] eqn:PK.
  2:{ exfalso. unfold pack_Q in PK. apply N.ltb_lt in M64. rewrite M64 in PK. discriminate. }
  clear M64.
  assert (L8 : length size8 = 8) by (eapply unpack_pack; exact PK).
  assert (LD : length (firstn cap (t_bytes t)) = cap) by (rewrite firstn_length; lia).
  eexists. split. { eapply one_closed; eassumption. }
  split.
  { unfold final_file. rewrite !app_length, repeat_length, L8, LD. lia. }
  intros cap' bufsize L' C8'.
  destruct (open_full cap' None [(k, Entry (t_dtype t) (t_shape t) 0 (length (t_bytes t)))] size8 (m - length (json_dumps (JObj (one_header k t)))) (firstn cap (t_bytes t)) m bufsize)
    as (h' & SH & OP); fold (one_header k t) in *; try assumption; try lia.
  eexists. split; [exact OP|].
  rewrite <- LD at 3. apply read_short; try assumption; try lia.
  - now inversion WF.
  - eapply entry_in_sorted; [exact SH| |right; left; reflexivity]. exact ND.
  - unfold final_file. rewrite !app_assoc, skipn_app, skipn_all2.
    + rewrite app_nil_l. replace (_ - _) with 0; [reflexivity|]. rewrite !app_length, repeat_length, L8. lia.
    + rewrite !app_length, repeat_length, L8. lia.
Qed.

Theorem C100_write_refuted : forall cap minbuf k t, good_calls [(k, t)] -> 8 <= cap -> cap < length (t_bytes t) ->
  max_header (decls_of [(k, t)]) None <= cap -> (N.of_nat (max_header (decls_of [(k, t)]) None) < 2 ^ 64)%N ->
  exists ops s f, written ops = [(k, t)] /\ orun cap (out_open (decls_of [(k, t)]) None minbuf) ops = Some s /\ quiescent s /\
    out_close cap s = Ok f /\ length f = 8 + max_header (decls_of [(k, t)]) None + cap /\
    forall cap' bufsize, Nat.max (max_header (decls_of [(k, t)]) None) (length (t_bytes t)) <= cap' -> 8 <= cap' ->
      exists r, in_open cap' f bufsize = Ok r /\
        read_after cap' r [] k =
          Ok (Tensor (t_dtype t) (t_shape t) (firstn cap (t_bytes t) ++ zeros (length (t_bytes t) - cap))).
Proof.
  intros cap minbuf k t G C8 CUT MC M64.
  destruct (one_call_ran cap minbuf k t) as (buf & log & B & R).
  destruct (one_lost cap minbuf k t buf log _ G C8 CUT MC M64 (one_fits k t G) B) as (f & C & L & V).
  exists (one_call minbuf k t). eexists. exists f.
  split. { unfold one_call. destruct (Nat.ltb minbuf _); reflexivity. }
  split; [exact R|]. split.
  { intros tid ts [E|[]]. injection E as <- <-. reflexivity. }
  split; [exact C|]. split; [exact L|exact V].
Qed.
Print Assumptions C100_write_refuted.

(** ** The hypotheses can hold: a limit of 200 bytes, a buffer of 400 *)
Definition big := Tensor U8 [300%N] (repeat "x"%char 300).
Example C100_write_case : good_calls [("w", big)] /\ max_header (decls_of [("w", big)]) None <= 200 /\
  200 < length (t_bytes big) /\
  firstn 200 (t_bytes big) ++ zeros (length (t_bytes big) - 200) <> t_bytes big.
Proof.
  split; [|vm_compute; repeat split; try lia; discriminate].
  split; [|repeat constructor]. constructor; [intros [E|[]]; discriminate|]. constructor; [intros []|constructor].
Qed.

(** a file with tensors a (1 byte), b (300 bytes) and c (4 bytes), read with a limit of 200 bytes for each transfer
    and a buffer of 400: after a, c is zeros; read on its own, or with a buffer of 100, it is right *)
Definition small := Tensor U8 [4%N] (bys [1; 2; 3; 4]%N).
Definition long_ops : list op := [Call 1 "a" (Tensor U8 [1%N] (bys [7]%N)); Run 1; Call 1 "b" big; Run 1; Call 1 "c" small; Run 1].
Definition long_file : list byte :=
  match orun 4096 (out_open (decls_of (written long_ops)) None 1000) long_ops with
  | Some s => match out_close 4096 s with Ok f => f | Err _ => [] end
  | None => []
  end.
Example C100_read_case : exists r r', in_open 200 long_file 400 = Ok r /\ in_open 200 long_file 100 = Ok r' /\
  (exists v v' , dget String.eqb "a" (in_header r) = Some v /\ complete long_file (in_hsize r) v U8 [1%N] 0 1 /\
     dget String.eqb "c" (in_header r) = Some v' /\ complete long_file (in_hsize r) v' U8 [4%N] 301 305) /\
  read_after 200 r ["a"] "c" = Ok (Tensor U8 [4%N] (bys [0; 0; 0; 0]%N)) /\
  read_after 200 r [] "c" = Ok small /\ read_after 200 r' ["a"] "c" = Ok small.
Proof.
  eexists. eexists. split; [vm_compute; reflexivity|]. split; [vm_compute; reflexivity|]. split.
  - eexists. eexists. split; [vm_compute; reflexivity|]. split.
    + split; [vm_compute; reflexivity|]. split; [reflexivity|]. apply leb_le'. vm_compute. reflexivity.
    + split; [vm_compute; reflexivity|].
      split; [vm_compute; reflexivity|]. split; [reflexivity|]. apply leb_le'. vm_compute. reflexivity.
  - repeat split; vm_compute; reflexivity.
Qed.
