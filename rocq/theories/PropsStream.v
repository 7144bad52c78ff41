(** Properties C05-C15: reading and writing safetensors files. *)
From Coq Require Import String Ascii List Bool Arith NArith Lia Permutation Sorted.
From Verif Require Import Base Dec Json JsonProofs PyStr ModelStream SpecStream
  InProofs InProofs2 OutProofs OutProofs2 OutProofs3 CrashProofs PropsStreamLemmas.
Import ListNotations.
Open Scope string_scope.
Open Scope list_scope.

(** ** a concrete history: two threads, three tensors, a buffer of 4 bytes *)
Definition bys (l : list N) : list byte := map ascii_of_N l.
Definition tA := Tensor U8 [3%N] (bys [1; 2; 3]%N).
Definition tB := Tensor F16 [2%N; 2%N] (bys [10; 11; 12; 13; 14; 15; 16; 17]%N).
Definition tC := Tensor U8 [2%N] (bys [21; 22]%N).
Definition ex_decl : list (string * (option dtype * option (list N))) :=
  [("a", (Some U8, Some [3%N])); ("b", (Some F16, Some [2%N; 2%N])); ("c", (Some U8, Some [2%N]))].
(** thread 1 writes a (buffered), thread 2 writes b (too large: flush, publish),
    thread 1 writes c (does not fit: flush), interleaved *)
Definition ex_ops : list op :=
  [Call 1 "a" tA; Call 2 "b" tB; Run 1; Run 2; Call 1 "c" tC; Run 1; Run 2; Run 1; Run 2; Run 1].

Example ex_runs : exists s, orun 4096 (out_open ex_decl (Some "r") 4) ex_ops = Some s /\ quiescent s /\
  length (o_thr s) = 2 /\ written ex_ops = [("a", tA); ("b", tB); ("c", tC)].
Proof.
  eexists. split; [vm_compute; reflexivity|]. split; [|split; reflexivity].
  intros tid ts H. simpl in H. destruct H as [H|[H|[]]]; inversion H; reflexivity.
Qed.

Example ex_good : good_calls (written ex_ops).
Proof.
  split.
  - repeat constructor; simpl; intuition discriminate.
  - repeat constructor.
Qed.

Lemma leb_le' : forall a b, Nat.leb a b = true -> a <= b.
Proof. intros; apply Nat.leb_le; auto. Qed.

Example ex_fit : transfers_fit 4096 ex_decl (Some "r") 4 (written ex_ops).
Proof.
  repeat split; try (apply leb_le'; vm_compute; reflexivity).
  intros k t H. simpl in H. destruct H as [H|[H|[H|[]]]]; inversion H; subst; apply leb_le'; vm_compute; reflexivity.
Qed.

(** ** C05 *)
Theorem C05_written_file_reads_back : forall cap declared recipe minbuf ops s bufsize,
  orun cap (out_open declared recipe minbuf) ops = Some s -> quiescent s ->
  good_calls (written ops) -> transfers_fit cap declared recipe minbuf (written ops) ->
  0 < minbuf -> bufsize <= cap ->
  exists f r,
    out_close cap s = Ok f /\ in_open cap f bufsize = Ok r /\
    Permutation (in_keys r) (map fst (written ops)) /\
    dget String.eqb "__metadata__"%string (in_header r) =
      Some (JObj (match recipe with Some x => [("mecha_recipe"%string, JStr x)] | None => [] end)) /\
    forall reads k t, In (k, t) (written ops) ->
      exists w, fst (in_get cap (in_gets cap r reads) k) = Ok w /\
                view_tensor (in_heap (snd (in_get cap (in_gets cap r reads) k))) w = t.
Proof. exact written_reads_back. Qed.
Print Assumptions C05_written_file_reads_back.

(** no declaration at all: the header does not fit, the data section is moved *)
Example ex_C05_relocation : exists s f r w,
  orun 4096 (out_open [] (Some "r") 4) ex_ops = Some s /\ out_close 4096 s = Ok f /\
  o_max (close_flush 4096 s) < length (json_dumps (JObj (o_hdr (close_flush 4096 s)))) /\
  in_open 4096 f 5 = Ok r /\ fst (in_get 4096 r "b") = Ok w /\
  view_tensor (in_heap (snd (in_get 4096 r "b"))) w = tB.
Proof.
  eexists _, _, _, _. split; [vm_compute; reflexivity|]. split; [vm_compute; reflexivity|].
  split; [apply leb_le'; vm_compute; reflexivity|]. split; [vm_compute; reflexivity|].
  split; [vm_compute; reflexivity|]. vm_compute. reflexivity.
Qed.

(** ** C06 *)
Theorem C06_tensors_tile_the_data_section : forall cap declared recipe minbuf ops s bufsize,
  orun cap (out_open declared recipe minbuf) ops = Some s -> quiescent s ->
  good_calls (written ops) -> transfers_fit cap declared recipe minbuf (written ops) ->
  0 < minbuf ->
  exists f r (start stop : string -> nat),
    out_close cap s = Ok f /\ in_open cap f bufsize = Ok r /\
    (forall k t, In (k, t) (written ops) ->
       dget String.eqb k (in_header r) = Some (entry_json (t_dtype t) (t_shape t) (start k) (stop k)) /\
       stop k = start k + length (t_bytes t) /\ 8 + in_hsize r + stop k <= length f) /\
    (forall k1 k2, In k1 (map fst (written ops)) -> In k2 (map fst (written ops)) -> k1 <> k2 ->
       stop k1 <= start k2 \/ stop k2 <= start k1) /\
    (forall p, 8 + in_hsize r <= p < length f ->
       exists k, In k (map fst (written ops)) /\ 8 + in_hsize r + start k <= p < 8 + in_hsize r + stop k).
Proof. exact tensors_tile. Qed.
Print Assumptions C06_tensors_tile_the_data_section.

(** ** C07 *)
Theorem C07_reserved_header_space_suffices : forall cap declared recipe minbuf ops s bufsize,
  orun cap (out_open declared recipe minbuf) ops = Some s -> quiescent s ->
  good_calls (written ops) -> transfers_fit cap declared recipe minbuf (written ops) ->
  NoDup ("__metadata__"%string :: map fst declared) ->
  (forall k t, In (k, t) (written ops) -> In (k, (Some (t_dtype t), Some (t_shape t))) declared) ->
  length (json_dumps (JObj (o_hdr (close_flush cap s)))) <= max_header declared recipe /\
  exists f r, out_close cap s = Ok f /\ in_open cap f bufsize = Ok r /\
    in_hsize r = max_header declared recipe /\
    skipn (8 + max_header declared recipe) f = skipn (8 + max_header declared recipe) (o_file (close_flush cap s)).
Proof. exact reservation_suffices. Qed.
Print Assumptions C07_reserved_header_space_suffices.

Example ex_C07_declared : NoDup ("__metadata__"%string :: map fst ex_decl) /\
  forall k t, In (k, t) (written ex_ops) -> In (k, (Some (t_dtype t), Some (t_shape t))) ex_decl.
Proof.
  split; [repeat constructor; simpl; intuition discriminate|].
  intros k t H. simpl in H. destruct H as [H|[H|[H|[]]]]; inversion H; subst; simpl; auto.
Qed.

(** ** C08 *)
Theorem C08_moving_the_data_section_loses_nothing : forall P D shift chunk,
  0 < chunk ->
  let lo := length P in
  let f := relocate (S (length D)) (ftruncate (P ++ D) (lo + length D + shift)) (lo + length D) lo chunk shift in
  length f = lo + shift + length D /\ skipn (lo + shift) f = D /\ firstn lo f = P.
Proof. exact relocation_moves. Qed.
Print Assumptions C08_moving_the_data_section_loses_nothing.

Example ex_C08 : skipn (3 + 2) (relocate 8 (ftruncate (bys [0;0;0;1;2;3;4;5;6;7]%N) (3 + 7 + 2)) (3 + 7) 3 3 2) = bys [1;2;3;4;5;6;7]%N.
Proof. reflexivity. Qed.

(** a buffer size of zero makes the relocation fail after the file was already enlarged *)
Theorem C08_zero_buffer_size_refuted : exists s,
  orun 4096 (out_open [] None 0) [Call 1 "a" tA; Run 1; Run 1; Run 1] = Some s /\ quiescent s /\
  good_calls [("a", tA)] /\ out_close 4096 s = Err ValueError.
Proof.
  eexists. split; [vm_compute; reflexivity|]. split; [|split].
  - intros tid ts H. simpl in H. destruct H as [H|[]]; inversion H; reflexivity.
  - split; [|repeat constructor]. repeat constructor; simpl; intuition discriminate.
  - vm_compute. reflexivity.
Qed.

(** ** C09 *)
(** every prefix of a write history is itself a history [ops] (possibly with
    threads in the middle of a call), so [crash (o_writes s)] covers every crash
    point before close(); [crash (o_writes (close_flush cap s))] adds those
    inside the flushing loop of close(). *)
Theorem C09_interrupted_write_is_unreadable : forall cap declared recipe minbuf ops s,
  8 <= cap -> orun cap (out_open declared recipe minbuf) ops = Some s ->
  (forall f, crash (o_writes s) f -> unreadable cap f) /\
  (forall f, crash (o_writes (close_flush cap s)) f -> unreadable cap f) /\
  o_file s = apply_writes [] (o_writes s).
Proof.
  intros cap declared recipe minbuf ops s H8 Hrun.
  assert (I : log_inv s) by (eapply log_inv_run; [|eauto]; apply log_inv_open).
  split; [|split].
  - intros f Hf. destruct I as (_ & _ & HF). apply unreadable_of, zero_head_unreadable; auto.
    apply crash_is in Hf. apply (crash_pos 8) in Hf; auto. eapply Forall_impl; [|exact HF]. simpl; intros; lia.
  - intros f Hf. eapply crash_before_header; eauto.
  - apply I.
Qed.
Print Assumptions C09_interrupted_write_is_unreadable.

Theorem C09_interrupted_relocation_is_unreadable : forall cap declared recipe minbuf ops s hsize,
  8 <= cap -> orun cap (out_open declared recipe minbuf) ops = Some s ->
  let s1 := close_flush cap s in
  forall f W1 W2 p d d',
    relocate_writes (S (o_flushed s1)) (ftruncate (o_file s1) (8 + hsize + o_flushed s1))
      (8 + o_max s1 + o_flushed s1) (8 + o_max s1) (o_min s1) (hsize - o_max s1) = W1 ++ (p, d ++ d') :: W2 ->
    f = apply_writes (ftruncate (o_file s1) (8 + hsize + o_flushed s1)) (W1 ++ [(p, d)]) ->
    unreadable cap f.
Proof. exact crash_during_relocation. Qed.
Print Assumptions C09_interrupted_relocation_is_unreadable.

(** beyond C09: a crash while the header itself is being written *)
Theorem C09_torn_header_is_unreadable_or_complete : forall cap declared recipe minbuf ops s bufsize size8 V U p d d',
  orun cap (out_open declared recipe minbuf) ops = Some s -> quiescent s ->
  good_calls (written ops) -> transfers_fit cap declared recipe minbuf (written ops) ->
  let s1 := close_flush cap s in
  let text := json_dumps (JObj (o_hdr s1)) in
  length text <= max_header declared recipe ->
  pack_Q (N.of_nat (max_header declared recipe)) = Ok size8 ->
  header_writes cap size8 text (max_header declared recipe - length text) = V ++ (p, d ++ d') :: U ->
  let f := apply_writes (o_file s1) (V ++ [(p, d)]) in
  unreadable cap f \/
  exists full r0 r, out_close cap s = Ok full /\ in_open cap full bufsize = Ok r0 /\ in_open cap f bufsize = Ok r /\
    in_header r = in_header r0 /\ in_hsize r = in_hsize r0 /\
    skipn (8 + in_hsize r) f = skipn (8 + in_hsize r) full.
Proof. exact torn_header. Qed.
Print Assumptions C09_torn_header_is_unreadable_or_complete.

(** a crash in the middle of a flush: the file is not empty and cannot be opened *)
Example ex_C09 : exists s f,
  orun 4096 (out_open ex_decl None 4) (firstn 8 ex_ops) = Some s /\ ~ quiescent s /\
  crash (o_writes s) f /\ length f = 8 + o_max s + 1 /\ in_open 4096 f 100 = Err JSONDecodeError.
Proof.
  eexists. eexists. split; [vm_compute; reflexivity|]. split; [|split; [|split]].
  - intros H. specialize (H 1). simpl in H. specialize (H _ (or_introl eq_refl)). discriminate.
  - right. cbn [o_writes]. exists [(189, [])], 189, (bys [1]%N), (bys [2;3]%N), []. split; reflexivity.
  - vm_compute. reflexivity.
  - vm_compute. reflexivity.
Qed.

(** ** C10 *)
Theorem C10_output_buffers_bounded : forall cap declared recipe minbuf ops s tid ts,
  orun cap (out_open declared recipe minbuf) ops = Some s -> In (tid, ts) (o_thr s) ->
  NoDup (map fst (o_thr s)) /\
  length (ts_buf ts) <= Nat.max minbuf (largest tid ops) /\ ts_used ts <= length (ts_buf ts).
Proof. exact buffers_bounded. Qed.
Print Assumptions C10_output_buffers_bounded.

Example ex_C10 : exists s ts, orun 4096 (out_open ex_decl None 4) ex_ops = Some s /\ In (2, ts) (o_thr s) /\
  length (ts_buf ts) = 8 /\ Nat.max 4 (largest 2 ex_ops) = 8.
Proof. eexists _, _. split; [vm_compute; reflexivity|]. split; [simpl; right; left; reflexivity|]. split; reflexivity. Qed.

(** ** C11, C12 *)
(** [complete f hsize v]: the header entry [v] is well formed and its range lies in the file *)
Definition complete (f : list byte) (hsize : nat) (v : json) (d : dtype) (sh : list N) (a b : N) : Prop :=
  entry_info v = Ok (d, sh, a, b) /\ (a + byte_size d sh)%N = b /\ 8 + hsize + N.to_nat b <= length f.

Theorem C11_buffered_reads_equal_direct_reads : forall cap f bufsize r reads k v d sh a b,
  in_open cap f bufsize = Ok r -> bufsize <= cap -> entries_fit cap (in_header r) ->
  dget String.eqb k (in_header r) = Some v -> k <> "__metadata__"%string ->
  complete f (in_hsize r) v d sh a b ->
  exists w, fst (in_get cap (in_gets cap r reads) k) = Ok w /\
    view_tensor (in_heap (snd (in_get cap (in_gets cap r reads) k))) w =
      Tensor d sh (slice (8 + in_hsize r + N.to_nat a) (8 + in_hsize r + N.to_nat b) f).
Proof.
  intros cap f bufsize r reads k v d sh a b Hopen Hb Hf Hk Hne (Hv & Hab & Hlen).
  destruct (in_open_window _ _ _ _ Hopen) as (W & Ef & Eb).
  assert (Hb' : in_bufsize r <= cap) by lia.
  destruct (in_gets_keeps cap reads r W Hb' Hf) as (W' & (F1 & F2 & F3 & F4 & _)).
  rewrite <- Ef, <- F1, <- F3.
  apply in_get_spec with (v := v); auto; rewrite ?F1, ?F2, ?F3, ?F4, ?Ef; auto.
Qed.
Print Assumptions C11_buffered_reads_equal_direct_reads.

Theorem C12_returned_tensors_are_stable : forall cap f bufsize r reads1 k w reads2,
  in_open cap f bufsize = Ok r -> bufsize <= cap -> entries_fit cap (in_header r) ->
  let r1 := snd (in_get cap (in_gets cap r reads1) k) in
  fst (in_get cap (in_gets cap r reads1) k) = Ok w ->
  view_tensor (in_heap (in_gets cap r1 reads2)) w = view_tensor (in_heap r1) w.
Proof.
  intros cap f bufsize r reads1 k w reads2 Hopen Hb Hf r1 Hw.
  destruct (in_open_window _ _ _ _ Hopen) as (W & Ef & Eb).
  assert (Hb' : in_bufsize r <= cap) by lia.
  destruct (in_gets_keeps cap reads1 r W Hb' Hf) as (W1 & (F1 & F2 & F3 & F4 & F5)).
  assert (Hb1 : in_bufsize (in_gets cap r reads1) <= cap) by (rewrite F2; auto).
  assert (Hf1 : entries_fit cap (in_header (in_gets cap r reads1))) by (rewrite F4; auto).
  destruct (in_get_keeps cap _ k W1 Hb1 Hf1) as (W2 & (G1 & G2 & G3 & G4 & G5)). fold r1 in W2, G1, G2, G3, G4, G5.
  destruct (in_gets_keeps cap reads2 r1 W2) as (_ & S2); [congruence|rewrite G4; auto|].
  apply same_file_view; auto. apply (in_get_view_valid cap _ k w W1 Hb1 Hf1 Hw).
Qed.
Print Assumptions C12_returned_tensors_are_stable.

(** the closed example file *)
Definition ex_file : list byte :=
  match orun 4096 (out_open ex_decl (Some "r") 4) ex_ops with
  | Some s => match out_close 4096 s with Ok f => f | Err _ => [] end
  | None => []
  end.

(** reading b then a then b again with a buffer of 5 bytes: all three reads are
    windows that had to be moved, and all hypotheses of C11 and C12 hold *)
Example ex_C11 : exists r w1 w2,
  in_open 4096 ex_file 5 = Ok r /\ entries_fit 4096 (in_header r) /\
  (exists v d sh a b, dget String.eqb "b" (in_header r) = Some v /\ complete ex_file (in_hsize r) v d sh a b) /\
  fst (in_get 4096 (in_gets 4096 r ["b"; "a"]) "b") = Ok w1 /\
  view_tensor (in_heap (snd (in_get 4096 (in_gets 4096 r ["b"; "a"]) "b"))) w1 = tB /\
  fst (in_get 4096 (in_gets 4096 r []) "b") = Ok w2 /\ w1 <> w2.
Proof.
  eexists _, _, _. split; [vm_compute; reflexivity|]. split; [|split; [|split; [|split; [|split]]]].
  - intros k v d sh a b H Hi. cbn [in_header] in H. repeat (destruct H as [H|H];
      [injection H as <- <-; vm_compute in Hi; first [discriminate | injection Hi as <- <- <- <-; apply leb_le'; vm_compute; reflexivity]|]). destruct H.
  - eexists _, _, _, _, _. split; [vm_compute; reflexivity|]. split; [vm_compute; reflexivity|].
    split; [vm_compute; reflexivity|]. apply leb_le'. vm_compute. reflexivity.
  - vm_compute. reflexivity.
  - vm_compute. reflexivity.
  - vm_compute. reflexivity.
  - discriminate.
Qed.

(** ** C13 *)
(** reading a key, adding to the tensor in place, reading the key again: the
    second read returns the modified bytes although the file did not change *)
Theorem C13_reads_repeatable_refuted : exists r w w2 r1 r2 r3,
  in_open 4096 ex_file 64 = Ok r /\
  in_get 4096 r "a" = (Ok w, r1) /\ view_tensor (in_heap r1) w = tA /\
  r2 = INS (in_file r1) (in_bufsize r1) (in_hsize r1) (in_header r1) (poke (in_heap r1) w 0 "x"%char) (in_cur r1) (in_start r1) /\
  in_get 4096 r2 "a" = (Ok w2, r3) /\
  view_tensor (in_heap r3) w2 = Tensor U8 [3%N] ("x"%char :: bys [2; 3]%N).
Proof.
  eexists _, _, _, _, _, _. split; [vm_compute; reflexivity|]. split; [vm_compute; reflexivity|].
  split; [vm_compute; reflexivity|]. split; [reflexivity|]. split; [vm_compute; reflexivity|]. vm_compute; reflexivity.
Qed.

(** As long as no tensor that was returned is modified in place, reads repeat: a key
    read after any other reads gives the same tensor as after any others. *)
Theorem C13_reads_repeatable_partial : forall cap f bufsize r reads1 reads2 k v d sh a b,
  in_open cap f bufsize = Ok r -> bufsize <= cap -> entries_fit cap (in_header r) ->
  dget String.eqb k (in_header r) = Some v -> k <> "__metadata__"%string ->
  complete f (in_hsize r) v d sh a b ->
  exists w1 w2,
    fst (in_get cap (in_gets cap r reads1) k) = Ok w1 /\ fst (in_get cap (in_gets cap r reads2) k) = Ok w2 /\
    view_tensor (in_heap (snd (in_get cap (in_gets cap r reads1) k))) w1 =
    view_tensor (in_heap (snd (in_get cap (in_gets cap r reads2) k))) w2.
Proof.
  intros cap f bufsize r reads1 reads2 k v d sh a b H1 H2 H3 H4 H5 H6.
  destruct (C11_buffered_reads_equal_direct_reads cap f bufsize r reads1 k v d sh a b) as (w1 & A1 & A2); auto.
  destruct (C11_buffered_reads_equal_direct_reads cap f bufsize r reads2 k v d sh a b) as (w2 & B1 & B2); auto.
  exists w1, w2. rewrite A2, B2. auto.
Qed.
Print Assumptions C13_reads_repeatable_partial.

(** ** C14 *)
(** the file without its last byte: opens, and the last tensor reads with a zero in place of the lost byte *)
Theorem C14_truncation_detected_refuted : exists r w,
  in_open 4096 (firstn (length ex_file - 1) ex_file) 64 = Ok r /\
  fst (in_get 4096 r "b") = Ok w /\
  view_tensor (in_heap (snd (in_get 4096 r "b"))) w = Tensor F16 [2%N; 2%N] (bys [10; 11; 12; 13; 14; 15; 16; 0]%N).
Proof. eexists _, _. split; [vm_compute; reflexivity|]. split; vm_compute; reflexivity. Qed.

Theorem C14_truncated_header_detected_partial : forall cap declared recipe minbuf ops s f n,
  orun cap (out_open declared recipe minbuf) ops = Some s -> quiescent s ->
  good_calls (written ops) -> transfers_fit cap declared recipe minbuf (written ops) ->
  0 < minbuf -> out_close cap s = Ok f ->
  n < 8 + length (json_dumps (JObj (o_hdr (close_flush cap s)))) ->
  unreadable cap (firstn n f).
Proof. exact truncated_header_unreadable. Qed.
Print Assumptions C14_truncated_header_detected_partial.

(** ** C15 *)
Theorem C15_keys_of_an_input_file : forall cap f n s, in_open cap f n = Ok s ->
  NoDup (in_keys s) /\
  (forall k, In k (in_keys s) <-> (k <> "__metadata__"%string /\ In k (map fst (in_header s)))) /\
  in_len s = length (in_keys s) /\
  StronglySorted (fun a b => forall va vb x y,
     dget String.eqb a (in_header s) = Some va -> dget String.eqb b (in_header s) = Some vb ->
     sort_key va = Ok x -> sort_key vb = Ok y -> (x <= y)%N) (in_keys s).
Proof. exact in_keys_spec. Qed.
Print Assumptions C15_keys_of_an_input_file.

Example ex_C15 : exists s, in_open 4096 ex_file 9 = Ok s /\ in_keys s = ["a"; "c"; "b"] /\ in_len s = 3.
Proof. eexists. split; [vm_compute; reflexivity|]. split; reflexivity. Qed.
