(** C99: the numbers in a file. *)
From Coq Require Import List Bool Arith NArith ZArith Reals Ascii Lia Lra.
From Flocq Require Import Core BinarySingleNaN.
From Verif Require Import Base ModelStream ModelRound ModelNumbers SpecNumbers SpecRound OutProofs2 NumbersProofs PropsRound.
Import ListNotations.
Open Scope list_scope.
Open Scope nat_scope.

(** the memory of a tensor: its numbers, given by their bits, one after the other *)
Definition memory (e : endian) (d : ModelStream.dtype) (ns : list N) : list byte := flat_map (in_memory e (dtype_size d)) ns.
Definition fits (d : ModelStream.dtype) (n : N) : Prop := (n < 256 ^ N.of_nat (dtype_size d))%N.

Lemma size_pos : forall d, 0 < dtype_size d.
Proof. destruct d; simpl; lia. Qed.
Lemma memory_groups : forall e d ns, groups (dtype_size d) (memory e d ns) = map (in_memory e (dtype_size d)) ns.
Proof.
  intros e d ns. unfold memory. rewrite flat_map_concat_map. apply groups_concat; [apply size_pos|].
  apply Forall_forall. intros c I. apply in_map_iff in I. destruct I as (n & <- & _).
  destruct e; simpl; rewrite ?rev_length; apply le_bytes_length.
Qed.
Lemma memory_swapped : forall d ns, flat_map (@rev byte) (groups (dtype_size d) (memory Big d ns)) = memory Little d ns.
Proof.
  intros d ns. rewrite memory_groups, flat_map_concat_map, map_map. unfold memory. rewrite flat_map_concat_map.
  f_equal. apply map_ext. intro n. simpl. apply rev_involutive.
Qed.

Lemma written : forall e d ns, e = Little \/ ~ In d [U64; U32; U16] \/ ns = [] -> to_file e d (memory e d ns) = Ok (memory Little d ns).
Proof.
  intros e d ns H. unfold to_file. destruct (memory e d ns) as [|b l] eqn:M.
  - destruct ns as [|n ns]; [reflexivity|]. exfalso. apply (f_equal (@length byte)) in M. unfold memory in M. simpl in M.
    rewrite app_length in M. pose proof (size_pos d). destruct e; simpl in M; rewrite ?rev_length, le_bytes_length in M; lia.
  - rewrite <- M. destruct e; [reflexivity|]. destruct H as [H|[H| ->]]; [discriminate| |discriminate].
    assert (W : numpy_size d = Some (dtype_size d)) by (destruct d; trivial; elim H; simpl; auto).
    rewrite W, memory_swapped. reflexivity.
Qed.

(** C99: every machine writes the numbers of a tensor as the safetensors format says, whatever its byte order.
    On a big-endian machine, the unsigned types other than uint8 cannot be written. *)
Theorem C99_file_partial : forall e d ns, Forall (fits d) ns -> e = Little \/ ~ In d [U64; U32; U16] ->
  exists data, to_file e d (memory e d ns) = Ok data /\ length data = dtype_size d * length ns /\
    forall k n, nth_error ns k = Some n -> file_number (dtype_size d) k data = n.
Proof.
  intros e d ns F H. exists (memory Little d ns). split; [apply written; tauto|].
  assert (L : Forall (fun c : list byte => length c = dtype_size d) (map (in_memory Little (dtype_size d)) ns)).
  { apply Forall_forall. intros c I. apply in_map_iff in I. destruct I as (n & <- & _). apply le_bytes_length. }
  unfold memory. rewrite flat_map_concat_map. split.
  - rewrite (concat_length_ge (dtype_size d)), map_length by (trivial; apply size_pos). lia.
  - intros k n N. rewrite (number_in_file _ _ k (le_bytes (dtype_size d) n)).
    + apply le_value_bytes. rewrite Forall_forall in F. apply F. eapply nth_error_In; eauto.
    + exact L.
    + rewrite nth_error_map, N. reflexivity.
Qed.
Print Assumptions C99_file_partial.
Theorem C99_file_refuted : forall d ns, In d [U64; U32; U16] -> ns <> [] -> to_file Big d (memory Big d ns) = Err KeyError.
Proof.
  intros d ns I N. destruct ns as [|n ns]; [elim N; reflexivity|]. unfold to_file.
  destruct (memory Big d (n :: ns)) as [|b l] eqn:M.
  - apply (f_equal (@length byte)) in M. unfold memory in M. simpl in M. rewrite app_length, rev_length, le_bytes_length in M.
    pose proof (size_pos d). lia.
  - destruct I as [<-|[<-|[<-|[]]]]; reflexivity.
Qed.
Print Assumptions C99_file_refuted.

Lemma file_little : forall e d ns data, to_file e d (memory e d ns) = Ok data -> data = memory Little d ns.
Proof.
  intros e d ns data H. destruct e; [rewrite written in H by auto; congruence|].
  destruct ns as [|n ns]; [rewrite written in H by auto; congruence|].
  assert (X : {In d [U64; U32; U16]} + {~ In d [U64; U32; U16]}) by (apply in_dec; decide equality).
  destruct X as [X|X]; [rewrite C99_file_refuted in H by (trivial; discriminate); discriminate|].
  rewrite written in H by auto. congruence.
Qed.
(** C99: a little-endian machine reads back the numbers that any machine wrote. *)
Theorem C99_read_partial : forall e d ns data, Forall (fits d) ns -> to_file e d (memory e d ns) = Ok data ->
  from_file Little d data = ns.
Proof.
  intros e d ns data F H. rewrite (file_little _ _ _ _ H).
  unfold from_file. rewrite memory_groups, map_map. rewrite <- (map_id ns) at 2. apply map_ext_in. intros n I.
  simpl. apply le_value_bytes. rewrite Forall_forall in F. apply F, I.
Qed.
Print Assumptions C99_read_partial.

(** a big-endian machine does not read what it wrote: the bytes of the file are taken as they are.  The float16
    number 1 comes back as 60 / 2^24. *)
Theorem C99_read_refuted : exists d ns data, Forall (fits d) ns /\ to_file Big d (memory Big d ns) = Ok data /\
  from_file Big d data <> ns.
Proof.
  exists F16, [15360%N]. eexists. split; [repeat constructor|]. split; [reflexivity|]. discriminate.
Qed.
Print Assumptions C99_read_refuted.
Theorem C99_read_swapped : forall d ns data, Forall (fits d) ns -> to_file Big d (memory Big d ns) = Ok data ->
  from_file Big d data = map (fun n => le_value (rev (le_bytes (dtype_size d) n))) ns.
Proof.
  intros d ns data F H. rewrite (file_little _ _ _ _ H).
  unfold from_file. rewrite memory_groups, map_map. reflexivity.
Qed.
Print Assumptions C99_read_swapped.

(** ** floating point numbers *)
(** C99: the bits of a number that is neither infinite nor NaN have its value according to IEEE 754, and a number
    is in the file and comes back from it unchanged; every NaN comes back as a NaN. *)
Definition finite_bits (f : layout) (n : N) : Prop := exponent (mw f) (ew f) (Z.of_N n) <> (2 ^ ew f - 1)%Z.
Definition value (f : layout) (n : N) : R := ieee_value (mw f) (ew f) (Z.of_N n).

Lemma layout_size : forall d f, layout_of d = Some f -> (Z.of_nat (8 * dtype_size d) = mw f + ew f + 1)%Z.
Proof. destruct d; simpl; intros f E; try discriminate; injection E as <-; reflexivity. Qed.
Lemma bits_fit : forall d f nan x, layout_of d = Some f -> fits d (bits f nan x).
Proof.
  intros d f nan x E. unfold fits. apply layout_size in E. pose proof (bits_range f nan x) as R. rewrite <- E in R.
  eapply N.lt_le_trans; [exact R|]. change 256%N with (2 ^ 8)%N. rewrite <- N.pow_mul_r. apply N.pow_le_mono_r; lia.
Qed.

Theorem C99_floats : forall e d f nan (xs : list (num (dtype_of f))), layout_of d = Some f ->
  widths d = Some (mw f, ew f) /\
  exists data, to_file e d (memory e d (map (bits f nan) xs)) = Ok data /\ map (number f) (from_file Little d data) = xs /\
    forall k x, nth_error xs k = Some x -> 
      (is_finite x = true <-> finite_bits f (file_number (dtype_size d) k data)) /\
      (is_finite x = true -> value f (file_number (dtype_size d) k data) = B2R x).
Proof.
  intros e d f nan xs E.
  assert (F : Forall (fits d) (map (bits f nan) xs)).
  { apply Forall_forall. intros n I. apply in_map_iff in I. destruct I as (x & <- & _). apply bits_fit, E. }
  destruct (C99_file_partial e d (map (bits f nan) xs) F) as (data & W & L & K).
  { right. destruct d; try discriminate; simpl; intuition discriminate. }
  split; [destruct d; try discriminate; injection E as <-; reflexivity|]. exists data. split; [exact W|]. split.
  - rewrite (C99_read_partial e d _ data F W), map_map. rewrite <- map_id. apply map_ext. intro x. apply number_bits.
  - intros k x X. rewrite (K k (bits f nan x)) by (rewrite nth_error_map, X; reflexivity).
    assert (I : is_finite x = true <-> finite_bits f (bits f nan x)).
    { split.
      - intros H N. apply number_special in N. rewrite number_bits in N. congruence.
      - intro H. apply number_value in H. rewrite number_bits in H. apply H. }
    split; [exact I|]. intro H. apply I in H. apply number_value in H. rewrite number_bits in H. symmetry. apply H.
Qed.
Print Assumptions C99_floats.

(** C99: what is in the file of merge(weighted_sum(a, b, alpha)), in terms of the bytes of the files alone: every number
    of it has a value between those of the same number in the files of [a] and [b].  [m] is the merge dtype. *)
Theorem C99_weighted_sum_files : forall dA dB dO fA fB fO m i close nan size (fileA fileB : list byte) (alpha : list (num m)),
  layout_of dA = Some fA -> layout_of dB = Some fB -> layout_of dO = Some fO ->
  holds_all (dtype_of fA) (dtype_of fO) -> holds_all (dtype_of fB) (dtype_of fO) -> holds_all (dtype_of fO) i -> finer m (dtype_of fO) ->
  length fileA = dtype_size dA * size -> length fileB = dtype_size dB * size -> length alpha = size ->
  (forall k, k < size -> finite_bits fA (file_number (dtype_size dA) k fileA) /\ finite_bits fB (file_number (dtype_size dB) k fileB)) ->
  Forall (fun t => is_finite t = true /\ (0 <= B2R t <= 1)%R) alpha ->
  let a := map (number fA) (from_file Little dA fileA) in
  let b := map (number fB) (from_file Little dB fileB) in
  let r := map (narrow m i (dtype_of fO)) (weighted_sum m close (map (cast (dtype_of fA) m) a) (map (cast (dtype_of fB) m) b) alpha) in
  exists data, to_file Little dO (memory Little dO (map (bits fO nan) r)) = Ok data /\ length data = dtype_size dO * size /\
    forall k, k < size ->
      let x := value fA (file_number (dtype_size dA) k fileA) in
      let y := value fB (file_number (dtype_size dB) k fileB) in
      let n := file_number (dtype_size dO) k data in
      finite_bits fO n /\ (Rmin x y <= value fO n <= Rmax x y)%R.
Proof.
  intros dA dB dO fA fB fO m i close nan size fileA fileB alpha EA EB EO HA HB HO HM LA LB LAl FAB FAl a b r.
  assert (RA : a = map (fun k => number fA (file_number (dtype_size dA) k fileA)) (seq 0 size)).
  { unfold a. rewrite (read_numbers dA size) by exact LA. apply map_map. }
  assert (RB : b = map (fun k => number fB (file_number (dtype_size dB) k fileB)) (seq 0 size)).
  { unfold b. rewrite (read_numbers dB size) by exact LB. apply map_map. }
  destruct (C92_weighted_sum_range (dtype_of fA) (dtype_of fB) m i (dtype_of fO) close a b alpha HA HB HO HM) as (LR & K).
  - rewrite RA, map_length, seq_length. auto.
  - rewrite RB, map_length, seq_length. auto.
  - rewrite RA. apply Forall_forall. intros x I. apply in_map_iff in I. destruct I as (k & <- & I). apply in_seq in I.
    apply number_value, FAB. lia.
  - rewrite RB. apply Forall_forall. intros x I. apply in_map_iff in I. destruct I as (k & <- & I). apply in_seq in I.
    apply number_value, FAB. lia.
  - exact FAl.
  - fold r in LR, K. destruct (C99_floats Little dO fO nan r EO) as (_ & data & W & _ & D). exists data. split; [exact W|]. split.
    + destruct (C99_file_partial Little dO (map (bits fO nan) r)) as (data' & W' & L' & _); auto.
      * apply Forall_forall. intros n I. apply in_map_iff in I. destruct I as (x & <- & _). apply bits_fit, EO.
      * replace data' with data in L' by congruence. rewrite L', map_length. congruence.
    + intros k Hk x y n. destruct (FAB k Hk) as [FA FB].
      destruct (K k (number fA (file_number (dtype_size dA) k fileA)) (number fB (file_number (dtype_size dB) k fileB))) as (z & Z & ZF & ZR).
      { rewrite RA, nth_error_map, (nth_error_nth' (seq 0 size) 0) by (rewrite seq_length; exact Hk). rewrite seq_nth by exact Hk. reflexivity. }
      { rewrite RB, nth_error_map, (nth_error_nth' (seq 0 size) 0) by (rewrite seq_length; exact Hk). rewrite seq_nth by exact Hk. reflexivity. }
      destruct (D k z Z) as [D1 D2]. split; [apply D1, ZF|]. fold n in D2. rewrite (D2 ZF).
      apply number_value in FA, FB. destruct FA as [_ FA], FB as [_ FB]. rewrite FA, FB in ZR. exact ZR.
Qed.
Print Assumptions C99_weighted_sum_files.

(** the bytes 00 3c of a file are the float16 number 1, 00 c0 is -2; int16 -2 *)
Example C99_case :
  to_file Little F16 (memory Little F16 [15360%N; 49152%N]) = Ok (map ascii_of_N [0; 60; 0; 192]%N) /\
  to_file Big F16 (memory Big F16 [15360%N; 49152%N]) = Ok (map ascii_of_N [0; 60; 0; 192]%N) /\
  from_file Little I16 (map ascii_of_N [254; 255]%N) = [65534%N] /\
  from_file Big F16 (map ascii_of_N [0; 60]%N) = [60%N] /\
  value float16_layout 15360 = 1%R /\ value float16_layout 49152 = (-2)%R /\ finite_bits float16_layout 49152 /\
  ~ finite_bits float16_layout 31744.
Proof.
  do 4 (split; [reflexivity|]). unfold value, ieee_value, negative, exponent, fraction, finite_bits. simpl mw. simpl ew.
  repeat split.
  - vm_compute Z.leb. vm_compute Z.eqb. simpl. lra.
  - simpl. lra.
  - vm_compute. discriminate.
  - vm_compute. intro H. apply H. reflexivity.
Qed.
