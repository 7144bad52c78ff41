(** C31 to C33: opening and closing the inputs of a recipe, and the size of the buffers. *)
From Coq Require Import String List Bool Arith NArith Lia.
From Verif Require Import Base Dec Json ModelStream ModelOpen SpecOpen OpenProofs.
Import ListNotations.
Open Scope string_scope.
Open Scope list_scope.
Open Scope nat_scope.

(** what happened before the inputs are closed: the exception of the loading, or of the body *)
Definition failure (resolve : string -> string) (raises : nat -> option exn) (n : onode) (body : option exn) : option exn :=
  match snd (load resolve raises n opened0) with Some e => Some e | None => body end.

(** C31: whatever raises, and wherever, every file is closed, no node keeps a state dict, and
    the caller sees the exception that occurred, if any.  Proved for recipes whose dicts do not
    mix recipes with data; C31_inputs_closed_refuted is about the others. *)
Theorem C31_inputs_closed_partial : forall resolve raises n body s e,
  uniform n ->
  with_inputs resolve raises n body = (s, e) ->
  (forall p o, In (p, o) (s_handles s) -> o = false) /\
  (forall id, dget Nat.eqb id (s_nodes s) = None) /\
  map fst (s_handles s) = map fst (s_handles (fst (load resolve raises n opened0))) /\
  e = failure resolve raises n body.
Proof.
  intros resolve raises n body s e U H. unfold with_inputs in H. unfold failure.
  destruct (load resolve raises n opened0) as [s1 e1] eqn:L. rewrite (close_uniform n U) in H. injection H as <- <-.
  destruct (load_good resolve raises (inputs n) n ltac:(auto) _ _ _ (inv0 _ _) L) as ([A B C D E F] & _ & _).
  destruct (close_all_facts (map fst (inputs n)) s1 D) as (X1 & X2 & X3 & X4 & X5).
  assert (Hh : forall i p b, nth_error (s_handles s1) i = Some (p, b) ->
     nth_error (s_handles (close_all (map fst (inputs n)) s1)) i = Some (p, false)).
  { intros i p b Hi. destruct (F i) as (id & Hid). { apply nth_error_Some. congruence. }
    destruct (E _ _ Hid) as (path & P & _). eapply X5; eauto. change id with (fst (id, path)). apply in_map; auto. }
  split; [|split; [|split]].
  - intros p o Hin. apply In_nth_error in Hin as (i & Hi).
    assert (Li : i < length (s_handles s1)). { rewrite <- X3. apply nth_error_Some. congruence. }
    apply nth_error_Some in Li. destruct (nth_error (s_handles s1) i) as [[q b]|] eqn:Q; [|congruence].
    rewrite (Hh _ _ _ Q) in Hi. congruence.
  - intros id. destruct (dget Nat.eqb id (s_nodes s1)) as [h|] eqn:Q; [|auto].
    apply X1. destruct (E _ _ Q) as (path & P & _). change id with (fst (id, path)). apply in_map; auto.
  - simpl. apply nth_error_ext'. intros i. rewrite !nth_error_map.
    destruct (nth_error (s_handles s1) i) as [[q b]|] eqn:Q.
    + rewrite (Hh _ _ _ Q). reflexivity.
    + assert (Q' : nth_error (s_handles (close_all (map fst (inputs n)) s1)) i = None).
      { apply nth_error_None. rewrite X3. apply nth_error_None. auto. }
      rewrite Q'. reflexivity.
  - simpl. destruct e1; reflexivity.
Qed.
Print Assumptions C31_inputs_closed_partial.

(** a merge of two nodes of one file, a dict of recipes and data; the third operation raises *)
Definition ex_tree : onode :=
  OMerge [OModel 0 "a"; OModel 1 "./a"; ODict [Some (OModel 2 "b"); Some (OModel 0 "a")]; ODict [None; None]; OLit].
Definition ex_resolve (p : string) : string := if String.eqb p "./a" then "a" else p.
Example ex_C31 :
  uniform ex_tree /\
  with_inputs ex_resolve (fun i => if i =? 8 then Some RuntimeError else None) ex_tree None =
    (OS [("a", false); ("b", false)] [("a", 0); ("b", 1)] [] 9, Some RuntimeError) /\
  s_nodes (fst (load ex_resolve (fun i => if i =? 8 then Some RuntimeError else None) ex_tree opened0)) = [(0, 0); (1, 0); (2, 1)].
Proof. split; [simpl; intuition congruence|split; reflexivity]. Qed.

(** a dict whose first value is data and whose second is a model: nothing fails, and the file
    of the model stays open *)
Theorem C31_inputs_closed_refuted : exists n s,
  with_inputs (fun p => p) (fun _ => None) n None = (s, None) /\
  In ("b", true) (s_handles s) /\ dget Nat.eqb 0 (s_nodes s) <> None.
Proof. exists (ODict [None; Some (OModel 0 "b")]). eexists. split; [reflexivity|]. simpl. split; [auto|discriminate]. Qed.
Print Assumptions C31_inputs_closed_refuted.

(** C32: no path is opened twice, only paths of the recipe are opened, and when loading
    succeeds each node reads the one file of its path *)
Theorem C32_opened_once : forall resolve raises n s e,
  one_path_each n ->
  load resolve raises n opened0 = (s, e) ->
  NoDup (map fst (s_handles s)) /\
  (forall p, In p (map fst (s_handles s)) -> exists id path, In (id, path) (inputs n) /\ p = resolve path) /\
  (e = None -> forall id path, In (id, path) (inputs n) ->
     exists h, dget Nat.eqb id (s_nodes s) = Some h /\ nth_error (s_handles s) h = Some (resolve path, true)) /\
  (e = None -> forall id path id' path', In (id, path) (inputs n) -> In (id', path') (inputs n) ->
     resolve path = resolve path' -> dget Nat.eqb id (s_nodes s) = dget Nat.eqb id' (s_nodes s)).
Proof.
  intros resolve raises n s e O L.
  destruct (load_good resolve raises (inputs n) n ltac:(auto) _ _ _ (inv0 _ _) L) as ([A B C D E F] & _ & G).
  assert (Each : e = None -> forall id path, In (id, path) (inputs n) ->
     exists h, dget Nat.eqb id (s_nodes s) = Some h /\ nth_error (s_handles s) h = Some (resolve path, true)).
  { intros N id path H. destruct (G N id path H) as (h & Hh). exists h. split; auto.
    destruct (E _ _ Hh) as (path' & P & Q). rewrite (O id path path'); auto. }
  split; [|split; [|split]]; auto.
  - apply NoDup_nth_error. intros i j Li Hij. rewrite map_length in Li.
    apply nth_error_Some in Li. destruct (nth_error (s_handles s) i) as [[p b]|] eqn:Hi; [|congruence].
    rewrite !nth_error_map, Hi in Hij. simpl in Hij.
    destruct (nth_error (s_handles s) j) as [[q c]|] eqn:Hj; [|discriminate]. simpl in Hij. injection Hij as <-.
    pose proof (B _ _ _ Hi). pose proof (B _ _ _ Hj). congruence.
  - intros p H. apply in_map_iff in H as ([q b] & <- & H). apply In_nth_error in H as (i & Hi).
    destruct (F i) as (id & Hid). { apply nth_error_Some. congruence. }
    destruct (E _ _ Hid) as (path & P & Q). exists id, path. split; auto. rewrite Hi in Q. injection Q as -> _. reflexivity.
  - intros N id path id' path' H H' R.
    destruct (Each N _ _ H) as (h & Hh & Hp). destruct (Each N _ _ H') as (h' & Hh' & Hp').
    rewrite Hh, Hh'. f_equal. pose proof (B _ _ _ Hp). pose proof (B _ _ _ Hp'). rewrite R in *. congruence.
Qed.
Print Assumptions C32_opened_once.

Example ex_C32 :
  one_path_each ex_tree /\
  load ex_resolve (fun _ => None) ex_tree opened0 =
    (OS [("a", true); ("b", true)] [("a", 0); ("b", 1)] [(0, 0); (1, 0); (2, 1)] 13, None).
Proof.
  split; [|reflexivity].
  intros id p p' H H'. simpl in H, H'. intuition congruence.
Qed.

(** C33: the buffers of the input files and the per-thread buffers of the output file add up
    to at most [total], when tensors fit in them and every model occurs outside dicts *)
Theorem C33_buffers_partial : forall resolve raises n s e to_file total threads cap readers tids out,
  (forall m, In m (inputs n) -> In m (outside n)) ->
  load resolve raises n opened0 = (s, e) ->
  length readers = length (s_handles s) ->
  Forall (reader cap (buffer_size_per_file n to_file total)) readers ->
  NoDup tids -> length tids <= Nat.max 1 threads ->
  writer cap (buffer_size_per_thread n to_file total threads) tids out ->
  read_buffers readers + (if to_file then write_buffers out else 0) <= total.
Proof.
  intros resolve raises n s e to_file total threads cap readers tids out O L RL R ND TL W.
  destruct (load_good resolve raises (inputs n) n ltac:(auto) _ _ _ (inv0 _ _) L) as ([A B C D E F] & _ & _).
  set (per := buffer_size_per_file n to_file total) in *.
  assert (Hcount : length (s_handles s) <= fst (count_models n [])).
  { destruct (count_models_spec n []) as (_ & K).
    transitivity (length (s_nodes s)).
    - rewrite <- (seq_length (length (s_handles s)) 0). rewrite <- (map_length snd (s_nodes s)).
      apply NoDup_incl_length; [apply seq_NoDup|]. intros h Hh. apply in_seq in Hh.
      destruct (F h ltac:(lia)) as (id & Hid). apply dget_In in Hid; [|exact Nat.eqb_spec].
      change h with (snd (id, h)). apply in_map; auto.
    - rewrite <- (map_length fst (s_nodes s)). apply K; auto.
      intros id H. split; [|auto]. apply in_map_iff in H as ([id' h] & <- & H).
      apply (dget_NoDup_In Nat.eqb Nat.eqb_spec) in H; auto. destruct (E _ _ H) as (path & P & _).
      change (fst (id', h)) with (fst (id', path)). apply in_map. auto. }
  assert (Hr : read_buffers readers <= length readers * per).
  { apply sum_bound. intros r Hr. rewrite Forall_forall in R. apply (reader_bound _ _ _ (R r Hr)). }
  assert (Hw : write_buffers out <= per).
  { destruct (writer_inv _ _ _ _ W) as (_ & NDo & Wi).
    assert (Hb : write_buffers out <= length (o_thr out) * buffer_size_per_thread n to_file total threads).
    { apply sum_bound. intros [tid ts] Ht. destruct (Wi _ _ Ht) as (_ & (Hl & _)). simpl. lia. }
    assert (Ht : length (o_thr out) <= Nat.max 1 threads).
    { transitivity (length tids); auto. rewrite <- (map_length fst (o_thr out)). apply NoDup_incl_length; auto.
      intros tid H. apply in_map_iff in H as ([tid' ts] & <- & H). apply (Wi _ _ H). }
    unfold buffer_size_per_thread in Hb. fold per in Hb.
    set (m := Nat.max 1 threads) in *. assert (m <> 0) by lia.
    pose proof (Nat.mul_div_le per m ltac:(auto)). nia. }
  assert (Hd : Nat.max 1 (total_files_open n to_file) * per <= total).
  { unfold per, buffer_size_per_file. apply Nat.mul_div_le. lia. }
  assert (length readers * per + (if to_file then per else 0) <= Nat.max 1 (total_files_open n to_file) * per).
  { unfold total_files_open. rewrite RL.
    set (c := fst (count_models n [])) in *.
    assert (length (s_handles s) + (if to_file then 1 else 0) <= Nat.max 1 (c + (if to_file then 1 else 0))) by lia.
    destruct to_file; nia. }
  destruct to_file; lia.
Qed.
Print Assumptions C33_buffers_partial.

(** two nodes of distinct files, both opened; the readers reach their full buffer *)
Definition ex_file : list byte :=
  le_bytes 8 53 ++ s2l "{""x"":{""dtype"":""U8"",""shape"":[2],""data_offsets"":[0,2]}}" ++ s2l "hi".
Definition ex_reader (size : nat) : ins :=
  match in_open 100 ex_file size with Ok s => snd (in_get 100 s "x") | Err _ => INS [] 0 0 [] [] 0 0 end.
Lemma ex_reader_ok : forall size, 2 <= size -> reader 100 size (ex_reader size).
Proof.
  intros size H.
  assert (O : exists s, in_open 100 ex_file size = Ok s /\
    in_header s = [("x", JObj [("dtype", JStr "U8"); ("shape", JArr [JNum 2]); ("data_offsets", JArr [JNum 0; JNum 2])])]).
  { assert (R : read_header 100 ex_file = Ok (53, [("x", JObj [("dtype", JStr "U8"); ("shape", JArr [JNum 2]); ("data_offsets", JArr [JNum 0; JNum 2])])]))
      by (vm_compute; reflexivity).
    unfold in_open. rewrite R. eexists. split; reflexivity. }
  destruct O as (s & O & Hs). unfold ex_reader. rewrite O.
  apply reader_get; [apply (reader_open _ _ _ _ O)|].
  intros v Hv. rewrite Hs in Hv. simpl in Hv. injection Hv as <-.
  intros d sh a b X. injection X as <- <- <- <-. exact H.
Qed.

Example ex_C33 :
  let n := OMerge [OModel 0 "a"; OMerge [OModel 1 "b"; OModel 0 "a"]] in
  (forall m, In m (inputs n) -> In m (outside n)) /\
  length (s_handles (fst (load (fun p => p) (fun _ => None) n opened0))) = 2 /\
  buffer_size_per_file n true 100 = 33 /\ buffer_size_per_thread n true 100 2 = 16 /\
  Forall (reader 100 33) [ex_reader 33; ex_reader 33] /\
  read_buffers [ex_reader 33; ex_reader 33] = 66 /\
  exists out, writer 100 16 [7; 9] out /\ write_buffers out = 32.
Proof.
  cbv zeta. split; [simpl; tauto|]. split; [reflexivity|]. split; [reflexivity|]. split; [reflexivity|].
  split; [repeat (apply Forall_cons; [apply ex_reader_ok; lia|]); apply Forall_nil|]. split; [vm_compute; reflexivity|].
  destruct (orun 100 (out_open [] None 16) [Call 7 "x" (Tensor U8 [2%N] (s2l "hi")); Call 9 "y" (Tensor U8 [2%N] (s2l "ho")); Run 9; Run 7]) as [o|] eqn:E;
    [|vm_compute in E; discriminate].
  exists o. split.
  - exists [], None, [Call 7 "x" (Tensor U8 [2%N] (s2l "hi")); Call 9 "y" (Tensor U8 [2%N] (s2l "ho")); Run 9; Run 7].
    split; [|exact E]. repeat constructor; simpl; auto; lia.
  - vm_compute in E. injection E as <-. reflexivity.
Qed.

(** two models in a dict: each of their buffers may take all of the total *)
Theorem C33_buffers_refuted : exists n s readers,
  load (fun p => p) (fun _ => None) n opened0 = (s, None) /\ uniform n /\
  length readers = length (s_handles s) /\
  Forall (reader 100 (buffer_size_per_file n false 100)) readers /\
  read_buffers readers = 200.
Proof.
  exists (ODict [Some (OModel 0 "a"); Some (OModel 1 "b")]). eexists. exists [ex_reader 100; ex_reader 100].
  split; [reflexivity|]. split; [simpl; right; intuition congruence|]. split; [reflexivity|].
  split; [|vm_compute; reflexivity]. change (buffer_size_per_file _ false 100) with 100. repeat (apply Forall_cons; [apply ex_reader_ok; lia|]); apply Forall_nil.
Qed.
Print Assumptions C33_buffers_refuted.
