(** C81: settings stored in [Defaults] are used unless a call overrides them. *)
From Coq Require Import String List Bool ZArith Lia.
From Verif Require Import Base ModelDefaults.
Import ListNotations.
Open Scope string_scope.
Open Scope list_scope.
Open Scope Z_scope.

(** ** What is expected: the call, else the stored one, else the documented default *)
Definition chosen {A} (call stored : option A) (default : A) : A :=
  match call, stored with Some x, _ => x | None, Some x => x | None, None => default end.
(** the directories: one, or several in a list or in any other iterable *)
Definition listed (d : dirs) : list dir := match d with DirsOne d => [d] | DirsList l | DirsTuple l => l end.
Definition located (absolute : string -> string) (d : dir) : option string :=
  match d with DStr s | DPath s => Some (absolute s) | DNone => None end.
Definition is_tuple (d : option dirs) : bool := match d with Some (DirsTuple _) => true | _ => false end.

Lemma given_or : forall A (g s : option A) d, given (or_stored g s) d = chosen g s d.
Proof. intros A [|] [|] d; reflexivity. Qed.

Theorem C81_defaults_partial : forall absolute s g,
  is_tuple (match g_dirs g with Some d => Some d | None => g_dirs s end) = false ->
  match chosen (g_threads g) (g_threads s) None with Some n => 0 <= n | None => True end ->
  exists r, defaults_merge absolute s g = Ok r /\
    s_merge_device r = chosen (g_merge_device g) (g_merge_device s) (Some "cpu") /\
    s_merge_dtype r = chosen (g_merge_dtype g) (g_merge_dtype s) (Some "float64") /\
    s_output_device r = chosen (g_output_device g) (g_output_device s) (Some "cpu") /\
    s_output_dtype r = chosen (g_output_dtype g) (g_output_dtype s) (Some "float16") /\
    s_threads r = chosen (g_threads g) (g_threads s) None /\
    s_buffer r = chosen (g_buffer g) (g_buffer s) 268435456 /\
    s_dirs r = map (located absolute) (listed (chosen (g_dirs g) (g_dirs s) (DirsList []))) /\
    s_strict r = chosen (g_strict g) (g_strict s) true /\
    s_finite r = chosen (g_finite g) (g_finite s) true /\
    s_omit_extra r = chosen (g_omit_extra g) (g_omit_extra s) true /\
    s_omit_ema r = chosen (g_omit_ema g) (g_omit_ema s) (s_omit_extra r) /\
    s_mandatory r = chosen (g_mandatory g) (g_mandatory s) false /\
    s_fallback r = chosen (g_fallback g) None None /\ s_output r = chosen (g_output g) None None /\
    (g_tqdm s = None -> s_tqdm r = chosen (g_tqdm g) (g_tqdm s) "tqdm").
Proof.
  intros absolute s g T N. unfold defaults_merge.
  assert (exists l, model_dirs_to_pathlib_list absolute (or_stored (g_dirs g) (g_dirs s)) = Ok l /\
    l = map (located absolute) (listed (chosen (g_dirs g) (g_dirs s) (DirsList [])))) as (l & -> & El).
  { destruct (g_dirs g) as [[?|?|?]|], (g_dirs s) as [[?|?|?]|]; simpl in *; try discriminate; eauto. }
  cbn [bind]. replace (check_threads _) with (Ok tt : result unit).
  2: { unfold check_threads, given, or_stored, chosen in *. destruct (g_threads g) as [[n|]|], (g_threads s) as [[m|]|]; auto;
       match goal with |- context[?x <? 0] => destruct (Z.ltb_spec x 0); auto; lia end. }
  cbn [bind]. eexists. split; [reflexivity|]. unfold merge_settings. cbn -[Z.pow].
  rewrite !given_or. repeat split; auto.
  - intros E. rewrite E. destruct (g_tqdm g); reflexivity.
Qed.

(** a negative number of threads is refused *)
Theorem C81_threads : forall absolute s g n, chosen (g_threads g) (g_threads s) None = Some n -> n < 0 ->
  is_tuple (match g_dirs g with Some d => Some d | None => g_dirs s end) = false ->
  defaults_merge absolute s g = Err RuntimeError.
Proof.
  intros absolute s g n C N T. unfold defaults_merge.
  assert (exists l, model_dirs_to_pathlib_list absolute (or_stored (g_dirs g) (g_dirs s)) = Ok l) as (l & ->).
  { destruct (g_dirs g) as [[?|?|?]|], (g_dirs s) as [[?|?|?]|]; simpl in *; try discriminate; eauto. }
  cbn [bind]. replace (given (or_stored (g_threads g) (g_threads s)) None) with (Some n).
  - unfold check_threads. destruct (Z.ltb_spec n 0); [reflexivity|lia].
  - rewrite <- C. destruct (g_threads g), (g_threads s); reflexivity.
Qed.

(** The number of workers: the one asked for, else one per file but at least two, and no more than eight or than there are
    processors; the buffers of all
    files and threads together are not larger than the size given. *)
Theorem C81_resources : forall s files cpus, 0 <= files -> 1 <= cpus -> 0 <= s_buffer s ->
  match s_threads s with Some n => 0 <= n | None => True end ->
  let w := workers (s_threads s) files cpus in
  (s_threads s = None -> 1 <= w <= 8 /\ w <= cpus /\ (2 <= files -> w <= files) /\ (files <= 2 -> w <= 2) /\
     (w < files \/ w < 2 -> w = 8 \/ w = cpus)) /\ (forall n, s_threads s = Some n -> w = n) /\
  0 <= files * Z.max 1 w * buffer_per_file_thread (s_buffer s) files w <= s_buffer s.
Proof.
  intros s files cpus F C B T w. unfold w, workers. split; [|split].
  - intros ->. lia.
  - intros n ->. auto.
  - fold w. unfold buffer_per_file_thread, buffer_per_file.
    assert (0 < Z.max 1 files) by lia. assert (0 < Z.max 1 w) by lia.
    pose proof (Z.mul_div_le (s_buffer s) (Z.max 1 files) H).
    assert (0 <= s_buffer s / Z.max 1 files) by (apply Z.div_pos; lia).
    pose proof (Z.mul_div_le (s_buffer s / Z.max 1 files) (Z.max 1 w) H0).
    assert (0 <= s_buffer s / Z.max 1 files / Z.max 1 w) by (apply Z.div_pos; lia).
    unfold w, workers in *. set (W := Z.max 1 _) in *. set (b := s_buffer s / Z.max 1 files / W) in *. set (B1 := s_buffer s / Z.max 1 files) in *.
    assert (files <= Z.max 1 files) by lia. nia.
Qed.

(** But the stored progress bar is ignored, and directories in a tuple raise. *)
Definition nothing {D} : args D := Args None None None None None None None None None None None None None None None.
Theorem C81_tqdm_refuted : forall absolute s g r, g_tqdm g = None -> defaults_merge absolute s g = Ok r -> s_tqdm r = "tqdm".
Proof.
  intros absolute s g r E H. unfold defaults_merge in H. apply bind_Ok in H as (l & _ & H). apply bind_Ok in H as ([] & _ & H).
  inversion H. unfold merge_settings. simpl. rewrite E. reflexivity.
Qed.
Theorem C81_tuple_refuted : forall absolute s g l, match g_dirs g with Some d => Some d | None => g_dirs s end = Some (DirsTuple l) ->
  defaults_merge absolute s g = Err AttributeError.
Proof. intros absolute s g l H. unfold defaults_merge. change (or_stored (g_dirs g) (g_dirs s)) with (match g_dirs g with Some d => Some d | None => g_dirs s end). rewrite H. reflexivity. Qed.

(** ** Cases *)
Definition stored : args dirs :=
  Args None None (Some (Some "float32")) None None (Some (Some 4)) None (Some (DirsList [DStr "models"; DPath "/data"])) None None (Some false) None None (Some "my_bar") None.
Definition call : args dirs :=
  Args (Some (Some "base.safetensors")) None None None (Some (Some "bfloat16")) None None None None None None None None None (Some (Some "out.safetensors")).
Example C81_case : exists r, defaults_merge (fun s => "/here/" ++ s)%string stored call = Ok r /\ s_merge_dtype r = Some "float32" /\ s_output_dtype r = Some "bfloat16" /\
  s_omit_ema r = false /\ s_dirs r = [Some "/here/models"; Some "/here//data"] /\ s_tqdm r = "tqdm".
Proof. eexists. split; [reflexivity|]. repeat split. Qed.

Print Assumptions C81_defaults_partial.
Print Assumptions C81_threads.
Print Assumptions C81_resources.
Print Assumptions C81_tqdm_refuted.
Print Assumptions C81_tuple_refuted.
