(** Model of the settings of merge and of [Defaults]: sd_mecha/merging.py:95-126 and
    sd_mecha/helpers.py:76-214.  An argument that is not given ([...]) is None. *)
From Coq Require Import String List Bool ZArith.
From Verif Require Import Base.
Import ListNotations.
Open Scope string_scope.
Open Scope list_scope.
Open Scope Z_scope.

(** one directory, and what can be given for model_dirs: one of them, a list, another iterable *)
Inductive dir := DStr (s : string) | DPath (s : string) | DNone.
Inductive dirs := DirsOne (d : dir) | DirsList (l : list dir) | DirsTuple (l : list dir).

(** keyword arguments: merging.py:30-48, with model_dirs of a type that depends on the caller *)
Record args (D : Type) := Args {
  g_fallback : option (option string);
  g_merge_device : option (option string);
  g_merge_dtype : option (option string);
  g_output_device : option (option string);
  g_output_dtype : option (option string);
  g_threads : option (option Z);
  g_buffer : option Z;
  g_dirs : option D;
  g_strict : option bool;
  g_finite : option bool;
  g_omit_extra : option bool;
  g_omit_ema : option bool;
  g_mandatory : option bool;
  g_tqdm : option string;
  g_output : option (option string) }.
Arguments Args {D}.
Arguments g_fallback {D}. Arguments g_merge_device {D}. Arguments g_merge_dtype {D}. Arguments g_output_device {D}.
Arguments g_output_dtype {D}. Arguments g_threads {D}. Arguments g_buffer {D}. Arguments g_dirs {D}. Arguments g_strict {D}.
Arguments g_finite {D}. Arguments g_omit_extra {D}. Arguments g_omit_ema {D}. Arguments g_mandatory {D}. Arguments g_tqdm {D}.
Arguments g_output {D}.

(** an argument, or its default when it was not given: merging.py:30-48 *)
Definition given {A} (x : option A) (default : A) : A := match x with Some a => a | None => default end.

(** what merge works with *)
Record settings := Settings {
  s_fallback : option string;
  s_merge_device : option string;
  s_merge_dtype : option string;
  s_output_device : option string;
  s_output_dtype : option string;
  s_threads : option Z;
  s_buffer : Z;
  s_dirs : list (option string);
  s_strict : bool;
  s_finite : bool;
  s_omit_extra : bool;
  s_omit_ema : bool;
  s_mandatory : bool;
  s_tqdm : string;
  s_output : option string }.

(** merging.py:95-126 *)
Definition merge_settings (g : args (list (option string))) : settings :=
  let output := given (g_output g) None in
  let fallback_model := given (g_fallback g) None in
  let merge_device := given (g_merge_device g) (Some "cpu") in
  let merge_dtype := given (g_merge_dtype g) (Some "float64") in
  let output_device := given (g_output_device g) (Some "cpu") in
  let output_dtype := given (g_output_dtype g) (Some "float16") in
  let threads := given (g_threads g) None in
  let total_buffer_size := given (g_buffer g) (2 ^ 28) in
  let model_dirs := given (g_dirs g) [] in
  let strict_weight_space := given (g_strict g) true in
  let check_finite := given (g_finite g) true in
  let omit_extra_keys := given (g_omit_extra g) true in
  let omit_ema := given (g_omit_ema g) omit_extra_keys in
  let check_mandatory_keys := given (g_mandatory g) false in
  let tqdm := given (g_tqdm g) "tqdm" in
  Settings fallback_model merge_device merge_dtype output_device output_dtype threads total_buffer_size model_dirs
    strict_weight_space check_finite omit_extra_keys omit_ema check_mandatory_keys tqdm output.

(** merging.py:139-140 *)
Definition check_threads (threads : option Z) : result unit :=
  match threads with Some n => if n <? 0 then Err RuntimeError else Ok tt | None => Ok tt end.
(** merging.py:147-148: the number of workers; [cpus] is os.cpu_count() *)
Definition workers (threads : option Z) (files cpus : Z) : Z :=
  match threads with Some n => n | None => Z.min (Z.min (Z.max files 2) cpus) 8 end.
(** merging.py:146, 170: bytes of buffer per file, and per file and thread *)
Definition buffer_per_file (total files : Z) : Z := total / Z.max 1 files.
Definition buffer_per_file_thread (total files threads : Z) : Z := buffer_per_file total files / Z.max 1 threads.

Section Defaults.
  (** pathlib's absolute() *)
  Context (absolute : string -> string).
  (** helpers.py:208-212 *)
  Definition path_of (d : dir) : option string :=
    match d with DStr s | DPath s => Some (absolute s) | DNone => None end.
  (** helpers.py:201-214.  A tuple is not a list, is wrapped into one and has no absolute(). *)
  Definition model_dirs_to_pathlib_list (d : option dirs) : result (list (option string)) :=
    match d with
    | None => Ok []
    | Some (DirsList l) => Ok (map path_of l)
    | Some (DirsOne d) => Ok [path_of d]
    | Some (DirsTuple _) => Err AttributeError
    end.
  Definition or_stored {A} (g s : option A) : option A := match g with Some x => Some x | None => s end.
  (** helpers.py:156-199; [s] holds the arguments of the constructor, which takes neither fallback_model
      nor output *)
  Definition defaults_merge (s g : args dirs) : result settings :=
    let merge_device := or_stored (g_merge_device g) (g_merge_device s) in
    let merge_dtype := or_stored (g_merge_dtype g) (g_merge_dtype s) in
    let output_device := or_stored (g_output_device g) (g_output_device s) in
    let output_dtype := or_stored (g_output_dtype g) (g_output_dtype s) in
    let threads := or_stored (g_threads g) (g_threads s) in
    let total_buffer_size := or_stored (g_buffer g) (g_buffer s) in
    let* model_dirs := model_dirs_to_pathlib_list (or_stored (g_dirs g) (g_dirs s)) in
    let strict_weight_space := or_stored (g_strict g) (g_strict s) in
    let check_finite := or_stored (g_finite g) (g_finite s) in
    let omit_extra_keys := or_stored (g_omit_extra g) (g_omit_extra s) in
    let omit_ema := or_stored (g_omit_ema g) (g_omit_ema s) in
    let check_mandatory_keys := or_stored (g_mandatory g) (g_mandatory s) in
    let* _ := check_threads (given threads None) in
    Ok (merge_settings (Args (g_fallback g) merge_device merge_dtype output_device output_dtype threads total_buffer_size
      (Some model_dirs) strict_weight_space check_finite omit_extra_keys omit_ema check_mandatory_keys (g_tqdm g) (g_output g))).
End Defaults.
