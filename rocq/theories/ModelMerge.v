(** Model of [merge] as a whole: what it does to the recipe before and after opening the
    inputs, which keys it merges, with how many threads, and where the recipe text in a file
    comes from: sd_mecha/merging.py:128-200, 262-297.  The parts are those of ModelEval.v and
    ModelDriver.v.  Recipe nodes are taken as they are once opened; opening changes their
    configs and state dicts only (ModelOpen.v).  The config's metadata is that of a fresh
    process (for the effect of earlier merges see C29). *)
From Coq Require Import String List Bool Arith ZArith.
From Verif Require Import Base ModelEval ModelDriver.
Import ListNotations.
Open Scope string_scope.
Open Scope list_scope.
Open Scope nat_scope.

(** the [threads] argument: None, an int, a float (and whether it is negative), something
    that does not compare with numbers *)
Inductive threads_arg := ThNone | ThInt (z : Z) | ThFloat | ThOther.

(** the arguments of [merge], defaults filled in (ModelDefaults.v): the fallback recipe with its
    merge space; device and dtype, [None] when both are None *)
Record options (T : Type) := Options {
  mo_fallback : option (node T * string);
  mo_merge : option (lit * lit);
  mo_output : option (lit * lit);
  mo_threads : threads_arg;
  mo_strict : bool;
  mo_omit_extra : bool;
  mo_omit_ema : bool }.
Arguments Options {T}.
Arguments mo_fallback {T}.
Arguments mo_merge {T}.
Arguments mo_output {T}.
Arguments mo_threads {T}.
Arguments mo_strict {T}.
Arguments mo_omit_extra {T}.
Arguments mo_omit_ema {T}.

Section Merge.
  Context {T : Type} (same : T -> T -> bool) (to : lit -> lit -> T -> result T).

  (** merging.py:130-131: [recipe | fallback_model]; the merge spaces must agree
      (merge_methods.py:303-348), the config is the recipe's *)
  Definition with_fallback (o : options T) (r : node T) (cfg : config) (space : string) : result (node T) :=
    match mo_fallback o with
    | None => Ok r
    | Some (f, s) => if String.eqb s space then Ok (NMerge fallback [r; f] [] (Some cfg)) else Err TypeError
    end.

  (** merging.py:133-134 *)
  Definition with_merge_dtype (o : options T) (r : node T) : result (node T) :=
    match mo_merge o with None => Ok r | Some (device, dtype) => cast_inputs to device dtype r end.

  (** merging.py:136-137 *)
  Definition with_output_dtype (o : options T) (r : node T) : node T :=
    match mo_output o with None => r | Some (device, dtype) => cast_node to device dtype r end.

  (** merging.py:139-148.  [files]: total_files_open (ModelOpen.v); [cpus]: os.cpu_count() *)
  Definition thread_count (t : threads_arg) (files cpus : nat) : result nat :=
    match t with
    | ThNone => Ok (Nat.min (Nat.min (Nat.max files 2) cpus) 8)
    | ThInt z => if (z <? 0)%Z then Err RuntimeError else Ok (Z.to_nat z)
    | ThFloat => Err RuntimeError
    | ThOther => Err TypeError
    end.

  (** merging.py:165-168 *)
  Definition ema_of (cfg : config) : list string :=
    match dget String.eqb "ema" (cf_components cfg) with Some l => l | None => [] end.
  Definition without_ema (o : options T) (cfg : config) (keys : list string) : list string :=
    if mo_omit_ema o then filter (fun k => negb (existsb (String.eqb k) (ema_of cfg))) keys else keys.

  (** merging.py:128-168: the recipe to evaluate, the keys to merge, the number of threads.
      [cfg] and [space] are the recipe's config and merge space. *)
  Definition plan (o : options T) (r : node T) (cfg : config) (space : string) (files cpus : nat)
      : result (node T * list string * nat) :=
    let* r1 := with_fallback o r cfg space in
    let* r2 := with_merge_dtype o r1 in
    let r3 := with_output_dtype o r2 in
    let* n := thread_count (mo_threads o) files cpus in
    if mo_strict o && negb (String.eqb space "weight") then Err ValueError else
    let* rk := (if mo_omit_extra o then Ok (r3, cf_keys cfg) else copy_extra_keys same r3 cfg space) in
    Ok (fst rk, without_ema o cfg (snd rk), n).

  (** a merge into the dict [out0]: with no threads in the calling thread, otherwise by any
      schedule of the pool *)
  Definition merges_to (conv : ety -> value T -> result (value T)) (o : options T) (r : node T) (cfg : config) (space : string)
      (files cpus : nat) (out0 : list (string * value T)) (res : result (list (string * value T))) : Prop :=
    match plan o r cfg space files cpus with
    | Err e => res = Err e
    | Ok (r', keys, n) =>
      if n =? 0 then
        res = match merge_here (eval conv r') keys out0 with (out, None) => Ok out | (_, Some e) => Err e end
      else
        exists evs p, prun mem_sink (eval conv r') n (pool_init keys out0) evs = Some p /\ pool_over p /\
          res = match p_failed p with None => Ok (p_sink p) | Some e => Err e end
    end.
End Merge.

(** merging.py:279-283: the text for the file's metadata, from the recipe as it was given *)
Definition embedded_text {A} (serialized : result A) : result (option A) :=
  match serialized with
  | Ok s => Ok (Some s)
  | Err TypeError => Ok None
  | Err e => Err e
  end.
