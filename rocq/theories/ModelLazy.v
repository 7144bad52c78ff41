(** Configs that are created when they are first used: [LazyModelConfigBase] and
    [YamlModelConfig] (sd_mecha/extensions/model_configs.py:188-221, 293-307), as
    used by several threads at once while the file may change. *)
From Coq Require Import String List Bool Arith.
From Verif Require Import Base.
Import ListNotations.
Open Scope list_scope.

Section Lazy.
  (** [F] the text of the file, [C] the configs, [A] the values of attributes.
      [own] are the attributes the class of the lazy config has itself
      ([identifier], model_configs.py:299-301), [create] is [create_config]
      (model_configs.py:303-307): it reads the whole file in one go.  [attr] is
      [getattr] on the underlying config (model_configs.py:215-221): a method of
      the underlying config is called by the user right away; calling it is taken
      to be part of the access. *)
  Context {F C A : Type} (own : string -> option A) (create : F -> result C) (attr : string -> C -> A).

  (** where a thread is in [resolve_lazy_model_config_attribute] and
      [_ensure_config] (model_configs.py:204-208, 215-217): before the test of
      [underlying_config], after finding it [None], holding the config it created,
      and before reading [underlying_config] again *)
  Inductive place := Start | Creating | Created (c : C) | Get.

  (** a thread: the attributes it has read, with the outcomes, and those it is
      still to read *)
  Record thread := Thread { t_done : list (string * result A); t_place : place; t_todo : list string }.
  Record state := State { s_file : F; s_under : option C; s_threads : list thread }.

  (** the attribute read last gave or raised [r]; the thread goes on with its next one *)
  Definition finish (t : thread) (r : result A) : thread :=
    match t_todo t with
    | [] => t
    | n :: l => Thread (t_done t ++ [(n, r)]) Start l
    end.
  (** the thread goes on at another place of the same read *)
  Definition move (t : thread) (p : place) : thread := Thread (t_done t) p (t_todo t).

  (** one turn of a thread: what becomes of [underlying_config] and of the thread *)
  Definition turn (f : F) (u : option C) (t : thread) : option C * thread :=
    match t_todo t with
    | [] => (u, t)
    | n :: _ =>
      match own n with
      | Some a => (u, finish t (Ok a))
      | None =>
        match t_place t with
        | Start => (u, move t (match u with Some _ => Get | None => Creating end))
        | Creating => match create f with Ok c => (u, move t (Created c)) | Err e => (u, finish t (Err e)) end
        | Created c => (Some c, move t Get)
        | Get => (u, finish t (match u with Some c => Ok (attr n c) | None => Err AttributeError end))
        end
      end
    end.

  (** a turn of thread [i]; nothing happens if there is no such thread *)
  Fixpoint at_thread (i : nat) (f : F) (u : option C) (l : list thread) : option C * list thread :=
    match l, i with
    | [], _ => (u, [])
    | t :: l', 0 => let (u', t') := turn f u t in (u', t' :: l')
    | t :: l', S j => let (u', l'') := at_thread j f u l' in (u', t :: l'')
    end.

  (** what happens next: the file is replaced, or a thread takes a turn *)
  Inductive event := Change (f : F) | Turn (i : nat).
  Definition step (s : state) (e : event) : state :=
    match e with
    | Change f => State f (s_under s) (s_threads s)
    | Turn i => let (u, l) := at_thread i (s_file s) (s_under s) (s_threads s) in State (s_file s) u l
    end.
  Definition run (s : state) (l : list event) : state := fold_left step l s.

  (** [__init__]: nothing is created yet (model_configs.py:189-190, 294-297) *)
  Definition initial (f : F) (names : list (list string)) : state :=
    State f None (map (fun l => Thread [] Start l) names).
End Lazy.
Arguments place : clear implicits.
Arguments thread : clear implicits.
Arguments state : clear implicits.
Arguments event : clear implicits.
