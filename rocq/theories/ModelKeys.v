(** Key lists of the builtin model configs, tensors seen as shape and entries,
    and the Python string operations the key conversions use. *)
From Coq Require Import String Ascii List Bool Arith NArith.
From Verif Require Import Base PyStr Dec.
Import ListNotations.
Open Scope list_scope.

(** sd_mecha/extensions/model_configs.py:21-35 ([KeyMetadata]): one line of a
    YAML component.  [torch] dtypes are limited to the ones the builtin files name. *)
Inductive dtype := float32 | float16 | bfloat16 | int64 | int32.
Record key_entry := entry {
  ke_key : string; ke_shape : list N; ke_dtype : dtype; ke_aliases : list string; ke_optional : bool }.

(** sd_mecha/extensions/model_configs.py:293-307 ([YamlModelConfig]): the
    registered identifier is the file's stem, the components come from the text.
    [yc_inner] is the [identifier:] line, kept by the underlying config only. *)
Record yaml_config := mk_yaml_config {
  yc_id : string; yc_inner : string; yc_components : list (string * list key_entry) }.

(** sd_mecha/extensions/model_configs.py:148-155 ([keys]): all components, in
    order (the builtin files declare no key twice; see [PropsKeys]). *)
Definition entries (c : yaml_config) : list key_entry := flat_map snd (yc_components c).
Definition keys (c : yaml_config) : list string := map ke_key (entries c).
Definition find_entry (c : yaml_config) (k : string) : option key_entry :=
  find (fun e => String.eqb (ke_key e) k) (entries c).
Definition declares (c : yaml_config) (k : string) : bool :=
  match find_entry c k with Some _ => true | None => false end.

(** A tensor: its shape and its entry at each multi-index ([torch.Tensor];
    strides, dtype and device are not represented). *)
Record tensor (A : Type) := mk_tensor { t_shape : list N; t_at : list N -> A }.
Arguments mk_tensor {A} _ _. Arguments t_shape {A} _. Arguments t_at {A} _ _.

(** What a merge method sees as [StateDict]: [sd[key]] returns or raises. *)
Definition state_dict (A : Type) := string -> result (tensor A).

(** ** Python string operations *)

(** [s.replace(old, new)] for a nonempty [old]: leftmost, non-overlapping.
    [skip] counts the characters of the last match still to drop. *)
Fixpoint replace_go (old new : chars) (skip : nat) (l : chars) : chars :=
  match l with
  | [] => []
  | c :: l' =>
      match skip with
      | S k => replace_go old new k l'
      | O => if starts_with old l then new ++ replace_go old new (length old - 1) l'
             else c :: replace_go old new 0 l'
      end
  end.
Definition py_replace (s old new : chars) : chars := replace_go old new 0 s.

(** [s.split(".")], and its inverse [".".join(...)] *)
Fixpoint py_split (sep : ascii) (l : chars) : list chars :=
  match l with
  | [] => [[]]
  | c :: l' =>
      if Ascii.eqb c sep then [] :: py_split sep l'
      else match py_split sep l' with
           | w :: ws => (c :: w) :: ws
           | [] => [[c]]
           end
  end.
Fixpoint py_join (sep : chars) (ws : list chars) : chars :=
  match ws with
  | [] => []
  | [w] => w
  | w :: ws' => w ++ sep ++ py_join sep ws'
  end.

(** [sub in s] *)
Fixpoint py_in (sub l : chars) : bool :=
  starts_with sub l || match l with [] => false | _ :: l' => py_in sub l' end.

(** [for old, new in table.items(): s = s.replace(old, new)] *)
Definition replace_table (table : list (string * string)) (s : chars) : chars :=
  fold_left (fun s p => py_replace s (s2l (fst p)) (s2l (snd p))) table s.

(** [f"{n}"] for a natural number, and the concatenation of f-string pieces *)
Definition str (n : nat) : string := l2s (dec (N.of_nat n)).
Definition cat (l : list string) : string := fold_right append EmptyString l.

(** a dict literal followed by item assignments *)
Definition dict_of (l : list (string * string)) : list (string * string) :=
  dupdate String.eqb [] l.
