(** What a merge method can do with a parameter declared as a StateDict: merging.py:617-646.  The class
    defines [__getitem__], [__len__], [__iter__], [keys] and [model_config]; the rest comes from
    collections.abc.Mapping (merge_methods.py:21-30), as in CPython's _collections_abc.py.  Views are
    lists here: what iterating them to the end gives. *)
From Coq Require Import String List Bool Arith.
From Verif Require Import Base ModelEval.
Import ListNotations.
Open Scope string_scope.
Open Scope list_scope.

Section Mapping.
  Context {V : Type} (get : string -> result V) (cfg : option config).

  (** [self.compute_keys()], 645-646: None has no attribute [keys] *)
  Definition sd_keys : result (list string) :=
    match cfg with Some c => Ok (cf_keys c) | None => Err AttributeError end.
  (** [len(sd)]: 632-633 *)
  Definition sd_len : result nat := let* ks := sd_keys in Ok (length ks).
  (** [k in sd]: Mapping.__contains__ subscripts and catches KeyError *)
  Definition sd_contains (k : string) : result bool :=
    match get k with Ok _ => Ok true | Err e => if is_key_error e then Ok false else Err e end.
  (** [sd.get(k, default)]: Mapping.get *)
  Definition sd_get (k : string) (default : V) : result V :=
    match get k with Ok v => Ok v | Err e => if is_key_error e then Ok default else Err e end.
  (** [list(sd.items())] and [list(sd.values())]: the keys of 635-636, each subscripted *)
  Fixpoint take (ks : list string) : result (list (string * V)) :=
    match ks with [] => Ok [] | k :: ks' => let* v := get k in let* r := take ks' in Ok ((k, v) :: r) end.
  Definition sd_items : result (list (string * V)) := let* ks := sd_keys in take ks.
  Definition sd_values : result (list V) := let* l := sd_items in Ok (map snd l).
End Mapping.
