(** What [merge] is documented to do: which keys it merges and what it stores under each.
    [f_in] casts a tensor to the merge device and dtype, [f_out] to those of the output; [g] is
    the tensor of a number. *)
From Coq Require Import String List Bool Arith ZArith.
From Verif Require Import Base ModelEval SpecEval SpecCast PropsExtra ModelMerge.
Import ListNotations.
Open Scope string_scope.
Open Scope list_scope.

Section SpecMerge.
  Context {T : Type} (conv : ety -> value T -> result (value T)) (f_in f_out : T -> T) (g : lit -> T).
  Variable o : options T.

  (** the value of a recipe at a key, on inputs in the merge dtype *)
  Definition reads (n : node T) (k : string) : result (value T) :=
    eval conv (match mo_merge o with None => n | Some _ => precast f_in g n end) k.

  (** the recipe provides the value, or lacks the key and the fallback model provides it *)
  Definition provides (r : node T) (k : string) (v : value T) : Prop :=
    reads r k = Ok v \/ (is_missing_outcome (reads r k) /\ exists f s, mo_fallback o = Some (f, s) /\ reads f k = Ok v).

  (** one of the two fails, where it is asked *)
  Definition breaks (r : node T) (k : string) (e : exn) : Prop :=
    (forall k', e <> StateDictKeyError k') /\
    (reads r k = Err e \/ (is_missing_outcome (reads r k) /\ exists f s, mo_fallback o = Some (f, s) /\ reads f k = Err e)).

  (** ... in the output dtype *)
  Definition finished (v : value T) : value T :=
    match mo_output o with None => v | Some _ => precast_value f_out g v end.

  (** the keys of the config, without those of its component "ema" if these are to be omitted *)
  Definition wanted (cfg : config) (k : string) : Prop :=
    In k (cf_keys cfg) /\ (mo_omit_ema o = true -> forall l, In ("ema", l) (cf_components cfg) -> ~ In k l).

  (** what is refused before any key is merged, and how: a fallback model in another merge space, a number of threads
      that is not one, a recipe that is not in weight space *)
  Inductive refused (space : string) : exn -> Prop :=
  | re_space : forall f s, mo_fallback o = Some (f, s) -> s <> space -> refused space TypeError
  | re_negative : forall z, mo_threads o = ThInt z -> (z < 0)%Z -> refused space RuntimeError
  | re_float : mo_threads o = ThFloat -> refused space RuntimeError
  | re_other : mo_threads o = ThOther -> refused space TypeError
  | re_strict : mo_strict o = true -> space <> "weight" -> refused space ValueError.

  (** *** with [omit_extra_keys=False] *)

  (** the model files of the config that the recipe or the fallback model reads *)
  Definition sources (r : node T) (cfg : config) : list (node T) :=
    filter (of_config cfg) (files r ++ match mo_fallback o with Some (f, _) => files f | None => [] end).
  (** the first of them that has the key at all answers [x] *)
  Definition supplied (l : list (node T)) (k : string) (x : result (value T)) : Prop :=
    exists pre n post, l = pre ++ n :: post /\ Forall (fun m => is_missing_outcome (eval conv m k)) pre /\
      eval conv n k = x /\ ~ is_missing_outcome x.
  (** neither the recipe nor the fallback model has the key *)
  Definition absent (r : node T) (k : string) : Prop :=
    is_missing_outcome (reads r k) /\ forall f s, mo_fallback o = Some (f, s) -> is_missing_outcome (reads f k).
  (** keys of the config and keys in those files, under the names of the config *)
  Definition wanted_extra (r : node T) (cfg : config) (k : string) : Prop :=
    (In k (cf_keys cfg) \/ exists n name, In n (sources r cfg) /\ In name (node_keys n) /\ stands_for cfg name k) /\
    (mo_omit_ema o = true -> forall l, In ("ema", l) (cf_components cfg) -> ~ In k l).

  (** [to] with these arguments is [f] *)
  Definition casts (to : lit -> lit -> T -> result T) (dd : option (lit * lit)) (f : T -> T) : Prop :=
    match dd with
    | None => True
    | Some (device, dtype) => numeric device = false /\ numeric dtype = false /\ forall t, to device dtype t = Ok (f t)
    end.

  (** recipes for which casting the inputs is casting the data (C27), and whose values are
      tensors or numbers where these are to be cast *)
  Definition sound (n : node T) : Prop :=
    wf n /\
    (mo_merge o <> None -> fit f_in g (eval conv) n /\
       forall m args kw c, part (precast f_in g n) (NMerge m args kw c) -> forall k, convertible (eval conv) (cast_value conv) m args kw k) /\
    (mo_output o <> None -> forall k v, reads n k = Ok v -> ~ inert (NLit v)).
End SpecMerge.
