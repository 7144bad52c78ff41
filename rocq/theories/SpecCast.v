(** What casting the inputs of a recipe should mean: evaluate the same recipe on
    tensors that were cast one by one.  [f] casts a tensor, [g] is the tensor of a
    number. *)
From Coq Require Import String List Bool Arith ZArith.
From Verif Require Import Base ModelEval SpecEval.
Import ListNotations.
Open Scope string_scope.
Open Scope list_scope.
Open Scope nat_scope.

Section SpecCast.
  Context {T : Type} (f : T -> T) (g : lit -> T).

  Definition numeric (l : lit) : bool :=
    match l with LInt _ | LFloat _ | LBool _ => true | LStr _ | LNone => false end.

  Definition precast_value (v : value T) : value T :=
    match v with
    | VT t => VT (f t)
    | VL l => if numeric l then VT (f (g l)) else VL l
    end.

  Fixpoint precast (n : node T) : node T :=
    match n with
    | NLit v => NLit (precast_value v)
    | NDict d c s => NDict (kmap precast d) c s
    | NModel p get k c s => NModel p (fun x => match get x with Ok t => Ok (f t) | Err e => Err e end) k c s
    | NMerge m args kw c => NMerge m (lmap precast args) (kmap precast kw) c
    end.

  (** a string or None: a parameter that is not cast *)
  Definition inert (n : node T) : Prop := exists l, n = NLit (VL l) /\ numeric l = false.
  (** a tensor or a number *)
  Definition datum (n : node T) : Prop := exists v, n = NLit v /\ ~ inert n.

  (** recipes over model files, tensors, numbers and non-empty dicts of them, in
      which every merge has at least one such input besides its strings *)
  Inductive regular : node T -> Prop :=
  | reg_datum : forall n, datum n -> regular n
  | reg_dict : forall d c s, d <> [] -> Forall (fun p => datum (snd p)) d -> regular (NDict d c s)
  | reg_model : forall p get k c s, regular (NModel p get k c s)
  | reg_merge : forall m args kw c,
      Forall (fun n => regular n \/ inert n) args -> Forall (fun p => regular (snd p) \/ inert (snd p)) kw ->
      (Exists regular args \/ Exists (fun p => regular (snd p)) kw) ->
      regular (NMerge m args kw c).

  (** the inputs wanted as values that fail at the key fail with the same error *)
  Definition fail_alike (ev : node T -> string -> result (value T)) m args kw key : Prop :=
    forall i j e e', fails ev m args kw key i e -> fails ev m args kw key j e' -> e = e'.

  (** recipes over model files, literals, non-empty dicts of tensors and numbers, of strings, or of recipes (a dict of
      recipes is told by its first value), in which, on cast data, inputs of the same merge fail alike or the
      merge and what is below it is over data and model files only *)
  Inductive fit (ev : node T -> string -> result (value T)) : node T -> Prop :=
  | fit_lit : forall v, fit ev (NLit v)
  | fit_data : forall d c s, d <> [] -> Forall (fun p => datum (snd p)) d -> fit ev (NDict d c s)
  | fit_strings : forall d c s, d <> [] -> Forall (fun p => inert (snd p)) d -> fit ev (NDict d c s)
  | fit_recipes : forall x n d c s, (forall v, n <> NLit v) -> Forall (fun p => fit ev (snd p)) ((x, n) :: d) ->
      fit ev (NDict ((x, n) :: d) c s)
  | fit_model : forall p get k c s, fit ev (NModel p get k c s)
  | fit_merge : forall m args kw c, Forall (fit ev) args -> Forall (fun p => fit ev (snd p)) kw ->
      (regular (NMerge m args kw c) \/ forall key, fail_alike ev m (map precast args) (map (fun p => (fst p, precast (snd p))) kw) key) ->
      fit ev (NMerge m args kw c).

  (** [p] is [n] or occurs in it *)
  Inductive part : node T -> node T -> Prop :=
  | part_self : forall n, part n n
  | part_dict : forall d c s x a p, In (x, a) d -> part a p -> part (NDict d c s) p
  | part_arg : forall m args kw c a p, In a args -> part a p -> part (NMerge m args kw c) p
  | part_kw : forall m args kw c x a p, In (x, a) kw -> part a p -> part (NMerge m args kw c) p.
End SpecCast.
