(** Specification for C38, C39 and C65: chains of converters. *)
From Coq Require Import String List.
From Verif Require Import Base ModelRecipe ModelOps ModelConvert.
Import ListNotations.
Open Scope string_scope.

(** [chain cs a b ids]: applying the converters named [ids] in order leads from
    config [a] to config [b] *)
Inductive chain (cs : list converter) : string -> string -> list string -> Prop :=
| chain_nil : forall a, chain cs a a []
| chain_cons : forall c b ids, In c cs -> chain cs (c_tgt c) b ids -> chain cs (c_src c) b (c_id c :: ids).

(** some converter starts or ends at the config *)
Definition known (cs : list converter) (a : string) : Prop :=
  exists c, In c cs /\ (c_src c = a \/ c_tgt c = a).

(** the method call of each converter in turn, each on what the previous one
    returned; the first failing call is the outcome *)
Inductive applied (E : env) : list string -> pyobj -> result pyobj -> Prop :=
| applied_none : forall x, applied E [] x (Ok x)
| applied_fails : forall m ids x e, call E m [x] = Err e -> applied E (m :: ids) x (Err e)
| applied_then : forall m ids x y r, call E m [x] = Ok y -> applied E ids y r -> applied E (m :: ids) x r.

(** the recipe that applies the converters to [recipe], the first innermost *)
Definition nested (ids : list string) (recipe : pyobj) : pyobj :=
  fold_left (fun r m => VMerge m [r] []) ids recipe.

(** the signature of a converter: one state dict in, one out, any merge space *)
Definition conv_sig (a b : string) : sig :=
  Sig [("sd", Param PNone (Some a) false true)] [] None [] [] RNone (Some b) all_spaces.
