(** Vocabulary of C01-C04: which recipes can be written and read back. *)
From Coq Require Import String Ascii List Bool Arith NArith ZArith.
From Verif Require Import Base Json PyStr ModelRecipe ModelSerial.
Import ListNotations.
Open Scope string_scope.
Open Scope list_scope.

(** [every P v]: [P] holds of [v] and of every object inside it *)
Section AllIn.
  Variable f : pyobj -> Prop.
  Fixpoint all_in (l : list pyobj) : Prop :=
    match l with [] => True | x :: l' => f x /\ all_in l' end.
  Fixpoint all_kin (l : list (string * pyobj)) : Prop :=
    match l with [] => True | (_, x) :: l' => f x /\ all_kin l' end.
End AllIn.

Fixpoint every (P : pyobj -> Prop) (v : pyobj) : Prop :=
  P v /\
  match v with
  | VDict l => all_kin (every P) l
  | VLit w _ _ => every P w
  | VMerge _ args kwargs => all_in (every P) args /\ all_kin (every P) kwargs
  | _ => True
  end.

(** a literal node that was not given a model config *)
Definition bare (v : pyobj) : bool := match v with VLit _ None _ => true | _ => false end.

(** text without a newline; text without a newline or '=' *)
Definition one_line (s : string) : Prop := ~ In c_nl (s2l s).
Definition positional (s : string) : Prop := ~ In c_nl (s2l s) /\ ~ In "="%char (s2l s).
(** keyword and dict key: no newline, '=', space, quote or backslash *)
Definition key_ok (s : string) : Prop :=
  forall c, In c (s2l s) -> c <> c_nl /\ c <> "="%char /\ c <> " "%char /\ c <> c_quote /\ c <> c_bslash.
(** the spelling of a float that Python's [repr] produces: a number with a point or an exponent *)
Definition float_repr (s : string) : Prop :=
  float_ok (s2l s) = true /\ has_char "."%char (s2l s) || existsb is_e (s2l s) = true.

(** an input written in positional place *)
Definition positional_value (v : pyobj) : Prop :=
  match v with
  | VStr s => positional s
  | VLit (VStr s) None _ => positional s
  | _ => True
  end.

(** conditions on spelling, one object at a time *)
Definition spelled (v : pyobj) : Prop :=
  match v with
  | VStr s => one_line s
  | VInt _ | VNone => True
  | VFloat s => float_repr s
  | VBool _ | VTensor _ | VPath _ => False
  | VDict l => NoDup (map fst l) /\ Forall (fun kv => key_ok (fst kv) /\ bare (snd kv) = false) l
  | VLit w cfg s =>
    is_node w = false /\ one_line s /\
    match cfg with Some c => one_line c /\ positional_value w | None => True end
  | VModel p c s =>
    positional p /\ one_line s /\ match c with Some c => one_line c | None => True end
  | VMerge m args kwargs =>
    positional m /\ Forall positional_value args /\ Forall (fun kv => key_ok (fst kv)) kwargs
  end.

(** every node was made by its constructor from registered names; a literal
    without a config was made by passing a plain value to a merge method *)
Definition made (E : env) (v : pyobj) : Prop :=
  match v with
  | VLit w None _ => exists tensor_ok, value_to_node E w tensor_ok = Ok v
  | VLit w (Some c) s =>
    (exists c0 s0, mk_literal E w c0 s0 = Ok v) /\ resolve_config E c = Ok c /\ resolve_space E s = Ok s
  | VModel p c s => exists p0 c0 s0, mk_model E (l2s (path_norm p0)) c0 s0 = Ok v
  | VMerge m args kwargs =>
    exists g args0 kwargs0, resolve_method E m = Ok g /\ NoDup (map fst kwargs0) /\
      create_recipe E m g args0 kwargs0 = Ok v
  | _ => True
  end.

(** method signatures as Python allows them *)
Definition sig_ok (g : sig) : Prop :=
  NoDup (map fst (g_args g) ++ map fst (g_kw g)) /\
  length (g_defaults g) <= length (g_args g) /\
  NoDup (map fst (g_kwdefaults g)) /\
  (forall k v, In (k, v) (g_kwdefaults g) -> In k (map fst (g_kw g))).

(** ** Vocabulary of C02 and C03: lines and references *)

(** a comment line; the number of instruction lines in a list of lines *)
Definition comment (line : chars) : bool := starts_with ["#"%char] (strip line).
Definition instructions (lines : list chars) : nat := length (filter (fun l => negb (comment l)) lines).

(** the value part of an argument token: what follows the first '=', if any *)
Definition value_part (a : chars) : chars :=
  if has_char "="%char a then snd (split_eq a) else a.

(** [refers line n]: some argument of [line] is the reference [&n] *)
Definition refers (line : chars) (z : Z) : Prop :=
  exists cmd args a, tokenize (strip line) = Ok (cmd :: args) /\ In a args /\
    exists digits, value_part a = "&"%char :: digits /\ py_int digits = Ok z.
