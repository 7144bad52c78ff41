(** typing_.py (is_subclass) and the annotations of merge methods
    (merge_methods.py: Parameter, Return, FunctionArgs), with the choice between
    values and state dicts that merging.py makes from them. *)
From Coq Require Import String List Bool Arith.
From Verif Require Import Base.
Import ListNotations.
Open Scope string_scope.
Open Scope list_scope.

(** classes: the ones recipe_nodes.py:68-71 and merge_methods.py:18-30 name, the
    class of [int | str] (types.UnionType), and any other class, by a number *)
Inductive cls : Type :=
| CStr | CInt | CFloat | CBool | CNone | CTensor | CStateDict | CUnionType | COther (n : nat).

(** [c is d] for classes; a Python built-in *)
Definition cls_eqb (c d : cls) : bool :=
  match c, d with
  | CStr, CStr | CInt, CInt | CFloat, CFloat | CBool, CBool | CNone, CNone
  | CTensor, CTensor | CStateDict, CStateDict | CUnionType, CUnionType => true
  | COther n, COther m => Nat.eqb n m
  | _, _ => false
  end.

(** what can be written as the [interface] of an annotation (merge_methods.py:44-48,
    typing_.py:22): a class; an alias like [StateDict[Tensor]] of a class with
    arguments; a type variable with its constraints; [X | Y] of classes
    (types.UnionType); [typing.Union[X, Y]] and [typing.Optional[X]]; and the bare
    [typing.Union], which is what [get_origin] gives for those.  Not modelled:
    strings, [Any], [Callable] and bounds of type variables. *)
Inductive ty : Type :=
| TCls (c : cls)
| TGen (c : cls) (args : list ty)
| TVar (constraints : list ty)
| TUnion (args : list ty)
| TTUnion (args : list ty)
| TForm.

(** [typing.get_origin(t) or t]: typing_.py:23-24 *)
Definition origin (t : ty) : ty :=
  match t with
  | TGen c _ => TCls c
  | TUnion _ => TCls CUnionType
  | TTUnion _ => TForm
  | _ => t
  end.

(** [typing.get_args(t)]: typing_.py:30, merge_methods.py:68-69 *)
Definition get_args (t : ty) : list ty :=
  match t with
  | TGen _ l | TUnion l | TTUnion l => l
  | _ => []
  end.

Section Loops.
  Context {A : Type} (f : A -> result bool).

  (** [any(f(x) for x in l)], stopping at the first that holds; typing_.py:28 *)
  Fixpoint anyM (l : list A) : result bool :=
    match l with
    | [] => Ok false
    | x :: l' => let* b := f x in if b then Ok true else anyM l'
    end.

  (** [all(f(x) for x in l)], stopping at the first that fails; typing_.py:30 *)
  Fixpoint allM (l : list A) : result bool :=
    match l with
    | [] => Ok true
    | x :: l' => let* b := f x in if b then allM l' else Ok false
    end.
End Loops.

Section Subclass.
  (** [issubclass] between classes *)
  Variable sub : cls -> cls -> bool.

  (** [issubclass(c, target)] for a class [c] (the built-in; used at typing_.py:31):
      a union is tried member by member, aliases with arguments and type
      variables are no valid second arguments *)
  Fixpoint issubclass (c : cls) (t : ty) : result bool :=
    match t with
    | TCls d => Ok (sub c d)
    | TUnion l | TTUnion l => anyM (issubclass c) l
    | TGen _ _ | TVar _ | TForm => Err TypeError
    end.

  (** typing_.py:22-31 for a source that is a class or the bare [typing.Union]
      (the only ones line 28 recurses with); a class has no arguments, so line 30
      holds of it *)
  Fixpoint is_subclass_origin (o : ty) (t : ty) : result bool :=
    match t with
    | TVar cs => anyM (is_subclass_origin o) cs
    | _ =>
        match o with
        | TCls c => if sub c CUnionType then Ok true else issubclass c t
        | _ => Err TypeError
        end
    end.

  (** typing_.py:22-31 *)
  Fixpoint is_subclass (s t : ty) : result bool :=
    match s, t with
    | TVar _, _ => Ok false
    | _, TVar cs => anyM (is_subclass_origin (origin s)) cs
    | TTUnion _, _ | TForm, _ => Err TypeError
    | TUnion l, _ =>
        if sub CUnionType CUnionType then allM (fun a => is_subclass a t) l
        else issubclass CUnionType t
    | TGen c l, _ =>
        if sub c CUnionType then allM (fun a => is_subclass a t) l else issubclass c t
    | TCls c, _ =>
        if sub c CUnionType then Ok true else issubclass c t
    end.

  (** [issubclass(typing.get_origin(interface) or interface, c)]: merge_methods.py:71, 119 *)
  Definition origin_below (i : ty) (c : cls) : result bool :=
    match origin i with
    | TCls d => Ok (sub d c)
    | _ => Err TypeError
    end.

  (** [T.__constraints__]: merge_methods.py:18, recipe_nodes.py:68-69 *)
  Definition literal_classes : list cls := [CStr; CInt; CFloat; CBool; CNone; CTensor].

  (** [PythonLiteralValue]: recipe_nodes.py:68 *)
  Definition python_literal : ty := TUnion (map TCls [CStr; CInt; CFloat; CBool; CNone]).

  (** [t is type(None)]: merge_methods.py:68 *)
  Definition is_none (t : ty) : bool :=
    match t with TCls CNone => true | _ => false end.

  (** [Parameter(interface)], the interface it keeps: merge_methods.py:67-72, 88-90 *)
  Definition parameter (i : ty) : result ty :=
    let i' := if existsb is_none (get_args i) then hd i (get_args i) else i in
    match i' with
    | TVar _ => Ok i'
    | _ =>
        let* b := anyM (origin_below i') (CStateDict :: literal_classes) in
        if b then Ok i' else Err TypeError
    end.

  (** [Return(interface)], the interface it keeps: merge_methods.py:117-120, 131-133 *)
  Definition return_ (i : ty) : result ty :=
    match i with
    | TVar _ => Ok i
    | _ =>
        let* b := anyM (origin_below i) literal_classes in
        if b then Ok i else Err TypeError
    end.

  (** how an argument reaches the body: a lazy state dict with the type of its
      values ([None] is the method's own type variable), or a value of a type *)
  Inductive handed : Type :=
  | HState (value : option ty)
  | HValue (t : ty).

  (** merging.py:583-587 *)
  Definition hand (i : ty) : result handed :=
    let* b := is_subclass i (TCls CStateDict) in
    Ok (if b then HState (hd_error (get_args i)) else HValue i).

  (** merge_methods.py:355-362 get_merge_space_or_default for a parameter without a
      merge space: whether it is in the space "param" *)
  Definition in_param_space (i : ty) (has_default : bool) : result bool :=
    if has_default then Ok true else is_subclass i python_literal.
End Subclass.

(** merge_methods.py:137-141 FunctionArgs; [None] for EMPTY_VARARGS *)
Record fargs (P : Type) := FArgs { fa_args : list P; fa_vararg : option P; fa_kwargs : list (string * P) }.
Arguments FArgs {P} _ _ _.
Arguments fa_args {P} _.
Arguments fa_vararg {P} _.
Arguments fa_kwargs {P} _.

(** keys of [as_dict]: merge_methods.py:143 *)
Notation arg_index := (nat + string)%type.

(** equality of these keys; a Python built-in *)
Definition index_eqb (a b : arg_index) : bool :=
  match a, b with
  | inl n, inl m => Nat.eqb n m
  | inr x, inr y => String.eqb x y
  | _, _ => false
  end.

(** merge_methods.py:157-162 _get_varargs_count *)
Definition varargs_count {P} (f : fargs P) (n : option nat) : nat :=
  let k := length (fa_args f) in
  let n' := match n with Some n => n | None => k + 1 end in
  match fa_vararg f with Some _ => n' - k | None => 0 end.

(** merge_methods.py:143-150 as_dict *)
Definition as_dict {P} (f : fargs P) (n : option nat) : list (arg_index * P) :=
  let k := length (fa_args f) in
  let va := match fa_vararg f with
            | Some v => map (fun i => (@inl nat string i, v)) (seq k (varargs_count f n))
            | None => []
            end in
  dupdate index_eqb
    (dupdate index_eqb (combine (map inl (seq 0 k)) (fa_args f)) va)
    (map (fun kv => (inr (fst kv), snd kv)) (fa_kwargs f)).

(** merging.py:578, 583: [merge_method.get_input_types().as_dict(len(node_args))[index]] *)
Definition input_type {P} (f : fargs P) (n : nat) (i : arg_index) : result P :=
  match dget index_eqb i (as_dict f (Some n)) with
  | Some p => Ok p
  | None => Err KeyError
  end.
