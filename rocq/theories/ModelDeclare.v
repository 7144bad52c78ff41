(** Model of declaring a merge method: Parameter, Return, MergeMethod.__init__ and the registration of
    a conversion: sd_mecha/extensions/merge_methods.py:44-133, 172-210, 405-456, 498-525, and of how
    [convert] reads the registered conversions: sd_mecha/conversion.py:36-45. *)
From Coq Require Import String List Bool Arith.
From Verif Require Import Base ModelRecipe.
Import ListNotations.
Open Scope string_scope.
Open Scope list_scope.
Open Scope nat_scope.

(** Python types in annotations: the literal types, tensors, [StateDict] and [StateDict\[t\]], a type
    variable, a union, anything else *)
Inductive ty := TStr | TInt | TFloat | TBool | TNone | TTensor | TState (t : option ty) | TVar | TUnion (l : list ty) | TOther.

(** [typing.get_args] *)
Definition ty_args (t : ty) : list ty :=
  match t with TState (Some u) => [u] | TUnion l => l | _ => [] end.
Definition is_none (t : ty) : bool := match t with TNone => true | _ => false end.
(** 68-69: the first member stands for a union with None *)
Definition strip_none (t : ty) : ty :=
  if existsb is_none (ty_args t) then hd TOther (ty_args t) else t.

(** 18, 71: the constraints of [T] are the literal types and tensors; [issubclass] of a union raises
    TypeError too *)
Definition literal_ty (t : ty) : bool :=
  match t with TStr | TInt | TFloat | TBool | TNone => true | _ => false end.
Definition supported_return (t : ty) : bool :=
  match t with TVar | TTensor => true | _ => literal_ty t end.
Definition supported (t : ty) : bool := match t with TState _ => true | _ => supported_return t end.
(** 599-608: whether a path is converted to a model for a parameter of this type *)
Definition path_ty (t : ty) : bool :=
  match t with
  | TVar | TTensor | TState None | TState (Some TVar) | TState (Some TTensor) => true
  | _ => false end.

(** what is written for [merge_space]: nothing, a name, several names, a symbol (identity and names).
    A MergeSpace object is modelled by its name, which is registered *)
Inductive mspace := MNone | MOne (s : string) | MMany (l : list string) | MSym (id : nat) (l : list string).

(** 74-80; symbols are passed on, and do not look their names up (merge_spaces.py:23-27).
    [default_sym] is the method's own symbol, different from all others *)
Definition read_space (E : env) (m : mspace) : result pspace :=
  match m with
  | MNone => Ok PNone
  | MOne s => let* r := resolve_space E s in Ok (PSet [r])
  | MMany l => let* r := map_res (resolve_space E) l in Ok (PSet r)
  | MSym i l => Ok (PSym (S i) l)
  end.
(** 82-86, 125-129 *)
Definition read_config (E : env) (c : option string) : result (option string) :=
  match c with
  | None => Ok None
  | Some s => let* r := resolve_config E s in if String.eqb r "structural" then Err ValueError else Ok (Some r)
  end.

(** the annotation of a parameter: [Parameter(...)], such an annotation inside another type such as
    Optional, or none of these *)
Inductive hint := HParam (t : ty) (m : mspace) (c : option string) | HWrap (h : hint) | HOther.
Inductive rhint := RHint (t : ty) (m : mspace) (c : option string) | ROther.

(** Parameter(...): 44-90 *)
Definition read_param (E : env) (t : ty) (m : mspace) (c : option string) : result param :=
  let t := strip_none t in
  if negb (supported t) then Err TypeError else
  let* s := read_space E m in
  let* c := read_config E c in
  Ok (Param s c (literal_ty t) (path_ty t)).
(** the annotations of a function are evaluated when it is defined *)
Inductive annot := AParam (p : param) | AWrap (a : annot) | AOther.
Fixpoint read_hint (E : env) (h : hint) : result annot :=
  match h with
  | HParam t m c => let* p := read_param E t m c in Ok (AParam p)
  | HWrap h' => let* a := read_hint E h' in Ok (AWrap a)
  | HOther => Ok AOther
  end.
(** __get_parameter_data: 436-447 *)
Definition param_data (a : annot) : result param :=
  match a with
  | AParam p | AWrap (AParam p) => Ok p
  | _ => Err TypeError
  end.

(** Return(...): 98-133; a merge space is one name or a symbol *)
Definition read_return (E : env) (r : rhint) : result (option (rspace * option string)) :=
  match r with
  | ROther => Ok None
  | RHint t m c =>
    if negb (supported_return t) then Err TypeError else
    let* s := match m with
              | MNone => Ok RNone
              | MOne s => let* x := resolve_space E s in Ok (RFixed x)
              | MSym i _ => Ok (RSym (S i))
              | MMany _ => Err Unmodelled
              end in
    let* c := read_config E c in
    Ok (Some (s, c))
  end.

(** a function as it is written *)
Record decl := Decl {
  d_args : list (string * hint);
  d_defaults : list pyobj;
  d_vararg : option (string * hint);
  d_kw : list (string * hint);
  d_kwdefaults : list (string * pyobj);
  d_return : rhint }.

(** the truth value of [k.merge_space]: merge_methods.py:209 *)
Definition has_space (p : param) : bool :=
  match p_space p with PNone => false | PSet [] => false | _ => true end.
(** [x is not None] *)
Definition is_some {A} (x : option A) : bool := match x with Some _ => true | None => false end.
(** [params.as_dict().values()] for a function with its parameters: merge_methods.py:191, 209, 427-435 *)
Definition all_params (g : sig) : list param :=
  map snd (g_args g) ++ match g_vararg g with Some p => [p] | None => [] end ++ map snd (g_kw g).
(** [param_merge_space != {merge_spaces.resolve("param")}]: merge_methods.py:200 *)
Definition only_param (s : pspace) : bool := pspace_eqb s (PSet ["param"]).

(** __validate_f: 181-210 *)
Definition validate (g : sig) : result unit :=
  let first_default := length (g_args g) - length (g_defaults g) in
  if negb (forallb only_param (skipn first_default (in_spaces_args g)) &&
           forallb (fun ks => negb (dmem String.eqb (fst ks) (g_kwdefaults g)) || only_param (snd ks)) (in_spaces_kw g))
  then Err TypeError else
  let configs := map p_config (map snd (g_args g) ++ match g_vararg g with Some p => [p] | None => [] end) in
  let kwconfigs := map (fun kp => (fst kp, p_config (snd kp))) (g_kw g) in
  let* _ := if forallb (fun p => is_some (p_config p)) (all_params g) then
              let* c := return_config g configs kwconfigs in
              if is_some c then Ok tt else Err TypeError
            else Ok tt in
  match g_rspace g with
  | RSym _ => if existsb has_space (all_params g) then Ok tt else Err RuntimeError
  | _ => Ok tt
  end.

(** the annotation of the variadic parameter: merge_methods.py:427-435 *)
Definition read_vararg (E : env) (v : option (string * hint)) : result (option annot) :=
  match v with None => Ok None | Some (_, h) => let* a := read_hint E h in Ok (Some a) end.
(** the data of the variadic parameter: merge_methods.py:427-448 *)
Definition vararg_data (v : option annot) : result (option param) :=
  match v with None => Ok None | Some a => let* p := param_data a in Ok (Some p) end.

(** defining the function and decorating it: the annotations are evaluated, then MergeMethod.__init__
    (172-179) reads them.  [merge_spaces.get_all()] is what is registered by then *)
Definition declare (E : env) (d : decl) : result sig :=
  let* a := map_kres (read_hint E) (d_args d) in
  let* v := read_vararg E (d_vararg d) in
  let* k := map_kres (read_hint E) (d_kw d) in
  let* r := read_return E (d_return d) in
  let* pa := map_kres param_data a in
  let* pv := vararg_data v in
  let* pk := map_kres param_data k in
  match r with
  | None => Err TypeError
  | Some (rs, rc) =>
    let g := Sig pa (d_defaults d) pv pk (d_kwdefaults d) rs rc (e_spaces E) in
    let* _ := validate g in Ok g
  end.

(** validate_config_conversion: 518-525.  [configs.args] is a list, which is never None *)
Definition validate_conversion (g : sig) : result unit :=
  match g_args g, g_vararg g with
  | [_], _ => Ok tt
  | [], Some p => if is_some (p_config p) then Ok tt else Err AssertionError
  | _, _ => Err AssertionError
  end.

(** __recipe_impl: 498-515.  The registries, and the outcome; the method is registered before the
    conversion is validated *)
Definition register (E : env) (registry : list (string * sig) * list (string * sig)) (id : string) (conversion : bool) (d : decl)
  : (list (string * sig) * list (string * sig)) * result sig :=
  match declare E d with
  | Err e => (registry, Err e)
  | Ok g =>
    let methods := dset String.eqb id g (fst registry) in
    if conversion then
      match validate_conversion g with
      | Ok _ => ((methods, dset String.eqb id g (snd registry)), Ok g)
      | Err e => ((methods, snd registry), Err e)
      end
    else ((methods, snd registry), Ok g)
  end.

(** conversion.py:39-42: where a conversion leads from and to *)
Definition edge (g : sig) : result (string * string) :=
  let* rc := return_config g (map (fun kp => p_config (snd kp)) (g_args g)) (map (fun kp => (fst kp, p_config (snd kp))) (g_kw g)) in
  match g_args g with
  | [] => Err IndexError
  | (_, p) :: _ =>
    match p_config p, rc with
    | Some s, Some t => Ok (s, t)
    | _, _ => Err AttributeError
    end
  end.
Definition edges (converters : list (string * sig)) : result (list (string * string)) :=
  map_res edge (map snd converters).
