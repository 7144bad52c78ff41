(** Model of [item in recipe] (recipe_nodes.py:114-118, 152-156, 194-199). *)
From Coq Require Import String List Bool ZArith QArith Arith.
From Verif Require Import Base.
Import ListNotations.
Open Scope string_scope.

(** a Python float by its value *)
Inductive fval := FFin (q : Q) | FInf (negative : bool) | FNan.

(** The values of a recipe (recipe_nodes.py:68-71) and its nodes.  [id] is the identity of an object; it is left out where
    [==] does not depend on it.  A tensor is given by its number of entries; a path by [str(path)], which is what
    [==] on POSIX paths compares.  Nodes keep only what [in] looks at. *)
Inductive obj :=
| OStr (s : string)
| OInt (z : Z)
| OBool (b : bool)
| OFloat (id : nat) (f : fval)
| ONone
| OTensor (id : nat) (numel : nat)
| ODict (id : nat) (l : list (string * obj))
| OLit (id : nat) (value : obj)
| OModel (id : nat) (path : string)
| OMerge (id : nat) (args : list obj) (kwargs : list (string * obj)).

(** [isinstance(x, RecipeNode)] *)
Definition is_node (x : obj) : bool := match x with OLit _ _ | OModel _ _ | OMerge _ _ _ => true | _ => false end.

(** [x is y]: an identity belongs to one object, hence to one kind of objects *)
Definition same_object (x y : obj) : bool :=
  match x, y with
  | OFloat i _, OFloat j _ | OTensor i _, OTensor j _ | ODict i _, ODict j _
  | OLit i _, OLit j _ | OModel i _, OModel j _ | OMerge i _ _, OMerge j _ _ => Nat.eqb i j
  | _, _ => false
  end.

(** the number an object is in a comparison with [==] (Python) *)
Definition numeric (x : obj) : option fval :=
  match x with
  | OInt z => Some (FFin (inject_Z z))
  | OBool b => Some (FFin (if b then 1 else 0))
  | OFloat _ f => Some f
  | _ => None
  end.
(** [==] of two numbers (Python); nan differs from itself *)
Definition num_eq (x y : fval) : bool :=
  match x, y with
  | FFin p, FFin q => Qeq_bool p q
  | FInf a, FInf b => Bool.eqb a b
  | _, _ => false
  end.

Section Eq.
(** how torch compares the only entry of a tensor with that of another and with a number, whatever the dtypes *)
Variable eqt : nat -> nat -> bool.
Variable eqn : nat -> fval -> bool.

(** [bool(x == y)] for a tensor [x]: a tensor with a number of entries other than one has no truth value, and tensors of
    shapes that do not fit cannot be compared, RuntimeError in both cases *)
Definition tensor_eq (i n : nat) (y : obj) : result bool :=
  match y with
  | OTensor j k => if Nat.eqb n 1 && Nat.eqb k 1 then Ok (eqt i j) else Err RuntimeError
  | _ => match numeric y with
         | Some f => if Nat.eqb n 1 then Ok (eqn i f) else Err RuntimeError
         | None => Ok false
         end
  end.

(** [d.get(k)] for a dict in order *)
Fixpoint find (k : string) (l : list (string * obj)) : option obj :=
  match l with [] => None | (k', v) :: l => if String.eqb k k' then Some v else find k l end.

(** [bool(x == y)] of Python.  Dicts compare the values of the first with those of the second, an object being equal to
    itself; nodes have no [__eq__]. *)
Fixpoint py_eq (x y : obj) : result bool :=
  match x with
  | OStr s => Ok match y with OStr s' => String.eqb s s' | _ => false end
  | ONone => Ok match y with ONone => true | _ => false end
  | OTensor i n => tensor_eq i n y
  | ODict _ l =>
      match y with
      | ODict _ l' =>
          if Nat.eqb (length l) (length l')
          then (fix all l := match l with
                | [] => Ok true
                | (k, v) :: l =>
                    match find k l' with
                    | None => Ok false
                    | Some v' => if same_object v v' then all l
                                 else let* b := py_eq v v' in if b then all l else Ok false
                    end
                end) l
          else Ok false
      | _ => Ok false
      end
  | OLit _ _ | OModel _ _ | OMerge _ _ _ => Ok (same_object x y)
  | OInt _ | OBool _ | OFloat _ _ =>
      match y with
      | OTensor i n => tensor_eq i n x
      | _ => Ok match numeric x, numeric y with Some f, Some g => num_eq f g | _, _ => false end
      end
  end.

(** [item in c]; arguments that are not nodes are skipped, [any] stops at the first that has the item *)
Fixpoint contains (c item : obj) : result bool :=
  match c with
  | OLit _ v => match item with OLit _ w => py_eq v w | _ => Ok false end
  | OModel _ p => Ok match item with OModel _ q => String.eqb p q | _ => false end
  | OMerge _ args kwargs =>
      if same_object c item then Ok true
      else (fix any_arg l := match l with
            | [] => (fix any_kwarg l := match l with
                     | [] => Ok false
                     | (_, v) :: l => let* b := if is_node v then contains v item else Ok false in if b then Ok true else any_kwarg l
                     end) kwargs
            | v :: l => let* b := if is_node v then contains v item else Ok false in if b then Ok true else any_arg l
            end) args
  | _ => Err TypeError
  end.
End Eq.
