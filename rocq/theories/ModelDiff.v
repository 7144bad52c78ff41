(** The difference methods as merge methods that a recipe can contain, and the exported wrappers
    that combine them: builtin/merge_methods/__init__.py, merge_method_wrappers.py.  Tensors are
    lists of reals ([ModelNum]). *)
From Coq Require Import Reals String List Bool.
From Verif Require Import Base ModelEval ModelNum.
Import ListNotations.
Open Scope string_scope.
Open Scope list_scope.

(** __init__.py:67-77: [b] is looked up first *)
Definition add_difference_m : mmethod vec :=
  Method [KSd TTensor; KSd TTensor; KVal TTensor] None [] (fun args _ key =>
    match args with
    | [ISd a _; ISd b _; IVal (VT alpha)] =>
      let* y := b key in
      let* x := a key in
      match x, y with VT x', VT y' => Ok (VT (add_difference x' y' alpha)) | _, _ => Err TypeError end
    | _ => Err TypeError
    end).

(** __init__.py:80-85 *)
Definition subtract_m : mmethod vec :=
  Method [KVal TTensor; KVal TTensor] None [] (fun args _ _ =>
    match args with
    | [IVal (VT a); IVal (VT b)] => Ok (VT (subtract a b))
    | _ => Err TypeError
    end).

(** __init__.py:88-97 *)
Definition perpendicular_m : mmethod vec :=
  Method [KVal TTensor; KVal TTensor] None [] (fun args _ _ =>
    match args with
    | [IVal (VT a); IVal (VT b)] => Ok (VT (perpendicular_component a b))
    | _ => Err AttributeError
    end).

(** __init__.py:451-474 with its default [stiffness=0.0] and two bounds, which is how the wrapper
    below calls it *)
Definition clamp_m : mmethod vec :=
  Method [KVal TTensor] (Some (KVal TTensor)) [("stiffness", KVal TFloat)] (fun args kw _ =>
    match args, kw with
    | [IVal (VT a); IVal (VT b); IVal (VT c)], [("stiffness", IVal (VL (LFloat "0.0")))] =>
      let* v := clamp a [b; c] 0 in Ok (VT v)
    | _, _ => Err Unmodelled
    end).

Section Wrappers.
  (** the config inferred for the merge nodes: any *)
  Variable cfg : option config.

  (** the recipe subtract(a, b) *)
  Definition subtract_n (a b : node vec) : node vec := NMerge subtract_m [a; b] [] cfg.
  (** the recipe add_difference(a, b, alpha=alpha) *)
  Definition add_difference_n (a b alpha : node vec) : node vec := NMerge add_difference_m [a; b; alpha] [] cfg.

  (** merge_method_wrappers.py:16-46.  [a] is in weight space; with [c], so is [b] (subtract
      requires it), and the clamp uses the original [b]; without [c], [b] is in delta space
      (add_difference requires it) and clamping is refused. *)
  Definition add_difference_w (a b : node vec) (c : option (node vec)) (alpha : node vec) (clamp_to_ab : bool) : result (node vec) :=
    match c with
    | Some c' =>
      let res := add_difference_n a (subtract_n b c') alpha in
      Ok (if clamp_to_ab then NMerge clamp_m [res; a; b] [("stiffness", NLit (VL (LFloat "0.0")))] cfg else res)
    | None => if clamp_to_ab then Err TypeError else Ok (add_difference_n a b alpha)
    end.

  (** merge_method_wrappers.py:49-71 *)
  Definition add_perpendicular_w (a b c alpha : node vec) : node vec :=
    add_difference_n a (NMerge perpendicular_m [subtract_n a c; subtract_n b c] [] cfg) alpha.
End Wrappers.
