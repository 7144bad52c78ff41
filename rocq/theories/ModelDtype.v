(** get_dtype, get_device and cast on tensors that have a dtype and a device *)
From Coq Require Import String List Bool ZArith.
From Verif Require Import Base ModelEval.
Import ListNotations.
Open Scope string_scope.
Open Scope list_scope.

(** torch dtypes.  [Other]: one the library has no name for, such as torch.complex64 *)
Inductive tdtype := Float64 | Int64 | Float32 | Int32 | Float16 | Bfloat16 | Int16 | Float8e4 | Float8e5 | Int8 | TBoolean
  | Uint64 | Uint32 | Uint16 | Uint8 | Other (n : nat).

(** cast_dtype_map: builtin/merge_methods/__init__.py:837-856 *)
Definition dtype_map : list (string * tdtype) :=
  [("float64", Float64); ("int64", Int64); ("float32", Float32); ("int32", Int32); ("float16", Float16); ("bfloat16", Bfloat16);
   ("int16", Int16); ("float8_e4m3fn", Float8e4); ("float8_e5m2", Float8e5); ("int8", Int8); ("bool", TBoolean);
   ("uint64", Uint64); ("uint32", Uint32); ("uint16", Uint16); ("uint8", Uint8)].

(** [==] of two torch dtypes *)
Definition tdtype_eqb (a b : tdtype) : bool :=
  match a, b with
  | Float64, Float64 | Int64, Int64 | Float32, Float32 | Int32, Int32 | Float16, Float16 | Bfloat16, Bfloat16 | Int16, Int16
  | Float8e4, Float8e4 | Float8e5, Float8e5 | Int8, Int8 | TBoolean, TBoolean
  | Uint64, Uint64 | Uint32, Uint32 | Uint16, Uint16 | Uint8, Uint8 => true
  | Other m, Other n => Nat.eqb m n
  | _, _ => false
  end.

(** cast_dtype_map_reversed: builtin/merge_methods/__init__.py:857 *)
Definition dtype_names : list (tdtype * string) := map (fun p => (snd p, fst p)) dtype_map.

(** a tensor: its dtype, the name of its device, its content *)
Record tensor (A : Type) := Tensor { tn_dtype : tdtype; tn_device : string; tn_data : A }.
Arguments Tensor {A} tn_dtype tn_device tn_data.
Arguments tn_dtype {A}.
Arguments tn_device {A}.
Arguments tn_data {A}.

Section Methods.
  (** [place name]: the full name of the device asked for ("cuda" is "cuda:0"), or the
      error torch raises; [convert d x]: content [x] in dtype [d].  Any functions. *)
  Context {A : Type} (place : string -> result string) (convert : tdtype -> A -> A).

  (** what [cast] does with its tensor: builtin/merge_methods/__init__.py:825-834 *)
  Definition to_tensor (device dtype : lit) (t : tensor A) : result (tensor A) :=
    let* dt := match dtype with
               | LNone => Ok (tn_dtype t)
               | LStr s => match dget String.eqb s dtype_map with Some d => Ok d | None => Err ValueError end
               | _ => Err ValueError
               end in
    let* dev := match device with
                | LNone => Ok (tn_device t)
                | LStr s => place s
                | _ => Err RuntimeError
                end in
    Ok (Tensor dt dev (convert dt (tn_data t))).
  Definition cast_to : mmethod (tensor A) := cast to_tensor.

  (** builtin/merge_methods/__init__.py:860-864 *)
  Definition get_dtype : mmethod (tensor A) :=
    Method [KVal TTensor] None [] (fun args _ _ =>
      match args with
      | [IVal (VT a)] => match dget tdtype_eqb (tn_dtype a) dtype_names with Some s => Ok (VL (LStr s)) | None => Err KeyError end
      | _ => Err AttributeError
      end).

  (** builtin/merge_methods/__init__.py:867-871 *)
  Definition get_device : mmethod (tensor A) :=
    Method [KVal TTensor] None [] (fun args _ _ =>
      match args with
      | [IVal (VT a)] => Ok (VL (LStr (tn_device a)))
      | _ => Err AttributeError
      end).

  (** the conversions of cast_node_value, merging.py:649-669: a number becomes a float32
      tensor on the cpu, a tensor becomes a number, a number another one; the contents
      ([number], [item], [between]) are any functions *)
  Context (number : lit -> A) (item : ety -> A -> result lit) (between : ety -> lit -> result lit).
  Definition tconv (e : ety) (v : value (tensor A)) : result (value (tensor A)) :=
    match e, v with
    | TTensor, VT t => Ok (VT t)
    | TTensor, VL (LStr _ | LNone) => Err TypeError
    | TTensor, VL l => Ok (VT (Tensor Float32 "cpu" (number l)))
    | _, VT t => let* l := item e (tn_data t) in Ok (VL l)
    | _, VL l => let* l' := between e l in Ok (VL l')
    end.
End Methods.
