(** Numbers in memory and in files: the byte order of the machine in [tensor_to_bytes] (streaming.py:337-366) and in
    [torch.frombuffer] (streaming.py:167), and the bits of a floating point number. *)
From Coq Require Import List Bool Arith NArith ZArith Ascii.
From Flocq Require Import Core BinarySingleNaN Binary Bits.
From Verif Require Import Base ModelStream ModelRound.
Import ListNotations.
Open Scope list_scope.
Open Scope nat_scope.

(** [sys.byteorder] *)
Inductive endian := Little | Big.

(** the [w] bytes at which a machine keeps the number with bits [n], and the bits of what it finds in memory *)
Definition in_memory (e : endian) (w : nat) (n : N) : list byte :=
  match e with Little => le_bytes w n | Big => rev (le_bytes w n) end.
Definition bits_at (e : endian) (mem : list byte) : N :=
  match e with Little => le_value mem | Big => le_value (rev mem) end.

(** the bytes in groups of [w], by recursion on [fuel] *)
Fixpoint groups_of (fuel w : nat) (l : list byte) : list (list byte) :=
  match fuel, l with
  | S fuel', _ :: _ => firstn w l :: groups_of fuel' w (skipn w l)
  | _, _ => []
  end.
(** the bytes in groups of [w]: the elements of torch.frombuffer (streaming.py:167) *)
Definition groups (w : nat) (l : list byte) : list (list byte) := groups_of (length l) w l.

(** streaming.py:346-362, NPDTYPES: the size of the numpy type that stands for a dtype; the unsigned types
    other than uint8 have none *)
Definition numpy_size (d : ModelStream.dtype) : option nat :=
  match d with
  | F64 | I64 => Some 8
  | F32 | I32 => Some 4
  | F16 | BF16 | I16 => Some 2
  | I8 | U8 | BOOL | F8_E4M3 | F8_E5M2 => Some 1
  | U64 | U32 | U16 => None
  end.
(** streaming.py:337-366 for a tensor that fills its storage [mem]: an empty one has no address; on a
    big-endian machine the bytes of every number are swapped *)
Definition to_file (e : endian) (d : ModelStream.dtype) (mem : list byte) : result (list byte) :=
  match mem, e with
  | [], _ => Ok []
  | _, Little => Ok mem
  | _, Big =>
    match numpy_size d with
    | Some w => Ok (flat_map (@rev byte) (groups w mem))
    | None => Err KeyError
    end
  end.
(** streaming.py:167, [torch.frombuffer]: the bytes of the file are the memory of the tensor *)
Definition from_file (e : endian) (d : ModelStream.dtype) (bytes : list byte) : list N :=
  map (bits_at e) (groups (dtype_size d) bytes).

(** An IEEE format: bits of the fraction and of the exponent, after the sign bit *)
Record layout := Layout {
  mw : Z;
  ew : Z;
  mw_pos : (0 < mw)%Z;
  ew_pos : (0 < ew)%Z;
  mw_gt : Prec_gt_0 (mw + 1);
  mw_lt : Prec_lt_emax (mw + 1) (2 ^ (ew - 1)) }.
Definition dtype_of (f : layout) : dtype := Dtype (mw f + 1) (2 ^ (ew f - 1)) (mw_gt f) (mw_lt f).
Definition float64_layout : layout := Layout 52 11 eq_refl eq_refl eq_refl eq_refl.
Definition float32_layout : layout := Layout 23 8 eq_refl eq_refl eq_refl eq_refl.
Definition float16_layout : layout := Layout 10 5 eq_refl eq_refl eq_refl eq_refl.
Definition bfloat16_layout : layout := Layout 7 8 eq_refl eq_refl eq_refl eq_refl.
Definition float8_e5m2_layout : layout := Layout 2 5 eq_refl eq_refl eq_refl eq_refl.
(** streaming.py:369-390, the dtypes that are IEEE formats *)
Definition layout_of (d : ModelStream.dtype) : option layout :=
  match d with
  | F64 => Some float64_layout
  | F32 => Some float32_layout
  | F16 => Some float16_layout
  | BF16 => Some bfloat16_layout
  | F8_E5M2 => Some float8_e5m2_layout
  | _ => None
  end.

(** the number that bits stand for, and the bits of a number; [nan] is the NaN of the machine *)
Definition number (f : layout) (n : N) : num (dtype_of f) :=
  B2BSN _ _ (binary_float_of_bits (mw f) (ew f) (mw_pos f) (ew_pos f) (mw_lt f) (Z.of_N n)).
Definition a_nan (f : layout) : Type :=
  { x : Binary.binary_float (mw f + 1) (2 ^ (ew f - 1)) | Binary.is_nan _ _ x = true }.
Definition bits (f : layout) (nan : a_nan f) (x : num (dtype_of f)) : N :=
  Z.to_N (bits_of_binary_float (mw f) (ew f) (BSN2B _ _ nan x)).
