(** What the bytes of a file and the bits of a number mean. *)
From Coq Require Import List Bool Arith NArith ZArith Reals Ascii.
From Flocq Require Import Core.
From Verif Require Import Base ModelStream.
Import ListNotations.
Open Scope list_scope.
Open Scope nat_scope.

(** The safetensors format: the number [k] of a tensor is at the bytes [k * w, ..., k * w + w - 1] of its data, the
    first of which counts 1, the next 256, and so on. *)
Fixpoint upto (w : nat) (f : nat -> N) : N :=
  match w with 0 => 0%N | S w' => (upto w' f + f w')%N end.
Definition file_number (w k : nat) (data : list byte) : N :=
  upto w (fun i => (N_of_ascii (nth (k * w + i) data zero_byte) * 256 ^ N.of_nat i)%N).

(** IEEE 754: the fields of a number from its bits, and its value *)
Definition fraction (m e n : Z) : Z := (n mod 2 ^ m)%Z.
Definition exponent (m e n : Z) : Z := (n / 2 ^ m mod 2 ^ e)%Z.
Definition negative (m e n : Z) : bool := (2 ^ (m + e) <=? n)%Z.
Definition ieee_value (m e n : Z) : R :=
  ((if negative m e n then -1 else 1) *
   (if (exponent m e n =? 0)%Z
    then IZR (fraction m e n) * powerRZ 2 (2 - 2 ^ (e - 1) - m)%Z
    else IZR (2 ^ m + fraction m e n) * powerRZ 2 (exponent m e n + 1 - 2 ^ (e - 1) - m)%Z))%R.

(** The floating point formats by name: bits of the fraction and of the exponent (IEEE 754 binary64, binary32 and
    binary16, bfloat16, and the 8-bit format called e5m2). *)
Definition widths (d : dtype) : option (Z * Z) :=
  match d with
  | F64 => Some (52, 11)%Z
  | F32 => Some (23, 8)%Z
  | F16 => Some (10, 5)%Z
  | BF16 => Some (7, 8)%Z
  | F8_E5M2 => Some (2, 5)%Z
  | _ => None
  end.
