(** Model of the bytes of a tensor: tensor_to_bytes, streaming.py:337-366, on a tensor with its memory
    layout, and of the copy [Tensor.to] makes when the dtype changes. *)
From Coq Require Import List Bool Arith Ascii.
From Verif Require Import Base.
Import ListNotations.
Open Scope list_scope.
Open Scope nat_scope.

(** a tensor: the bytes of its untyped storage, where it starts in it (in elements), its shape, its
    strides (in elements) and the number of bytes of an element *)
Record strided := Strided { st_mem : list ascii; st_offset : nat; st_shape : list nat; st_strides : list nat; st_item : nat }.

(** the number of elements of a shape: [tensor.nelement()] at streaming.py:337-345 *)
Definition prod (l : list nat) : nat := fold_right Nat.mul 1 l.

(** the place of an entry in the storage, in elements *)
Fixpoint place (strides idx : list nat) : nat :=
  match strides, idx with s :: strides', i :: idx' => s * i + place strides' idx' | _, _ => 0 end.
Definition bytes_at (mem : list ascii) (item o : nat) : list ascii := firstn item (skipn (o * item) mem).
(** [t[idx]] *)
Definition entry (t : strided) (idx : list nat) : list ascii :=
  bytes_at (st_mem t) (st_item t) (st_offset t + place (st_strides t) idx).

(** all multi-indices of a shape, the last one running fastest *)
Fixpoint indices (shape : list nat) : list (list nat) :=
  match shape with
  | [] => [[]]
  | s :: shape' => flat_map (fun i => map (cons i) (indices shape')) (seq 0 s)
  end.

(** tensor_to_bytes: streaming.py:337-345, 366 on a little-endian machine: as many bytes as the storage has,
    from the address of the first entry; [beyond] is the memory that follows the storage *)
Definition tensor_to_bytes (beyond : list ascii) (t : strided) : list ascii :=
  firstn (length (st_mem t)) (skipn (st_offset t * st_item t) (st_mem t ++ beyond)).

(** torch's [is_contiguous]: each stride is the size of what follows, where the size is not 1 *)
Fixpoint row_strides (shape strides : list nat) : bool :=
  match shape, strides with
  | [], [] => true
  | n :: shape', s :: strides' => ((n =? 1) || (s =? prod shape')) && row_strides shape' strides'
  | _, _ => false
  end.
Definition is_contiguous (t : strided) : bool := (prod (st_shape t) =? 0) || row_strides (st_shape t) (st_strides t).

(** torch's [is_non_overlapping_and_dense]: the entries fill a block of the storage, each place once *)
Definition fills (t : strided) : bool :=
  let places := map (place (st_strides t)) (indices (st_shape t)) in
  forallb (fun o => existsb (Nat.eqb o) places) (seq 0 (prod (st_shape t))).

(** [t.to(dtype=...)] for another dtype, [conv] converts an element to one of [item] bytes: the copy of a
    tensor that fills a block has the same strides and a storage of its own.  Other tensors, [None], are
    not modelled (how they are laid out depends on the version of torch) *)
Definition to_dtype (conv : list ascii -> list ascii) (item : nat) (t : strided) : option strided :=
  if fills t then
    let at_place o :=
      match find (fun idx => place (st_strides t) idx =? o) (indices (st_shape t)) with
      | Some idx => conv (entry t idx)
      | None => []
      end in
    Some (Strided (flat_map at_place (seq 0 (prod (st_shape t)))) 0 (st_shape t) (st_strides t) item)
  else None.
