(** What a task should compute (C101): its files are plain dictionaries of tensors, and there is nobody else. *)
From Coq Require Import String List Bool Arith NArith.
From Verif Require Import Base Json ModelStream ModelShared.
Import ListNotations.

(** the bytes of the file from [a] to [b] *)
Definition part (f : list byte) (a b : nat) : list byte := firstn (b - a) (skipn a f).

(** a safetensors file as a dictionary: header entries with the bytes they point at *)
Definition as_dict (f : list byte) (hsize : nat) (h : list (string * json)) (k : string) : result tensor :=
  match dget String.eqb k h with
  | Some v =>
    if String.eqb k "__metadata__" then Err (StateDictKeyError k)
    else let* e := entry_info v in
         let '(d, sh, a, b) := e in
         Ok (Tensor d sh (part f (8 + hsize + N.to_nat a) (8 + hsize + N.to_nat b)))
  | None => Err (StateDictKeyError k)
  end.

Fixpoint alone {V} (files : list (string -> result tensor)) (given : list tensor) (p : task V) : result V :=
  match p with
  | Done r => r
  | Ask i k next =>
    match nth_error files i with
    | None => alone files given (next (Some IndexError))
    | Some dict =>
      match dict k with
      | Ok t => alone files (given ++ [t]) (next None)
      | Err e => alone files given (next (Some e))
      end
    end
  | Look n next => alone files given (next (nth_error given n))
  end.
