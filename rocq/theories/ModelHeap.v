(** Tensors as objects: which of them a merge writes to.  tensor_sum assigns into one of its arguments
    (builtin/merge_methods/__init__.py:155-160); [Tensor.to] returns the same object when there is nothing to
    convert, so that what merging.py:672-700 (CastInputDicts) hands to a merge method can be the caller's tensor. *)
From Coq Require Import List Bool Arith ZArith.
From Verif Require Import Base ModelNum ModelDrop ModelRegion.
Import ListNotations.
Open Scope list_scope.
Open Scope nat_scope.

(** an object: its dtype (a number) and its rows; the heap maps addresses to objects *)
Record cell (A : Type) := Cell { c_dtype : nat; c_rows : list A }.
Arguments Cell {A}. Arguments c_dtype {A}. Arguments c_rows {A}.
Definition heap (A : Type) := list (cell A).

Section Heap.
  Context {A : Type}.
  (** conversion of an element from a dtype to another: any function *)
  Variable conv : nat -> nat -> A -> A.

  (** a new object *)
  Definition alloc (c : cell A) (h : heap A) : nat * heap A := (length h, h ++ [c]).
  (** an object gets another content *)
  Fixpoint update (a : nat) (c : cell A) (h : heap A) : heap A :=
    match h, a with
    | [], _ => []
    | _ :: h', O => c :: h'
    | x :: h', S a' => x :: update a' c h'
    end.

  (** [a.to(dtype=dt)]: __init__.py:819-834 *)
  Definition converted (dt : nat) (c : cell A) : cell A := Cell dt (map (conv (c_dtype c) dt) (c_rows c)).
  Definition cast_h (dt a : nat) (h : heap A) : result (nat * heap A) :=
    match nth_error h a with
    | None => Err Unmodelled     (* addresses are valid *)
    | Some c => if c_dtype c =? dt then Ok (a, h) else Ok (alloc (converted dt c) h)
    end.

  (** a merge method: it receives addresses and returns one, and may write to the heap *)
  Definition hmethod := list nat -> heap A -> result (nat * heap A).

  (** a method that computes a new tensor *)
  Definition fresh (f : list (cell A) -> result (cell A)) : hmethod := fun args h =>
    let* cs := mapM (fun a => match nth_error h a with Some c => Ok c | None => Err Unmodelled end) args in
    let* c := f cs in Ok (alloc c h).

  (** tensor_sum: 142-160; tensors of one shape with at least one dimension *)
  Definition tensor_sum_h (Ar : arith) (width offset : num Ar) : hmethod := fun args h =>
    match args with
    | [a; b] =>
      match nth_error h a, nth_error h b with
      | Some ca, Some cb =>
        if length (c_rows ca) =? length (c_rows cb) then
          match ratio_to_region Ar width offset (Z.of_nat (length (c_rows ca))) with
          | (s, e, inverted) =>
            let s := Z.to_nat s in let e := Z.to_nat e in
            if inverted
            then Ok (b, update b (Cell (c_dtype cb) (assign_slice (c_rows cb) (c_rows ca) s e)) h)
            else Ok (a, update a (Cell (c_dtype ca) (assign_slice (c_rows ca) (c_rows cb) s e)) h)
          end
        else Err Unmodelled
      | _, _ => Err Unmodelled
      end
    | _ => Err TypeError
    end.

  (** a recipe at one key: tensors of in-memory models, cast to the merge dtype [dt], and merges.  Inputs are
      evaluated from left to right (the code evaluates deeper ones first, merging.py:581). *)
  Inductive hnode := HLeaf (a : nat) | HMerge (m : hmethod) (args : list hnode).
  Section Eval.
    Variable dt : nat.
    Fixpoint heval (n : hnode) (h : heap A) {struct n} : result (nat * heap A) :=
      match n with
      | HLeaf a => cast_h dt a h
      | HMerge m args =>
        let* r := (fix each l h := match l with
                                   | [] => Ok ([], h)
                                   | x :: l' => let* r1 := heval x h in
                                                let* r2 := each l' (snd r1) in
                                                Ok (fst r1 :: fst r2, snd r2)
                                   end) args h in
        m (fst r) (snd r)
      end.
  End Eval.
End Heap.
Arguments hnode A : clear implicits.
Arguments hmethod A : clear implicits.
