(** Merging entry by entry, and state dicts that fit together *)
From Coq Require Import String List NArith Bool.
From Verif Require Import Base ModelKeys.
Import ListNotations.

(** one entry of the result is made of the entries of the inputs at the same place; tensors of different shapes do not
    fit (torch would broadcast some; the theorems never need them) *)
Definition entrywise {A B} (f : list A -> B) (ts : list (tensor A)) : result (tensor B) :=
  match ts with
  | [] => Err RuntimeError
  | t :: _ =>
    if forallb (fun u => if list_eq_dec N.eq_dec (t_shape u) (t_shape t) then true else false) ts
    then Ok (mk_tensor (t_shape t) (fun i => f (map (fun u => t_at u i) ts)))
    else Err RuntimeError
  end.
(** the same for state dicts, key by key *)
Definition merged {A B} (f : list A -> B) (sds : list (state_dict A)) : state_dict B := fun k =>
  let* ts := mapM (fun sd => sd k) sds in entrywise f ts.

(** all have the same keys, with tensors of the same shapes *)
Definition alike {A} (sds : list (state_dict A)) : Prop := forall k,
  (exists e, forall sd, In sd sds -> sd k = Err e) \/
  (exists s, forall sd, In sd sds -> exists t, sd k = Ok t /\ t_shape t = s).

(** the same exception, or the same shape and entries *)
Definition same {A} (r r' : result (tensor A)) : Prop :=
  match r, r' with
  | Err e, Err e' => e = e'
  | Ok t, Ok t' => t_shape t = t_shape t' /\ forall i, t_at t i = t_at t' i
  | _, _ => False
  end.
