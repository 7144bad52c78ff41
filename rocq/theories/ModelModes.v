(** Model of dropout, ties_sum_extended, ties_sum_with_dropout and model_stock:
    builtin/merge_methods/__init__.py:486-512, 583-619, 658-708, 721-749, in exact real arithmetic.
    Random draws are arguments. *)
From Coq Require Import Reals List Bool Arith ZArith.
From Verif Require Import Base ModelNum ModelDrop.
Import ListNotations.
Open Scope list_scope.
Open Scope R_scope.

(** ** dropout: 583-619 *)

(** [masks & 2 ** i != 0] *)
Definition kept (mask t : nat) : bool := Nat.testbit mask t.
(** one element of every delta, [mask] drawn for it: 607-612, 619; [x.clamp(1)] is at least 1 *)
Definition kept_sum (mask : nat) (col : list R) : R :=
  rsum (map2 (fun t x => if kept mask t then x else 0) (seq 0 (length col)) col).
Definition kept_count (mask n : nat) : R := rsum (map (fun t => if kept mask t then 1 else 0) (seq 0 n)).
(** 614-618; [1.0 - probability] is positive where this is reached with a finite power *)
Definition rescalar (p rescale : R) : R := if Req_EM_T p 1 then 1 else Rpower (1 - p) rescale.
Definition dropout1 (p rescale : R) (mask : nat) (col : list R) : R :=
  kept_sum mask col / Rmax (kept_count mask (length col)) 1 / rescalar p rescale.

(** rng.choice(ks, size, p=pmf) raises ValueError unless pmf is a distribution; [draw] is the
    sequence of outcomes *)
Definition choice (draw : nat -> nat) (pmf : option (list R)) (size : nat) : result (list nat) :=
  match pmf with
  | None => Err ValueError
  | Some l => if forallb (rleb 0) l && reqb (rsum l) 1 then Ok (map draw (seq 0 size)) else Err ValueError
  end.
(** [overlap % 2 == 1] *)
Definition is_odd (x : R) : bool := reqb x (IZR (Int_part x)) && Z.odd (Int_part x).
(** 583-619.  No deltas: the number 0.  With an odd overlap [masks] is a tuple, which has no [sum]. *)
Definition dropout (draw : nat -> nat) (deltas : list vec) (p rescale overlap emphasis : R) : result vec :=
  match deltas with
  | [] => Ok [0]
  | d0 :: _ =>
    if is_odd overlap then Err AttributeError else
    let* ms := choice draw (overlapping_sets_pmf (length deltas) p overlap emphasis) (length d0) in
    Ok (map (fun jm => dropout1 p rescale (snd jm) (map (fun v => nth (fst jm) v 0) deltas)) (combine (seq 0 (length d0)) ms))
  end.

(** ** model_stock: 721-749.  A tensor whose last dimension is [d] is the list of its rows of [d] elements, one after
    the other *)
Definition row (d i : nat) (v : vec) : vec := firstn d (skipn (i * d) v).
(** torch.nn.CosineSimilarity: both norms are at least eps *)
Definition cosine (eps : R) (x y : vec) : R := dot x y / (Rmax (norm x) eps * Rmax (norm y) eps).
Fixpoint neighbours {A} (l : list A) : list (A * A) :=
  match l with x :: ((y :: _) as l') => (x, y) :: neighbours l' | _ => [] end.
(** get_model_stock_t for row [i]: 737-749; stacking no cosines raises *)
Definition model_stock_t (eps : R) (d : nat) (deltas : list vec) (i : nat) : result ext :=
  match neighbours deltas with
  | [] => Err RuntimeError
  | ps =>
    let n := INR (length deltas) in
    let c := mean (map (fun p => cosine eps (row d i (fst p)) (row d i (snd p))) ps) in
    Ok (fdiv (n * c) (1 + (n - 1) * c))
  end.
Definition emul (t : ext) (x : R) : ext :=
  match t with
  | Fin y => Fin (y * x)
  | PosInf => if Rlt_dec 0 x then PosInf else if Rlt_dec x 0 then NegInf else NaN
  | NegInf => if Rlt_dec 0 x then NegInf else if Rlt_dec x 0 then PosInf else NaN
  | NaN => NaN
  end.
(** division by a number that is not negative *)
Definition ediv (t : ext) (y : R) : ext := match t with Fin x => fdiv x y | _ => t end.
(** 721-732 *)
Definition model_stock (fmax : R) (d : nat) (deltas : list vec) (eps : R) : result vec :=
  let* avg := n_average deltas in
  mapM (fun j => let* t := model_stock_t eps d deltas (j / d) in Ok (nan_to_num fmax (emul t (nth j avg 0)))) (seq 0 (length avg)).

(** ** ties_sum_extended: 486-512 *)

(** the deltas of all models after the election of signs: the first result of ties_sum_deltas *)
Definition elect_deltas (vote_sgn : bool) (trimmed : list vec) : list vec :=
  map (fun v => map (fun j => nth j v 0 *
      (if reqb (sign (nth j v 0)) (elected vote_sgn (map (fun u => nth j u 0) trimmed)) then 1 else 0)) (seq 0 (length v))) trimmed.

(** __init__.py:486-512 ties_sum_extended *)
Definition ties_sum_extended (f32 : R -> R) (fmax : R) (d : nat) (models : list vec) (k : R)
    (vote_sgn apply_stock apply_median : bool) (cos_eps eps : R) (maxiter : Z) (ftol : R) : result vec :=
  let* trimmed := mapM (fun m => filter_top_k f32 m k) models in
  match trimmed with
  | [] => Err RuntimeError
  | t0 :: _ =>
    let filtered := elect_deltas vote_sgn trimmed in
    if apply_median then
      mapM (fun j =>
        let col := map (fun v => nth j v 0) trimmed in
        let* t := if apply_stock then Ok (Fin 1) else model_stock_t cos_eps d filtered (j / d) in
        Ok (nan_to_num fmax (ediv (emul t (rsum (map (fun v => nth j v 0) filtered))) (param_counts vote_sgn col)))) (seq 0 (length t0))
    else geometric_median filtered eps maxiter ftol
  end.

(** ** ties_sum_with_dropout: 658-708; [bernoulli] are the draws for each model, 0 or 1 *)
Definition isclose1 (p : R) : bool := rleb (Rabs (p - 1)) (1 / 1000000000 * Rmax (Rabs p) 1).
Definition ties_sum_with_dropout (f32 : R -> R) (fmax : R) (d : nat) (bernoulli : list vec) (deltas : list vec)
    (probability : R) (no_rescale : bool) (k : R) (vote_sgn apply_stock apply_median : bool)
    (cos_eps eps : R) (maxiter : Z) (ftol : R) : result vec :=
  match deltas with
  | [] => Err IndexError
  | _ =>
    let dropped := map2 (map2 Rmult) deltas bernoulli in
    let* v := ties_sum_extended f32 fmax d dropped k vote_sgn apply_stock apply_median cos_eps eps maxiter ftol in
    if isclose1 probability then Ok (map (fun x => x * 0) v)
    else if no_rescale then Ok (map (fun x => x / (1 - probability)) v)
    else Ok v
  end.
