(** Shapes: which shape each merge method of builtin/merge_methods/__init__.py gives, or what it
    raises, from the shapes of its arguments.  Numbers given for a tensor parameter arrive as tensors of
    shape [] (merging.py:649-669).  Operations on one tensor that keep its shape (abs, sin, nan_to_num,
    clamp by numbers, sort of a vector, ...) are left out. *)
From Coq Require Import List Bool Arith.
From Verif Require Import Base.
Import ListNotations.
Open Scope list_scope.
Open Scope nat_scope.

(** [tensor.shape] *)
Definition shape := list nat.
(** [a.shape == b.shape] *)
Definition shape_eqb (a b : shape) : bool := if list_eq_dec Nat.eq_dec a b then true else false.
(** [tensor.numel()] *)
Definition numel (s : shape) : nat := fold_right Nat.mul 1 s.

(** torch's broadcasting, from the last dimension *)
Fixpoint bc_rev (a b : shape) : result shape :=
  match a, b with
  | [], b => Ok b
  | a, [] => Ok a
  | x :: a', y :: b' =>
    let* r := bc_rev a' b' in
    if x =? y then Ok (x :: r) else if x =? 1 then Ok (y :: r) else if y =? 1 then Ok (x :: r) else Err RuntimeError
  end.
Definition bc (a b : shape) : result shape := let* r := bc_rev (rev a) (rev b) in Ok (rev r).
(** [x op= y]: the result must fit into x *)
Definition inplace (x y : shape) : result shape :=
  let* r := bc x y in if shape_eqb r x then Ok x else Err RuntimeError.
(** torch.where *)
Definition where_ (c a b : shape) : result shape := let* r := bc c a in bc r b.
(** torch.stack(l, dim=0): all of the same shape, at least one *)
Definition stack (l : list shape) : result shape :=
  match l with
  | [] => Err RuntimeError
  | s :: l' => if forallb (shape_eqb s) l' then Ok (length l :: s) else Err RuntimeError
  end.
(** mean(dim=0) and the like; a tensor of shape [] keeps its shape *)
Definition red0 (s : shape) : shape := tl s.
(** the same for the last dimension *)
Definition red_last (s : shape) : shape := removelast s.
(** mean(), norm(), ... over everything *)
Definition red_all (s : shape) : shape := [].
Definition unsqueeze_last (s : shape) : shape := s ++ [1].
Definition flatten (s : shape) : shape := [numel s].
Definition reshape (s t : shape) : result shape := if numel s =? numel t then Ok t else Err RuntimeError.

(** 34-35 *)
Definition weighted_sum_impl (a b alpha : shape) : result shape :=
  let* p := bc alpha a in let* q := bc alpha b in bc p q.
(** 17-31 when alpha is neither 0 nor 1 *)
Definition weighted_sum := weighted_sum_impl.
(** 38-42 *)
Definition n_average (models : list shape) : result shape := let* s := stack models in Ok (red0 s).
(** 45-64 *)
Definition slerp (a b alpha : shape) : result shape :=
  let* an := bc a (red_all a) in
  let* bn := bc b (red_all b) in
  let* ab := bc an bn in
  let omega := red_all ab in
  let* ta := bc alpha omega in
  let* tb := bc alpha omega in
  let* ca := bc an ta in
  let* cb := bc bn tb in
  let* sum := bc ca cb in
  let* res := bc sum omega in
  let* norms := weighted_sum_impl (red_all a) (red_all b) alpha in
  inplace res norms.
(** 67-77: [a.addcmul(b, alpha)] *)
Definition add_difference (a b alpha : shape) : result shape := let* p := bc b alpha in bc a p.
(** 80-85 *)
Definition subtract (a b : shape) : result shape := bc a b.
(** 88-97 *)
Definition perpendicular_component (a b : shape) : result shape :=
  let* an := bc a (red_all a) in
  let* bn := bc b (red_all a) in
  let* p := bc an bn in
  let* q := bc a (red_all p) in
  bc b q.
(** 100-109 *)
Definition geometric_sum (a b alpha : shape) : result shape :=
  let* p := bc a alpha in let* q := bc b alpha in bc p q.
(** 137-139 *)
Definition add_cosine_generic (a b alpha similarity : shape) : result shape :=
  let* k := bc similarity alpha in weighted_sum_impl a b k.
(** 112-121; normalize and cosine_similarity along dimension 0 *)
Definition add_cosine_a (a b alpha : shape) : result shape :=
  let* ab := bc a b in add_cosine_generic a b alpha (red0 ab).
(** 124-133 *)
Definition add_cosine_b (a b alpha : shape) : result shape :=
  let* ab := bc a b in
  let* sim := bc (red0 ab) (red_all ab) in
  add_cosine_generic a b alpha sim.
(** 142-160: assignment to a slice of the first dimension, from the same slice *)
Definition tensor_sum (a b : shape) (inverted wide : bool) : result shape :=
  match a with
  | [] => Ok (if wide then b else a)
  | n :: a' =>
    match b with
    | m :: b' =>
      if negb (n =? m) then Err Unmodelled
      else if inverted then let* _ := inplace b' a' in Ok b else let* _ := inplace a' b' in Ok a
    | [] => Err IndexError
    end
  end.
(** 163-186 *)
Definition top_k_tensor_sum (a b : shape) : result shape :=
  let a_flat := flatten a in
  let* m := bc (red_all a) a_flat in
  if numel a <? numel b then Err RuntimeError  (* gather: an index is out of range *)
  else
    let mask := flatten b in
    let* p := bc mask a_flat in
    let* q := bc mask (flatten b) in
    let* r := bc p q in
    reshape r a.
(** 218-246 *)
Definition train_difference_mask (a b c alpha : shape) : result shape :=
  let* ba := bc b a in let* bc' := bc b c in let* d := bc ba bc' in let* q := bc ba d in bc alpha q.
Definition add_opposite_mask (a b c alpha : shape) : result shape :=
  let* ab := bc a b in let* s := bc a b in let* t := bc s c in let* d := bc ab t in let* q := bc ab d in bc alpha q.
Definition add_strict_opposite_mask (a b c alpha : shape) : result shape :=
  let* ac := bc a c in let* bc' := bc b c in let* threshold := bc ac bc' in
  let* ca := bc c a in let* p := bc ca bc' in let* q := bc p threshold in bc alpha q.
(** 249-257 *)
Definition select_max_delta (a b alpha : shape) : result shape :=
  let* a_abs := bc a (red_all a) in let* b_abs := bc b (red_all b) in
  let* p := bc alpha a_abs in let* q := bc alpha b_abs in
  let* c := bc p q in where_ c a b.
(** matmul of matrices *)
Definition matmul (a b : shape) : result shape :=
  match a, b with [n; k], [k'; m] => if k =? k' then Ok [n; m] else Err RuntimeError | _, _ => Err RuntimeError end.
(** 260-274.  [d.cov] takes the rows of d for variables; its rows are the entries of the tensor. *)
Definition select_max_white_delta (a b alpha : shape) : result shape :=
  let* an := bc a (red_all a) in let* bn := bc b (red_all b) in
  let* st := stack [flatten an; flatten bn] in
  let d := rev st in                                         (* dim=-1 *)
  let cov := match d with [1; _] => [] | [n; _] => [n; n] | _ => [] end in
  let* vs := match cov with [n; m] => Ok cov | _ => Err RuntimeError end in  (* eigh *)
  let* w1 := matmul vs cov in let* w := matmul w1 (rev vs) in
  let* wd := matmul w d in
  match rev wd with
  | [two; n] =>
    if negb (two =? 2) then Err ValueError else
    let* p := bc alpha [n] in let* q := bc alpha [n] in
    let* c := bc p q in where_ c a b
  | _ => Err ValueError
  end.
(** 277-296 *)
Definition multiply_quotient (a b c alpha : shape) : result shape :=
  let* ac := bc a c in let* bc' := bc b c in
  let* threshold := bc ac bc' in
  let* p := bc ac bc' in let* q := bc p threshold in
  let* alpha := inplace alpha q in
  let* quot := bc b c in let* pw := bc quot alpha in
  let* res := bc a pw in where_ res a res.
(** 299-325, whatever alpha and tilt are; [irfftn(x, s=shape)] *)
Definition crossover (a b : shape) (fourier : bool) : result shape :=
  if fourier then let* _ := bc a b in Ok a else weighted_sum_impl a b [].
(** 451-474 *)
Definition reduce_bc (l : list shape) : result shape :=
  match l with [] => Err TypeError | s :: l' => fold_left (fun acc t => let* x := acc in bc x t) l' (Ok s) end.
Definition clamp (a : shape) (bounds : list shape) (stiff : bool) : result shape :=
  let* maxs := reduce_bc bounds in
  let* mins := reduce_bc bounds in
  let* lim :=
    (if stiff then
       let* st := stack bounds in
       let average := red0 st in
       let step acc bound :=
         (let* x := acc in
          let* c1 := bc x bound in let* c2 := bc bound average in let* c := bc c1 c2 in where_ c bound x) in
       let* sp := fold_left step bounds (Ok maxs) in
       bc maxs sp
     else Ok maxs) in
  let* lim' :=
    (if stiff then
       let* st := stack bounds in
       let average := red0 st in
       let step acc bound :=
         (let* x := acc in
          let* c1 := bc x bound in let* c2 := bc bound average in let* c := bc c1 c2 in where_ c bound x) in
       let* sp := fold_left step bounds (Ok mins) in
       bc mins sp
     else Ok mins) in
  let* hi := bc a lim' in bc hi lim.
(** 477-481 *)
Definition copy_distribution (a : shape) : result shape :=
  let* p := bc a (red_all a) in bc p (red_all a).
(** 576-580 *)
Definition filter_top_k (a : shape) : result shape :=
  let* f := bc a (red_all (flatten a)) in bc a f.
(** 537-573: the stacked deltas and the counts *)
Definition ties_sum_deltas (models : list shape) : result (shape * shape) :=
  let* fs := mapM filter_top_k models in
  let* deltas := stack fs in
  let final := red0 deltas in
  let* filters := bc deltas final in
  let* fd := bc deltas filters in
  Ok (fd, red0 filters).
(** 525-534 *)
Definition ties_sum (models : list shape) : result shape :=
  let* (fd, counts) := ties_sum_deltas models in bc (red0 fd) counts.
(** 737-749 *)
Fixpoint neighbours (l : list shape) : list (shape * shape) :=
  match l with a :: ((b :: _) as l') => (a, b) :: neighbours l' | _ => [] end.
Definition get_model_stock_t (deltas : list shape) : result shape :=
  let* cosines := mapM (fun ab => let* ab := bc (fst ab) (snd ab) in Ok (red_last ab)) (neighbours deltas) in
  let* st := stack cosines in
  Ok (unsqueeze_last (red0 st)).
(** 721-732 *)
Definition model_stock (deltas : list shape) : result shape :=
  let* avg := n_average deltas in
  let* t := get_model_stock_t deltas in
  bc t avg.
(** 781-786 *)
Definition weighted_average_tuple (points : list shape) : result shape :=
  let* ps := mapM (fun p => bc p []) points in
  let* st := stack ps in
  bc (red0 st) [].
Definition distances (median : shape) (points : list shape) : result shape :=
  let* ds := mapM (fun p => let* x := bc p median in Ok (red_all x)) points in stack ds.
(** 753-778; every round of the loop has the shapes of the first *)
Definition geometric_median (models : list shape) : result shape :=
  if length models =? 0 then Err IndexError else
  let weights := [length models] in
  let* median := weighted_average_tuple models in
  let* ds := distances median models in
  let* obj := bc ds weights in
  let* new_weights := bc weights ds in
  weighted_average_tuple models.
(** 486-512; torch.unbind gives the slices of the first dimension *)
Definition unbind (s : shape) : list shape := match s with n :: s' => repeat s' n | [] => [] end.
Definition ties_sum_extended (models : list shape) (apply_stock apply_median : bool) : result shape :=
  let* (fd, counts) := ties_sum_deltas models in
  if apply_median then
    let* t := (if apply_stock then Ok [] else get_model_stock_t (unbind fd)) in
    let* p := bc (red0 fd) t in bc p counts
  else geometric_median (unbind fd).
(** 583-619 *)
Definition dropout (deltas : list shape) : result shape :=
  match deltas with
  | [] => Ok []
  | d0 :: _ =>
    let* st := stack deltas in
    let mask := d0 in                        (* each of [masks] *)
    if negb (shape_eqb mask d0) then Err IndexError  (* final_delta[mask] *)
    else bc d0 (red0 (length deltas :: mask))
  end.
(** 658-708 *)
Definition ties_sum_with_dropout (deltas : list shape) (apply_stock apply_median : bool) : result shape :=
  match deltas with
  | [] => Err IndexError
  | _ =>
    let* ds := mapM (fun d => bc d d) deltas in
    let* r := ties_sum_extended ds apply_stock apply_median in bc r []
  end.
(** 789-803 for target ranks that torch_svd_lowrank takes *)
Definition truncate_rank (a : shape) (q : nat) : result shape :=
  match a with
  | [] | [_] => Ok a
  | m :: a' =>
    let n := numel a' in
    let u := [m; q] in let vt := [q; n] in
    let* us := matmul u [q; q] in let* r := matmul us vt in reshape r a
  end.
