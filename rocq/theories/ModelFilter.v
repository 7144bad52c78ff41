(** Model of create_filter and of the early returns of crossover: builtin/merge_methods/__init__.py:299-379,
    in exact real arithmetic.  The Fourier transforms of crossover (319-325) are not modelled here. *)
From Coq Require Import Reals List Bool Arith ZArith Floats.SpecFloat.
From Verif Require Import Base ModelNum.
Import ListNotations.
Open Scope list_scope.
Open Scope R_scope.

(** [x < y] *)
Definition rltb (x y : R) : bool := if Rlt_dec x y then true else false.

(** torch.linspace(a, b, n)[k] *)
Definition linspace (a b : R) (n k : nat) : R :=
  if (n =? 1)%nat then a else a + (b - a) * INR k / INR (n - 1).

(** one entry of a gradient: 348-357; [last] is [i == 0] of the reversed enumeration *)
Definition gradient (last : bool) (s k : nat) : R :=
  if last || (s =? 1)%nat then linspace 0 1 s k
  else
    (if (k <? s - s / 2)%nat then linspace 0 (INR ((s - 1) / 2)) (s - s / 2) k
     else linspace (INR (s / 2)) 1 (s / 2) (k - (s - s / 2))) / INR (s / 2).
Fixpoint gradients (shape idx : list nat) : list R :=
  match shape, idx with
  | s :: shape', k :: idx' => gradient (match shape' with [] => true | _ => false end) s k :: gradients shape' idx'
  | _, _ => []
  end.
(** the mesh at one index: 359-363; the empty shape, on which gradients[0] raises, gives 0 *)
Definition mesh (shape idx : list nat) : R :=
  let g := gradients shape idx in
  if (1 <? length shape)%nat then sqrt (rsum (map (fun x => x ^ 2) g) / INR (length shape)) else nth 0 g 0.

(** [.clip(0, 1)]: __init__.py:375 *)
Definition clip01 (x : R) : R := Rmin (Rmax x 0) 1.
(** 1 / math.tan(x): written as a quotient that is also defined where the tangent is infinite (where
    the code gets 1 / 1.6e16) *)
Definition cot (x : R) : R := cos x / sin x.
Definition tiny : R := 1 / 10000000000.
Definition b2r (b : bool) : R := if b then 1 else 0.

(** the filter at a point of the mesh: 365-375, alpha and tilt already normalized *)
Definition filter_raw (alpha tilt m : R) : R :=
  if rltb tilt tiny || rltb (Rabs (tilt - 4)) tiny then b2r (rltb (1 - alpha) m)
  else if rltb (Rabs (tilt - 2)) tiny then b2r (rltb m (1 - alpha))
  else
    let c := cot (PI * tilt / 2) in
    clip01 (if rleb tilt 1 || (rltb 2 tilt && rleb tilt 3)
            then m * c + alpha * c + alpha - c
            else m * c - alpha * c + alpha).
(** 337-346, 377-379; [tilt // 4 * 4] is an integer *)
Definition filter_at (alpha tilt m : R) : R :=
  let tilt := tilt - IZR (Int_part (tilt / 4) * 4) in
  if rltb 2 tilt then 1 - filter_raw (1 - alpha) tilt m else filter_raw alpha tilt m.
Definition create_filter (shape : list nat) (alpha tilt : R) (idx : list nat) : result R :=
  if rleb 0 alpha && rleb alpha 1 then Ok (filter_at alpha tilt (mesh shape idx)) else Err ValueError.
