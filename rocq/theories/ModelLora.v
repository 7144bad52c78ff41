(** LoRA layouts: names, late-bound converters and composition
    (sd_mecha/extensions/builtin/lycoris.py). *)
From Coq Require Import String Ascii List Bool Arith NArith Reals.
From Verif Require Import Base PyStr Dec ModelNum ModelKeys ModelKeyConv.
Import ListNotations.
Open Scope string_scope.
Open Scope list_scope.
Open Scope nat_scope.

(** ** Tensor operations of [torch] used here, on shape-and-entries tensors *)

(** [range(n)] as indices, and a sum over it *)
Definition indices (n : N) : list N := map N.of_nat (seq 0 (N.to_nat n)).
Definition sum_to (n : N) (f : N -> R) : R := rsum (map f (indices n)).

(** [t.numel()] *)
Definition numel {A} (t : tensor A) : N := fold_right N.mul 1%N (t_shape t).

(** [t * s] for a scalar [s] *)
Definition scale (t : tensor R) (s : R) : tensor R := mk_tensor (t_shape t) (fun i => (t_at t i * s)%R).

(** [a @ b] for two matrices; operands of other ranks are not modelled *)
Definition matmul (a b : tensor R) : result (tensor R) :=
  match t_shape a, t_shape b with
  | [m; k], [k'; n] =>
      if (k =? k')%N then
        Ok (mk_tensor [m; n] (fun idx => match idx with
              | [i; j] => sum_to k (fun l => (t_at a [i; l] * t_at b [l; j])%R)
              | _ => 0%R end))
      else Err RuntimeError
  | _, _ => Err Unmodelled
  end.

(** [t.squeeze(3).squeeze(2)] of a 4-dimensional tensor: drops a trailing
    dimension of size one, then the one before it *)
Definition squeeze_trailing (t : tensor R) : result (tensor R) :=
  match t_shape t with
  | [a; b; h; w] =>
      if (w =? 1)%N then
        if (h =? 1)%N then Ok (mk_tensor [a; b] (fun idx => t_at t (idx ++ [0%N; 0%N])))
        else Ok (mk_tensor [a; b; h] (fun idx => t_at t (idx ++ [0%N])))
      else if (h =? 1)%N then Ok (mk_tensor [a; b; w] (fun idx => match idx with
              | [i; j; x] => t_at t [i; j; 0%N; x] | _ => 0%R end))
      else Ok t
  | _ => Err IndexError
  end.

(** [t.unsqueeze(2).unsqueeze(3)] of a matrix *)
Definition unsqueeze_trailing (t : tensor R) : tensor R :=
  mk_tensor (t_shape t ++ [1%N; 1%N]) (fun idx => t_at t (firstn (length (t_shape t)) idx)).

(** [t.permute(1, 0, 2, 3)] *)
Definition permute_1023 (t : tensor R) : result (tensor R) :=
  match t_shape t with
  | [a; b; c; d] => Ok (mk_tensor [b; a; c; d] (fun idx => match idx with
        | i :: j :: rest => t_at t (j :: i :: rest) | _ => 0%R end))
  | _ => Err RuntimeError
  end.

(** [torch.nn.functional.conv2d(input, weight)] without bias, stride 1, no padding *)
Definition conv2d (inp w : tensor R) : result (tensor R) :=
  match t_shape inp, t_shape w with
  | [n; c; h; wd], [o; c'; kh; kw] =>
      if (c =? c')%N && (kh <=? h)%N && (kw <=? wd)%N then
        Ok (mk_tensor [n; o; (h - kh + 1)%N; (wd - kw + 1)%N] (fun idx => match idx with
              | [b; f; y; x] => sum_to c (fun ch => sum_to kh (fun dy => sum_to kw (fun dx =>
                    (t_at inp [b; ch; (y + dy)%N; (x + dx)%N] * t_at w [f; ch; dy; dx])%R)))
              | _ => 0%R end))
      else Err RuntimeError
  | _, _ => Err RuntimeError
  end.

(** lycoris.py:35-55 ([compose_lora_up_down]).  The entries are real numbers.
    [alpha] is a 0-dimensional tensor (another shape would broadcast and is not
    modelled); [down.size(0)] of a 0-dimensional tensor raises. *)
Definition compose_lora (sd : state_dict R) (key : string) : result (tensor R) :=
  let* alpha := sd (cat [key; ".alpha"]) in
  let* down := sd (cat [key; ".lora_down.weight"]) in
  let* up := sd (cat [key; ".lora_up.weight"]) in
  let* dim := match t_shape down with [] => Err IndexError | d :: _ => Ok d end in
  let* a := match t_shape alpha with [] => Ok (t_at alpha []) | _ => Err Unmodelled end in
  let s := (a / INR (N.to_nat dim))%R in
  let '(up, down) := if (numel up <=? numel down)%N then (scale up s, down) else (up, scale down s) in
  if length (t_shape down) =? 2 then matmul up down
  else if list_eq_dec N.eq_dec (firstn 2 (skipn 2 (t_shape down))) [1%N; 1%N] then
    let* u := squeeze_trailing up in
    let* d := squeeze_trailing down in
    let* m := matmul u d in
    Ok (unsqueeze_trailing m)
  else
    let* d := permute_1023 down in
    let* c := conv2d d up in
    permute_1023 c.

(** ** Names *)

(** lycoris.py:109-111 *)
Definition lora_suffixes : list string := ["lora_up.weight"; "lora_down.weight"; "alpha"].

(** [dtype.is_floating_point], and what line 94 makes of it ([None] has no such
    attribute, so the default [True] counts) *)
Definition is_floating (d : option dtype) : bool :=
  match d with Some int64 | Some int32 => false | _ => true end.

(** lycoris.py:97-100: the dotted name without a last word "weight", joined by "_" *)
Definition flat_name (key : string) : chars :=
  let ws := py_split "." (s2l key) in
  let ws := if list_eq_dec ascii_dec (last ws []) (s2l "weight") then removelast ws else ws in
  py_join (s2l "_") ws.

(** lycoris.py:85-106 with the only algorithm there is; the metadata of the
    new keys is not represented *)
Definition to_lycoris_keys (keys : list (string * option dtype)) (prefix : string) : list string :=
  fold_left (fun acc kd =>
    if suffixed "bias" (fst kd) || negb (is_floating (snd kd)) then acc
    else fold_left (fun acc suffix =>
           let k := cat [prefix; "_"; l2s (flat_name (fst kd)); "."; suffix] in
           if existsb (String.eqb k) acc then acc else acc ++ [k]) lora_suffixes acc)
    keys [].

(** lycoris.py:58-82: a layout of a base config *)
Record lyco := mk_lyco { ly_base : yaml_config; ly_id : string; ly_prefix : string }.
(** lines 70-79 *)
Definition lyco_keys (l : lyco) : list string :=
  flat_map (fun comp => to_lycoris_keys (map (fun e => (ke_key e, Some (ke_dtype e))) (snd comp)) (ly_prefix l))
           (yc_components (ly_base l)).

(** lycoris.py:10-17: the loop's iterations, in order *)
Definition lyco_configs (bases : list yaml_config) : list lyco :=
  flat_map (fun b => [mk_lyco b "lycoris" "lycoris"; mk_lyco b "kohya" "lora"]) bases.

(** lycoris.py:26-32: what a converter does when it runs.  [cell] is the
    content of the captured variable [lyco_config] at that time. *)
Definition lora_to_base (cell : lyco) (lora : state_dict R) (key : string) : result (tensor R) :=
  match to_lycoris_keys [(key, None)] (ly_prefix cell) with
  | [] => Err (StateDictKeyError key)
  | k :: _ => compose_lora lora (l2s (hd [] (py_split "." (s2l k))))
  end.

(** lycoris.py:10-32: [_register_all_lycoris_configs].  Every iteration defines
    a function over the same variable, and all of them run after the loop, when
    the variable holds the last iteration's layout.  The converter registered
    for [l] therefore ignores [l]. *)
Definition lora_converter (bases : list yaml_config) (l : lyco) : state_dict R -> string -> result (tensor R) :=
  lora_to_base (last (lyco_configs bases) l).
