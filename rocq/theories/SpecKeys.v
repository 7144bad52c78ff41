(** Specification vocabulary for the conversions between builtin layouts. *)
From Coq Require Import String Ascii List Bool Arith NArith.
From Verif Require Import Base ModelKeys.
Import ListNotations.

(** [sd] is a complete state dict of the config: every declared key is there
    with the declared shape, every other key raises. *)
Definition follows {A} (c : yaml_config) (sd : state_dict A) : Prop :=
  (forall e, In e (entries c) -> exists t, sd (ke_key e) = Ok t /\ t_shape t = ke_shape e) /\
  (forall k, ~ In k (keys c) -> sd k = Err (StateDictKeyError k)).

(** [t'] has the entries of [t]; its shape may end in additional ones. *)
Definition same_entries {A} (t t' : tensor A) : Prop :=
  exists n, t_shape t' = (t_shape t ++ repeat 1%N n)%list /\
    forall idx, length idx = length (t_shape t) -> t_at t' (idx ++ repeat 0%N n)%list = t_at t idx.

(** the keys a user's full model must have *)
Definition required (c : yaml_config) (k : string) : Prop :=
  exists e, In e (entries c) /\ ke_key e = k /\ ke_optional e = false.

Definition declared_shape (c : yaml_config) (k : string) (sh : list N) : Prop :=
  exists e, In e (entries c) /\ ke_key e = k /\ ke_shape e = sh.

(** some state dict follows any config without repeated keys *)
Definition zeros (c : yaml_config) : state_dict nat := fun k =>
  match find_entry c k with
  | Some e => Ok (mk_tensor (ke_shape e) (fun _ => 0))
  | None => Err (StateDictKeyError k)
  end.

(** ** Blocks: the block of a key, read off its dotted name.  [pieces] is the
    list of the dot-separated words. *)
Definition word (s : string) : list ascii := list_ascii_of_string s.
Inductive number : list ascii -> N -> Prop :=
| number_one : forall d, (d < 10)%N -> number [ascii_of_N (48 + d)] d
| number_more : forall w n d, number w n -> (d < 10)%N -> number (w ++ [ascii_of_N (48 + d)]) (10 * n + d).
Definition block_name (prefix : string) (n : N) (b : string) : Prop :=
  exists d1 d2, (d1 < 10)%N /\ (d2 < 10)%N /\ n = (10 * d1 + d2)%N /\
    word b = (word prefix ++ [ascii_of_N (48 + d1); ascii_of_N (48 + d2)])%list.

Inductive block_spec (last vae : string) : list (list ascii) -> string -> Prop :=
| bs_in : forall w n rest b, number w n -> block_name "IN" n b ->
    block_spec last vae (word "model" :: word "diffusion_model" :: word "input_blocks" :: w :: rest) b
| bs_mid : forall rest,
    block_spec last vae (word "model" :: word "diffusion_model" :: word "middle_block" :: rest) "M00"
| bs_out : forall w n rest b, number w n -> block_name "OUT" n b ->
    block_spec last vae (word "model" :: word "diffusion_model" :: word "output_blocks" :: w :: rest) b
| bs_final : forall rest,
    block_spec last vae (word "model" :: word "diffusion_model" :: word "out" :: rest) last
| bs_time : forall rest,
    block_spec last vae (word "model" :: word "diffusion_model" :: word "time_embed" :: rest) "BASE"
| bs_label : forall rest,
    block_spec last vae (word "model" :: word "diffusion_model" :: word "label_emb" :: rest) "BASE"
| bs_vae : forall rest, block_spec last vae (word "first_stage_model" :: rest) vae
| bs_other : forall w rest, w <> word "model" -> w <> word "first_stage_model" ->
    block_spec last vae (w :: rest) "BASE".

(** the words of a dotted name *)
Fixpoint words_joined (ws : list (list ascii)) : list ascii :=
  match ws with
  | [] => []
  | [w] => w
  | w :: ws' => (w ++ "."%char :: words_joined ws')%list
  end.
Definition words_of (k : string) (ws : list (list ascii)) : Prop :=
  ws <> [] /\ word k = words_joined ws /\ forall w, In w ws -> ~ In "."%char w.
