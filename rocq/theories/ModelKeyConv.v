(** The builtin conversions between layouts: what each one asks the source
    state dict for, and what it does to the tensor it gets. *)
From Coq Require Import String Ascii List Bool Arith NArith.
From Verif Require Import Base PyStr Dec ModelKeys.
Import ListNotations.
Open Scope string_scope.
Open Scope list_scope.
Open Scope nat_scope.

(** ** sd_mecha/extensions/builtin/model_configs/convert_huggingface_sd_vae_to_original.py *)

(** lines 87-93 *)
Definition vae_extra_map : list (string * string) :=
  [("q", "to_q"); ("k", "to_k"); ("v", "to_v"); ("proj_out", "to_out.0")].

(** lines 76-83 *)
Definition vae_map_attn : list (string * string) :=
  [("norm.", "group_norm."); ("q.", "query."); ("k.", "key."); ("v.", "value."); ("proj_out.", "proj_attn.")].

(** lines 40-73: the literal, then the loops in order *)
Definition vae_map : list (string * string) := dict_of (
  [("nin_shortcut", "conv_shortcut"); ("norm_out", "conv_norm_out"); ("mid.attn_1.", "mid_block.attentions.0.")]
  ++ flat_map (fun i =>
       map (fun j => (cat ["encoder.down."; str i; ".block."; str j; "."],
                      cat ["encoder.down_blocks."; str i; ".resnets."; str j; "."])) (seq 0 2)
       ++ (if i <? 3 then
             [(cat ["down."; str i; ".downsample."], cat ["down_blocks."; str i; ".downsamplers.0."]);
              (cat ["up."; str (3 - i); ".upsample."], cat ["up_blocks."; str i; ".upsamplers.0."])]
           else [])
       ++ map (fun j => (cat ["decoder.up."; str (3 - i); ".block."; str j; "."],
                         cat ["decoder.up_blocks."; str i; ".resnets."; str j; "."])) (seq 0 3))
       (seq 0 4)
  ++ map (fun i => (cat ["mid.block_"; str (i + 1); "."], cat ["mid_block.resnets."; str i; "."])) (seq 0 2)).

(** lines 32-37 *)
Definition reshape_for_sd {A} (w : tensor A) : tensor A :=
  if negb (length (t_shape w) =? 1)
  then mk_tensor (t_shape w ++ [1%N; 1%N]) (fun idx => t_at w (firstn (length (t_shape w)) idx))
  else w.

(** lines 8-12: the loop over the extra map, carrying [needs_reshape] *)
Definition vae_extra_step (st : chars * bool) (p : string * string) : chars * bool :=
  let '(key, reshape) := st in
  let '(sd, fake) := p in
  if py_in (s2l (cat ["mid.attn_1."; sd; ".weight"])) key || py_in (s2l (cat ["mid.attn_1."; sd; ".bias"])) key
  then (py_replace key (s2l sd) (s2l fake), true) else (key, reshape).

(** lines 6-25: the key asked for and whether the result is reshaped *)
Definition vae_source (ldm_key : string) : string * bool :=
  let key := py_join (s2l ".") (tl (py_split "." (s2l ldm_key))) in
  let '(key, reshape) := fold_left vae_extra_step vae_extra_map (key, false) in
  let reshape := fold_left (fun r p =>
        if py_in (s2l (cat ["mid.attn_1."; snd p; ".weight"])) key then true else r) vae_extra_map reshape in
  let key := if py_in (s2l "attentions") key then replace_table vae_map_attn key else key in
  let key := replace_table vae_map key in
  (cat ["vae."; l2s key], reshape).

(** lines 5-29 *)
Definition convert_vae {A} (sd : state_dict A) (ldm_key : string) : result (tensor A) :=
  let '(key, reshape) := vae_source ldm_key in
  let* res := sd key in
  Ok (if reshape then reshape_for_sd res else res).

(** ** sd_mecha/extensions/builtin/model_configs/convert_sd1_kohya_to_original.py *)

(** lines 49-61 *)
Definition unet_map : list (string * string) :=
  [("time_embed.0.weight", "time_embedding.linear_1.weight"); ("time_embed.0.bias", "time_embedding.linear_1.bias");
   ("time_embed.2.weight", "time_embedding.linear_2.weight"); ("time_embed.2.bias", "time_embedding.linear_2.bias");
   ("input_blocks.0.0.weight", "conv_in.weight"); ("input_blocks.0.0.bias", "conv_in.bias");
   ("out.0.weight", "conv_norm_out.weight"); ("out.0.bias", "conv_norm_out.bias");
   ("out.2.weight", "conv_out.weight"); ("out.2.bias", "conv_out.bias")].

(** lines 64-72 (and convert_sdxl_diffusers_unet_to_original.py:58-66) *)
Definition unet_map_resnet : list (string * string) :=
  [("in_layers.0", "norm1"); ("in_layers.2", "conv1"); ("out_layers.0", "norm2"); ("out_layers.3", "conv2");
   ("emb_layers.1", "time_emb_proj"); ("skip_connection", "conv_shortcut")].

(** lines 116-123 (and convert_sdxl_diffusers_unet_to_original.py:110-116) *)
Definition unet_map_mid : list (string * string) :=
  ("middle_block.1.", "mid_block.attentions.0.")
  :: map (fun j => (cat ["middle_block."; str (2 * j); "."], cat ["mid_block.resnets."; str j; "."])) (seq 0 2).

(** lines 105-114 (and convert_sdxl_diffusers_unet_to_original.py:98-107) *)
Definition unet_map_samplers (i : nat) : list (string * string) :=
  [(cat ["input_blocks."; str (3 * (i + 1)); ".0.op."], cat ["down_blocks."; str i; ".downsamplers.0.conv."]);
   (cat ["output_blocks."; str (3 * i + 2); "."; if i =? 0 then "1" else "2"; "."], cat ["up_blocks."; str i; ".upsamplers.0."])].

(** lines 75-123 *)
Definition sd1_map_layer : list (string * string) := dict_of (
  flat_map (fun i =>
    flat_map (fun j =>
      (cat ["input_blocks."; str (3 * i + j + 1); ".0."], cat ["down_blocks."; str i; ".resnets."; str j; "."])
      :: (if i <? 3 then
            [(cat ["input_blocks."; str (3 * i + j + 1); ".1."], cat ["down_blocks."; str i; ".attentions."; str j; "."])]
          else [])) (seq 0 2)
    ++ flat_map (fun j =>
      (cat ["output_blocks."; str (3 * i + j); ".0."], cat ["up_blocks."; str i; ".resnets."; str j; "."])
      :: (if 0 <? i then
            [(cat ["output_blocks."; str (3 * i + j); ".1."], cat ["up_blocks."; str i; ".attentions."; str j; "."])]
          else [])) (seq 0 3)
    ++ (if i <? 3 then unet_map_samplers i else [])) (seq 0 4)
  ++ unet_map_mid).

(** lines 34-43 (the same code at convert_sdxl_diffusers_unet_to_original.py:26-35):
    the key asked for, before the prefix is added *)
Definition unet_source (map_layer map_keys : list (string * string)) (key : string) : string :=
  let k := py_join (s2l ".") (skipn 2 (py_split "." (s2l key))) in
  let k := replace_table map_layer k in
  let k := if py_in (s2l "resnets") k then replace_table unet_map_resnet k else k in
  match dget String.eqb (l2s k) map_keys with Some v => v | None => l2s k end.

(** lines 33-46 *)
Definition sd1_convert_unet {A} (sd : state_dict A) (ldm_key : string) : result (tensor A) :=
  sd (cat ["unet."; unet_source sd1_map_layer unet_map ldm_key]).

(** lines 126-129 *)
Definition sd1_convert_clip_l {A} (sd : state_dict A) (ldm_key : string) : result (tensor A) :=
  sd (cat ["te."; l2s (py_join (s2l ".") (skipn 2 (py_split "." (s2l ldm_key))))]).

(** [s.startswith(p)] on keys *)
Definition prefixed (p k : string) : bool := starts_with (s2l p) (s2l k).
Definition suffixed (p k : string) : bool := ends_with (s2l p) (s2l k).

(** lines 18-30 *)
Definition convert_sd1_kohya {A} (sd : state_dict A) (ldm_key : string) : result (tensor A) :=
  if prefixed "model.diffusion_model." ldm_key then sd1_convert_unet sd ldm_key
  else if prefixed "cond_stage_model." ldm_key then sd1_convert_clip_l sd ldm_key
  else if prefixed "first_stage_model." ldm_key then convert_vae sd ldm_key
  else sd ldm_key.

(** ** sd_mecha/extensions/builtin/model_configs/convert_sdxl_diffusers_unet_to_original.py *)

(** lines 39-56 *)
Definition sdxl_unet_map : list (string * string) := unet_map ++
  [("label_emb.0.0.weight", "add_embedding.linear_1.weight"); ("label_emb.0.0.bias", "add_embedding.linear_1.bias");
   ("label_emb.0.2.weight", "add_embedding.linear_2.weight"); ("label_emb.0.2.bias", "add_embedding.linear_2.bias")].

(** lines 69-116; an assignment to an existing name keeps its place in the dict *)
Definition sdxl_map_layer : list (string * string) := dict_of (
  flat_map (fun i =>
    flat_map (fun j =>
      (cat ["input_blocks."; str (3 * i + j + 1); ".0."], cat ["down_blocks."; str i; ".resnets."; str j; "."])
      :: (if 0 <? i then
            [(cat ["input_blocks."; str (3 * i + j + 1); ".1."], cat ["down_blocks."; str i; ".attentions."; str j; "."])]
          else [])) (seq 0 2)
    ++ flat_map (fun j =>
      (cat ["output_blocks."; str (3 * i + j); ".0."], cat ["up_blocks."; str i; ".resnets."; str j; "."])
      :: (if i <? 2 then
            [(cat ["output_blocks."; str (3 * i + j); ".1."], cat ["up_blocks."; str i; ".attentions."; str j; "."])]
          else [])) (seq 0 4)
    ++ (if i <? 3 then unet_map_samplers i else [])) (seq 0 3)
  ++ [("output_blocks.2.2.conv.", "output_blocks.2.1.conv.")]
  ++ unet_map_mid).

(** lines 18-36 *)
Definition convert_sdxl_diffusers {A} (sd : state_dict A) (sgm_key : string) : result (tensor A) :=
  if negb (prefixed "model.diffusion_model" sgm_key) then Err (StateDictKeyError sgm_key)
  else sd (unet_source sdxl_map_layer sdxl_unet_map sgm_key).

(** ** sd_mecha/extensions/builtin/model_configs/convert_sdxl_kohya_to_original.py *)

(** [torch.vstack([...])]: vectors become rows, then the leading dimensions are
    added up; trailing dimensions must agree. *)
Definition atleast_2d {A} (t : tensor A) : tensor A :=
  match t_shape t with
  | [] => mk_tensor [1%N; 1%N] (fun _ => t_at t [])
  | [n] => mk_tensor [1%N; n] (fun idx => t_at t (tl idx))
  | _ => t
  end.
Definition rows {A} (t : tensor A) : N := hd 0%N (t_shape t).
Definition cat_rows {A} (a b : tensor A) : result (tensor A) :=
  if list_eq_dec N.eq_dec (tl (t_shape a)) (tl (t_shape b)) then
    Ok (mk_tensor ((rows a + rows b)%N :: tl (t_shape a))
          (fun idx => let i := hd 0%N idx in
                      if (i <? rows a)%N then t_at a idx else t_at b ((i - rows a)%N :: tl idx)))
  else Err RuntimeError.
Fixpoint vstack_go {A} (a : tensor A) (l : list (tensor A)) : result (tensor A) :=
  match l with
  | [] => Ok a
  | b :: l' => let* ab := cat_rows a (atleast_2d b) in vstack_go ab l'
  end.
Definition vstack {A} (l : list (tensor A)) : result (tensor A) :=
  match l with [] => Err RuntimeError | a :: l' => vstack_go (atleast_2d a) l' end.

(** [t.T] reverses the dimensions *)
Definition transpose {A} (t : tensor A) : tensor A :=
  mk_tensor (rev (t_shape t)) (fun idx => t_at t (rev idx)).

(** [key.replace(old, new)] on keys *)
Definition krep (old new k : string) : string := l2s (py_replace (s2l k) (s2l old) (s2l new)).

(** lines 29-40 *)
Definition sdxl_clip_g_key (sgm_key : string) : string :=
  if suffixed "text_projection" sgm_key then "te2.text_projection.weight"
  else krep ".ln_" ".layer_norm"
      (krep ".ln_final." ".final_layer_norm."
      (krep ".mlp.c_proj." ".mlp.fc2."
      (krep ".mlp.c_fc." ".mlp.fc1."
      (krep ".attn." ".self_attn."
      (krep ".transformer.resblocks." ".encoder.layers."
      (krep ".positional_embedding" ".embeddings.position_embedding.weight"
      (krep ".token_embedding." ".embeddings.token_embedding."
      (krep "conditioner.embedders.1.model." "te2.text_model." sgm_key)))))))).

(** lines 28-55 *)
Definition convert_sdxl_clip_g {A} (sd : state_dict A) (sgm_key : string) : result (tensor A) :=
  let key := sdxl_clip_g_key sgm_key in
  let* res :=
    if suffixed ".in_proj_weight" key || suffixed ".in_proj_bias" key then
      let is_bias := suffixed "bias" key in
      let partial := krep ".in_proj_bias" "" (krep ".in_proj_weight" "" key) in
      let* parts := mapM (fun k => sd (cat [partial; "."; k; "_proj."; if is_bias then "bias" else "weight"])) ["q"; "k"; "v"] in
      vstack parts
    else sd key in
  Ok (if suffixed "text_projection" sgm_key then transpose res else res).

(** lines 16-59 *)
Definition convert_sdxl_kohya {A} (sd : state_dict A) (sgm_key : string) : result (tensor A) :=
  if prefixed "model.diffusion_model." sgm_key then sd (krep "model.diffusion_model." "unet." sgm_key)
  else if prefixed "conditioner.embedders.0." sgm_key then sd (krep "conditioner.embedders.0.transformer." "te1." sgm_key)
  else if prefixed "conditioner.embedders.1." sgm_key then convert_sdxl_clip_g sd sgm_key
  else if prefixed "first_stage_model." sgm_key then convert_vae sd sgm_key
  else sd sgm_key.

(** ** sd_mecha/extensions/builtin/model_configs/convert_sd1_blocks.py and convert_sdxl_blocks.py *)

(** [re.compile(r"\.NAME\.(\d+)\.").search(s)] (lines 6-8): the digits of the
    leftmost match.  The digit run cannot be followed by a shorter match, as a
    digit is not a dot. *)
Fixpoint take_digits (l : chars) : chars * chars :=
  match l with
  | c :: l' => if is_digit c then let '(d, r) := take_digits l' in (c :: d, r) else ([], l)
  | [] => ([], [])
  end.
Fixpoint search_block (name : chars) (l : chars) : option chars :=
  let rest := match l with [] => None | _ :: l' => search_block name l' end in
  if starts_with name l then
    match take_digits (skipn (length name) l) with
    | ((_ :: _) as d, c :: _) => if Ascii.eqb c "." then Some d else rest
    | _ => rest
    end
  else rest.
Definition re_search (name : string) (k : string) : option N :=
  option_map undec (search_block (s2l (cat ["."; name; "."])) (s2l k)).

(** [f"{n:02}"] *)
Definition two_digits (n : N) : string :=
  if (n <? 10)%N then cat ["0"; l2s (dec n)] else l2s (dec n).

(** convert_sd1_blocks.py:23-37 and convert_sdxl_blocks.py:23-39; [last] is the
    name of the last output block, [base_of] the fragments tested first *)
Definition block_of_unet (last : string) (base_of : list string) (key : string) : string :=
  if existsb (fun f => py_in (s2l f) (s2l key)) base_of then "BASE"
  else if py_in (s2l ".out.") (s2l key) then last
  else match re_search "input_blocks" key with
       | Some n => cat ["IN"; two_digits n]
       | None =>
           match re_search "middle_block" key with
           | Some _ => "M00"
           | None => match re_search "output_blocks" key with
                     | Some n => cat ["OUT"; two_digits n]
                     | None => last
                     end
           end
       end.
Definition sd1_block (key : string) : string :=
  if prefixed "model.diffusion_model." key then block_of_unet "OUT11" [".time_embed"] key else "BASE".
Definition sdxl_block (key : string) : string :=
  if prefixed "model.diffusion_model." key then block_of_unet "OUT08" [".time_embed"; ".label_emb"] key
  else if prefixed "first_stage_model." key then "VAE" else "BASE".

(** convert_sd1_blocks.py:19-39, convert_sdxl_blocks.py:19-41; any value type [T] *)
Definition convert_sd1_blocks {T} (blocks : string -> result T) (key : string) : result T := blocks (sd1_block key).
Definition convert_sdxl_blocks {T} (blocks : string -> result T) (key : string) : result T := blocks (sdxl_block key).

(** ** sd_mecha/extensions/builtin/merge_methods/ema.py *)

(** lines 24-26 *)
Definition to_ema_key (config_id : string) (k : string) : string :=
  if String.eqb config_id "sd1-ldm"
  then cat ["model_ema."; l2s (py_replace (skipn (length (s2l "model.")) (s2l k)) (s2l ".") [])]
  else k.

(** lines 5-21: the key the method reads ([model.model_config.keys()] is a
    mapping, so [in] and the loop range over its keys) *)
Definition ema_source (config_id : string) (input_keys : list string) (target_key : string) : string :=
  let ema_key := to_ema_key config_id target_key in
  if existsb (String.eqb ema_key) input_keys then ema_key
  else match find (fun k => String.eqb (to_ema_key config_id k) target_key) input_keys with
       | Some k => k
       | None => target_key
       end.
Definition exchange_ema {T} (config_id : string) (input_keys : list string) (model : string -> result T) (target_key : string) : result T :=
  model (ema_source config_id input_keys target_key).

(** ** sd_mecha/extensions/builtin/model_configs/convert_flux.py *)

(** lines 6-12 *)
Definition flux_to_backbone {T} (flux : string -> result T) (key : string) : result T :=
  flux (cat ["model.diffusion_model."; key]).

(** lines 16-25 *)
Definition flux_to_full {T} (diffuser : string -> result T) (key : string) : result T :=
  if negb (prefixed "model.diffusion_model." key) then Err (StateDictKeyError key)
  else diffuser (l2s (skipn (length (s2l "model.diffusion_model.")) (s2l key))).
