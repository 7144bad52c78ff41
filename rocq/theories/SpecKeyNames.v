(** Specification vocabulary for the conversions between builtin layouts: which
    module of one layout is which module of the other, read off the
    architectures.  Independent of how the code rewrites names. *)
From Coq Require Import String Ascii List Arith.
Import ListNotations.
Open Scope nat_scope.
Open Scope string_scope.

(** [k] and [s] name the same parameter: they lie in corresponding modules and
    continue alike. *)
Definition corresponds (modules : list (string * string)) (k s : string) : Prop :=
  exists p q r, In (p, q) modules /\ k = p ++ r /\ s = q ++ r.

(** the one name of a key in a layout *)
Definition name_of (modules : list (string * string)) (k s : string) : Prop :=
  corresponds modules k s /\ forall s', corresponds modules k s' -> s' = s.

Definition under (p q : string) (l : list (string * string)) : list (string * string) :=
  map (fun m => (p ++ fst m, q ++ snd m)) l.
Definition each {A} (n : nat) (f : nat -> list A) : list A := flat_map f (seq 0 n).

(** decimal names of the numbers below 100 *)
Definition digit (n : nat) : string := String (ascii_of_nat (48 + n)) EmptyString.
Definition num (n : nat) : string := if (n <? 10)%nat then digit n else digit (n / 10) ++ digit (n mod 10).
Definition dot (p : string) (n : nat) : string := p ++ "." ++ num n ++ ".".

(** ** The diffuser *)

(** the parts of a residual block *)
Definition resnet : list (string * string) :=
  [("in_layers.0.", "norm1."); ("in_layers.2.", "conv1."); ("emb_layers.1.", "time_emb_proj.");
   ("out_layers.0.", "norm2."); ("out_layers.3.", "conv2."); ("skip_connection.", "conv_shortcut.")].
Definition same : list (string * string) := [("", "")].

(** Level [i] on the way down holds two groups (the first of which is input
    block [3i + 1]) and, but for the last, a downsampler; level [i] on the way
    up holds three groups (from output block [3i]) and an upsampler that sits
    in the last of them, after its attention if it has one.  [attends] tells
    which levels have attention. *)
Definition unet (levels : nat) (down_attends up_attends : nat -> bool) : list (string * string) := List.concat
  [[("time_embed.0.", "time_embedding.linear_1."); ("time_embed.2.", "time_embedding.linear_2.");
    ("label_emb.0.0.", "add_embedding.linear_1."); ("label_emb.0.2.", "add_embedding.linear_2.");
    ("input_blocks.0.0.", "conv_in."); ("out.0.", "conv_norm_out."); ("out.2.", "conv_out.")];
   each levels (fun i => each 2 (fun j =>
     under (dot "input_blocks" (3 * i + j + 1) ++ "0.") (dot "down_blocks" i ++ dot "resnets" j) resnet));
   each levels (fun i => each 2 (fun j =>
     if down_attends i
     then [(dot "input_blocks" (3 * i + j + 1) ++ "1.", dot "down_blocks" i ++ dot "attentions" j)] else []));
   each (levels - 1) (fun i =>
     [(dot "input_blocks" (3 * i + 3) ++ "0.op.", dot "down_blocks" i ++ "downsamplers.0.conv.")]);
   under "middle_block.0." "mid_block.resnets.0." resnet;
   [("middle_block.1.", "mid_block.attentions.0.")];
   under "middle_block.2." "mid_block.resnets.1." resnet;
   each levels (fun i => each 3 (fun j =>
     under (dot "output_blocks" (3 * i + j) ++ "0.") (dot "up_blocks" i ++ dot "resnets" j) resnet));
   each levels (fun i => each 3 (fun j =>
     if up_attends i
     then [(dot "output_blocks" (3 * i + j) ++ "1.", dot "up_blocks" i ++ dot "attentions" j)] else []));
   each (levels - 1) (fun i =>
     [(dot "output_blocks" (3 * i + 2) ++ (if up_attends i then "2." else "1.") ++ "conv.",
       dot "up_blocks" i ++ "upsamplers.0.conv.")])].

(** ** The autoencoder *)
Definition vae_resnet : list (string * string) :=
  [("norm1.", "norm1."); ("conv1.", "conv1."); ("norm2.", "norm2."); ("conv2.", "conv2.");
   ("nin_shortcut.", "conv_shortcut.")].
Definition vae_half : list (string * string) := List.concat
  [[("conv_in.", "conv_in."); ("norm_out.", "conv_norm_out."); ("conv_out.", "conv_out.")];
   under "mid.block_1." "mid_block.resnets.0." vae_resnet;
   under "mid.block_2." "mid_block.resnets.1." vae_resnet;
   under "mid.attn_1." "mid_block.attentions.0."
     [("q.", "to_q."); ("k.", "to_k."); ("v.", "to_v."); ("proj_out.", "to_out.0."); ("norm.", "group_norm.")]].
(** the decoder of the first layout counts its levels from the output *)
Definition vae (levels : nat) : list (string * string) := List.concat
  [[("quant_conv.", "quant_conv."); ("post_quant_conv.", "post_quant_conv.")];
   under "encoder." "encoder." vae_half;
   under "decoder." "decoder." vae_half;
   each levels (fun i => each 2 (fun j =>
     under ("encoder." ++ dot "down" i ++ dot "block" j) ("encoder." ++ dot "down_blocks" i ++ dot "resnets" j) vae_resnet));
   each (levels - 1) (fun i =>
     [("encoder." ++ dot "down" i ++ "downsample.conv.", "encoder." ++ dot "down_blocks" i ++ "downsamplers.0.conv.")]);
   each levels (fun i => each 3 (fun j =>
     under ("decoder." ++ dot "up" (levels - 1 - i) ++ dot "block" j)
           ("decoder." ++ dot "up_blocks" i ++ dot "resnets" j) vae_resnet));
   each (levels - 1) (fun i =>
     [("decoder." ++ dot "up" (levels - 1 - i) ++ "upsample.conv.",
       "decoder." ++ dot "up_blocks" i ++ "upsamplers.0.conv.")])].

(** ** The text encoder of OpenCLIP and its transformers counterpart *)
Definition clip_g (layers : nat) : list (string * string) := List.concat
  [[("token_embedding.", "embeddings.token_embedding."); ("positional_embedding", "embeddings.position_embedding.weight");
    ("ln_final.", "final_layer_norm.")];
   each layers (fun n => under (dot "transformer.resblocks" n) (dot "encoder.layers" n)
     [("ln_1.", "layer_norm1."); ("ln_2.", "layer_norm2."); ("attn.out_proj.", "self_attn.out_proj.");
      ("mlp.c_fc.", "mlp.fc1."); ("mlp.c_proj.", "mlp.fc2.")])].

(** ** Whole models *)

(** Stable Diffusion 1: attention in the upper three levels, nearest to the image *)
Definition sd1_modules : list (string * string) := List.concat
  [under "model.diffusion_model." "unet." (unet 4 (fun i => i <? 3)%nat (fun i => 1 <=? i)%nat);
   [("cond_stage_model.transformer.", "te.")];
   under "first_stage_model." "vae." (vae 4)].

(** Stable Diffusion XL: attention in the two levels furthest from the image *)
Definition sdxl_unet_modules : list (string * string) :=
  under "model.diffusion_model." "" (unet 3 (fun i => 1 <=? i)%nat (fun i => i <? 2)%nat).
Definition sdxl_clip_g_modules : list (string * string) :=
  under "conditioner.embedders.1.model." "te2.text_model." (clip_g 32).
