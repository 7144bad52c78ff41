(** Generated by tools/gen_methods.py from the files cited: the declarations of the builtin merge
    methods and converters, in the order of the files. *)
From Coq Require Import String List ZArith.
From Verif Require Import Base ModelRecipe ModelDeclare.
Import ListNotations.
Open Scope string_scope.
Open Scope list_scope.
Open Scope Z_scope.

(** builtin/merge_methods/__init__.py:18 *)
Definition decl_weighted_sum : decl := Decl
  [("a", HParam (TState (Some TTensor)) MNone None); ("b", HParam (TState (Some TTensor)) MNone None); ("alpha", HParam TTensor MNone None)]
  [VFloat "0.5"]
  None
  []
  []
  (RHint TTensor MNone None).

(** builtin/merge_methods/__init__.py:39 *)
Definition decl_n_average : decl := Decl
  []
  []
  (Some ("models", HParam TTensor MNone None))
  []
  []
  (RHint TTensor MNone None).

(** builtin/merge_methods/__init__.py:46 *)
Definition decl_slerp : decl := Decl
  [("a", HParam TTensor MNone None); ("b", HParam TTensor MNone None)]
  []
  None
  [("alpha", HParam TTensor MNone None)]
  [("alpha", VFloat "0.5")]
  (RHint TTensor MNone None).

(** builtin/merge_methods/__init__.py:68 *)
Definition decl_add_difference : decl := Decl
  [("a", HParam (TState (Some TTensor)) (MOne "weight") None); ("b", HParam (TState (Some TTensor)) (MOne "delta") None); ("alpha", HParam TTensor MNone None)]
  [VFloat "1.0"]
  None
  []
  []
  (RHint TTensor (MOne "weight") None).

(** builtin/merge_methods/__init__.py:81 *)
Definition decl_subtract : decl := Decl
  [("a", HParam TTensor (MOne "weight") None); ("b", HParam TTensor (MOne "weight") None)]
  []
  None
  []
  []
  (RHint TTensor (MOne "delta") None).

(** builtin/merge_methods/__init__.py:89 *)
Definition decl_perpendicular_component : decl := Decl
  [("a", HParam TTensor MNone None); ("b", HParam TTensor MNone None)]
  []
  None
  []
  []
  (RHint TTensor MNone None).

(** builtin/merge_methods/__init__.py:101 *)
Definition decl_geometric_sum : decl := Decl
  [("a", HParam TTensor MNone None); ("b", HParam TTensor MNone None); ("alpha", HParam TTensor MNone None)]
  [VFloat "0.5"]
  None
  []
  []
  (RHint TTensor MNone None).

(** builtin/merge_methods/__init__.py:113 *)
Definition decl_add_cosine_a : decl := Decl
  [("a", HParam TTensor (MOne "weight") None); ("b", HParam TTensor (MOne "weight") None); ("alpha", HParam TTensor MNone None)]
  [VFloat "1.0"]
  None
  []
  []
  (RHint TTensor (MOne "weight") None).

(** builtin/merge_methods/__init__.py:125 *)
Definition decl_add_cosine_b : decl := Decl
  [("a", HParam TTensor (MOne "weight") None); ("b", HParam TTensor (MOne "weight") None); ("alpha", HParam TTensor MNone None)]
  [VFloat "1.0"]
  None
  []
  []
  (RHint TTensor (MOne "weight") None).

(** builtin/merge_methods/__init__.py:143 *)
Definition decl_tensor_sum : decl := Decl
  [("a", HParam TTensor MNone None); ("b", HParam TTensor MNone None); ("width", HParam TFloat MNone None); ("offset", HParam TFloat MNone None)]
  [VFloat "0.5"; VFloat "0.0"]
  None
  []
  []
  (RHint TTensor MNone None).

(** builtin/merge_methods/__init__.py:164 *)
Definition decl_top_k_tensor_sum : decl := Decl
  [("a", HParam TTensor MNone None); ("b", HParam TTensor MNone None); ("width", HParam TFloat MNone None); ("offset", HParam TFloat MNone None)]
  [VFloat "1.0"; VFloat "0.0"]
  None
  []
  []
  (RHint TTensor MNone None).

(** builtin/merge_methods/__init__.py:219 *)
Definition decl_train_difference_mask : decl := Decl
  [("a", HParam TTensor MNone None); ("b", HParam TTensor MNone None); ("c", HParam TTensor MNone None); ("alpha", HParam TTensor MNone None)]
  [VFloat "1.0"]
  None
  []
  []
  (RHint TTensor (MOne "param") None).

(** builtin/merge_methods/__init__.py:229 *)
Definition decl_add_opposite_mask : decl := Decl
  [("a", HParam TTensor MNone None); ("b", HParam TTensor MNone None); ("c", HParam TTensor MNone None); ("alpha", HParam TTensor MNone None)]
  [VFloat "1.0"]
  None
  []
  []
  (RHint TTensor (MOne "param") None).

(** builtin/merge_methods/__init__.py:239 *)
Definition decl_add_strict_opposite_mask : decl := Decl
  [("a", HParam TTensor MNone None); ("b", HParam TTensor MNone None); ("c", HParam TTensor MNone None); ("alpha", HParam TTensor MNone None)]
  [VFloat "1.0"]
  None
  []
  []
  (RHint TTensor (MOne "param") None).

(** builtin/merge_methods/__init__.py:250 *)
Definition decl_select_max_delta : decl := Decl
  [("a", HParam TTensor (MOne "delta") None); ("b", HParam TTensor (MOne "delta") None); ("alpha", HParam TTensor MNone None)]
  [VFloat "0.5"]
  None
  []
  []
  (RHint TTensor (MOne "delta") None).

(** builtin/merge_methods/__init__.py:261 *)
Definition decl_select_max_white_delta : decl := Decl
  [("a", HParam TTensor (MOne "delta") None); ("b", HParam TTensor (MOne "delta") None); ("alpha", HParam TTensor MNone None)]
  [VFloat "0.5"]
  None
  []
  []
  (RHint TTensor (MOne "delta") None).

(** builtin/merge_methods/__init__.py:278 *)
Definition decl_multiply_quotient : decl := Decl
  [("a", HParam TTensor MNone None); ("b", HParam TTensor MNone None); ("c", HParam TTensor MNone None); ("alpha", HParam TTensor MNone None)]
  [VFloat "1.0"]
  None
  []
  []
  (RHint TTensor MNone None).

(** builtin/merge_methods/__init__.py:300 *)
Definition decl_crossover : decl := Decl
  [("a", HParam TTensor MNone None); ("b", HParam TTensor MNone None); ("alpha", HParam TFloat MNone None); ("tilt", HParam TFloat MNone None)]
  [VFloat "0.5"; VFloat "0.0"]
  None
  []
  []
  (RHint TTensor MNone None).

(** builtin/merge_methods/__init__.py:383 *)
Definition decl_rotate : decl := Decl
  [("a_dict", HParam TTensor MNone None); ("b_dict", HParam TTensor MNone None); ("alignment", HParam TFloat MNone None); ("alpha", HParam TTensor MNone None)]
  [VFloat "1.0"; VFloat "0.0"]
  None
  []
  []
  (RHint TTensor MNone None).

(** builtin/merge_methods/__init__.py:452 *)
Definition decl_clamp : decl := Decl
  [("a", HParam TTensor MNone None)]
  []
  (Some ("bounds", HParam TTensor MNone None))
  [("stiffness", HParam TFloat MNone None)]
  [("stiffness", VFloat "0.0")]
  (RHint TTensor MNone None).

(** builtin/merge_methods/__init__.py:478 *)
Definition decl_copy_distribution : decl := Decl
  [("a", HParam TTensor MNone None)]
  []
  None
  []
  []
  (RHint TTensor MNone None).

(** builtin/merge_methods/__init__.py:487 *)
Definition decl_ties_sum_extended : decl := Decl
  []
  []
  (Some ("models", HParam TTensor (MOne "delta") None))
  [("k", HParam TFloat MNone None); ("vote_sgn", HParam TBool MNone None); ("apply_stock", HParam TBool MNone None); ("apply_median", HParam TBool MNone None); ("cos_eps", HParam TFloat MNone None); ("eps", HParam TFloat MNone None); ("maxiter", HParam TInt MNone None); ("ftol", HParam TFloat MNone None)]
  [("k", VFloat "0.2"); ("vote_sgn", VBool false); ("apply_stock", VBool false); ("apply_median", VBool false); ("cos_eps", VFloat "1e-06"); ("eps", VFloat "1e-06"); ("maxiter", VInt 100); ("ftol", VFloat "1e-20")]
  (RHint TTensor (MOne "delta") None).

(** builtin/merge_methods/__init__.py:526 *)
Definition decl_ties_sum : decl := Decl
  []
  []
  (Some ("models", HParam TTensor (MOne "delta") None))
  [("k", HParam TFloat MNone None); ("vote_sgn", HParam TBool MNone None)]
  [("k", VFloat "1.0"); ("vote_sgn", VBool false)]
  (RHint TTensor (MOne "delta") None).

(** builtin/merge_methods/__init__.py:584 *)
Definition decl_dropout : decl := Decl
  []
  []
  (Some ("deltas", HParam TTensor (MOne "delta") None))
  [("probability", HParam TFloat MNone None); ("rescale", HParam TFloat MNone None); ("overlap", HParam TFloat MNone None); ("overlap_emphasis", HParam TFloat MNone None); ("seed", HParam TInt MNone None)]
  [("probability", VFloat "0.9"); ("rescale", VFloat "1.0"); ("overlap", VFloat "1.0"); ("overlap_emphasis", VFloat "0.0"); ("seed", VNone)]
  (RHint TTensor (MOne "delta") None).

(** builtin/merge_methods/__init__.py:659 *)
Definition decl_ties_sum_with_dropout : decl := Decl
  []
  []
  (Some ("deltas", HParam TTensor (MOne "delta") None))
  [("probability", HParam TFloat MNone None); ("no_rescale", HParam TBool MNone None); ("k", HParam TFloat MNone None); ("vote_sgn", HParam TBool MNone None); ("apply_stock", HParam TBool MNone None); ("cos_eps", HParam TFloat MNone None); ("apply_median", HParam TBool MNone None); ("eps", HParam TFloat MNone None); ("maxiter", HParam TInt MNone None); ("ftol", HParam TFloat MNone None); ("seed", HParam TInt MNone None)]
  [("probability", VFloat "0.9"); ("no_rescale", VBool false); ("k", VFloat "0.2"); ("vote_sgn", VBool false); ("apply_stock", VBool false); ("cos_eps", VFloat "1e-06"); ("apply_median", VBool false); ("eps", VFloat "1e-06"); ("maxiter", VInt 100); ("ftol", VFloat "1e-20"); ("seed", VNone)]
  (RHint TTensor (MOne "delta") None).

(** builtin/merge_methods/__init__.py:722 *)
Definition decl_model_stock : decl := Decl
  []
  []
  (Some ("deltas", HParam TTensor (MOne "delta") None))
  [("cos_eps", HParam TFloat MNone None)]
  [("cos_eps", VFloat "1e-06")]
  (RHint TTensor (MOne "delta") None).

(** builtin/merge_methods/__init__.py:754 *)
Definition decl_geometric_median : decl := Decl
  []
  []
  (Some ("models", HParam TTensor MNone None))
  [("eps", HParam TFloat MNone None); ("maxiter", HParam TInt MNone None); ("ftol", HParam TFloat MNone None)]
  [("eps", VFloat "1e-06"); ("maxiter", VInt 100); ("ftol", VFloat "1e-20")]
  (RHint TTensor MNone None).

(** builtin/merge_methods/__init__.py:790 *)
Definition decl_truncate_rank : decl := Decl
  [("a", HParam TTensor (MOne "delta") None); ("rank_ratio", HParam TFloat MNone None)]
  [VFloat "0.5"]
  None
  []
  []
  (RHint TTensor (MOne "delta") None).

(** builtin/merge_methods/__init__.py:807 *)
Definition decl_fallback : decl := Decl
  [("a", HParam (TState (Some TVar)) MNone None); ("default", HParam (TState (Some TVar)) MNone None)]
  []
  None
  []
  []
  (RHint TVar MNone None).

(** builtin/merge_methods/__init__.py:820 *)
Definition decl_cast : decl := Decl
  [("a", HParam TTensor MNone None); ("device", HParam TStr MNone None); ("dtype", HParam TStr MNone None)]
  [VNone; VNone]
  None
  []
  []
  (RHint TTensor MNone None).

(** builtin/merge_methods/__init__.py:861 *)
Definition decl_get_dtype : decl := Decl
  [("a", HParam TTensor MNone None)]
  []
  None
  []
  []
  (RHint TStr (MOne "param") None).

(** builtin/merge_methods/__init__.py:868 *)
Definition decl_get_device : decl := Decl
  [("a", HParam TTensor MNone None)]
  []
  None
  []
  []
  (RHint TStr (MOne "param") None).

(** builtin/merge_methods/__init__.py:875 *)
Definition decl_pick_component : decl := Decl
  [("a", HParam (TState (Some TVar)) MNone None); ("component", HParam TStr (MOne "param") None)]
  []
  None
  []
  []
  (RHint TVar MNone None).

(** builtin/merge_methods/__init__.py:894 *)
Definition decl_omit_component : decl := Decl
  [("a", HParam (TState (Some TVar)) MNone None); ("component", HParam TStr (MOne "param") None)]
  []
  None
  []
  []
  (RHint TVar MNone None).

(** builtin/merge_methods/ema.py:6 *)
Definition decl_exchange_ema : decl := Decl
  [("model", HParam (TState (Some TTensor)) MNone None)]
  []
  None
  []
  []
  (RHint TTensor MNone None).

(** builtin/model_configs/convert_sd1_blocks.py:19 *)
Definition decl_convert_sd1_blocks_to_ldm : decl := Decl
  [("blocks", HParam (TState (Some TVar)) MNone (Some "sd1-supermerger_blocks"))]
  []
  None
  []
  []
  (RHint TVar MNone (Some "sd1-ldm")).

(** builtin/model_configs/convert_sdxl_blocks.py:19 *)
Definition decl_convert_sdxl_blocks_to_sgm : decl := Decl
  [("blocks", HParam (TState (Some TVar)) MNone (Some "sdxl-supermerger_blocks"))]
  []
  None
  []
  []
  (RHint TVar MNone (Some "sdxl-sgm")).

(** builtin/model_configs/convert_sd1_kohya_to_original.py:18 *)
Definition decl_convert_sd1_kohya_to_original : decl := Decl
  [("kohya_sd", HParam (TState (Some TTensor)) MNone (Some "sd1-kohya"))]
  []
  None
  []
  []
  (RHint TTensor MNone (Some "sd1-ldm")).

(** builtin/model_configs/convert_sdxl_kohya_to_original.py:16 *)
Definition decl_convert_sdxl_kohya_to_original : decl := Decl
  [("kohya_sd", HParam (TState (Some TTensor)) MNone (Some "sdxl-kohya"))]
  []
  None
  []
  []
  (RHint TTensor MNone (Some "sdxl-sgm")).

(** builtin/model_configs/convert_sdxl_diffusers_unet_to_original.py:18 *)
Definition decl_convert_sdxl_diffusers_unet_to_original : decl := Decl
  [("diffusers_sd", HParam (TState (Some TTensor)) MNone (Some "sdxl-diffusers_unet_only"))]
  []
  None
  []
  []
  (RHint TTensor MNone (Some "sdxl-sgm")).

(** identifier, is_conversion, declaration *)
Definition builtin_methods : list (string * (bool * decl)) :=
  [("weighted_sum", (false, decl_weighted_sum));
   ("n_average", (false, decl_n_average));
   ("slerp", (false, decl_slerp));
   ("add_difference", (false, decl_add_difference));
   ("subtract", (false, decl_subtract));
   ("perpendicular_component", (false, decl_perpendicular_component));
   ("geometric_sum", (false, decl_geometric_sum));
   ("add_cosine_a", (false, decl_add_cosine_a));
   ("add_cosine_b", (false, decl_add_cosine_b));
   ("tensor_sum", (false, decl_tensor_sum));
   ("top_k_tensor_sum", (false, decl_top_k_tensor_sum));
   ("train_difference_mask", (false, decl_train_difference_mask));
   ("add_opposite_mask", (false, decl_add_opposite_mask));
   ("add_strict_opposite_mask", (false, decl_add_strict_opposite_mask));
   ("select_max_delta", (false, decl_select_max_delta));
   ("select_max_white_delta", (false, decl_select_max_white_delta));
   ("multiply_quotient", (false, decl_multiply_quotient));
   ("crossover", (false, decl_crossover));
   ("rotate", (false, decl_rotate));
   ("clamp", (false, decl_clamp));
   ("copy_distribution", (false, decl_copy_distribution));
   ("ties_sum_extended", (false, decl_ties_sum_extended));
   ("ties_sum", (false, decl_ties_sum));
   ("dropout", (false, decl_dropout));
   ("ties_sum_with_dropout", (false, decl_ties_sum_with_dropout));
   ("model_stock", (false, decl_model_stock));
   ("geometric_median", (false, decl_geometric_median));
   ("truncate_rank", (false, decl_truncate_rank));
   ("fallback", (false, decl_fallback));
   ("cast", (false, decl_cast));
   ("get_dtype", (false, decl_get_dtype));
   ("get_device", (false, decl_get_device));
   ("pick_component", (false, decl_pick_component));
   ("omit_component", (false, decl_omit_component));
   ("exchange_ema", (false, decl_exchange_ema));
   ("convert_sd1_blocks_to_ldm", (true, decl_convert_sd1_blocks_to_ldm));
   ("convert_sdxl_blocks_to_sgm", (true, decl_convert_sdxl_blocks_to_sgm));
   ("convert_'sd1-kohya'_to_'sd1-ldm'", (true, decl_convert_sd1_kohya_to_original));
   ("convert_'sdxl-kohya'_to_'sdxl-sgm'", (true, decl_convert_sdxl_kohya_to_original));
   ("convert_'sdxl-diffusers_unet_only'_to_'sdxl-sgm'", (true, decl_convert_sdxl_diffusers_unet_to_original))].
