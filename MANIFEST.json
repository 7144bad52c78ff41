{
 "claims": [
  {
   "property": "C01",
   "status": "proved",
   "theorems": [
    "C01_round_trip"
   ],
   "note": "Recipes as trees over a method registry; floats by spelling."
  },
  {
   "property": "C02",
   "status": "proved",
   "theorems": [
    "C02_instructions_distinct",
    "C02_references_point_backwards"
   ],
   "note": ""
  },
  {
   "property": "C03",
   "status": "proved",
   "theorems": [
    "C03_deserialize_checks_references",
    "C03_out_of_range_reference_raises",
    "C03_bad_word"
   ],
   "note": ""
  },
  {
   "property": "C04",
   "status": "partial",
   "theorems": [
    "C04_every_literal_round_trip_refuted",
    "C01_round_trip"
   ],
   "note": "The full statement is false of the code; the refutation gives a witness for each kind of literal and C01_round_trip is the part that holds."
  },
  {
   "property": "C05",
   "status": "proved",
   "theorems": [
    "C05_written_file_reads_back"
   ],
   "note": ""
  },
  {
   "property": "C06",
   "status": "proved",
   "theorems": [
    "C06_tensors_tile_the_data_section"
   ],
   "note": ""
  },
  {
   "property": "C07",
   "status": "proved",
   "theorems": [
    "C07_reserved_header_space_suffices"
   ],
   "note": ""
  },
  {
   "property": "C08",
   "status": "proved",
   "theorems": [
    "C08_moving_the_data_section_loses_nothing",
    "C08_zero_buffer_size_refuted"
   ],
   "note": "chunk size zero fails (C08_zero_buffer_size_refuted); the property is about chunk sizes of at least one byte"
  },
  {
   "property": "C09",
   "status": "proved",
   "theorems": [
    "C09_interrupted_write_is_unreadable",
    "C09_interrupted_relocation_is_unreadable",
    "C09_torn_header_is_unreadable_or_complete"
   ],
   "note": ""
  },
  {
   "property": "C10",
   "status": "proved",
   "theorems": [
    "C10_output_buffers_bounded"
   ],
   "note": ""
  },
  {
   "property": "C11",
   "status": "proved",
   "theorems": [
    "C11_buffered_reads_equal_direct_reads"
   ],
   "note": ""
  },
  {
   "property": "C12",
   "status": "proved",
   "theorems": [
    "C12_returned_tensors_are_stable"
   ],
   "note": ""
  },
  {
   "property": "C13",
   "status": "partial",
   "theorems": [
    "C13_reads_repeatable_refuted",
    "C13_reads_repeatable_partial"
   ],
   "note": "false of the code when the caller modifies a tensor in place; proved when nobody does"
  },
  {
   "property": "C14",
   "status": "partial",
   "theorems": [
    "C14_truncation_detected_refuted",
    "C14_truncated_header_detected_partial"
   ],
   "note": "false for cuts inside the data section; cuts before the end of the header text are always detected"
  },
  {
   "property": "C15",
   "status": "proved",
   "theorems": [
    "C15_keys_of_an_input_file"
   ],
   "note": ""
  },
  {
   "property": "C16",
   "status": "proved",
   "theorems": [
    "C16_binding_like_python",
    "C16_accepted_calls_bind"
   ],
   "note": ""
  },
  {
   "property": "C17",
   "status": "partial",
   "theorems": [
    "C17_ill_formed_calls_rejected_refuted",
    "C17_ill_formed_calls_rejected_partial"
   ],
   "note": "false of the code when a parameter is given by position and by keyword; proved for every other ill-formed call"
  },
  {
   "property": "C18",
   "status": "proved",
   "theorems": [
    "C18_merge_space_iff",
    "C18_built_recipes_are_well_spaced",
    "C18_bad_spaces_rejected"
   ],
   "note": ""
  },
  {
   "property": "C19",
   "status": "proved",
   "theorems": [
    "C19_config_iff",
    "C19_mixed_configs_rejected"
   ],
   "note": ""
  },
  {
   "property": "C20",
   "status": "proved",
   "theorems": [
    "C20_add",
    "C20_add_symmetric",
    "C20_subtract",
    "C20_fallback",
    "C20_reflected"
   ],
   "note": ""
  },
  {
   "property": "C21",
   "status": "proved",
   "theorems": [
    "C21_merge_is_evaluation",
    "C21_single_thread",
    "C21_schedule_independent",
    "C21_merge_ends",
    "C21_file_merge_ends"
   ],
   "note": "the pool is a machine of submissions, starts, evaluations, stores, completions and the main thread's observation of a failure; evaluation and one dict assignment are atomic"
  },
  {
   "property": "C22",
   "status": "proved",
   "theorems": [
    "C22_fallback",
    "C22_associative"
   ],
   "note": ""
  },
  {
   "property": "C23",
   "status": "proved",
   "theorems": [
    "C23_partition",
    "C23_recombined",
    "C23_unknown_component"
   ],
   "note": ""
  },
  {
   "property": "C24",
   "status": "proved",
   "theorems": [
    "C24_alias_lookup",
    "C24_alias_lookup_dict"
   ],
   "note": ""
  },
  {
   "property": "C25",
   "status": "proved",
   "theorems": [
    "C25_last_error",
    "C25_no_error"
   ],
   "note": "for inputs whose values convert to the declared type; a failed conversion is raised at once"
  },
  {
   "property": "C26",
   "status": "partial",
   "theorems": [
    "C26_real_failure_refuted",
    "C26_real_failure_partial"
   ],
   "note": "false of the code: a missing key of a shallower input replaces a real error; proved when no input evaluated for its value reports a missing key"
  },
  {
   "property": "C27",
   "status": "partial",
   "theorems": [
    "C27_cast_inputs_partial",
    "C27_cast_inputs_refuted",
    "C27_mixed_dict_refuted"
   ],
   "note": "false of the code where inputs of one merge fail with different errors (casting changes the depth order, hence which is reported) and for dicts that mix data with recipes or strings; proved for all other recipes, dicts of recipes included"
  },
  {
   "property": "C28",
   "status": "partial",
   "theorems": [
    "C28_int_parameters_iff",
    "C28_int_parameters_partial",
    "C28_int_parameters_refuted"
   ],
   "note": "false of the code above 2**24; the iff says exactly which integers survive"
  },
  {
   "property": "C29",
   "status": "partial",
   "theorems": [
    "C29_history_refuted",
    "C29_history_partial"
   ],
   "note": "false of the code: a merge omitting extra and EMA keys edits the cached metadata; proved when this merge omits EMA keys or no earlier merge of the config did both"
  },
  {
   "property": "C30",
   "status": "partial",
   "theorems": [
    "C30_failed_merge_refuted",
    "C30_wrong_tensor_in_file",
    "C30_failed_merge_partial"
   ],
   "note": "false of the code: a failed merge leaves a readable file, which may even hold a wrong tensor; proved: if no store is in progress at the failure the file holds right tensors only"
  },
  {
   "property": "C31",
   "status": "partial",
   "theorems": [
    "C31_inputs_closed_partial",
    "C31_inputs_closed_refuted"
   ],
   "note": "proved for recipes whose dicts hold only recipes or only data; refuted for a dict literal whose first value is data and which also holds a model: its file stays open"
  },
  {
   "property": "C32",
   "status": "proved",
   "theorems": [
    "C32_opened_once"
   ],
   "note": ""
  },
  {
   "property": "C33",
   "status": "partial",
   "theorems": [
    "C33_buffers_partial",
    "C33_buffers_refuted"
   ],
   "note": "proved when every model node occurs outside dict literals; refuted for models only inside a dict literal, which are not counted. Buffers kept alive by tensors handed out earlier are not counted"
  },
  {
   "property": "C34",
   "status": "partial",
   "theorems": [
    "C34_structural_keys_refuted",
    "C34_structural_keys_partial"
   ],
   "note": "false of the code when some prefix of the inputs has no common key; proved whenever all inputs share a key"
  },
  {
   "property": "C35",
   "status": "proved",
   "theorems": [
    "C35_inference",
    "C35_determined_config"
   ],
   "note": "double precision comparisons with 0.1 n and 0.9 n replaced by exact ones, see ModelConfigs.v"
  },
  {
   "property": "C36",
   "status": "proved",
   "theorems": [
    "C36_mandatory_keys",
    "C36_otherwise_raises"
   ],
   "note": ""
  },
  {
   "property": "C37",
   "status": "proved",
   "theorems": [
    "C37_registries",
    "C37_names"
   ],
   "note": "registries are dicts; the suggestion in error messages is not modelled"
  },
  {
   "property": "C38",
   "status": "proved",
   "theorems": [
    "C38_convert_applies_a_shortest_chain",
    "C38_converted_recipe",
    "C38_same_config_is_identity",
    "C38_no_chain_raises",
    "C38_values",
    "C38_recipe"
   ],
   "note": ""
  },
  {
   "property": "C39",
   "status": "partial",
   "theorems": [
    "C39_missing_conversion_is_ValueError_refuted",
    "C39_missing_conversion_is_ValueError_partial"
   ],
   "note": "false of the code when a config occurs in no converter (KeyError); proved exactly otherwise"
  },
  {
   "property": "C40",
   "status": "partial",
   "theorems": [
    "C40_sd1_kohya_partial",
    "C40_sd1_kohya_refuted",
    "C40_optional_keys_raise",
    "C40_sd1_names",
    "C40_sd1_names_refuted"
   ],
   "note": "every key of the converted part except four VAE attention norm keys, which are looked up under a name no kohya file has; all keys and all state dicts"
  },
  {
   "property": "C41",
   "status": "partial",
   "theorems": [
    "C41_sdxl_kohya_partial",
    "C41_sdxl_kohya_sources",
    "C41_sdxl_kohya_refuted",
    "C41_sdxl_diffusers_partial",
    "C41_sdxl_diffusers_refuted",
    "C41_sdxl_names",
    "C41_sdxl_names_refuted",
    "C41_te2_names"
   ],
   "note": "the covered keys are proved; refuted for the 248 VAE keys and 31 bias shapes of the kohya conversion, and for the overwritten output block names of the diffusers conversion"
  },
  {
   "property": "C42",
   "status": "proved",
   "theorems": [
    "C42_blocks"
   ],
   "note": ""
  },
  {
   "property": "C43",
   "status": "proved",
   "theorems": [
    "C43_exchange_ema",
    "C43_exchange_ema_other"
   ],
   "note": ""
  },
  {
   "property": "C44",
   "status": "partial",
   "theorems": [
    "C44_kohya_partial",
    "C44_lycoris_refuted",
    "C44_names_distinct"
   ],
   "note": "proved for the kohya layout of every base config; refuted for the lycoris layout, whose converter asks for kohya names"
  },
  {
   "property": "C45",
   "status": "proved",
   "theorems": [
    "C45_flux",
    "C45_flux_keys"
   ],
   "note": ""
  },
  {
   "property": "C46",
   "status": "partial",
   "theorems": [
    "C46_region_partial",
    "C46_region_refuted",
    "C46_tensor_sum"
   ],
   "note": "proved in exact real arithmetic; refuted in the doubles the code computes with, where width 1.0 and offset 0.3 on 15 rows give start 5 and end 4"
  },
  {
   "property": "C47",
   "status": "proved",
   "theorems": [
    "C47_clamp"
   ],
   "note": "exact real arithmetic"
  },
  {
   "property": "C48",
   "status": "partial",
   "theorems": [
    "C48_top_k_partial",
    "C48_top_k_refuted"
   ],
   "note": "proved for inputs that single precision holds exactly; refuted for double inputs, because the threshold is rounded to single precision"
  },
  {
   "property": "C49",
   "status": "proved",
   "theorems": [
    "C49_ties_sum"
   ],
   "note": "exact real arithmetic"
  },
  {
   "property": "C50",
   "status": "partial",
   "theorems": [
    "C50_binomial",
    "C50_mask_distribution_partial",
    "C50_mask_distribution_refuted"
   ],
   "note": "a distribution for 0 < p <= 1 and overlap in [0,1]; refuted for p = 0 and for overlap outside [0,1]"
  },
  {
   "property": "C51",
   "status": "proved",
   "theorems": [
    "C51_slerp",
    "C51_slerp_parallel"
   ],
   "note": "exact real arithmetic"
  },
  {
   "property": "C52",
   "status": "proved",
   "theorems": [
    "C52_perpendicular"
   ],
   "note": "exact real arithmetic"
  },
  {
   "property": "C53",
   "status": "proved",
   "theorems": [
    "C53_n_average",
    "C53_weighted_sum",
    "C53_geometric_median"
   ],
   "note": "exact real arithmetic; geometric_median for every number of iterations and every eps > 0"
  },
  {
   "property": "C54",
   "status": "proved",
   "theorems": [
    "C54_difference_algebra",
    "C54_add_difference_wrapper",
    "C54_add_perpendicular_wrapper"
   ],
   "note": "exact real arithmetic, as recipes evaluated at a key"
  },
  {
   "property": "C55",
   "status": "proved",
   "theorems": [
    "C55_train_difference_mask",
    "C55_add_opposite_mask",
    "C55_add_strict_opposite_mask"
   ],
   "note": "exact real arithmetic, element-wise"
  },
  {
   "property": "C56",
   "status": "proved",
   "theorems": [
    "C56_lora_linear",
    "C56_lora_conv",
    "C56_lora_errors"
   ],
   "note": "exact real arithmetic"
  },
  {
   "property": "C57",
   "status": "partial",
   "theorems": [
    "C57_vote_partial",
    "C57_vote_refuted",
    "C57_extended_partial",
    "C57_extended_refuted",
    "C57_rescale_partial",
    "C57_rescale_all",
    "C57_rescale_refuted"
   ],
   "note": "each flag selects the mode it should switch off: refuted as documented, with the exact behaviour proved for all inputs"
  },
  {
   "property": "C58",
   "status": "partial",
   "theorems": [
    "C58_add_difference_partial",
    "C58_add_perpendicular_partial",
    "C58_ties_partial",
    "C58_ties_extended_partial",
    "C58_model_stock_partial",
    "C58_region_and_rotate_partial",
    "C58_dropout_refuted",
    "C58_ties_with_dare_refuted"
   ],
   "note": "proved for seven wrappers and any number of models; dropout and ties_with_dare raise whatever they are given"
  },
  {
   "property": "C59",
   "status": "proved",
   "theorems": [
    "C59_filter"
   ],
   "note": "exact real arithmetic"
  },
  {
   "property": "C60",
   "status": "proved",
   "theorems": [
    "C60_weighted_sum_lazy"
   ],
   "note": "allclose and the tensor arithmetic are arbitrary functions"
  },
  {
   "property": "C61",
   "status": "partial",
   "theorems": [
    "C61_extra_keys_partial",
    "C61_extra_keys_refuted",
    "C61_in_memory_partial",
    "C61_structural_refuted"
   ],
   "note": "false of the code for two in-memory models with the same keys (RuntimeError), and for inputs of unknown architecture after the first (dropped); proved for files and in-memory models of the recipe's config when no two different in-memory models have equally many keys"
  },
  {
   "property": "C62",
   "status": "partial",
   "theorems": [
    "C62_unknown_files_refuted"
   ],
   "note": "false of the code for every set of files: no key is ever merged; C34 covers in-memory inputs"
  },
  {
   "property": "C63",
   "status": "proved",
   "theorems": [
    "C63_identifiers"
   ],
   "note": ""
  },
  {
   "property": "C64",
   "status": "partial",
   "theorems": [
    "C64_bytes_partial",
    "C64_converted_bytes_partial",
    "C64_bytes_refuted"
   ],
   "note": "proved for contiguous tensors that own their storage and for the converted copy of any contiguous tensor; refuted for transposed results and for parts of a storage. How torch lays out the converted copy of a tensor that does not fill a block is not modelled"
  },
  {
   "property": "C65",
   "status": "partial",
   "theorems": [
    "C65_state_dict_conversion_refuted",
    "C65_state_dict_conversion_partial",
    "C65_no_chain_raises_partial",
    "C65_outcome",
    "C65_space"
   ],
   "note": "false of the code when a better candidate occurs in no converter; every outcome is given exactly by C65_outcome, and the recipe a state dict of tensors becomes by C65_space"
  },
  {
   "property": "C66",
   "status": "proved",
   "theorems": [
    "C66_merge_to_file"
   ],
   "note": "composes C21 with C05; same assumptions on raw transfers as C05"
  },
  {
   "property": "C67",
   "status": "partial",
   "theorems": [
    "C67_methods_replaced_refuted",
    "C67_stale_conversion",
    "C67_methods_partial"
   ],
   "note": "false of the code: registering a merge method under a name in use replaces it silently; proved: the last registration is the one found and other names are unaffected"
  },
  {
   "property": "C68",
   "status": "partial",
   "theorems": [
    "C68_alpha_blends_partial",
    "C68_even",
    "C68_frequency",
    "C68_step",
    "C68_alpha_blends_refuted"
   ],
   "note": "for every tilt further than 1e-10 from a multiple of 2; refuted at tilt 2"
  },
  {
   "property": "C69",
   "status": "partial",
   "theorems": [
    "C69_dropout_partial",
    "C69_dropout_unbiased",
    "C69_dropout_refuted"
   ],
   "note": "for overlaps that are not odd integers; refuted for odd overlaps"
  },
  {
   "property": "C70",
   "status": "partial",
   "theorems": [
    "C70_model_stock_partial",
    "C70_model_stock_refuted"
   ],
   "note": "order independence is proved for two deltas and refuted for three; the rest is proved for any number"
  },
  {
   "property": "C71",
   "status": "proved",
   "theorems": [
    "C71_comments",
    "C71_padding",
    "C71_version",
    "C71_model_defaults",
    "C71_unknown_command",
    "C71_blank_line"
   ],
   "note": ""
  },
  {
   "property": "C72",
   "status": "partial",
   "theorems": [
    "C72_read_only_partial",
    "C72_copied_inputs_partial",
    "C72_inputs_kept_refuted"
   ],
   "note": "refuted for tensor_sum on tensors that already have the merge dtype"
  },
  {
   "property": "C73",
   "status": "partial",
   "theorems": [
    "C73_top_k_partial",
    "C73_top_k_refuted"
   ],
   "note": "proved for any region (only values of a), and for offset 0; refuted for offset 1/2"
  },
  {
   "property": "C74",
   "status": "partial",
   "theorems": [
    "C74_select_partial",
    "C74_select_refuted"
   ],
   "note": "refuted for alpha 1 where b is at its mean"
  },
  {
   "property": "C75",
   "status": "partial",
   "theorems": [
    "C75_add_cosine_a",
    "C75_add_cosine_b_partial",
    "C75_add_cosine_b_refuted"
   ],
   "note": "proved for add_cosine_a; add_cosine_b gives NaN for a zero tensor"
  },
  {
   "property": "C76",
   "status": "partial",
   "theorems": [
    "C76_geometric_sum_partial",
    "C76_geometric_sum_refuted"
   ],
   "note": "entries are not zero; refuted for opposite signs"
  },
  {
   "property": "C77",
   "status": "partial",
   "theorems": [
    "C77_multiply_quotient_partial",
    "C77_multiply_quotient_refuted"
   ],
   "note": "entries are not zero; with a number for alpha it raises for every tensor that has dimensions"
  },
  {
   "property": "C78",
   "status": "partial",
   "theorems": [
    "C78_truncate_rank_partial",
    "C78_target_rank",
    "C78_small",
    "C78_truncate_rank_refuted"
   ],
   "note": "proved when the target rank is below the number of columns or the matrix is wide; rank_ratio 1 raises for every matrix with at least as many rows as columns"
  },
  {
   "property": "C79",
   "status": "partial",
   "theorems": [
    "C79_crossover_partial",
    "C79_alpha_range",
    "C79_crossover_refuted",
    "C79_transforms",
    "C79_frequencies",
    "C79_mean",
    "C79_ball"
   ],
   "note": "in exact real arithmetic, with the transforms given by their definition; refuted for tensors without dimensions, where tilt is used instead of alpha"
  },
  {
   "property": "C80",
   "status": "partial",
   "theorems": [
    "C80_shapes_partial",
    "C80_stock_partial",
    "C80_quotient_partial",
    "C80_stock_refuted",
    "C80_white_refuted",
    "C80_quotient_refuted"
   ],
   "note": "proved for 20 methods and every shape; refuted for model_stock on numbers, select_max_white_delta on matrices and multiply_quotient with a number for alpha"
  },
  {
   "property": "C81",
   "status": "partial",
   "theorems": [
    "C81_defaults_partial",
    "C81_threads",
    "C81_resources",
    "C81_tqdm_refuted",
    "C81_tuple_refuted"
   ],
   "note": "proved for every combination of settings except a stored tqdm, which is ignored, and directories in a tuple, which raise AttributeError"
  },
  {
   "property": "C82",
   "status": "partial",
   "theorems": [
    "C82_load",
    "C82_identifier",
    "C82_round_trip_partial",
    "C82_write_refuted",
    "C82_key_refuted",
    "C82_keys"
   ],
   "note": "reading is proved; writing raises for every config with a component, and drops aliases and optional"
  },
  {
   "property": "C83",
   "status": "partial",
   "theorems": [
    "C83_procrustes_partial",
    "C83_rotation",
    "C83_power",
    "C83_procrustes_refuted"
   ],
   "note": "optimality is proved for at most ten more columns than rows, and for any size with cancel_reflection; for wider matrices the result is never orthogonal"
  },
  {
   "property": "C84",
   "status": "partial",
   "theorems": [
    "C84_rotate_partial",
    "C84_rotate_refuted",
    "C84_fraction_refuted",
    "C84_blend",
    "C84_centre",
    "C84_close"
   ],
   "note": "in a merge rotate raises on every input, because its parameters are declared as tensors and used as dicts; the rest is proved for direct calls with dicts, where alignments that round to 0 do not turn anything"
  },
  {
   "property": "C85",
   "status": "partial",
   "theorems": [
    "C85_declare_partial",
    "C85_space_partial",
    "C85_late_space",
    "C85_space_refuted",
    "C85_variadic_refuted",
    "C85_accepted",
    "C85_annotation_errors"
   ],
   "note": "declarations are accepted whose recipes can never be built: a result symbol that no parameter uses, several spaces and none for the result; a variadic parameter of a plain type does not take plain values"
  },
  {
   "property": "C86",
   "status": "partial",
   "theorems": [
    "C86_conversion_partial",
    "C86_conversion_refuted",
    "C86_rejected_refuted",
    "C86_registered"
   ],
   "note": "a conversion without source config, with only a variadic parameter, or without target config is accepted and makes every convert() raise; a rejected one stays registered as a method"
  },
  {
   "property": "C87",
   "status": "partial",
   "theorems": [
    "C87_builtin_partial",
    "C87_signatures",
    "C87_no_inputs_refuted"
   ],
   "note": "proved for at least one positional input; without any, n_average raises StopIteration and geometric_median gives a parameter"
  },
  {
   "property": "C88",
   "status": "proved",
   "theorems": [
    "C88_no_worse_than_average",
    "C88_iterations",
    "C88_standstill"
   ],
   "note": "exact arithmetic; each step minimises a quadratic bound on the smoothed sum; the tangent inequality gives optimality at a standstill"
  },
  {
   "property": "C89",
   "status": "partial",
   "theorems": [
    "C89_merge_partial",
    "C89_merge_dtype_refuted",
    "C89_output_dtype_refuted"
   ],
   "note": "composes C21, C22, C27; with a merge dtype the recipes are those of C27, and literals stored under a key must be tensors or numbers when there is an output dtype: the refutations show that it is false without"
  },
  {
   "property": "C90",
   "status": "partial",
   "theorems": [
    "C90_output_dtype_partial",
    "C90_forwarded_keys",
    "C90_output_dtype_refuted"
   ],
   "note": "holds with omit_extra_keys; without, C90_forwarded_keys says which values are stored and from where: forwarded ones are not cast"
  },
  {
   "property": "C91",
   "status": "partial",
   "theorems": [
    "C91_embedded_recipe_partial",
    "C91_embedded_recipe_refuted",
    "C91_text"
   ],
   "note": "composes C01, C21, C66; the second merge must be given the same options, which the file does not record; opening the inputs is any function of the recipe"
  },
  {
   "property": "C92",
   "status": "proved",
   "theorems": [
    "C92_weighted_sum_range",
    "C92_self_merge",
    "C92_merge_in_half_refuted",
    "C92_accuracy"
   ],
   "note": "IEEE arithmetic (Flocq), one rounding per torch operation; the output cast may go by way of another dtype, as torch's float64 to float16 does by float32; the _refuted theorem shows that the condition on the dtypes is needed"
  },
  {
   "property": "C93",
   "status": "proved",
   "theorems": [
    "C93_average_range",
    "C93_average_of_copies",
    "C93_overflow_refuted",
    "C93_accuracy"
   ],
   "note": "IEEE arithmetic (Flocq); the order of addition is any binary tree, with zeros; the _refuted theorem shows that the condition on the exponents is needed"
  },
  {
   "property": "C94",
   "status": "proved",
   "theorems": [
    "C94_add_difference_exact",
    "C94_difference_undone",
    "C94_undone_refuted"
   ],
   "note": "IEEE arithmetic (Flocq); the condition wide is that the merge dtype has 2*emax+prec-1 bits, 42 for float16; the _refuted theorem shows the cases beyond"
  },
  {
   "property": "C95",
   "status": "proved",
   "theorems": [
    "C95_cast_back",
    "C95_float16_range",
    "C95_nearest"
   ],
   "note": "IEEE conversions rounding to nearest even (Flocq), one NaN; float8_e4m3fn, which has no infinities, is not covered"
  },
  {
   "property": "C96",
   "status": "partial",
   "theorems": [
    "C96_model_read_partial",
    "C96_missing",
    "C96_model_read_refuted",
    "C96_same_file",
    "C96_formats",
    "C96_register",
    "C96_name"
   ],
   "note": "POSIX paths with symbolic links; permissions and hard links are not modelled; false of the code for links to files without the suffix, otherwise an equivalence"
  },
  {
   "property": "C97",
   "status": "partial",
   "theorems": [
    "C97_output_place",
    "C97_read_back",
    "C97_other_files",
    "C97_models_kept_partial",
    "C97_input_emptied_refuted",
    "C97_name_taken_refuted"
   ],
   "note": "the file system is that of C96; false of the code when the output is an input or shadows one, proved for the other models"
  },
  {
   "property": "C98",
   "status": "partial",
   "theorems": [
    "C98_again",
    "C98_first_partial",
    "C98_keys_refuted",
    "C98_config_refuted",
    "C98_dict_refuted"
   ],
   "note": "nodes are objects with a mutable config; the data of a node does not change between merges; false of the code for nodes of unknown or ambiguous architecture and for dicts of recipes of unknown architecture"
  },
  {
   "property": "C99",
   "status": "partial",
   "theorems": [
    "C99_file_partial",
    "C99_file_refuted",
    "C99_read_partial",
    "C99_read_refuted",
    "C99_read_swapped",
    "C99_floats",
    "C99_weighted_sum_files"
   ],
   "note": "tensors that fill their storage (C64 has the others); false of the code on big-endian machines, proved on little-endian ones; the weighted_sum statement uses the arithmetic of C92"
  },
  {
   "property": "C100",
   "status": "partial",
   "theorems": [
    "C100_any_buffers_partial",
    "C100_read_refuted",
    "C100_write_refuted"
   ],
   "note": "one raw transfer moves at most cap bytes, a parameter; proved when buffers, tensors and headers are within it, false of the code beyond (total_buffer_size over 2^31 per file reads zeros)"
  },
  {
   "property": "C101",
   "status": "proved",
   "theorems": [
    "C101_shared_files",
    "C101_written_files"
   ],
   "note": "a task is any program that asks for tensors and looks at them; a request is one step as it runs under the lock of the file; writing into a tensor one was given is left out (C13, C72)"
  },
  {
   "property": "C102",
   "status": "partial",
   "theorems": [
    "C102_plain_configs",
    "C102_plain_determined",
    "C102_when_inference_raises",
    "C102_registering_refuted",
    "C102_dataclass_parameter",
    "C102_others_unaffected"
   ],
   "note": "false of the code for ModelConfigImpl objects; proved for configs that hash by identity, which is all the library registers, with the exact condition for the TypeError"
  },
  {
   "property": "C103",
   "status": "partial",
   "theorems": [
    "C103_unchanged_file",
    "C103_changed_file",
    "C103_settled",
    "C103_one_thread",
    "C103_one_config_refuted",
    "C103_identifier_parts_partial",
    "C103_identifier_parts_refuted"
   ],
   "note": "false of the code while the file changes under several threads, and for the parts of the identifiers of the flux configs; reading a file is one step, create_config and the attributes are arbitrary functions"
  },
  {
   "property": "C104",
   "status": "partial",
   "theorems": [
    "C104_same_results_partial",
    "C104_calls_end",
    "C104_second_call",
    "C104_rounding_refuted",
    "C104_alignment_refuted",
    "C104_same_key_refuted"
   ],
   "note": "holds when storing loses nothing, calls with the same key need the same rotation, and no two threads use the same key; each of the three is shown to be needed; tensor operations are arbitrary functions, one lookup or store is one step"
  },
  {
   "property": "C105",
   "status": "partial",
   "theorems": [
    "C105_convert_merged",
    "C105_lora_refuted",
    "C105_whole_tensors_refuted"
   ],
   "note": "proved for entrywise methods and the conversions between layouts; false for low-rank models and for methods on whole tensors"
  },
  {
   "property": "C106",
   "status": "partial",
   "theorems": [
    "C106_n_average",
    "C106_clamp",
    "C106_ties_sum",
    "C106_geometric_median",
    "C106_ties_sum_extended",
    "C106_weighted_sum",
    "C106_weighted_sum_refuted",
    "C106_slerp",
    "C106_exact_average",
    "C106_half_precision",
    "C106_rounding",
    "C106_rounding_refuted"
   ],
   "note": "proved over the reals, and for the sums of n_average on IEEE numbers; false exactly for weights next to 1 and for rounded sums"
  },
  {
   "property": "C107",
   "status": "partial",
   "theorems": [
    "C107_range",
    "C107_majority",
    "C107_sum_vote",
    "C107_sum_vote_refuted",
    "C107_finite"
   ],
   "note": "on the deltas after filter_top_k (C48); the number of deltas that agree is exact, as float32 counts are up to 2^24; false with vote_sgn=True where the sum is rounded"
  },
  {
   "property": "C108",
   "status": "proved",
   "theorems": [
    "C108_clamp_range",
    "C108_clamp_exact",
    "C108_clamp_stiff"
   ],
   "note": "the average is any number in the first two theorems and any finite number between two bounds in the third; 1 - stiffness is computed in the merge dtype, which is the same in the default float64; over the reals in C47"
  },
  {
   "property": "C109",
   "status": "partial",
   "theorems": [
    "C109_model_partial",
    "C109_merge",
    "C109_literal_partial",
    "C109_transitive",
    "C109_itself",
    "C109_refuted"
   ],
   "note": "the comparison of single tensor entries is any function; false of the code inside dict literals and for literals next to tensors"
  },
  {
   "property": "C110",
   "status": "partial",
   "theorems": [
    "C110_reports",
    "C110_state_dict",
    "C110_single_thread",
    "C110_numbers_refuted"
   ],
   "note": "which tensors have an entry that is not finite is any function; false of the code for numbers in an in-memory result; the progress bar object itself is not modelled"
  },
  {
   "property": "C111",
   "status": "partial",
   "theorems": [
    "C111_train_range",
    "C111_opposite_range",
    "C111_strict_range",
    "C111_strict_sides",
    "C111_empty",
    "C111_train_full",
    "C111_opposite_full",
    "C111_strict_full",
    "C111_strict_refuted"
   ],
   "note": "false of the code for add_strict_opposite_mask at the middle when the merge dtype cannot hold the squares of the differences (float16 and bfloat16 models merged in their own dtype); the rest is proved; 1.8 is taken in the merge dtype; over the reals in C55"
  },
  {
   "property": "C112",
   "status": "proved",
   "theorems": [
    "C112_text_size",
    "C112_one_line_each",
    "C112_shared"
   ],
   "note": "about the text; the serializer visits a recipe once for each use, so the time it takes does grow with the expanded tree"
  },
  {
   "property": "C113",
   "status": "partial",
   "theorems": [
    "C113_path_argument",
    "C113_path_argument_tensors",
    "C113_path_parameter",
    "C113_path_elsewhere_refuted",
    "C113_model",
    "C113_model_only",
    "C113_model_values_refuted"
   ],
   "note": "proved for the arguments of merge methods and for model; false for operators, merge and the wrappers (C113_path_elsewhere_refuted), and model takes mappings with other values after the first (C113_model_values_refuted)"
  },
  {
   "property": "C114",
   "status": "partial",
   "theorems": [
    "C114_same_value",
    "C114_shared_value",
    "C114_functions",
    "C114_unseeded",
    "C114_one_value_refuted",
    "C114_seeded",
    "C114_calls",
    "C114_once_refuted",
    "C114_evaluation"
   ],
   "note": "one value proved for methods that depend on their inputs only, with the number of calls; false for dropout without a seed (C114_one_value_refuted), and recipes are computed again for each use (C114_once_refuted). Positional inputs only"
  },
  {
   "property": "C115",
   "status": "partial",
   "theorems": [
    "C115_complete",
    "C115_idle",
    "C115_no_deadlock",
    "C115_gpu_results_refuted",
    "C115_pending_input_refuted"
   ],
   "note": "proved with output_device=\"cpu\" or check_finite, for inputs that are ready; false otherwise (C115_gpu_results_refuted, C115_pending_input_refuted). The behaviour of streams is taken from PyTorch's documentation; every operation writes a new tensor; errors are not modelled"
  },
  {
   "property": "C116",
   "status": "partial",
   "theorems": [
    "C116_separate_partial",
    "C116_new_methods",
    "C116_same_dtype_refuted"
   ],
   "note": "proved for distinct merge and output dtypes and for recipes that end in a method that computes a new tensor; false for a model returned in the dtype it has (C116_same_dtype_refuted). Devices, views and methods that write to their inputs are left out"
  },
  {
   "property": "C117",
   "status": "partial",
   "theorems": [
    "C117_float_iff",
    "C117_accuracy",
    "C117_bounds",
    "C117_unit",
    "C117_order",
    "C117_weighted_sum",
    "C117_int",
    "C117_float_refuted",
    "C117_half_refuted"
   ],
   "note": "which numbers arrive unchanged, and how far off the others are, proved; that all do is false (C117_float_refuted, C117_half_refuted). Torch's conversions are taken to round to nearest even; float8_e4m3fn and integer merge dtypes are left out"
  },
  {
   "property": "C118",
   "status": "partial",
   "theorems": [
    "C118_told",
    "C118_round_trip",
    "C118_merge_dtype",
    "C118_merge_device",
    "C118_model",
    "C118_kept",
    "C118_model_dtype_refuted",
    "C118_other",
    "C118_unknown"
   ],
   "note": "what is told, with and without merge_dtype and merge_device, proved; that it is the dtype of the model is false under the default options (C118_model_dtype_refuted). Contents and conversions of tensors are any functions"
  },
  {
   "property": "C119",
   "status": "partial",
   "theorems": [
    "C119_ends",
    "C119_alpha",
    "C119_second",
    "C119_uncorrelated",
    "C119_white_refuted",
    "C119_constant",
    "C119_always_second"
   ],
   "note": "false (C119_white_refuted); what the method gives instead is proved, in exact arithmetic with infinities and NaN: always b (C119_always_second), or an exception if all elements of a or of b are equal (C119_constant). In rounded arithmetic the zero eigenvalues can come out tiny or negative"
  },
  {
   "property": "C120",
   "status": "partial",
   "theorems": [
    "C120_moments",
    "C120_same_iff",
    "C120_expected",
    "C120_order_lost",
    "C120_same_refuted"
   ],
   "note": "false (C120_same_refuted); what the mean and deviation are, when they are those of a, and that they are in expectation, is proved in exact arithmetic, for noise of finitely many values with mean 0 and variance 1 in C120_expected"
  },
  {
   "property": "C121",
   "status": "partial",
   "theorems": [
    "C121_contains",
    "C121_get",
    "C121_listed",
    "C121_items",
    "C121_consistent",
    "C121_handed",
    "C121_model",
    "C121_mandatory",
    "C121_literal",
    "C121_merge",
    "C121_fallback",
    "C121_component",
    "C121_listed_refuted"
   ],
   "note": "the list of keys is that of the config and not that of what is there (C121_listed_refuted); the rest is proved, and C121_consistent says exactly when iterating works. C121_model assumes of the file what C01 and C02 prove of one that was written by the library"
  },
  {
   "property": "C122",
   "status": "partial",
   "theorems": [
    "C122_parameter",
    "C122_return",
    "C122_hand",
    "C122_space",
    "C122_optional",
    "C122_optional_refuted",
    "C122_lookup",
    "C122_all",
    "C122_call",
    "C122_sound",
    "C122_decides",
    "C122_typevar",
    "C122_typevar_refuted",
    "C122_raises"
   ],
   "note": "C122_optional_refuted and C122_typevar_refuted are where the code departs; the rest is proved, C122_sound and C122_decides for types without the class types.UnionType itself"
  },
  {
   "property": "C123",
   "status": "partial",
   "theorems": [
    "C123_keys",
    "C123_contains",
    "C123_items",
    "C123_items_raises",
    "C123_items_complete",
    "C123_metadata",
    "C123_closed",
    "C123_written",
    "C123_listed_refuted",
    "C123_out_len",
    "C123_out_len_refuted",
    "C123_stays"
   ],
   "note": "C123_listed_refuted and C123_out_len_refuted are where the code departs; the rest is proved, for transfers that fit the limit of the operating system as in C05, C11 and C12"
  },
  {
   "property": "C124",
   "status": "partial",
   "theorems": [
    "C124_load",
    "C124_refuses",
    "C124_save",
    "C124_save_raises",
    "C124_round_trip",
    "C124_line_ends",
    "C124_others",
    "C124_cr_refuted",
    "C124_suffix_refuted",
    "C124_readlines_refuted",
    "C124_final_newline_refuted"
   ],
   "note": "the four refutations are where the code departs; the round trip is proved for the recipes of C01 whose strings and names have no carriage return. The encoding of the locale, directories named .mecha and failures of the disk are not modelled"
  },
  {
   "property": "C125",
   "status": "partial",
   "theorems": [
    "C125_recipes",
    "C125_recipes_differ",
    "C125_plain",
    "C125_input",
    "C125_mixed",
    "C125_input_differ",
    "C125_literal_unchecked_refuted",
    "C125_same_error_refuted",
    "C125_merge",
    "C125_merge_strict_refuted"
   ],
   "note": "the two refutations are where the code departs; the rest is proved. Mappings that are no dict, and subclasses of the kinds listed, are not modelled"
  }
 ]
}
