# Formal model of ljleb/sd-mecha in Rocq (Coq 8.16.1)

The properties are in `properties.jsonl`, the mapping property -> theorem in
`MANIFEST.json`, the log of seeded bugs in `seeded/LOG.jsonl`, the development in
`rocq/theories` (logical name `Verif`).  `tools/gen_configs.py` transcribes the YAML key
lists of the repository into `Data*.v`, `tools/gen_methods.py` the signatures of the builtin merge
methods into `DataMethods.v`; their output is committed.

## Conventions

* The code in /repo is modelled function by function by total Gallina functions.
  Each definition cites file and lines.  Python exceptions are values
  (`Ok x | Err e`).  Stateful objects are a state record plus one step function
  per method; concurrency is a list of atomic steps in arbitrary order.
* Loops that do not terminate structurally take fuel; running out of fuel is a
  separate outcome and the theorems exclude it (they show it cannot happen).
* `Err Unmodelled` marks a case that the model leaves open.  No theorem claims that the
  code raises there: positive theorems have results `Ok`, and theorems about errors name the exception.
* Strings are Coq strings (8-bit characters).  The code only ever inspects
  characters below 128 by name.
* `Model*.v` files hold only definitions.  `Spec*.v` files hold small independent
  specifications, which do not mention the model's helpers.  `*Proofs*.v` files hold lemmas.
  `Props*.v` files hold the property theorems, their witnesses (`Example`) and `Print Assumptions`.
* A property that the code violates is kept in full in `properties.jsonl`; the
  violation is a theorem with suffix `_refuted` (a concrete execution of the
  model, or a statement about all executions) and the part that does hold is a theorem with suffix `_partial`.
* An arbitrary part of the environment (a merge function, the file system, a schedule, the
  outcome of random draws, rounding to single precision) is a universally quantified argument, never an axiom.

## How each part is modelled and proved

| properties | modelled | proof |
|----|----------|-------|
| C01-C04, C71 | `serialization.py` in full: visitor with its list of lines, tokenizer, argument preprocessing, parser; recipe nodes and `create_recipe` on which the parser depends | main invariant: running the lines emitted so far yields a result list in which every emitted reference denotes the value it stands for; induction on the recipe; parser monotone in the result list. C04: witnesses. C71: induction over the lines |
| C05-C10, C100 | `OutSafetensorsDict` as a state machine whose steps are the lock-protected sections of each thread; the file is a byte list; JSON header printed and parsed by a modelled `json.dumps`/`json.loads` | invariant over arbitrary step lists; the memmove lemma for the relocation loop; worst-case prefix sums for the header reservation |
| C11-C15, C100 | `InSafetensorsDict` with an explicit heap of buffers | invariant: resident window equals the file slice; fresh allocation gives non-interference. C13, C14: witnesses |
| C101 | tasks as arbitrary programs that ask shared `InSafetensorsDict`s for tensors and look at the views later, one request or look per turn, any schedule; the spec runs each task alone on plain dictionaries | every view keeps what it shows because a buffer is never written again after it was filled; induction over the schedule |
| C102 | config objects as they are put in sets: made by `ModelConfigImpl` (equality, no hash) or by other classes (hash by identity), the registry sorted by identifier, `infer_model_configs` with its dict of sets (`ModelConfObj.v`) | induction on the registry |
| C103 | a lazy config as a shared cell: threads test it, read the file, store, read the cell again, one such step per turn, any schedule, the file may change in between (`ModelLazy.v`) | invariant over the versions of the file |
| C104 | the cache of a `rotate` node as a dict of dict objects; calls of several threads, one lookup or store per turn, any schedule; the linear algebra and the rounding are arbitrary functions (`ModelCache.v`) | invariant per key: what is stored is what the calls for the key compute; a rank for termination |
| C105 | the converters of `ModelKeyConv.v`, which are polymorphic in the entries, and `ModelLora.v`; merging entry by entry is defined in `SpecCommute.v` | a relation between a merged tensor and the tensors it is made of, kept by every operation the converters use; an edit of a converter that keeps it polymorphic cannot break this, so what is trusted is that the code only moves entries |
| C106 | the methods of `ModelNum.v` and `ModelModes.v` over the reals, and the sums of `ModelRound.v` on IEEE numbers, where the order of the additions is a tree | permutations of the list of models; for the sums, numbers of a small dtype are multiples of one power of two, so that a wide enough dtype never rounds their sums |
| C107 | `ModelTiesRound.v`: the election and the average of one entry on IEEE numbers, two sums with a tree each | zeros can be pruned from a sum, then the argument of C93; sums of signs are integers and exact |
| C108 | `ModelClampRound.v`: the reductions, the loop over the bounds and the soft limits of one entry on IEEE numbers | the soft limits are weighted sums of bounds, so monotonicity of the rounded weighted sum (C92) puts them between those of the least and greatest bound, which narrow back to the bounds |
| C109 | `ModelContains.v`: Python's == on literals (numbers by value, dicts with the identity shortcut, tensors without truth value) and the search through the arguments | induction over recipes with a nested induction over the arguments |
| C110 | `ModelReports.v`: what the tasks of the pool (ModelDriver) report at each step, for any output | invariant on how often each key occurs in the reports and in the parts of the pool |
| C111 | `ModelMaskRound.v`: the three masks of one entry on IEEE numbers | the quotients have a numerator no larger than the denominator after rounding, for every overflow and underflow; non-finite entries give a quotient of infinities, hence NaN, hence 0 |
| C112 | the serializer of `ModelSerial.v` | serializing an object again, after anything else, adds no line and gives the same text; so each line can be charged to an object of its own, and for recipes that read back (C01) the converse holds |
| C113 | `helpers.model` and `literal`, the first lines of `merge` (`ModelUse.v`), on top of `create_recipe`, the operators and the wrappers | binding commutes with replacing any of the values (a relation carried through each step); the refusals are computed |
| C114 | the evaluation of a recipe with a state threaded through the calls (`ModelShare.v`) | a relation between two evaluations, kept by sorting, visiting and collecting the inputs; the calls are a sum that sorting does not change |
| C115 | workers and CUDA streams as a transition system (`ModelCuda.v`): launch, wait, store, run | an invariant: what is left to do is a suffix of each worker's plan, and every tensor whose operation has run has its final value; a launch is followed by a wait before anything is stored. Trusted: the behaviour of streams, as PyTorch documents it (in order within a stream, any order across streams, reads from the host wait for the current stream only) |
| C116 | a merge into memory over the heap of C72 (`ModelOut.v`) | addresses: what a key gives is at or above the heap it starts with |
| C117 | the path of a literal number to a parameter, in IEEE numbers (`ModelParam.v`): double, float32, merge dtype, and back for floats and ints | Flocq; casts to larger dtypes are exact, rounding is monotone and keeps the numbers of a dtype |
| C118 | `get_dtype`, `get_device`, `cast` over tensors with a dtype and a device, in the evaluator (`ModelDtype.v`) | a merge that succeeds was handed all its inputs; by induction, every tensor in a recipe with cast inputs is as merge_dtype and merge_device want it. Trusted: `place`, the device torch puts a tensor on, is any function of the name |
| C119-C120 | `select_max_white_delta` and `copy_distribution` over the reals with infinities and NaN (`ModelWhite.v`) | `torch.linalg.eigh` is any function that gives orthonormal eigenvectors; a matrix of rank one has a zero eigenvalue, and a sum with a term that is not finite is not finite |
| C121 | the mapping handed to a method for a StateDict parameter (`ModelMapping.v`), over the evaluation of `ModelEval.v` | the methods of `collections.abc.Mapping` as in CPython; views are the lists that iterating them gives; what a method is handed comes from C25 |
| C122 | `is_subclass`, `Parameter`, `Return`, `FunctionArgs.as_dict` and the choice of `merging.py:583` (`ModelTyping.v`; meaning of types in `SpecTyping.v`) | types are classes, aliases, type variables with constraints and the two kinds of unions; `issubclass` between classes is any preorder in which `types.UnionType` is final; arguments of aliases are not looked at by the code and neither by the meaning; `Any`, strings, bounds of type variables are out; `typing.Union` and the unions written with a bar are different things, as before Python 3.14 |
| C123 | the mapping methods of `InSafetensorsDict` and `OutSafetensorsDict.__len__` (`ModelFileMap.v`), over the reads and writes of `ModelStream.v` | generators are the lists they give when run to their end, so that `keys()` can be used only once is not seen; `k in d` is `Mapping.__contains__` as in CPython; a shape in the header that is no list is out |
| C124 | `deserialize_path`, the output of `serialize`, and `readlines` (`ModelRecipeFile.v`), over the file system of `ModelPaths.v` and the text format of `ModelSerial.v` | a file open for text translates line ends; characters are bytes, the locale's encoding is left out; a directory named `.mecha` is Unmodelled; the meaning of line ends and of the name `.mecha` is given by relations in `SpecRecipeFile.v` |
| C125 | `value_to_node` and `LiteralRecipeNode.__init__` on dicts (`ModelRecipe.v`) | the kinds of values are an inductive relation in `SpecDicts.v`; the config and merge space of a recipe are those of `node_config` and `node_space`, which C18 and C19 are about; dicts are the only mappings |
| C16-C17 | `MergeMethod.create_recipe` against an independent definition of Python argument binding (`SpecBind.v`) | case analysis on positions; C17 witness |
| C18-C20, C58 | merge-space and config inference on recipe nodes, operators, the exported wrappers | induction over parameter list; declarative solution of the symbol constraints as specification |
| C21-C28, C60, C61 | evaluation of recipes: `KeyMergeVisitor`, `ErrorHolder`, `fallback`, `pick/omit_component`, aliases, `CastInputDicts`, extra keys | recipes are finite trees, merge functions are arbitrary functions on inputs; induction on the recipe |
| C21, C30, C66 | the driver of `merge`: submissions, a pool of threads, futures, the first observed failure, the order in which context managers close | invariants over arbitrary lists of events; refinement to the per-key map; progress by a decreasing measure |
| C29, C31-C36, C62 | config metadata cache, `open_input_dicts`, config inference, checks, buffer sizes | state machines over the registry and the open files, with arbitrary failures injected |
| C37, C63, C67 | registries, identifiers | refinement to finite maps over histories; regular expression matcher against its language |
| C38-C39, C65 | `dijkstra`, `convert` | breadth-first invariant, fuel bound shown sufficient, optimality |
| C40-C45 | key rewriting functions, and the key lists of the builtin YAML configs as generated data | the configs are finite: exhaustive computation inside the kernel (`vm_compute`), lifted to all state dicts and all tensors |
| C46-C57, C59, C68-C70, C73-C77, C88 | numeric merge methods on lists of exact reals | algebra, induction on lists. C46 and C48 also in IEEE arithmetic for the refutations |
| C64 | `tensor_to_bytes` on strided views of a byte storage (`ModelBytes.v`) | arithmetic of strides; the specification is the row-major list of entries |
| C72 | evaluation of a recipe over a heap of tensors, methods that read and methods that write (`ModelHeap.v`) | frame property by induction over the recipe |
| C78, C83, C84 | `truncate_rank`, `rotate`, `svd.py` over mathcomp matrices of any size, over any field (ordered field for distances); the factorisations of torch are arguments with their defining equations as hypotheses | rank inequalities; Cauchy-Schwarz for traces gives optimality of the alignment |
| C79 | `crossover` (`ModelCross.v`) with the discrete Fourier transforms of any number of dimensions (`ModelFourier.v`) | orthogonality of the waves by a telescoping sum; folding of the half spectrum; Parseval |
| C80 | the shapes of all builtin merge methods (`ModelShape.v`), broadcasting included | induction over shapes |
| C81 | `helpers.Defaults`: which setting reaches `merge` | case analysis on what is given; witnesses |
| C82 | YAML configs between configs and plain data (dicts, lists, strings) | parse after write; witnesses |
| C85-C87 | declaring merge methods and conversions: the decorator's checks on a signature (`ModelDeclare.v`); the signatures of all builtin methods as generated data (`DataMethods.v`) | what an accepted signature promises, by induction over the parameter list; the builtin methods are finite: `vm_compute` lifted to all calls |
| C89-C91 | a call of `merge` with all its options: `plan` prepares the recipe, the keys and the threads, `merges_to` relates the call to its possible outcomes (`ModelMerge.v`) | composition of C01, C21, C27, C61, C66 over the prepared recipe |
| C92-C95 | weighted_sum, n_average, add_difference, subtract and cast on IEEE numbers, one rounding per torch operation (`ModelRound.v`, on Flocq) | monotonicity of rounding and its error bounds; case analysis on infinities and NaN |
| C96-C97 | paths, symbolic links, `model_dirs` and formats over a file system given as a function (`ModelPaths.v`) | the walk along a path against an inductive relation; what a new file can change about it |
| C98 | what opening a recipe leaves on its nodes, over histories of merges of recipes that share nodes (`ModelReuse.v`) | invariants of the states reachable by merging: decided nodes keep their config, dicts of earlier merges are not touched |

## Property by property

| id | title | status | theorems (file) | note |
|---|---|---|---|---|
| C01 | serialize/deserialize round trip | proved | `C01_round_trip` (PropsSerial) | Recipes as trees over a method registry; floats by spelling. |
| C02 | serialized references only point backwards | proved | `C02_instructions_distinct` (PropsSerial), `C02_references_point_backwards` (PropsSerial) |  |
| C03 | deserialize rejects what it cannot resolve | proved | `C03_deserialize_checks_references` (PropsSerial), `C03_out_of_range_reference_raises` (PropsSerial), `C03_bad_word` (PropsErrors) |  |
| C04 | round trip of every literal | partial | `C04_every_literal_round_trip_refuted` (PropsSerial), `C01_round_trip` (PropsSerial) | The full statement is false of the code; the refutation gives a witness for each kind of literal and C01_round_trip is the part that holds. |
| C05 | written safetensors reads back exactly | proved | `C05_written_file_reads_back` (PropsStream) |  |
| C06 | output tensors tile the data section | proved | `C06_tensors_tile_the_data_section` (PropsStream) |  |
| C07 | reserved header space always suffices | proved | `C07_reserved_header_space_suffices` (PropsStream) |  |
| C08 | moving the data section loses nothing | proved | `C08_moving_the_data_section_loses_nothing` (PropsStream), `C08_zero_buffer_size_refuted` (PropsStream) | chunk size zero fails (C08_zero_buffer_size_refuted); the property is about chunk sizes of at least one byte |
| C09 | an interrupted write is never mistaken for a model | proved | `C09_interrupted_write_is_unreadable` (PropsStream), `C09_interrupted_relocation_is_unreadable` (PropsStream), `C09_torn_header_is_unreadable_or_complete` (PropsStream) |  |
| C10 | output buffers stay bounded | proved | `C10_output_buffers_bounded` (PropsStream) |  |
| C11 | buffered reads equal direct reads | proved | `C11_buffered_reads_equal_direct_reads` (PropsStream) |  |
| C12 | tensors already handed out are not changed by later reads | proved | `C12_returned_tensors_are_stable` (PropsStream) |  |
| C13 | reading the same key twice gives the same tensor | partial | `C13_reads_repeatable_refuted` (PropsStream), `C13_reads_repeatable_partial` (PropsStream) | false of the code when the caller modifies a tensor in place; proved when nobody does |
| C14 | a truncated file is detected | partial | `C14_truncation_detected_refuted` (PropsStream), `C14_truncated_header_detected_partial` (PropsStream) | false for cuts inside the data section; cuts before the end of the header text are always detected |
| C15 | keys and iteration of an input file | proved | `C15_keys_of_an_input_file` (PropsStream) |  |
| C16 | calling a merge method binds arguments like Python | proved | `C16_binding_like_python` (PropsRecipe), `C16_accepted_calls_bind` (PropsRecipe) |  |
| C17 | ill-formed calls are rejected | partial | `C17_ill_formed_calls_rejected_refuted` (PropsRecipe), `C17_ill_formed_calls_rejected_partial` (PropsRecipe) | false of the code when a parameter is given by position and by keyword; proved for every other ill-formed call |
| C18 | merge spaces are sound | proved | `C18_merge_space_iff` (PropsRecipe), `C18_built_recipes_are_well_spaced` (PropsRecipe), `C18_bad_spaces_rejected` (PropsRecipe) |  |
| C19 | model configs are sound | proved | `C19_config_iff` (PropsRecipe), `C19_mixed_configs_rejected` (PropsRecipe) |  |
| C20 | operators + - | | proved | `C20_add` (PropsRecipe), `C20_add_symmetric` (PropsRecipe), `C20_subtract` (PropsRecipe), `C20_fallback` (PropsRecipe), `C20_reflected` (PropsRecipe) |  |
| C21 | merge output is the per-key evaluation, whatever the threads | proved | `C21_merge_is_evaluation` (PropsDriver), `C21_single_thread` (PropsDriver), `C21_schedule_independent` (PropsDriver), `C21_merge_ends` (PropsDriver), `C21_file_merge_ends` (PropsDriver) | the pool is a machine of submissions, starts, evaluations, stores, completions and the main thread's observation of a failure; evaluation and one dict assignment are atomic |
| C22 | fallback semantics | proved | `C22_fallback` (PropsEval), `C22_associative` (PropsEval) |  |
| C23 | pick and omit partition a model | proved | `C23_partition` (PropsEval), `C23_recombined` (PropsEval), `C23_unknown_component` (PropsEval) |  |
| C24 | alias resolution | proved | `C24_alias_lookup` (PropsEval), `C24_alias_lookup_dict` (PropsEval) |  |
| C25 | which error a merge reports | proved | `C25_last_error` (PropsEval), `C25_no_error` (PropsEval) | for inputs whose values convert to the declared type; a failed conversion is raised at once |
| C26 | a real failure is never swallowed | partial | `C26_real_failure_refuted` (PropsEval), `C26_real_failure_partial` (PropsEval) | false of the code: a missing key of a shallower input replaces a real error; proved when no input evaluated for its value reports a missing key |
| C27 | casting inputs commutes with evaluation | partial | `C27_cast_inputs_partial` (PropsCast), `C27_cast_inputs_refuted` (PropsCast), `C27_mixed_dict_refuted` (PropsCast) | false of the code where inputs of one merge fail with different errors (casting changes the depth order, hence which is reported) and for dicts that mix data with recipes or strings; proved for all other recipes, dicts of recipes included |
| C28 | integer hyperparameters reach the method unchanged | partial | `C28_int_parameters_iff` (PropsInt), `C28_int_parameters_partial` (PropsInt), `C28_int_parameters_refuted` (PropsInt) | false of the code above 2**24; the iff says exactly which integers survive |
| C29 | merges are independent of earlier merges | partial | `C29_history_refuted` (PropsConfigs2), `C29_history_partial` (PropsConfigs2) | false of the code: a merge omitting extra and EMA keys edits the cached metadata; proved when this merge omits EMA keys or no earlier merge of the config did both |
| C30 | a failed merge leaves no plausible output | partial | `C30_failed_merge_refuted` (PropsDriver), `C30_wrong_tensor_in_file` (PropsDriver), `C30_failed_merge_partial` (PropsDriver) | false of the code: a failed merge leaves a readable file, which may even hold a wrong tensor; proved: if no store is in progress at the failure the file holds right tensors only |
| C31 | input files are closed on every path | partial | `C31_inputs_closed_partial` (PropsOpen), `C31_inputs_closed_refuted` (PropsOpen) | proved for recipes whose dicts hold only recipes or only data; refuted for a dict literal whose first value is data and which also holds a model: its file stays open |
| C32 | each model file is opened once | proved | `C32_opened_once` (PropsOpen) |  |
| C33 | buffers respect total_buffer_size | partial | `C33_buffers_partial` (PropsOpen), `C33_buffers_refuted` (PropsOpen) | proved when every model node occurs outside dict literals; refuted for models only inside a dict literal, which are not counted. Buffers kept alive by tensors handed out earlier are not counted |
| C34 | structural config is the intersection of the inputs | partial | `C34_structural_keys_refuted` (PropsConfigs2), `C34_structural_keys_partial` (PropsConfigs2) | false of the code when some prefix of the inputs has no common key; proved whenever all inputs share a key |
| C35 | config inference ranks by matching keys | proved | `C35_inference` (PropsConfigs), `C35_determined_config` (PropsConfigs) | double precision comparisons with 0.1 n and 0.9 n replaced by exact ones, see ModelConfigs.v |
| C36 | mandatory key check | proved | `C36_mandatory_keys` (PropsConfigs), `C36_otherwise_raises` (PropsConfigs) |  |
| C37 | registries never silently replace a config | proved | `C37_registries` (PropsConfigs), `C37_names` (PropsConfigs) | registries are dicts; the suggestion in error messages is not modelled |
| C38 | convert finds a shortest chain of converters | proved | `C38_convert_applies_a_shortest_chain` (PropsConvert), `C38_converted_recipe` (PropsConvert), `C38_same_config_is_identity` (PropsConvert), `C38_no_chain_raises` (PropsConvert), `C38_values` (PropsConvert), `C38_recipe` (PropsConvert) |  |
| C39 | convert reports missing conversions as ValueError | partial | `C39_missing_conversion_is_ValueError_refuted` (PropsConvert), `C39_missing_conversion_is_ValueError_partial` (PropsConvert) | false of the code when a config occurs in no converter (KeyError); proved exactly otherwise |
| C40 | sd1 kohya keys map onto sd1 ldm | partial | `C40_sd1_kohya_partial` (PropsKeys), `C40_sd1_kohya_refuted` (PropsKeys), `C40_optional_keys_raise` (PropsKeys), `C40_sd1_names` (PropsKeyNames), `C40_sd1_names_refuted` (PropsKeyNames) | every key of the converted part except four VAE attention norm keys, which are looked up under a name no kohya file has; all keys and all state dicts |
| C41 | sdxl conversions cover every key | partial | `C41_sdxl_kohya_partial` (PropsKeysXl), `C41_sdxl_kohya_sources` (PropsKeysXl), `C41_sdxl_kohya_refuted` (PropsKeysXl), `C41_sdxl_diffusers_partial` (PropsKeysXl), `C41_sdxl_diffusers_refuted` (PropsKeysXl), `C41_sdxl_names` (PropsKeyNames), `C41_sdxl_names_refuted` (PropsKeyNames), `C41_te2_names` (PropsKeyNames) | the covered keys are proved; refuted for the 248 VAE keys and 31 bias shapes of the kohya conversion, and for the overwritten output block names of the diffusers conversion |
| C42 | block weights reach every key | proved | `C42_blocks` (PropsBlocks) |  |
| C43 | exchange_ema is an involution | proved | `C43_exchange_ema` (PropsBlocks), `C43_exchange_ema_other` (PropsBlocks) |  |
| C44 | lycoris keys | partial | `C44_kohya_partial` (PropsLora), `C44_lycoris_refuted` (PropsLora), `C44_names_distinct` (PropsLora) | proved for the kohya layout of every base config; refuted for the lycoris layout, whose converter asks for kohya names |
| C45 | flux conversions are mutually inverse | proved | `C45_flux` (PropsBlocks), `C45_flux_keys` (PropsBlocks) |  |
| C46 | copied regions are well formed | partial | `C46_region_partial` (PropsRegion), `C46_region_refuted` (PropsRegion), `C46_tensor_sum` (PropsRegion) | proved in exact real arithmetic; refuted in the doubles the code computes with, where width 1.0 and offset 0.3 on 15 rows give start 5 and end 4 |
| C47 | clamp stays within its bounds | proved | `C47_clamp` (PropsNum) | exact real arithmetic |
| C48 | top-k filtering | partial | `C48_top_k_partial` (PropsTies), `C48_top_k_refuted` (PropsTies) | proved for inputs that single precision holds exactly; refuted for double inputs, because the threshold is rounded to single precision |
| C49 | ties_sum | proved | `C49_ties_sum` (PropsTies) | exact real arithmetic |
| C50 | binomial coefficients and dropout mask distribution | partial | `C50_binomial` (PropsDrop), `C50_mask_distribution_partial` (PropsDrop), `C50_mask_distribution_refuted` (PropsDrop) | a distribution for 0 < p <= 1 and overlap in [0,1]; refuted for p = 0 and for overlap outside [0,1] |
| C51 | slerp | proved | `C51_slerp` (PropsSlerp), `C51_slerp_parallel` (PropsSlerp) | exact real arithmetic |
| C52 | perpendicular component | proved | `C52_perpendicular` (PropsNum) | exact real arithmetic |
| C53 | averages stay in the hull | proved | `C53_n_average` (PropsNum), `C53_weighted_sum` (PropsNum), `C53_geometric_median` (PropsNum) | exact real arithmetic; geometric_median for every number of iterations and every eps > 0 |
| C54 | difference algebra | proved | `C54_difference_algebra` (PropsDiff), `C54_add_difference_wrapper` (PropsDiff), `C54_add_perpendicular_wrapper` (PropsDiff) | exact real arithmetic, as recipes evaluated at a key |
| C55 | masks stay in range | proved | `C55_train_difference_mask` (PropsNum), `C55_add_opposite_mask` (PropsNum), `C55_add_strict_opposite_mask` (PropsNum) | exact real arithmetic, element-wise |
| C56 | lora composition | proved | `C56_lora_linear` (PropsLora), `C56_lora_conv` (PropsLora), `C56_lora_errors` (PropsLora) | exact real arithmetic |
| C57 | documented modes | partial | `C57_vote_partial` (PropsModes), `C57_vote_refuted` (PropsModes), `C57_extended_partial` (PropsModes), `C57_extended_refuted` (PropsModes), `C57_rescale_partial` (PropsModes), `C57_rescale_all` (PropsModes), `C57_rescale_refuted` (PropsModes) | each flag selects the mode it should switch off: refuted as documented, with the exact behaviour proved for all inputs |
| C58 | exported wrappers build recipes | partial | `C58_add_difference_partial` (PropsWrap), `C58_add_perpendicular_partial` (PropsWrap), `C58_ties_partial` (PropsWrap), `C58_ties_extended_partial` (PropsWrap), `C58_model_stock_partial` (PropsWrap), `C58_region_and_rotate_partial` (PropsWrap), `C58_dropout_refuted` (PropsWrap), `C58_ties_with_dare_refuted` (PropsWrap) | proved for seven wrappers and any number of models; dropout and ties_with_dare raise whatever they are given |
| C59 | crossover filter | proved | `C59_filter` (PropsFilter) | exact real arithmetic |
| C60 | weighted_sum needs only the model it uses | proved | `C60_weighted_sum_lazy` (PropsEval) | allclose and the tensor arithmetic are arbitrary functions |
| C61 | extra keys are forwarded | partial | `C61_extra_keys_partial` (PropsExtra), `C61_extra_keys_refuted` (PropsExtra), `C61_in_memory_partial` (PropsExtra2), `C61_structural_refuted` (PropsExtra2) | false of the code for two in-memory models with the same keys (RuntimeError), and for inputs of unknown architecture after the first (dropped); proved for files and in-memory models of the recipe's config when no two different in-memory models have equally many keys |
| C62 | file-backed models of unknown architecture can be merged | partial | `C62_unknown_files_refuted` (PropsConfigs2) | false of the code for every set of files: no key is ever merged; C34 covers in-memory inputs |
| C63 | identifiers split into architecture and implementation | proved | `C63_identifiers` (PropsConfigs) |  |
| C64 | the bytes written are the tensor's entries in order | partial | `C64_bytes_partial` (PropsBytes), `C64_converted_bytes_partial` (PropsBytes), `C64_bytes_refuted` (PropsBytes) | proved for contiguous tensors that own their storage and for the converted copy of any contiguous tensor; refuted for transposed results and for parts of a storage. How torch lays out the converted copy of a tensor that does not fill a block is not modelled |
| C65 | a plain state dict is converted from its best convertible config | partial | `C65_state_dict_conversion_refuted` (PropsConvert), `C65_state_dict_conversion_partial` (PropsConvert), `C65_no_chain_raises_partial` (PropsConvert), `C65_outcome` (PropsConvert), `C65_space` (PropsConvert) | false of the code when a better candidate occurs in no converter; every outcome is given exactly by C65_outcome, and the recipe a state dict of tensors becomes by C65_space |
| C66 | merging to a file and reading it back gives the recipe's values | proved | `C66_merge_to_file` (PropsDriver) | composes C21 with C05; same assumptions on raw transfers as C05 |
| C67 | registering a merge method does not change existing ones | partial | `C67_methods_replaced_refuted` (PropsConfigs), `C67_stale_conversion` (PropsConfigs), `C67_methods_partial` (PropsConfigs) | false of the code: registering a merge method under a name in use replaces it silently; proved: the last registration is the one found and other names are unaffected |
| C68 | alpha blends from a to b | partial | `C68_alpha_blends_partial` (PropsFilter), `C68_even` (PropsFilter), `C68_frequency` (PropsFilter), `C68_step` (PropsFilter), `C68_alpha_blends_refuted` (PropsFilter) | for every tilt further than 1e-10 from a multiple of 2; refuted at tilt 2 |
| C69 | dropout averages what it keeps | partial | `C69_dropout_partial` (PropsDropout), `C69_dropout_unbiased` (PropsDropout), `C69_dropout_refuted` (PropsDropout) | for overlaps that are not odd integers; refuted for odd overlaps |
| C70 | model_stock shrinks the average by agreement | partial | `C70_model_stock_partial` (PropsStock), `C70_model_stock_refuted` (PropsStock) | order independence is proved for two deltas and refuted for three; the rest is proved for any number |
| C71 | recipes written by hand | proved | `C71_comments` (PropsHand), `C71_padding` (PropsHand), `C71_version` (PropsHand), `C71_model_defaults` (PropsHand), `C71_unknown_command` (PropsHand), `C71_blank_line` (PropsErrors) |  |
| C72 | merging leaves the caller's tensors alone | partial | `C72_read_only_partial` (PropsHeap), `C72_copied_inputs_partial` (PropsHeap), `C72_inputs_kept_refuted` (PropsHeap) | refuted for tensor_sum on tensors that already have the merge dtype |
| C73 | top_k_tensor_sum moves values of a into the order of b | partial | `C73_top_k_partial` (PropsTopK), `C73_top_k_refuted` (PropsTopK) | proved for any region (only values of a), and for offset 0; refuted for offset 1/2 |
| C74 | select_max_delta takes the more remarkable entry | partial | `C74_select_partial` (PropsSelect), `C74_select_refuted` (PropsSelect) | refuted for alpha 1 where b is at its mean |
| C75 | add_cosine blends stay between the inputs | partial | `C75_add_cosine_a` (PropsCosine), `C75_add_cosine_b_partial` (PropsCosine), `C75_add_cosine_b_refuted` (PropsCosine) | proved for add_cosine_a; add_cosine_b gives NaN for a zero tensor |
| C76 | geometric_sum interpolates | partial | `C76_geometric_sum_partial` (PropsCosine), `C76_geometric_sum_refuted` (PropsCosine) | entries are not zero; refuted for opposite signs |
| C77 | multiply_quotient only acts where a and b are on opposite sides of c | partial | `C77_multiply_quotient_partial` (PropsCosine), `C77_multiply_quotient_refuted` (PropsCosine) | entries are not zero; with a number for alpha it raises for every tensor that has dimensions |
| C78 | Truncating the rank keeps a projection | partial | `C78_truncate_rank_partial` (PropsRank), `C78_target_rank` (RankProofs), `C78_small` (PropsRank), `C78_truncate_rank_refuted` (PropsRank) | proved when the target rank is below the number of columns or the matrix is wide; rank_ratio 1 raises for every matrix with at least as many rows as columns |
| C79 | Crossover moves from one model to the other | partial | `C79_crossover_partial` (PropsFourier), `C79_alpha_range` (PropsCross), `C79_crossover_refuted` (PropsCross), `C79_transforms` (PropsFourier), `C79_frequencies` (PropsFourier), `C79_mean` (PropsFourier), `C79_ball` (PropsFourier) | in exact real arithmetic, with the transforms given by their definition; refuted for tensors without dimensions, where tilt is used instead of alpha |
| C80 | Merge methods keep the shape of their inputs | partial | `C80_shapes_partial` (PropsShape), `C80_stock_partial` (PropsShape), `C80_quotient_partial` (PropsShape), `C80_stock_refuted` (PropsShape), `C80_white_refuted` (PropsShape), `C80_quotient_refuted` (PropsShape) | proved for 20 methods and every shape; refuted for model_stock on numbers, select_max_white_delta on matrices and multiply_quotient with a number for alpha |
| C81 | Stored defaults are used unless overridden | partial | `C81_defaults_partial` (PropsDefaults), `C81_threads` (PropsDefaults), `C81_resources` (PropsDefaults), `C81_tqdm_refuted` (PropsDefaults), `C81_tuple_refuted` (PropsDefaults) | proved for every combination of settings except a stored tqdm, which is ignored, and directories in a tuple, which raise AttributeError |
| C82 | A model config written to YAML reads back | partial | `C82_load` (PropsYaml), `C82_identifier` (PropsYaml), `C82_round_trip_partial` (PropsYaml), `C82_write_refuted` (PropsYaml), `C82_key_refuted` (PropsYaml), `C82_keys` (PropsYaml) | reading is proved; writing raises for every config with a component, and drops aliases and optional |
| C83 | The best orthogonal alignment | partial | `C83_procrustes_partial` (PropsProcrustes), `C83_rotation` (PropsProcrustes), `C83_power` (PropsProcrustes), `C83_procrustes_refuted` (PropsProcrustes) | optimality is proved for at most ten more columns than rows, and for any size with cancel_reflection; for wider matrices the result is never orthogonal |
| C84 | rotate turns a towards b | partial | `C84_rotate_partial` (PropsRotate), `C84_rotate_refuted` (PropsRotate), `C84_fraction_refuted` (PropsRotate), `C84_blend` (PropsRotate), `C84_centre` (PropsRotate), `C84_close` (PropsRotate) | in a merge rotate raises on every input, because its parameters are declared as tensors and used as dicts; the rest is proved for direct calls with dicts, where alignments that round to 0 do not turn anything |
| C85 | An accepted declaration works | partial | `C85_declare_partial` (PropsDeclare), `C85_space_partial` (PropsDeclare), `C85_late_space` (PropsDeclare), `C85_space_refuted` (PropsDeclare), `C85_variadic_refuted` (PropsDeclare), `C85_accepted` (PropsAccept), `C85_annotation_errors` (PropsAccept) | declarations are accepted whose recipes can never be built: a result symbol that no parameter uses, several spaces and none for the result; a variadic parameter of a plain type does not take plain values |
| C86 | An accepted conversion can be used | partial | `C86_conversion_partial` (PropsDeclare), `C86_conversion_refuted` (PropsDeclare), `C86_rejected_refuted` (PropsDeclare), `C86_registered` (PropsAccept) | a conversion without source config, with only a variadic parameter, or without target config is accepted and makes every convert() raise; a rejected one stays registered as a method |
| C87 | The builtin declarations are sound | partial | `C87_builtin_partial` (PropsDeclare), `C87_signatures` (PropsDeclare), `C87_no_inputs_refuted` (PropsDeclare) | proved for at least one positional input; without any, n_average raises StopIteration and geometric_median gives a parameter |
| C88 | geometric_median is as close to its inputs as it can be | proved | `C88_no_worse_than_average` (PropsMedian), `C88_iterations` (PropsMedian), `C88_standstill` (PropsMedian) | exact arithmetic; each step minimises a quadratic bound on the smoothed sum; the tangent inequality gives optimality at a standstill |
| C89 | what a call of merge produces | partial | `C89_merge_partial` (PropsMerge), `C89_merge_dtype_refuted` (PropsMerge), `C89_output_dtype_refuted` (PropsMerge) | composes C21, C22, C27; with a merge dtype the recipes are those of C27, and literals stored under a key must be tensors or numbers when there is an output dtype: the refutations show that it is false without |
| C90 | everything merge stores is in the output dtype | partial | `C90_output_dtype_partial` (PropsMerge), `C90_forwarded_keys` (PropsMerge), `C90_output_dtype_refuted` (PropsMerge) | holds with omit_extra_keys; without, C90_forwarded_keys says which values are stored and from where: forwarded ones are not cast |
| C91 | the recipe in a file reproduces the file | partial | `C91_embedded_recipe_partial` (PropsMerge), `C91_embedded_recipe_refuted` (PropsMerge), `C91_text` (PropsErrors) | composes C01, C21, C66; the second merge must be given the same options, which the file does not record; opening the inputs is any function of the recipe |
| C92 | weighted_sum stays between the models, rounding included | proved | `C92_weighted_sum_range` (PropsRound), `C92_self_merge` (PropsRound), `C92_merge_in_half_refuted` (PropsRound), `C92_accuracy` (PropsRoundErr) | IEEE arithmetic (Flocq), one rounding per torch operation; the output cast may go by way of another dtype, as torch's float64 to float16 does by float32; the _refuted theorem shows that the condition on the dtypes is needed |
| C93 | n_average stays between the models, rounding included | proved | `C93_average_range` (PropsRound), `C93_average_of_copies` (PropsRound), `C93_overflow_refuted` (PropsRound), `C93_accuracy` (PropsRoundErr) | IEEE arithmetic (Flocq); the order of addition is any binary tree, with zeros; the _refuted theorem shows that the condition on the exponents is needed |
| C94 | adding back a difference is exact for float16 models | proved | `C94_add_difference_exact` (PropsRound), `C94_difference_undone` (PropsRound), `C94_undone_refuted` (PropsRound) | IEEE arithmetic (Flocq); the condition wide is that the merge dtype has 2*emax+prec-1 bits, 42 for float16; the _refuted theorem shows the cases beyond |
| C95 | what the casts of merge do to a weight | proved | `C95_cast_back` (PropsRound), `C95_float16_range` (PropsRound), `C95_nearest` (PropsRoundErr) | IEEE conversions rounding to nearest even (Flocq), one NaN; float8_e4m3fn, which has no infinities, is not covered |
| C96 | which file a path stands for | partial | `C96_model_read_partial` (PropsPaths), `C96_missing` (PropsPaths), `C96_model_read_refuted` (PropsPaths), `C96_same_file` (PropsPaths), `C96_formats` (PropsPaths), `C96_register` (PropsPaths), `C96_name` (PropsPaths) | POSIX paths with symbolic links; permissions and hard links are not modelled; false of the code for links to files without the suffix, otherwise an equivalence |
| C97 | an output changes no other file | partial | `C97_output_place` (PropsPaths), `C97_read_back` (PropsPaths), `C97_other_files` (PropsPaths), `C97_models_kept_partial` (PropsPaths), `C97_input_emptied_refuted` (PropsPaths), `C97_name_taken_refuted` (PropsPaths) | the file system is that of C96; false of the code when the output is an input or shadows one, proved for the other models |
| C98 | recipes can be merged again | partial | `C98_again` (PropsReuse), `C98_first_partial` (PropsReuse), `C98_keys_refuted` (PropsReuse), `C98_config_refuted` (PropsReuse), `C98_dict_refuted` (PropsReuse) | nodes are objects with a mutable config; the data of a node does not change between merges; false of the code for nodes of unknown or ambiguous architecture and for dicts of recipes of unknown architecture |
| C99 | the numbers in a file | partial | `C99_file_partial` (PropsNumbers), `C99_file_refuted` (PropsNumbers), `C99_read_partial` (PropsNumbers), `C99_read_refuted` (PropsNumbers), `C99_read_swapped` (PropsNumbers), `C99_floats` (PropsNumbers), `C99_weighted_sum_files` (PropsNumbers) | tensors that fill their storage (C64 has the others); false of the code on big-endian machines, proved on little-endian ones; the weighted_sum statement uses the arithmetic of C92 |
| C100 | buffer sizes do not matter | partial | `C100_any_buffers_partial` (PropsTransfer), `C100_read_refuted` (PropsTransfer), `C100_write_refuted` (PropsTransfer) | one raw transfer moves at most cap bytes, a parameter; proved when buffers, tensors and headers are within it, false of the code beyond (total_buffer_size over 2^31 per file reads zeros) |
| C101 | tasks that share input files | proved | `C101_shared_files` (PropsShared), `C101_written_files` (PropsShared) | a task is any program that asks for tensors and looks at them; a request is one step as it runs under the lock of the file; writing into a tensor one was given is left out (C13, C72) |
| C102 | registered configs can be inferred however they were made | partial | `C102_plain_configs` (PropsConfObj), `C102_plain_determined` (PropsConfObj), `C102_when_inference_raises` (PropsConfObj), `C102_registering_refuted` (PropsConfObj), `C102_dataclass_parameter` (PropsConfObj), `C102_others_unaffected` (PropsConfObj) | false of the code for ModelConfigImpl objects; proved for configs that hash by identity, which is all the library registers, with the exact condition for the TypeError |
| C103 | a config read from a file acts like the config in the file | partial | `C103_unchanged_file` (PropsLazy), `C103_changed_file` (PropsLazy), `C103_settled` (PropsLazy), `C103_one_thread` (PropsLazy), `C103_one_config_refuted` (PropsLazy), `C103_identifier_parts_partial` (PropsLazy), `C103_identifier_parts_refuted` (PropsLazy) | false of the code while the file changes under several threads, and for the parts of the identifiers of the flux configs; reading a file is one step, create_config and the attributes are arbitrary functions |
| C104 | a cache does not change what a method gives | partial | `C104_same_results_partial` (PropsCache), `C104_calls_end` (PropsCache), `C104_second_call` (PropsCache), `C104_rounding_refuted` (PropsCache), `C104_alignment_refuted` (PropsCache), `C104_same_key_refuted` (PropsCache) | holds when storing loses nothing, calls with the same key need the same rotation, and no two threads use the same key; each of the three is shown to be needed; tensor operations are arbitrary functions, one lookup or store is one step |
| C105 | converting and merging can be exchanged | partial | `C105_convert_merged` (PropsCommute), `C105_lora_refuted` (PropsCommute), `C105_whole_tensors_refuted` (PropsCommute) | proved for entrywise methods and the conversions between layouts; false for low-rank models and for methods on whole tensors |
| C106 | the order of the models does not matter | partial | `C106_n_average` (PropsOrder), `C106_clamp` (PropsOrder), `C106_ties_sum` (PropsOrder), `C106_geometric_median` (PropsOrder), `C106_ties_sum_extended` (PropsOrder), `C106_weighted_sum` (PropsOrder), `C106_weighted_sum_refuted` (PropsOrder), `C106_slerp` (PropsOrder), `C106_exact_average` (PropsOrderRound), `C106_half_precision` (PropsOrderRound), `C106_rounding` (PropsOrderRound), `C106_rounding_refuted` (PropsOrderRound) | proved over the reals, and for the sums of n_average on IEEE numbers; false exactly for weights next to 1 and for rounded sums |
| C107 | ties_sum keeps to the deltas that agree, rounding included | partial | `C107_range` (PropsTiesRound), `C107_majority` (PropsTiesRound), `C107_sum_vote` (PropsTiesRound), `C107_sum_vote_refuted` (PropsTiesRound), `C107_finite` (PropsTiesRound) | on the deltas after filter_top_k (C48); the number of deltas that agree is exact, as float32 counts are up to 2^24; false with vote_sgn=True where the sum is rounded |
| C108 | clamp stays within its bounds, rounding included | proved | `C108_clamp_range` (PropsClampRound), `C108_clamp_exact` (PropsClampRound), `C108_clamp_stiff` (PropsClampRound) | the average is any number in the first two theorems and any finite number between two bounds in the third; 1 - stiffness is computed in the merge dtype, which is the same in the default float64; over the reals in C47 |
| C109 | in tells what a recipe uses | partial | `C109_model_partial` (PropsContains), `C109_merge` (PropsContains), `C109_literal_partial` (PropsContains), `C109_transitive` (PropsContains), `C109_itself` (PropsContains), `C109_refuted` (PropsContains) | the comparison of single tensor entries is any function; false of the code inside dict literals and for literals next to tensors |
| C110 | progress and warnings are exact | partial | `C110_reports` (PropsReports), `C110_state_dict` (PropsReports), `C110_single_thread` (PropsReports), `C110_numbers_refuted` (PropsReports) | which tensors have an entry that is not finite is any function; false of the code for numbers in an in-memory result; the progress bar object itself is not modelled |
| C111 | the masks stay in range, rounding included | partial | `C111_train_range` (PropsMaskRound), `C111_opposite_range` (PropsMaskRound), `C111_strict_range` (PropsMaskRound), `C111_strict_sides` (PropsMaskRound), `C111_empty` (PropsMaskRound), `C111_train_full` (PropsMaskRound), `C111_opposite_full` (PropsMaskRound), `C111_strict_full` (PropsMaskRound), `C111_strict_refuted` (PropsMaskRound) | false of the code for add_strict_opposite_mask at the middle when the merge dtype cannot hold the squares of the differences (float16 and bfloat16 models merged in their own dtype); the rest is proved; 1.8 is taken in the merge dtype; over the reals in C55 |
| C112 | the text of a recipe is no longer than its graph | proved | `C112_text_size` (PropsText), `C112_one_line_each` (PropsText), `C112_shared` (PropsText) | about the text; the serializer visits a recipe once for each use, so the time it takes does grow with the expanded tree |
| C113 | a path stands for the model it names | partial | `C113_path_argument` (PropsUse), `C113_path_argument_tensors` (PropsUse), `C113_path_parameter` (PropsUse), `C113_path_elsewhere_refuted` (PropsUse), `C113_model` (PropsUse), `C113_model_only` (PropsUse), `C113_model_values_refuted` (PropsUse) | proved for the arguments of merge methods and for model; false for operators, merge and the wrappers (C113_path_elsewhere_refuted), and model takes mappings with other values after the first (C113_model_values_refuted) |
| C114 | a recipe used in several places has one value | partial | `C114_same_value` (PropsShare), `C114_shared_value` (PropsShare), `C114_functions` (PropsShare), `C114_unseeded` (PropsShare), `C114_one_value_refuted` (PropsShare), `C114_seeded` (PropsShare), `C114_calls` (PropsShare), `C114_once_refuted` (PropsShare), `C114_evaluation` (PropsShare) | one value proved for methods that depend on their inputs only, with the number of calls; false for dropout without a seed (C114_one_value_refuted), and recipes are computed again for each use (C114_once_refuted). Positional inputs only |
| C115 | with CUDA, merged tensors are complete when merge returns | partial | `C115_complete` (PropsCuda), `C115_idle` (PropsCuda), `C115_no_deadlock` (PropsCuda), `C115_gpu_results_refuted` (PropsCuda), `C115_pending_input_refuted` (PropsCuda) | proved with output_device="cpu" or check_finite, for inputs that are ready; false otherwise (C115_gpu_results_refuted, C115_pending_input_refuted). The behaviour of streams is taken from PyTorch's documentation; every operation writes a new tensor; errors are not modelled |
| C116 | the tensors a merge returns are the caller's to change | partial | `C116_separate_partial` (PropsOut), `C116_new_methods` (PropsOut), `C116_same_dtype_refuted` (PropsOut) | proved for distinct merge and output dtypes and for recipes that end in a method that computes a new tensor; false for a model returned in the dtype it has (C116_same_dtype_refuted). Devices, views and methods that write to their inputs are left out |
| C117 | what becomes of the numbers given to a merge method | partial | `C117_float_iff` (PropsParam), `C117_accuracy` (PropsParam), `C117_bounds` (PropsParam), `C117_unit` (PropsParam), `C117_order` (PropsParam), `C117_weighted_sum` (PropsParam), `C117_int` (PropsParam), `C117_float_refuted` (PropsParam), `C117_half_refuted` (PropsParam) | which numbers arrive unchanged, and how far off the others are, proved; that all do is false (C117_float_refuted, C117_half_refuted). Torch's conversions are taken to round to nearest even; float8_e4m3fn and integer merge dtypes are left out |
| C118 | what get_dtype and get_device tell | partial | `C118_told` (PropsDtype), `C118_round_trip` (PropsDtype), `C118_merge_dtype` (PropsDtype), `C118_merge_device` (PropsDtype), `C118_model` (PropsDtype), `C118_kept` (PropsDtype), `C118_model_dtype_refuted` (PropsDtype), `C118_other` (PropsDtype), `C118_unknown` (PropsDtype) | what is told, with and without merge_dtype and merge_device, proved; that it is the dtype of the model is false under the default options (C118_model_dtype_refuted). Contents and conversions of tensors are any functions |
| C119 | select_max_white_delta selects by whitened deviation | partial | `C119_ends` (PropsWhite), `C119_alpha` (PropsWhite), `C119_second` (PropsWhite), `C119_uncorrelated` (PropsWhite), `C119_white_refuted` (PropsWhite), `C119_constant` (PropsWhite), `C119_always_second` (PropsWhite) | false (C119_white_refuted); what the method gives instead is proved, in exact arithmetic with infinities and NaN: always b (C119_always_second), or an exception if all elements of a or of b are equal (C119_constant). In rounded arithmetic the zero eigenvalues can come out tiny or negative |
| C120 | what copy_distribution copies | partial | `C120_moments` (PropsWhite), `C120_same_iff` (PropsWhite), `C120_expected` (PropsWhite), `C120_order_lost` (PropsWhite), `C120_same_refuted` (PropsWhite) | false (C120_same_refuted); what the mean and deviation are, when they are those of a, and that they are in expectation, is proved in exact arithmetic, for noise of finitely many values with mean 0 and variance 1 in C120_expected |
| C121 | state dict parameters are mappings | partial | `C121_contains` (PropsMapping), `C121_get` (PropsMapping), `C121_listed` (PropsMapping), `C121_items` (PropsMapping), `C121_consistent` (PropsMapping), `C121_handed` (PropsMapping), `C121_model` (PropsMapping), `C121_mandatory` (PropsMapping), `C121_literal` (PropsMapping), `C121_merge` (PropsMapping), `C121_fallback` (PropsMapping), `C121_component` (PropsMapping), `C121_listed_refuted` (PropsMapping) | the list of keys is that of the config and not that of what is there (C121_listed_refuted); the rest is proved, and C121_consistent says exactly when iterating works. C121_model assumes of the file what C01 and C02 prove of one that was written by the library |
| C122 | types of parameters | partial | `C122_parameter` (PropsTyping), `C122_return` (PropsTyping), `C122_hand` (PropsTyping), `C122_space` (PropsTyping), `C122_optional` (PropsTyping), `C122_optional_refuted` (PropsTyping), `C122_lookup` (PropsTyping), `C122_all` (PropsTyping), `C122_call` (PropsTyping), `C122_sound` (PropsTyping), `C122_decides` (PropsTyping), `C122_typevar` (PropsTyping), `C122_typevar_refuted` (PropsTyping), `C122_raises` (PropsTyping) | C122_optional_refuted and C122_typevar_refuted are where the code departs; the rest is proved, C122_sound and C122_decides for types without the class types.UnionType itself |
| C123 | an open model file is a mapping | partial | `C123_keys` (PropsFileMap), `C123_contains` (PropsFileMap), `C123_items` (PropsFileMap), `C123_items_raises` (PropsFileMap), `C123_items_complete` (PropsFileMap), `C123_metadata` (PropsFileMap), `C123_closed` (PropsFileMap), `C123_written` (PropsFileMap), `C123_listed_refuted` (PropsFileMap), `C123_out_len` (PropsFileMap), `C123_out_len_refuted` (PropsFileMap), `C123_stays` (PropsFileMap) | C123_listed_refuted and C123_out_len_refuted are where the code departs; the rest is proved, for transfers that fit the limit of the operating system as in C05, C11 and C12 |
| C124 | recipe files | partial | `C124_load` (PropsRecipeFile), `C124_refuses` (PropsRecipeFile), `C124_save` (PropsRecipeFile), `C124_save_raises` (PropsRecipeFile), `C124_round_trip` (PropsRecipeFile), `C124_line_ends` (PropsRecipeFile), `C124_others` (PropsRecipeFile), `C124_cr_refuted` (PropsRecipeFile), `C124_suffix_refuted` (PropsRecipeFile), `C124_readlines_refuted` (PropsRecipeFile), `C124_final_newline_refuted` (PropsRecipeFile) | the four refutations are where the code departs; the round trip is proved for the recipes of C01 whose strings and names have no carriage return. The encoding of the locale, directories named .mecha and failures of the disk are not modelled |
| C125 | dicts of values | partial | `C125_recipes` (PropsDicts), `C125_recipes_differ` (PropsDicts), `C125_plain` (PropsDicts), `C125_input` (PropsDicts), `C125_mixed` (PropsDicts), `C125_input_differ` (PropsDicts), `C125_literal_unchecked_refuted` (PropsDicts), `C125_same_error_refuted` (PropsDicts), `C125_merge` (PropsDicts), `C125_merge_strict_refuted` (PropsDicts) | the two refutations are where the code departs; the rest is proved. Mappings that are no dict, and subclasses of the kinds listed, are not modelled |

## What is modelled and what is not

| file of sd_mecha | modelled | not modelled |
|---|---|---|
| serialization.py | everything | reading a recipe from a file path; log messages |
| recipe_nodes.py | nodes, operators, depth and count visitors, `in` (C109), `set_cache` (for `rotate`, C104) | `__hash__` |
| extensions/merge_methods.py | argument binding, `create_recipe`, merge space and config inference, `value_to_node`, registration, the checks of `merge_method` on a declaration | Python's own `inspect.signature` and `typing` (a declaration is given as data: parameters with kind, type, merge spaces, config, default) |
| merging.py | `merge` (keys, casts, extra keys, pool, output), `open_input_dicts`, `KeyMergeVisitor`, `ErrorHolder`, `CastInputDicts`, `infer_model_configs`, checks, buffer sizes, progress and `check_finite` (C110) | other logging, CUDA streams, `torch.save` formats, node caches other than `rotate`'s |
| streaming.py | reading and writing safetensors files byte by byte; `tensor_to_bytes` on strided views (ModelBytes) and with the byte order of the machine (ModelNumbers) | errors of the operating system other than short files; a transfer that is short for another reason than the limit of one call (the limit is the parameter `cap`, C100) |
| conversion.py | everything | |
| extensions/model_configs.py | identifiers, registries, structural config, metadata cache; `from_yaml` and `to_yaml` between configs and plain data (ModelYaml); YAML configs as transcribed data; creation on first use (ModelLazy); configs in sets (ModelConfObj) | the YAML parser |
| extensions/model_formats.py, merge_spaces.py | registries; matching a path to a format (ModelPaths) | |
| builtin/merge_methods/__init__.py | weighted_sum, n_average, slerp, add_difference, subtract, perpendicular_component, tensor_sum (also with its writes into the arguments, ModelHeap), top_k_tensor_sum, select_max_delta, add_cosine_a, add_cosine_b, geometric_sum, multiply_quotient, the masks, clamp, filter_top_k, ties_sum, ties_sum_extended, dropout, ties_sum_with_dropout, model_stock, geometric_median, create_filter, crossover, truncate_rank, rotate; the shapes of all methods (ModelShape); fallback, cast, pick/omit_component | see the list below |
| builtin/merge_methods/svd.py | orthogonal_procrustes, fractional_matrix_power, torch_svd_lowrank, get_approximate_basis (ModelRank, ModelProcrustes) | how torch factorises a matrix |
| builtin/merge_methods/ema.py, lycoris.py | everything | |
| builtin/model_configs/convert_*.py | the key maps and the tensor reshapes | |
| merge_method_wrappers.py | add_difference, add_perpendicular, ties, ties_extended, copy_region, rotate, dropout, ties_with_dare, n_model_stock | |
| helpers.py | `Defaults` (ModelDefaults) | |
| typing_.py | `is_subclass` | `WriteOnlyMapping` |
| scripts/ | | everything |

Devices are modelled in C115 and C118 only; arithmetic is exact unless a theorem says otherwise (C46, C48 and C92-C95 are about IEEE numbers: ModelRound takes
weighted_sum, n_average, add_difference, subtract and cast with one rounding to nearest even per torch operation).

Idealisations that matter:

* **Exact arithmetic.** Theorems over the reals speak about the formulas of the code, not about rounding.
* **Strings** are byte strings.  Python's `str.split`, `strip` etc. are modelled for ASCII white space.
* **Atomic sections.** A thread switches only outside `with lock:` blocks; inside, a section is one step.
* **Raw file transfers** move all bytes asked for up to a limit, the parameter `cap` (C100 says what happens past it).
* **Objects** are compared by value except where the code compares identity and this matters (`ModelOpen.v`, the heap in `ModelStream.v`).

## Where the code departs from what a user would expect

Each is a theorem (`_refuted`, or named) unless marked (reading only).

* Serialization: booleans, infinities, positional strings holding `=`, newlines, config-less literals with a merge space do
  not round trip; a blank line raises (C04, C71).
* Reading: a truncated file gives zeros or stale bytes (C14); a tensor handed out aliases the buffer (C13).
* `create_recipe` silently drops an argument given both by position and by keyword (C17).
* `ErrorHolder` keeps the last exception, so that a missing key can hide a real failure (C26).
* Casting inputs changes which error is reported; an empty dict raises StopIteration; a dict is cast as a whole or not at all according to its first value, so recipes after a tensor are computed before the cast and tensors after a string are not cast (C27).  Integers above 2^24 change (C28).
* `omit_ema` together with `omit_extra_keys` edits the cached metadata: later merges lose keys (C29).
* A failed merge finalises the output file while writers still run (C30).
* A dict literal whose first value is data keeps the files of its other values open (C31), and is not counted for buffers (C33).
* A structural config is re-seeded when a prefix of the inputs has no key in common (C34); files of unknown
  architecture cannot be merged (C62).
* Merge methods are replaced silently on registration (C67).
* `dijkstra` raises KeyError for configs without converters (C39, C65).
* sd1 kohya: four VAE attention norm keys are looked up under names that do not exist (C40); sdxl kohya: all 248 VAE keys,
  and 31 biases get shape [3,1280] instead of [3840]; sdxl diffusers: output_blocks.2 keys (C41).
* Every lycoris converter uses the prefix of the last registered layout (C44).
* `ratio_to_region` in doubles can give start > end (C46); `filter_top_k` compares doubles to a single precision threshold (C48).
* dropout: probability 0 divides zero by zero, overlap outside [0,1] gives negative probabilities (C50); odd overlaps, the
  default among them, always raise (C69).
* vote_sgn, apply_stock, apply_median and no_rescale are inverted (C57).
* The wrappers dropout and ties_with_dare always raise TypeError (C58).
* The crossover filter is inverted at tilt 2 (C68).
* model_stock depends on the order of the deltas from three on, and raises for one (C70).
* The bytes written are those of the storage: a transposed result is written in the wrong order, a slice with its whole
  storage (C64).  tensor_sum overwrites the caller's tensors (C72).
* top_k_tensor_sum: a region that does not start at 0 has one element too many (C73); select_max_delta with alpha 1 keeps a
  where b is at its mean (C74); add_cosine_b gives NaN for a zero tensor (C75); geometric_sum leaves the interval for opposite
  signs (C76); multiply_quotient raises with its default alpha (C77).
* truncate_rank with rank_ratio 1 raises for every matrix with at least as many rows as columns (C78); crossover uses tilt
  instead of alpha for tensors without dimensions (C79).
* model_stock turns a tensor without dimensions into one of shape [1]; select_max_white_delta on matrices and multiply_quotient
  with a number for alpha do not keep the shape (C80).
* `Defaults` ignores a stored tqdm, and raises AttributeError for directories in a tuple (C81).
* `to_yaml` raises for every config with a component (it passes a method instead of calling it), and drops aliases and optional (C82).
* orthogonal_procrustes gives a matrix that is not orthogonal for more than ten extra columns (C83).
* rotate raises in every merge, and alignments that round to 0 do not turn anything (C84).
* A cached rotation is rounded to half precision, is reused for other tensors and alignments, and can be read half stored (C104).
* Averaging low-rank models and converting the average is not averaging the converted models (C105).
* Declarations are accepted whose recipes can never be built: a result symbol that no parameter uses, several spaces for the parameters and none for the result (C85).
* A variadic parameter declared with a plain type does not take plain values (C85).
* A conversion without source or target config, or with only a variadic parameter, is accepted and makes every convert() raise; a rejected one stays registered as a method (C86).
* With omit_extra_keys=False, keys forwarded from a model file are stored in the dtype of the file, not in output_dtype (C90).
* The recipe text in a file leaves out fallback_model, so it does not reproduce the file (C91).
* n_average without models raises StopIteration, geometric_median without models gives a parameter (C87).
* Merging in float16 (merge_dtype=float16) moves weights even when a model is merged with itself (C92); bfloat16 models averaged
  in float32 can overflow (C93); adding back a difference loses small bfloat16 and float32 weights (C94); the default
  output_dtype turns weights of 65520 and more into infinities (C95).
* On a big-endian machine uint16, uint32 and uint64 tensors cannot be written, and files are read without swapping bytes (C99).
* With more than 2 GiB of buffer per file, tensors are read as zeros; tensors over 2 GiB are cut when written (C100).
* A link named *.safetensors to a file named otherwise is refused (C96); an output may be one of the inputs, which it empties before
  they are read, or take over the name of a model in a later directory (C97).
* A merge leaves the configs it found on the nodes: an in-memory dict of unknown architecture merged with a smaller one loses keys in
  every later merge, and one that fits two configs is refused for the second (C98).
* a dict of recipes over data of unknown architecture merges to an empty dict: its keys are not counted as its values are
  recipes, and every key its values brought is removed (C98).
* weighted_sum takes a weight of 1 - 1e-6 for 1 but not one of 1e-6 for 0; the average of bfloat16 models can depend on their order,
  1/3 or 0 (C106); with vote_sgn=True ties_sum of bfloat16 models can drop every delta although their sum is positive (C107).
* `model in recipe` does not look into dicts of recipes, and `literal in recipe` raises RuntimeError if it meets a tensor with several entries
  before an equal value (C109).
* `check_finite` looks at tensors only: infinite numbers in a merged dict are not warned about (C110).
* add_strict_opposite_mask in float16 is zero where it should be full if the models differ little, since the squares vanish (C111).
* The operators, `merge` and the exported wrappers refuse a `pathlib.Path`, which their annotations allow and merge methods accept;
  `model` checks only the first value of a mapping (C113).
* A recipe is computed again for each use, which takes exponential time in chains of recipes that use one another twice; with dropout
  without a seed each use has another value (C114).
* with `output_device` a gpu (or None with models on the gpu) and `check_finite=False`, `merge` returns tensors
  whose computation may be pending on the workers' streams, and models still being computed on the
  caller's stream are not waited for (C115).
* a model that has the merge dtype and the output dtype is returned as the caller's own tensors, by recipes that
  hand on their inputs (C116).
* Numbers given to a merge method are rounded to float32 before they are cast to merge_dtype (C28, C117).
* Under the default options `get_dtype` and `get_device` tell merge_dtype and merge_device, not what the model has (C118).
* `select_max_white_delta` whitens over the elements instead of the two deltas: every whitened value is an infinity or NaN, and its result is b whatever alpha is (C119).
* `copy_distribution` has the mean and deviation of its input in expectation only (C120).
* `keys()`, `len` and iteration of a StateDict parameter list the keys of the config: `items()` raises when one is missing, after `pick_component` in particular (C121).
* `Parameter(None | X)` declares None, `Parameter(int | str | None)` keeps only `int`, and `Parameter(StateDict[None])` declares None instead of a state dict (C122).
* `is_subclass` of any union against a type variable with constraints is True, whatever the members; no call in the library does this (C122).
* A key of a file whose dtype is unknown is listed by `keys()` and is not `in` the file; `items()` and `metadata()` raise KeyError for it (C123).
* `len` of an `OutSafetensorsDict` counts `__metadata__` (C123).
* (reading only) `InSafetensorsDict.keys()` is a generator: it has no length and can be used once.
* `deserialize(f.readlines())`, which `examples/recipe_deserialize.py` does, always raises: the version line keeps its newline (C124).
* A recipe text that ends with a newline always raises (C124).
* A string with a carriage return survives `serialize` and `deserialize` but not a file: text mode turns it into a newline (C124).
* `serialize` writes to any file name, `deserialize_path` refuses all but `.mecha` (C124).
* `literal` accepts dicts of mixed values that a merge method refuses, and a merge method takes the literal (C125).
* Recipes of different configs or merge spaces in one dict raise ValueError in `literal` and RuntimeError in a call (C125).
* A converted plain state dict is a recipe in merge space "param", so a strict merge and methods that take it next to a model in weight space refuse it (C65_space).
* `convert` takes a path in its type hint but raises TypeError on one; on a number or a string it raises AttributeError (C38_values).
* `merge` on a plain state dict always raises unless strict_weight_space is switched off, since its merge space is "param" (C125_merge_strict_refuted).
* (reading only) `convert_flux` is never imported; a nested `open_input_dicts` closes handles of the outer one.

## Trusted base

* The Coq 8.16.1 kernel, including its virtual machine (`vm_compute`), which is used to evaluate the finite key tables
  (`coqchk`, which has no virtual machine, accepts them too).
* The reading of the Python code that the models encode; the comments cite the lines.  `Data*.v` are transcriptions made by
  `tools/gen_configs.py` and `tools/gen_methods.py`.
* The axioms below, all from Coq's standard library, for the theorems named; every other theorem of MANIFEST.json is
  closed under the global context.  Libraries used besides the standard library: Flocq (C48_top_k_refuted, C46, C92-C95, C106-C108, C111, for IEEE numbers)
  and mathcomp (C78, C83, C84, for matrices); they add no axiom.

* `FunctionalExtensionality.functional_extensionality_dep`: C27_cast_inputs_partial, C89_merge_partial, C90_output_dtype_partial, C90_forwarded_keys.
* `ClassicalDedekindReals.sig_forall_dec`, `FunctionalExtensionality.functional_extensionality_dep`: C44_kohya_partial, C44_lycoris_refuted, C46_region_partial, C46_tensor_sum, C47_clamp, C48_top_k_partial, C49_ties_sum, C53_n_average, C53_weighted_sum, C54_difference_algebra, C54_add_difference_wrapper, C55_train_difference_mask, C55_add_opposite_mask, C55_add_strict_opposite_mask, C56_lora_linear, C56_lora_conv, C56_lora_errors, C57_vote_partial, C57_vote_refuted, C73_top_k_partial, C73_top_k_refuted, C78_target_rank, C78_truncate_rank_refuted, C105_lora_refuted, C106_n_average, C106_clamp, C106_ties_sum, C106_weighted_sum, C106_weighted_sum_refuted.
* `ClassicalDedekindReals.sig_forall_dec`, `ClassicalDedekindReals.sig_not_dec`, `Classical_Prop.classic`, `FunctionalExtensionality.functional_extensionality_dep`: C48_top_k_refuted, C51_slerp, C51_slerp_parallel, C69_dropout_partial, C69_dropout_unbiased, C69_dropout_refuted, C76_geometric_sum_partial, C76_geometric_sum_refuted, C77_multiply_quotient_partial, C92_weighted_sum_range, C92_self_merge, C92_merge_in_half_refuted, C93_average_range, C93_average_of_copies, C93_overflow_refuted, C94_add_difference_exact, C94_difference_undone, C94_undone_refuted, C95_cast_back, C95_float16_range, C92_accuracy, C93_accuracy, C95_nearest, C99_floats, C99_weighted_sum_files, C106_slerp, C106_exact_average, C106_half_precision, C106_rounding, C106_rounding_refuted, C108_clamp_range, C108_clamp_exact, C108_clamp_stiff, C107_range, C107_majority, C107_sum_vote, C107_sum_vote_refuted, C111_train_range, C111_opposite_range, C111_strict_range, C111_strict_sides, C111_empty, C111_train_full, C111_opposite_full, C111_strict_full, C111_strict_refuted, C107_finite, C117_float_iff, C117_accuracy, C117_bounds, C117_unit, C117_order, C117_weighted_sum, C117_int, C117_float_refuted, C117_half_refuted.
* `ClassicalDedekindReals.sig_forall_dec`, `ClassicalDedekindReals.sig_not_dec`, `FunctionalExtensionality.functional_extensionality_dep`: C50_mask_distribution_partial, C50_mask_distribution_refuted, C52_perpendicular, C53_geometric_median, C88_no_worse_than_average, C88_iterations, C88_standstill, C54_add_perpendicular_wrapper, C57_extended_partial, C57_extended_refuted, C57_rescale_partial, C57_rescale_all, C57_rescale_refuted, C59_filter, C68_alpha_blends_partial, C68_even, C68_frequency, C68_step, C68_alpha_blends_refuted, C70_model_stock_partial, C70_model_stock_refuted, C74_select_partial, C74_select_refuted, C75_add_cosine_a, C75_add_cosine_b_partial, C75_add_cosine_b_refuted, C79_crossover_partial, C79_alpha_range, C79_crossover_refuted, C79_transforms, C79_frequencies, C79_mean, C79_ball, C105_whole_tensors_refuted, C106_geometric_median, C106_ties_sum_extended, C119_ends, C119_alpha, C119_second, C119_uncorrelated, C119_white_refuted, C120_moments, C120_same_iff, C120_expected, C120_order_lost, C120_same_refuted, C119_constant, C119_always_second.
