{"id": "C01", "title": "serialize/deserialize round trip", "statement": "For every recipe built through the public API whose literals are strings, integers, finite floats, None or dicts of these or of recipes, deserialize(serialize(recipe)) succeeds and rebuilds an equal recipe tree (same methods, same positional and keyword inputs, same paths, configs and merge spaces). The conditions: strings hold no newline, strings used positionally hold no '=', dict keys and keyword names hold no space, quote, backslash, '=' or newline; literals without a model config come from plain values passed to a merge method and do not stand at the root nor inside a dict of recipes; configs and merge spaces are registered.", "quantifier": "all recipe trees of any depth and width, all strings, integers and float spellings meeting the stated conditions, any registry of merge methods", "why_tests_cant": "recipes are unbounded trees with arbitrary string content and arbitrary sharing; tests sample a handful", "anchors": ["sd_mecha/serialization.py:serialize", "sd_mecha/serialization.py:SerializerVisitor", "sd_mecha/serialization.py:deserialize"]}
{"id": "C02", "title": "serialized references only point backwards", "statement": "In the text produced by serialize, no instruction line is repeated and the text starts with the version header, for every recipe that serializes; and for the recipes of C01 every '&n' reference denotes a line strictly earlier than the one holding it.", "quantifier": "all serializable recipes", "why_tests_cant": "sharing patterns are unbounded", "anchors": ["sd_mecha/serialization.py:SerializerVisitor", "sd_mecha/serialization.py:serialize"]}
{"id": "C03", "title": "deserialize rejects what it cannot resolve", "statement": "If deserialize returns a recipe then the first line was exactly the supported version header, and every '&n' it resolved denoted the result of an earlier non-comment line; a reference that is negative, equal to or beyond the number of results so far always raises; a word that stands for no value (no reference, string, number or constant) makes deserialize raise ValueError, whatever the command.", "quantifier": "all texts (lists of lines)", "why_tests_cant": "the input space is all strings", "anchors": ["sd_mecha/serialization.py:deserialize"]}
{"id": "C04", "title": "round trip of every literal", "statement": "deserialize(serialize(r)) = r for recipes holding booleans, infinities, positional strings with '=', strings with newlines, config-less literals with a merge space, dicts of literal nodes, and for a bare literal at the root. (Expected by a user; the code violates it.)", "quantifier": "all literals accepted by the API", "why_tests_cant": "each counterexample lies outside what the tests exercise; the positive part is universally quantified", "anchors": ["sd_mecha/serialization.py:SerializerVisitor.__serialize_value", "sd_mecha/serialization.py:deserialize.preprocess_args", "sd_mecha/serialization.py:CONSTANTS"]}
{"id": "C05", "title": "written safetensors reads back exactly", "statement": "Whatever the order in which worker threads hand tensors to the output file, the number of threads, the buffer sizes and the declared header, after close() the file parses as safetensors and reading any key returns the dtype, shape and bytes written for it, and the keys are exactly those written.", "quantifier": "all interleavings of thread steps, all thread counts, buffer sizes, tensors, keys (distinct, not '__metadata__'), declared headers", "why_tests_cant": "interleavings and sizes are unbounded; races show only under specific schedules", "anchors": ["sd_mecha/streaming.py:OutSafetensorsDict", "sd_mecha/streaming.py:InSafetensorsDict"]}
{"id": "C06", "title": "output tensors tile the data section", "statement": "In a closed output file the [start,end) ranges of the tensors are pairwise disjoint, have the length of their tensors and together cover the data section exactly, from 0 to its end.", "quantifier": "all interleavings, thread counts, buffer sizes and tensors", "why_tests_cant": "unbounded schedules", "anchors": ["sd_mecha/streaming.py:OutSafetensorsDict._flush_buffer", "sd_mecha/streaming.py:OutSafetensorsDict.close"]}
{"id": "C07", "title": "reserved header space always suffices", "statement": "If every tensor written is declared in the header with the same dtype name and shape, in whatever order and whichever subset is written, the final header is never longer than the space reserved when the file was opened, so the data section is never moved.", "quantifier": "all declared headers, all orders and subsets of writes", "why_tests_cant": "there are n! write orders; the claim is a worst-case argument", "anchors": ["sd_mecha/streaming.py:OutSafetensorsDict._init_buffer", "sd_mecha/streaming.py:OutSafetensorsDict.close"]}
{"id": "C08", "title": "moving the data section loses nothing", "statement": "When the final header outgrows the reserved space, moving the data section chunk by chunk leaves every data byte at its new position unchanged, for every chunk size of at least one byte and every data size.", "quantifier": "all data sections, all shifts, all chunk sizes >= 1", "why_tests_cant": "overlapping copies fail only for particular size combinations", "anchors": ["sd_mecha/streaming.py:OutSafetensorsDict.close"]}
{"id": "C09", "title": "an interrupted write is never mistaken for a model", "statement": "If the process dies at any point before close() has started writing the header, the file on disk is not readable as a safetensors file by this library (opening it raises).", "quantifier": "all prefixes of all write histories", "why_tests_cant": "crash points cannot be enumerated by tests", "anchors": ["sd_mecha/streaming.py:OutSafetensorsDict", "sd_mecha/streaming.py:InSafetensorsDict._read_header"]}
{"id": "C10", "title": "output buffers stay bounded", "statement": "At every moment each thread's output buffer holds at most max(buffer size, size of the largest tensor that thread wrote) bytes, and pending data never exceeds the buffer.", "quantifier": "all histories", "why_tests_cant": "unbounded histories", "anchors": ["sd_mecha/streaming.py:OutSafetensorsDict.__setitem__", "sd_mecha/streaming.py:OutSafetensorsDict._flush_buffer"]}
{"id": "C11", "title": "buffered reads equal direct reads", "statement": "For every buffer size and every sequence of key reads, each read of a complete file returns exactly the bytes the header assigns to the key, as if read directly.", "quantifier": "all files, buffer sizes and read sequences", "why_tests_cant": "window-reuse bugs depend on the exact history of offsets", "anchors": ["sd_mecha/streaming.py:InSafetensorsDict._ensure_buffer", "sd_mecha/streaming.py:InSafetensorsDict._load_tensor"]}
{"id": "C12", "title": "tensors already handed out are not changed by later reads", "statement": "A tensor returned by a read keeps its bytes whatever is read afterwards from the same file.", "quantifier": "all read histories", "why_tests_cant": "aliasing depends on history", "anchors": ["sd_mecha/streaming.py:InSafetensorsDict._ensure_buffer"]}
{"id": "C13", "title": "reading the same key twice gives the same tensor", "statement": "Reads are repeatable even if the caller modifies in place a tensor it received (as tensor_sum and rotate do). (The code violates it: the buffer is shared.)", "quantifier": "all histories of reads and in-place writes", "why_tests_cant": "depends on buffer residency", "anchors": ["sd_mecha/streaming.py:InSafetensorsDict._load_tensor", "sd_mecha/extensions/builtin/merge_methods/__init__.py:tensor_sum"]}
{"id": "C14", "title": "a truncated file is detected", "statement": "Reading a key whose data lies beyond the end of the file raises. (The code violates it: it returns zeros or stale bytes.)", "quantifier": "all truncations", "why_tests_cant": "needs arbitrary truncation points", "anchors": ["sd_mecha/streaming.py:InSafetensorsDict._ensure_buffer"]}
{"id": "C15", "title": "keys and iteration of an input file", "statement": "Iterating an input file yields every header entry except '__metadata__' exactly once, sorted by data offset, and len() equals the number of keys yielded.", "quantifier": "all headers", "why_tests_cant": "unbounded headers", "anchors": ["sd_mecha/streaming.py:InSafetensorsDict.keys", "sd_mecha/streaming.py:InSafetensorsDict.__len__", "sd_mecha/streaming.py:InSafetensorsDict._read_header"]}
{"id": "C16", "title": "calling a merge method binds arguments like Python", "statement": "Whenever a Python call with the same signature would bind the arguments, building the recipe succeeds in binding them and binds every parameter (positional, variadic, keyword, defaulted) to the same value.", "quantifier": "all signatures and all calls", "why_tests_cant": "combinatorial space of signatures and calls", "anchors": ["sd_mecha/extensions/merge_methods.py:MergeMethod.create_recipe"]}
{"id": "C17", "title": "ill-formed calls are rejected", "statement": "Whenever the same Python call would raise TypeError, building the recipe raises. (The code violates it: a parameter given both by position and keyword silently drops an argument.)", "quantifier": "all signatures and calls", "why_tests_cant": "combinatorial", "anchors": ["sd_mecha/extensions/merge_methods.py:MergeMethod.create_recipe"]}
{"id": "C18", "title": "merge spaces are sound", "statement": "A merge recipe can be built only if every input's merge space is allowed by its parameter and all inputs tied to the same symbol agree; its merge space is then the declared one, or the one the inputs bound to the symbol. Conversely such inputs are accepted.", "quantifier": "all signatures with any mix of fixed spaces, sets and symbols, all inputs", "why_tests_cant": "unbounded recipe trees", "anchors": ["sd_mecha/extensions/merge_methods.py:MergeMethod.get_return_merge_space", "sd_mecha/recipe_nodes.py:MergeRecipeNode"]}
{"id": "C19", "title": "model configs are sound", "statement": "The config of a merge recipe exists only if every input with a known config matches the config its parameter requires (or the common one when none is declared), and it is the declared return config or that common config, independently of the order in which inputs are considered.", "quantifier": "all signatures and inputs", "why_tests_cant": "unbounded trees", "anchors": ["sd_mecha/extensions/merge_methods.py:MergeMethod.get_return_config"]}
{"id": "C20", "title": "operators + - |", "statement": "a + b applies the delta operand to the weight operand whichever side it is on; when it succeeds the result is in weight space and swapping the operands gives the same recipe; a - b of two weights is a delta; a | b keeps the merge space.", "quantifier": "all pairs of recipes", "why_tests_cant": "all merge-space combinations over unbounded trees", "anchors": ["sd_mecha/recipe_nodes.py:RecipeNode.__add__", "sd_mecha/recipe_nodes.py:RecipeNode.__sub__", "sd_mecha/recipe_nodes.py:RecipeNode.__or__"]}
{"id": "C21", "title": "merge output is the per-key evaluation, whatever the threads", "statement": "If no key fails, merge returns exactly the mapping from each key of the recipe's config to the value of the recipe at that key, leaving out exactly the keys whose evaluation reports a missing key; the mapping does not depend on the number of threads nor on the order in which keys complete.", "quantifier": "all recipes, thread counts, schedules", "why_tests_cant": "schedules are unbounded", "anchors": ["sd_mecha/merging.py:merge", "sd_mecha/merging.py:_track_output", "sd_mecha/merging.py:KeyMergeVisitor"]}
{"id": "C22", "title": "fallback semantics", "statement": "(a | b) at a key is a's value if a has the key, b's value if a reports the key missing, and a's error otherwise; hence | is associative and merge(..., fallback_model=f) changes only keys missing from the recipe.", "quantifier": "all recipes, keys", "why_tests_cant": "unbounded trees", "anchors": ["sd_mecha/extensions/builtin/merge_methods/__init__.py:fallback", "sd_mecha/recipe_nodes.py:RecipeNode.__or__", "sd_mecha/merging.py:merge"]}
{"id": "C23", "title": "pick and omit partition a model", "statement": "For every component and key exactly one of pick_component(a,c) and omit_component(a,c) gives a's outcome and the other reports the key missing; pick_component(a,c) | omit_component(a,c) equals a; unknown components raise.", "quantifier": "all configs, components, recipes, keys", "why_tests_cant": "unbounded", "anchors": ["sd_mecha/extensions/builtin/merge_methods/__init__.py:pick_component", "sd_mecha/extensions/builtin/merge_methods/__init__.py:omit_component"]}
{"id": "C24", "title": "alias resolution", "statement": "Looking up a key in a state dict returns the entry under the canonical key if present, otherwise under the first listed alias present, and reports the canonical key missing exactly when none is present.", "quantifier": "all state dicts, configs", "why_tests_cant": "unbounded", "anchors": ["sd_mecha/merging.py:KeyMergeVisitor.__visit_sd"]}
{"id": "C25", "title": "which error a merge reports", "statement": "If some input of a merge fails, the merge at that key fails with the error of the input evaluated last (inputs are evaluated deepest first, stably), and the merge function is not called; if none fails the result does not depend on that evaluation order.", "quantifier": "all recipes", "why_tests_cant": "order depends on depth of arbitrary trees", "anchors": ["sd_mecha/merging.py:KeyMergeVisitor.__visit_deeper_first", "sd_mecha/merging.py:ErrorHolder"]}
{"id": "C26", "title": "a real failure is never swallowed", "statement": "If evaluating some input of the recipe at a key raises an error other than a missing key, merge raises. (The code violates it: a later missing-key error replaces it and the key is silently skipped.)", "quantifier": "all recipes", "why_tests_cant": "needs a specific tree shape", "anchors": ["sd_mecha/merging.py:ErrorHolder.intercept", "sd_mecha/merging.py:_track_output"]}
{"id": "C27", "title": "casting inputs commutes with evaluation", "statement": "Rewriting the recipe to cast its inputs to merge_dtype/merge_device does not change its config or which keys exist, and evaluates to what the original recipe gives on leaf tensors cast one by one. (Violated: the cast changes the order in which inputs are evaluated, hence which error is reported; an empty dict input raises StopIteration; a dict that mixes tensors with recipes or strings is cast according to its first value.)", "quantifier": "all recipes", "why_tests_cant": "unbounded trees", "anchors": ["sd_mecha/merging.py:CastInputDicts", "sd_mecha/recipe_nodes.py:RecipeNode.to", "sd_mecha/extensions/builtin/merge_methods/__init__.py:cast"]}
{"id": "C28", "title": "integer hyperparameters reach the method unchanged", "statement": "An int passed to a parameter declared int (a seed, an iteration count) reaches the merge method unchanged under default merge options. (Holds up to 2**24 in absolute value; the code violates it above.)", "quantifier": "all integers", "why_tests_cant": "precision loss starts at 2**24+1", "anchors": ["sd_mecha/merging.py:CastInputDicts.visit_literal", "sd_mecha/merging.py:cast_node_value"]}
{"id": "C29", "title": "merges are independent of earlier merges", "statement": "The set of keys produced by merge depends only on its arguments, not on merges made before in the same process. (The code violates it: omit_ema edits the shared config metadata.)", "quantifier": "all histories of merge calls", "why_tests_cant": "history-dependent", "anchors": ["sd_mecha/merging.py:merge", "sd_mecha/extensions/model_configs.py:ModelConfigImpl.metadata"]}
{"id": "C30", "title": "a failed merge leaves no plausible output", "statement": "If merge raises after starting to write a file, the file is not a readable safetensors file. (The code violates it: close() finalises a partial file, while other threads may still be writing, so that a key can even read back as another key's tensor.)", "quantifier": "all recipes, schedules and failing keys", "why_tests_cant": "needs failure at an arbitrary point", "anchors": ["sd_mecha/merging.py:_get_output_dict", "sd_mecha/merging.py:merge"]}
{"id": "C31", "title": "input files are closed on every path", "statement": "When open_input_dicts exits, normally or by an error raised while loading or in the body, no input file opened by it is left open and no recipe node keeps a state dict.", "quantifier": "all recipes, all failure points", "why_tests_cant": "all failure points over unbounded trees", "anchors": ["sd_mecha/merging.py:open_input_dicts", "sd_mecha/merging.py:LoadInputDictsVisitor", "sd_mecha/merging.py:CloseInputDictsVisitor"]}
{"id": "C32", "title": "each model file is opened once", "statement": "During one open_input_dicts, every distinct resolved path is opened exactly once however many nodes refer to it, and all of them read the same state dict.", "quantifier": "all recipes", "why_tests_cant": "unbounded sharing", "anchors": ["sd_mecha/merging.py:LoadInputDictsVisitor.__load_dict"]}
{"id": "C33", "title": "buffers respect total_buffer_size", "statement": "The buffers of all input files plus the per-thread output buffers never add up to more than total_buffer_size, when no single tensor is larger than its buffer. (Violated for models nested in dict literals, which are not counted.)", "quantifier": "all recipes, thread counts and sizes", "why_tests_cant": "unbounded", "anchors": ["sd_mecha/merging.py:merge", "sd_mecha/recipe_nodes.py:ModelsCountVisitor"]}
{"id": "C34", "title": "structural config is the intersection of the inputs", "statement": "When no config is known, the keys merged are exactly the keys all in-memory inputs share. (Violated when a prefix of the inputs shares no key: the next input restarts the intersection.)", "quantifier": "all lists of state dicts", "why_tests_cant": "unbounded", "anchors": ["sd_mecha/merging.py:LoadInputDictsVisitor.__determine_model_config"]}
{"id": "C35", "title": "config inference ranks by matching keys", "statement": "infer_model_configs returns only configs that match at least a tenth of the keys, grouped by number of matched keys in strictly decreasing order, each config in one group.", "quantifier": "all state dicts and registries", "why_tests_cant": "unbounded", "anchors": ["sd_mecha/merging.py:infer_model_configs"]}
{"id": "C36", "title": "mandatory key check", "statement": "With check_mandatory_keys an input is rejected iff some non-optional key of its config is present neither under its own name nor under an alias.", "quantifier": "all configs and state dicts", "why_tests_cant": "unbounded", "anchors": ["sd_mecha/merging.py:check_model_config"]}
{"id": "C37", "title": "registries never silently replace a config", "statement": "Registering a model config, merge space or model format under an identifier already in use raises and changes nothing; otherwise resolve returns the registered object and every other identifier resolves as before.", "quantifier": "all registration histories", "why_tests_cant": "unbounded histories", "anchors": ["sd_mecha/extensions/model_configs.py:register", "sd_mecha/extensions/model_configs.py:resolve", "sd_mecha/extensions/merge_spaces.py:register_merge_space", "sd_mecha/extensions/model_formats.py:__register_model_format_impl"]}
{"id": "C38", "title": "convert finds a shortest chain of converters", "statement": "convert composes converters that lead from the recipe's config to the target, as few as possible; it finds one iff one exists; if the configs are equal the recipe is returned unchanged. A path or a plain value in place of a recipe raises.", "quantifier": "all converter graphs", "why_tests_cant": "graphs are unbounded", "anchors": ["sd_mecha/conversion.py:convert", "sd_mecha/conversion.py:dijkstra", "sd_mecha/conversion.py:create_conversion_recipe"]}
{"id": "C39", "title": "convert reports missing conversions as ValueError", "statement": "convert raises ValueError whenever no conversion exists. (Violated: KeyError when the source or target config has no converter at all.)", "quantifier": "all converter graphs", "why_tests_cant": "depends on graph shape", "anchors": ["sd_mecha/conversion.py:dijkstra", "sd_mecha/conversion.py:convert"]}
{"id": "C40", "title": "sd1 kohya keys map onto sd1 ldm", "statement": "For every key of the sd1-ldm config that the kohya layout covers, converting asks the kohya state dict only for keys its config declares, distinct target keys read distinct source keys, and every result has the declared shape. The key read is the one that names the same parameter of the same module. (Violated for the four attention norm keys of the VAE, which are looked up under names that do not exist.)", "quantifier": "all keys of the builtin configs (finite, exhaustively)", "why_tests_cant": "over a thousand keys and string rewriting rules", "anchors": ["sd_mecha/extensions/builtin/model_configs/convert_sd1_kohya_to_original.py", "sd_mecha/extensions/builtin/model_configs/convert_huggingface_sd_vae_to_original.py"]}
{"id": "C41", "title": "sdxl conversions cover every key", "statement": "Every sdxl-sgm key covered by the kohya or diffusers layout is produced by the conversion from a key its config declares. The key read is the one that names the same parameter of the same module. (Violated: whole groups of keys are looked up under names that do not exist.)", "quantifier": "all keys of the builtin configs", "why_tests_cant": "thousands of keys", "anchors": ["sd_mecha/extensions/builtin/model_configs/convert_sdxl_kohya_to_original.py", "sd_mecha/extensions/builtin/model_configs/convert_sdxl_diffusers_unet_to_original.py"]}
{"id": "C42", "title": "block weights reach every key", "statement": "Converting block weights gives every key of the full config the value of a block that the blocks config declares.", "quantifier": "all keys of the builtin configs", "why_tests_cant": "thousands of keys", "anchors": ["sd_mecha/extensions/builtin/model_configs/convert_sd1_blocks.py", "sd_mecha/extensions/builtin/model_configs/convert_sdxl_blocks.py"]}
{"id": "C43", "title": "exchange_ema is an involution", "statement": "On sd1-ldm, exchange_ema swaps each diffuser key with its ema counterpart, leaves other keys alone, and applying it twice gives back the model.", "quantifier": "all state dicts of the config, all keys", "why_tests_cant": "hundreds of keys, string rewriting", "anchors": ["sd_mecha/extensions/builtin/merge_methods/ema.py:exchange_ema"]}
{"id": "C44", "title": "lycoris keys", "statement": "LoRA conversion reads for every base key the up/down/alpha entries of the layout named by the converter. (Violated: every converter uses the prefix of the last registered layout.)", "quantifier": "all base configs and keys", "why_tests_cant": "late-binding shows only across converters", "anchors": ["sd_mecha/extensions/builtin/lycoris.py:_register_all_lycoris_configs", "sd_mecha/extensions/builtin/lycoris.py:_to_lycoris_keys"]}
{"id": "C45", "title": "flux conversions are mutually inverse", "statement": "Converting a diffuser-only flux state dict to the full layout and back returns the same tensor for every key.", "quantifier": "all state dicts and keys", "why_tests_cant": "unbounded", "anchors": ["sd_mecha/extensions/builtin/model_configs/convert_flux.py"]}
{"id": "C46", "title": "copied regions are well formed", "statement": "For every width and offset, ratio_to_region yields 0 <= start <= end <= n, the region (or its complement when inverted) has round-off-exact size |width| * n up to rounding, and width 0 or >= 1 select nothing or everything.", "quantifier": "all real widths, offsets, sizes", "why_tests_cant": "continuum of parameters", "anchors": ["sd_mecha/extensions/builtin/merge_methods/__init__.py:ratio_to_region", "sd_mecha/extensions/builtin/merge_methods/__init__.py:tensor_sum"]}
{"id": "C47", "title": "clamp stays within its bounds", "statement": "clamp(a, *bounds, stiffness=s) with 0 <= s <= 1 lies element-wise between the smallest and largest bound, returns a where a is within the (stiffened) range, and is idempotent.", "quantifier": "all tensors and numbers of bounds", "why_tests_cant": "unbounded", "anchors": ["sd_mecha/extensions/builtin/merge_methods/__init__.py:clamp"]}
{"id": "C48", "title": "top-k filtering", "statement": "filter_top_k keeps an element iff its magnitude reaches the threshold, zeroes the rest, keeps no element smaller in magnitude than a dropped one, keeps at least the requested fraction, and k=1 keeps everything.", "quantifier": "all tensors and k in [0,1]", "why_tests_cant": "unbounded", "anchors": ["sd_mecha/extensions/builtin/merge_methods/__init__.py:filter_top_k"]}
{"id": "C49", "title": "ties_sum", "statement": "Each element of ties_sum is the mean of the trimmed inputs that carry the elected sign, 0 when none does; it is independent of the order of the inputs, never exceeds the largest input magnitude and never has the sign opposite to the elected one.", "quantifier": "all numbers of models and tensors", "why_tests_cant": "unbounded", "anchors": ["sd_mecha/extensions/builtin/merge_methods/__init__.py:ties_sum", "sd_mecha/extensions/builtin/merge_methods/__init__.py:ties_sum_deltas"]}
{"id": "C50", "title": "binomial coefficients and dropout mask distribution", "statement": "binomial_coefficient_np(n,k) is n choose k for 0 <= k <= n, every intermediate division being exact; the mask distribution used by dropout is non-negative and sums to 1.", "quantifier": "all n, k, probabilities, overlaps", "why_tests_cant": "unbounded", "anchors": ["sd_mecha/extensions/builtin/merge_methods/__init__.py:binomial_coefficient_np", "sd_mecha/extensions/builtin/merge_methods/__init__.py:overlapping_sets_pmf"]}
{"id": "C51", "title": "slerp", "statement": "For non-parallel tensors slerp returns a at alpha=0, b at alpha=1, and its norm is the interpolated norm for every alpha.", "quantifier": "all real vectors of any length", "why_tests_cant": "continuum", "anchors": ["sd_mecha/extensions/builtin/merge_methods/__init__.py:slerp"]}
{"id": "C52", "title": "perpendicular component", "statement": "perpendicular_component(a,b) is orthogonal to a, differs from b by a multiple of a, and is 0 when a is 0.", "quantifier": "all real vectors", "why_tests_cant": "continuum", "anchors": ["sd_mecha/extensions/builtin/merge_methods/__init__.py:perpendicular_component"]}
{"id": "C53", "title": "averages stay in the hull", "statement": "n_average, weighted_sum with alpha in [0,1] and geometric_median return, element by element, a value between the smallest and largest input; n_average is order independent; the averages fix a constant input.", "quantifier": "all numbers of models, tensors, iteration counts", "why_tests_cant": "unbounded", "anchors": ["sd_mecha/extensions/builtin/merge_methods/__init__.py:n_average", "sd_mecha/extensions/builtin/merge_methods/__init__.py:weighted_sum", "sd_mecha/extensions/builtin/merge_methods/__init__.py:geometric_median", "sd_mecha/extensions/builtin/merge_methods/__init__.py:weighted_average_tuple"]}
{"id": "C54", "title": "difference algebra", "statement": "add_difference(a, subtract(b, a), 1) = b, add_difference(a, d, 0) = a, and the add_difference(a,b,c,alpha=1) wrapper equals a + b - c.", "quantifier": "all tensors (exact arithmetic)", "why_tests_cant": "continuum", "anchors": ["sd_mecha/extensions/builtin/merge_methods/__init__.py:add_difference", "sd_mecha/extensions/builtin/merge_methods/__init__.py:subtract", "sd_mecha/merge_method_wrappers.py:add_difference"]}
{"id": "C55", "title": "masks stay in range", "statement": "train_difference_mask lies in [0, 1.8*alpha], add_opposite_mask in [0, 2*alpha], add_strict_opposite_mask in [0, 2*alpha] for alpha >= 0, with 0/0 giving 0.", "quantifier": "all tensors", "why_tests_cant": "continuum", "anchors": ["sd_mecha/extensions/builtin/merge_methods/__init__.py:train_difference_mask", "sd_mecha/extensions/builtin/merge_methods/__init__.py:add_opposite_mask", "sd_mecha/extensions/builtin/merge_methods/__init__.py:add_strict_opposite_mask"]}
{"id": "C56", "title": "lora composition", "statement": "Composing a LoRA layer gives (alpha/dim) * up @ down for linear layers and, position by position, for convolutions with a 1x1 upper layer, whichever factor the scale is folded into; the result acts on inputs as the two layers in sequence. A missing part or mismatched ranks raise.", "quantifier": "all matrices", "why_tests_cant": "unbounded dimensions", "anchors": ["sd_mecha/extensions/builtin/lycoris.py:compose_lora_up_down"]}
{"id": "C57", "title": "documented modes", "statement": "vote_sgn, apply_stock, apply_median and no_rescale switch on the mode they name. (Violated: each is inverted.)", "quantifier": "all inputs", "why_tests_cant": "needs semantic comparison on all inputs", "anchors": ["sd_mecha/extensions/builtin/merge_methods/__init__.py:ties_sum_deltas", "sd_mecha/extensions/builtin/merge_methods/__init__.py:ties_sum_extended", "sd_mecha/extensions/builtin/merge_methods/__init__.py:ties_sum_with_dropout"]}
{"id": "C58", "title": "exported wrappers build recipes", "statement": "Every wrapper exported by sd_mecha builds a recipe when given weight-space models. (Violated: dropout and ties_with_dare always raise.)", "quantifier": "all well-spaced inputs", "why_tests_cant": "any number of models of any shape of recipe", "anchors": ["sd_mecha/merge_method_wrappers.py:dropout", "sd_mecha/merge_method_wrappers.py:ties_with_dare", "sd_mecha/merge_method_wrappers.py:add_difference", "sd_mecha/merge_method_wrappers.py:n_model_stock"]}
{"id": "C59", "title": "crossover filter", "statement": "create_filter returns values in [0,1] for every alpha in [0,1] and tilt, and the tilt acts modulo 4.", "quantifier": "all alpha, tilt, meshes", "why_tests_cant": "continuum", "anchors": ["sd_mecha/extensions/builtin/merge_methods/__init__.py:create_filter"]}
{"id": "C60", "title": "weighted_sum needs only the model it uses", "statement": "With alpha 0 (or 1) everywhere weighted_sum returns a (or b) and does not require the other model to have the key.", "quantifier": "all models, keys", "why_tests_cant": "unbounded", "anchors": ["sd_mecha/extensions/builtin/merge_methods/__init__.py:weighted_sum"]}
{"id": "C61", "title": "extra keys are forwarded", "statement": "With omit_extra_keys=False every key of every input of the target config appears in the output; the recipe's own value wins wherever it has one, otherwise the first forwardable input (in visiting order) having the key. (Violated: two in-memory models of the config with the same keys raise RuntimeError, and when the architecture is unknown only the first input counts as being of the target config, so the extra keys of the others are dropped.)", "quantifier": "all recipes", "why_tests_cant": "unbounded", "anchors": ["sd_mecha/merging.py:copy_extra_keys", "sd_mecha/merging.py:ForwardableNodesVisitor"]}
{"id": "C62", "title": "file-backed models of unknown architecture can be merged", "statement": "Merging model files that match no registered config works structurally. (Violated: it raises AttributeError.)", "quantifier": "all files of unknown config", "why_tests_cant": "depends on registry", "anchors": ["sd_mecha/merging.py:LoadInputDictsVisitor.visit_model", "sd_mecha/merging.py:check_model_config", "sd_mecha/extensions/model_configs.py:StructuralModelConfig"]}
{"id": "C63", "title": "identifiers split into architecture and implementation", "statement": "A config identifier is accepted iff it is two non-empty runs of [a-z0-9._+] joined by one '-', and then architecture + '-' + implementation is the identifier.", "quantifier": "all strings", "why_tests_cant": "all strings", "anchors": ["sd_mecha/extensions/model_configs.py:ModelConfigImpl.__post_init__", "sd_mecha/extensions/model_configs.py:ModelConfigImpl.get_architecture_identifier"]}
{"id": "C65", "title": "a plain state dict is converted from its best convertible config", "statement": "convert on a plain state dict uses the best-ranked inferred config that has a chain of converters to the target, and as few converters as possible. (Violated: a better-ranked inferred config that no converter mentions raises KeyError instead of being skipped.) The result has the target config, and merge space \"param\".", "quantifier": "all registries of converters, all rankings of candidate configs", "why_tests_cant": "graphs are unbounded", "anchors": ["sd_mecha/conversion.py:convert", "sd_mecha/conversion.py:create_conversion_recipe", "sd_mecha/conversion.py:dijkstra"]}
{"id": "C66", "title": "merging to a file and reading it back gives the recipe's values", "statement": "If merge with a file as output returns, opening that file gives exactly the keys of the recipe's config that evaluate to a tensor, each with that tensor, and the recipe text in the metadata, for every number of threads and every interleaving of the writers.", "quantifier": "all recipes, thread counts, schedules, buffer sizes", "why_tests_cant": "interleavings of writers", "anchors": ["sd_mecha/merging.py:merge", "sd_mecha/streaming.py:OutSafetensorsDict", "sd_mecha/streaming.py:InSafetensorsDict"]}
{"id": "C67", "title": "registering a merge method does not change existing ones", "statement": "Once a merge method is registered under an identifier, that identifier keeps resolving to it (so serialized recipes keep their meaning), and the conversions offered are registered methods. (Violated: a later registration replaces it silently, and a replaced conversion is still used as such.)", "quantifier": "all registration histories", "why_tests_cant": "needs arbitrary histories", "anchors": ["sd_mecha/extensions/merge_methods.py:merge_method", "sd_mecha/extensions/merge_methods.py:resolve", "sd_mecha/extensions/merge_methods.py:get_all_converters"]}
{"id": "C68", "title": "alpha blends from a to b", "statement": "For every tilt, raising alpha never lowers the share of b that the crossover filter gives to a frequency, alpha 0 gives all a and alpha 1 all b; the share is alpha at the frequency of the cut, rises with the frequency for small tilts and falls for large ones. (Violated at tilt 2: alpha 0 gives b at frequency 0 and alpha 1 gives a.)", "quantifier": "all tilts, alphas, shapes, frequencies", "why_tests_cant": "continuum of tilts and alphas; the faulty tilt is a single point", "anchors": ["sd_mecha/extensions/builtin/merge_methods/__init__.py:create_filter", "sd_mecha/extensions/builtin/merge_methods/__init__.py:crossover"]}
{"id": "C69", "title": "dropout averages what it keeps", "statement": "For every draw of the masks, each element of dropout is the mean of the deltas its mask keeps divided by (1-p)^rescale, 0 if it keeps none; over the distribution of the masks its expected value is the average of all deltas when rescale is 1. (Violated for odd overlaps, the default among them: dropout always raises.)", "quantifier": "all numbers of deltas, probabilities, overlaps, draws", "why_tests_cant": "random draws; any number of deltas; expectation over exponentially many masks", "anchors": ["sd_mecha/extensions/builtin/merge_methods/__init__.py:dropout", "sd_mecha/extensions/builtin/merge_methods/__init__.py:overlapping_sets_pmf"]}
{"id": "C70", "title": "model_stock shrinks the average by agreement", "statement": "Each row of model_stock is the average of the deltas times n*c/(1+(n-1)*c) for the mean cosine c between successive deltas, lies between 0 and the average when c is not negative, gives back equal deltas, and does not depend on the order of the deltas. (Order dependence: violated from three deltas on.)", "quantifier": "all numbers and shapes of deltas", "why_tests_cant": "unbounded dimensions, all orders", "anchors": ["sd_mecha/extensions/builtin/merge_methods/__init__.py:model_stock", "sd_mecha/extensions/builtin/merge_methods/__init__.py:get_model_stock_t"]}
{"id": "C71", "title": "recipes written by hand", "statement": "In a .mecha text, comment lines and white space around a line can be added anywhere without changing the recipe read (comments do not renumber references); a model line with only a path gives a model of unknown config in weight space; a wrong version line and an unknown command raise; so does a line of nothing but white space.", "quantifier": "all recipe texts, comments, paddings and registries", "why_tests_cant": "unbounded texts", "anchors": ["sd_mecha/serialization.py:deserialize"]}
{"id": "C64", "title": "the bytes written are the tensor's entries in order", "statement": "The bytes stored for a merged tensor are those of its entries, the last index running fastest, whatever the memory layout of the tensor a merge method returned. (Violated: the bytes of the storage are copied, so a transposed result is written in the wrong order, also after the output dtype conversion, and a slice that owns no storage is written with its whole storage.)", "quantifier": "all shapes, strides, offsets, storages and element sizes", "why_tests_cant": "all layouts of all shapes", "anchors": ["sd_mecha/streaming.py:tensor_to_bytes", "sd_mecha/streaming.py:OutSafetensorsDict.__setitem__"]}
{"id": "C72", "title": "merging leaves the caller's tensors alone", "statement": "Merging in-memory models changes none of the caller's tensors, and every use of a model in a recipe sees its original values. (Violated: tensor_sum assigns into its first or second argument, which is the caller's own tensor when its dtype is the merge dtype; a second use of it sees the new values. Holds when all methods only read, and for methods that write to their arguments when every input is converted to another dtype.)", "quantifier": "all recipes, all heaps of tensors, all merge methods of the two kinds", "why_tests_cant": "aliasing depends on the tree and on dtypes", "anchors": ["sd_mecha/extensions/builtin/merge_methods/__init__.py:tensor_sum", "sd_mecha/merging.py:CastInputDicts", "sd_mecha/extensions/builtin/merge_methods/__init__.py:cast"]}
{"id": "C73", "title": "top_k_tensor_sum moves values of a into the order of b", "statement": "The result of top_k_tensor_sum holds only values of a. With width 1 it is the values of a, each as often as in a, arranged in the order of b; with width 0 it is a, whatever the offset. (The claims for width 1 and 0 are violated for offsets that are not 0: the region has one element too many.)", "quantifier": "all tensors a and b of one size, all widths and offsets", "why_tests_cant": "ranks and region boundaries of all tensors", "anchors": ["sd_mecha/extensions/builtin/merge_methods/__init__.py:top_k_tensor_sum", "sd_mecha/extensions/builtin/merge_methods/__init__.py:kth_abs_value", "sd_mecha/extensions/builtin/merge_methods/__init__.py:ratio_to_region"]}
{"id": "C74", "title": "select_max_delta takes the more remarkable entry", "statement": "Every entry of select_max_delta is the entry of a or the one of b: b's exactly where alpha times its distance from b's mean, in standard deviations, exceeds (1 - alpha) times that of a's entry. Alpha 0 gives a, alpha 1 gives b, and scaling or shifting a does not change which entries are taken from it. (Alpha 1 gives a, not b, where b's entry is at b's mean.)", "quantifier": "all tensors, all alphas (also one per entry), all scales and shifts", "why_tests_cant": "all real tensors", "anchors": ["sd_mecha/extensions/builtin/merge_methods/__init__.py:select_max_delta"]}
{"id": "C75", "title": "add_cosine blends stay between the inputs", "statement": "Every entry of add_cosine_a and add_cosine_b lies between the entries of a and b; alpha of at least 1 gives b; for add_cosine_a orthogonal columns give b for every alpha of at least 0 and parallel columns give a for alpha 0. (add_cosine_b gives NaN everywhere when one tensor is zero.)", "quantifier": "all matrices and alphas", "why_tests_cant": "all real matrices, including zero columns", "anchors": ["sd_mecha/extensions/builtin/merge_methods/__init__.py:add_cosine_a", "sd_mecha/extensions/builtin/merge_methods/__init__.py:add_cosine_b", "sd_mecha/extensions/builtin/merge_methods/__init__.py:add_cosine_generic"]}
{"id": "C76", "title": "geometric_sum interpolates", "statement": "geometric_sum at alpha 0 is a and at alpha 1 is b; geometric_sum of a and a is a; exchanging a and b is the same as using 1 - alpha; between 0 and 1 the result lies between a and b, its logarithm being the weighted sum of the logarithms. (Between is violated for entries of opposite signs.)", "quantifier": "all non-zero entries and all alphas", "why_tests_cant": "complex powers of all reals", "anchors": ["sd_mecha/extensions/builtin/merge_methods/__init__.py:geometric_sum"]}
{"id": "C77", "title": "multiply_quotient only acts where a and b are on opposite sides of c", "statement": "multiply_quotient leaves an entry of a alone unless its magnitude and that of b's entry are on different sides of c's, and for alpha 0; otherwise it multiplies a by (b/c) to a power of at most alpha, so that the result is between a and a*b/c. It works with its default alpha. (Violated: with an alpha that is a number, as the default is, it raises for every tensor with dimensions.)", "quantifier": "all non-zero entries, all alphas", "why_tests_cant": "all reals", "anchors": ["sd_mecha/extensions/builtin/merge_methods/__init__.py:multiply_quotient"]}
{"id": "C78", "title": "Truncating the rank keeps a projection", "statement": "truncate_rank(a, rank_ratio) gives a tensor of the same shape whose rank is at most the target rank, which grows with rank_ratio from one to the full rank; the difference to a is orthogonal to the result, so nothing of a is counted twice and the squared size of a splits into that of the result and that of what is dropped; if the random sketch spans the columns then a is kept; tensors with fewer than two dimensions are kept; rank_ratio 1 keeps a.", "quantifier": "all matrices of any size over any ordered field, all ratios, all random sketches and all QR and singular value routines that meet their specification", "why_tests_cant": "the claim is about every matrix, every size and every random draw", "anchors": ["sd_mecha/extensions/builtin/merge_methods/__init__.py:truncate_rank", "sd_mecha/extensions/builtin/merge_methods/svd.py:torch_svd_lowrank", "sd_mecha/extensions/builtin/merge_methods/svd.py:get_approximate_basis"]}
{"id": "C79", "title": "Crossover moves from one model to the other", "statement": "crossover(a, b, alpha, tilt) is a for alpha 0 and b for alpha 1; for alphas in between it gives a tensor of the same size; crossing a with itself gives a; what is taken from b when crossing a and b is what is left when crossing b and a, so the two results add up to a + b; adding the same tensor to both adds it to the result; each frequency of the result is the mix of those of a and b that the filter says, so by default its mean is that of a; the result is in the ball with a and b at opposite ends; alphas outside of [0, 1] are refused; for a tensor without dimensions it is the weighted sum by alpha.", "quantifier": "all tensors of all shapes, all alphas and tilts, for the discrete Fourier transforms in exact arithmetic", "why_tests_cant": "a test fixes one shape and one alpha; the claims are equalities over all of them", "anchors": ["sd_mecha/extensions/builtin/merge_methods/__init__.py:crossover", "sd_mecha/extensions/builtin/merge_methods/__init__.py:create_filter"]}
{"id": "C80", "title": "Merge methods keep the shape of their inputs", "statement": "For every builtin merge method, if all models have a tensor of the same shape for a key and hyperparameters are numbers or tensors of that shape, then the merge succeeds as far as shapes are concerned and the result has that shape.", "quantifier": "all shapes of any number of dimensions, any number of models, numbers or tensors as hyperparameters", "why_tests_cant": "a test tries a few shapes; the defects are at numbers (logit_scale) and at particular relations between the dimensions", "anchors": ["sd_mecha/extensions/builtin/merge_methods/__init__.py:model_stock", "sd_mecha/extensions/builtin/merge_methods/__init__.py:select_max_white_delta", "sd_mecha/extensions/builtin/merge_methods/__init__.py:multiply_quotient", "sd_mecha/extensions/builtin/merge_methods/__init__.py:ties_sum_extended", "sd_mecha/extensions/builtin/merge_methods/__init__.py:clamp"]}
{"id": "C81", "title": "Stored defaults are used unless overridden", "statement": "Defaults(...).merge(...) merges with each setting taken from the call if given there, else from the constructor if given there, else from the documented default of merge (omit_ema defaults to omit_extra_keys); model directories may be one path, a list or any other iterable, of strings or paths, and are made absolute; a negative number of threads is refused; without one, between one and eight workers are used; all buffers together stay within total_buffer_size.", "quantifier": "all combinations of given and stored settings, all numbers of files and processors", "why_tests_cant": "the combinations are too many to test: 2 to the 26 patterns of given settings", "anchors": ["sd_mecha/helpers.py:Defaults", "sd_mecha/helpers.py:Defaults.merge", "sd_mecha/helpers.py:Defaults._model_dirs_to_pathlib_list", "sd_mecha/merging.py:merge"]}
{"id": "C82", "title": "A model config written to YAML reads back", "statement": "from_yaml gives the config its text describes: identifier, components in order, keys in order with shape, dtype, aliases and whether they are optional; it refuses identifiers that are not of the form architecture-implementation; from_yaml(to_yaml(config)) is config. The keys of a config are those of its components.", "quantifier": "all configs with any number of components and keys", "why_tests_cant": "the claim is about every config", "anchors": ["sd_mecha/extensions/model_configs.py:to_yaml", "sd_mecha/extensions/model_configs.py:from_yaml", "sd_mecha/extensions/model_configs.py:serialize"]}
{"id": "C83", "title": "The best orthogonal alignment", "statement": "orthogonal_procrustes(a, b) is an orthogonal matrix R, and no other orthogonal matrix brings a @ R closer to b; with cancel_reflection it is a rotation and no other rotation is better. fractional_matrix_power gives the matrix for exponent 1, the identity for 0, and exponents add up.", "quantifier": "all matrices of all sizes over any ordered field, all decompositions that meet their specification", "why_tests_cant": "optimality compares with infinitely many matrices", "anchors": ["sd_mecha/extensions/builtin/merge_methods/svd.py:orthogonal_procrustes", "sd_mecha/extensions/builtin/merge_methods/svd.py:fractional_matrix_power"]}
{"id": "C84", "title": "rotate turns a towards b", "statement": "rotate(a, b, alignment, alpha) is a for alignment and alpha 0 and b for alignment and alpha 1; for alignment 1 and alpha 0 it is a turned by the best rotation and moved to the centre of b; alignments in between turn a part of the way. Alpha blends a turned onto b with b (alignment 1) or a with b turned back onto a (alignment 0), and the mean of the neurons moves by the alignment.", "quantifier": "all matrices of all sizes, all alignments and alphas", "why_tests_cant": "the claims compare with every rotation", "anchors": ["sd_mecha/extensions/builtin/merge_methods/__init__.py:rotate", "sd_mecha/extensions/builtin/merge_methods/svd.py:orthogonal_procrustes"]}
{"id": "C85", "title": "An accepted declaration works", "statement": "A merge method whose declaration is accepted keeps its parameters and defaults as written, takes only parameters where a default value or a plain Python type is declared and only the declared space elsewhere, names only registered spaces and configs, and every recipe built from inputs in permitted spaces gets a merge space. A declaration is accepted exactly when its annotations are supported and name registered things, its default values belong to parameters, its result has a config if every parameter has one, and a symbol for the result comes with a parameter that has a merge space.", "quantifier": "all declarations, all registries, all inputs", "why_tests_cant": "declarations are an open set written by users; the failure shows only when a recipe is built", "anchors": ["sd_mecha/extensions/merge_methods.py:Parameter", "sd_mecha/extensions/merge_methods.py:Return", "sd_mecha/extensions/merge_methods.py:MergeMethod.__validate_f", "sd_mecha/extensions/merge_methods.py:MergeMethod.get_return_merge_space"]}
{"id": "C86", "title": "An accepted conversion can be used", "statement": "A conversion that is accepted leads from a config to a config, and convert() keeps working; one that is rejected leaves no trace. Registering one method leaves the others as they are.", "quantifier": "all declarations, all registries", "why_tests_cant": "a bad registration breaks calls that have nothing to do with it", "anchors": ["sd_mecha/extensions/merge_methods.py:validate_config_conversion", "sd_mecha/extensions/merge_methods.py:__recipe_impl", "sd_mecha/conversion.py:convert"]}
{"id": "C87", "title": "The builtin declarations are sound", "statement": "Every builtin merge method and converter is accepted; whatever inputs in permitted spaces it is given, the merge space of the result can be told; the converters lead between the configs their names say.", "quantifier": "all builtin methods, all numbers and merge spaces of inputs", "why_tests_cant": "variadic methods take any number of inputs", "anchors": ["sd_mecha/extensions/builtin/merge_methods/__init__.py", "sd_mecha/extensions/builtin/model_configs"]}
{"id": "C88", "title": "geometric_median is as close to its inputs as it can be", "statement": "The sum of the distances from the result of geometric_median to its inputs is never larger than that of their plain average, up to half of eps per input, whatever maxiter and ftol are; more iterations never increase the sum (with distances rounded off below eps); and once one more iteration changes nothing, no tensor at all does better, up to half of eps per input.", "quantifier": "all inputs of any number and size, all eps > 0, all maxiter and ftol", "why_tests_cant": "optimality is a comparison with every tensor, and monotony with every start and number of iterations", "anchors": ["sd_mecha/extensions/builtin/merge_methods/__init__.py:geometric_median", "sd_mecha/extensions/builtin/merge_methods/__init__.py:weighted_average_tuple", "sd_mecha/extensions/builtin/merge_methods/__init__.py:geometric_median_objective"]}
{"id": "C89", "title": "what a call of merge produces", "statement": "merge(recipe, ...) into a dict always ends, with any number of threads and any schedule. It raises only because of its arguments (fallback_model in another merge space: TypeError; threads not a non-negative integer; a recipe not in weight space with strict_weight_space: ValueError) or with the error of one of the keys to merge. Otherwise the dict holds, under every key of the recipe's config (without those of the component 'ema' when omit_ema is set), the recipe's value on inputs in merge_dtype, or else, where the recipe lacks the key, that of fallback_model, converted to output_dtype; keys that neither has are absent and other entries of the dict are left alone.", "quantifier": "all recipes, fallback models, options, thread counts, schedules and initial contents of the output", "why_tests_cant": "the options interact; recipes and schedules are unbounded", "anchors": ["sd_mecha/merging.py:merge", "sd_mecha/merging.py:_get_output_dict", "sd_mecha/merging.py:_track_output", "sd_mecha/recipe_nodes.py:RecipeNode.to"]}
{"id": "C90", "title": "everything merge stores is in the output dtype", "statement": "With output_dtype or output_device given, every tensor merge stores has been converted to them. (Violated with omit_extra_keys=False: a key that the recipe lacks and a model file has is stored as it is in the file.)", "quantifier": "all recipes, options, schedules", "why_tests_cant": "unbounded recipes; the exception needs a key that only some inputs have", "anchors": ["sd_mecha/merging.py:merge", "sd_mecha/merging.py:copy_extra_keys", "sd_mecha/recipe_nodes.py:RecipeNode.to"]}
{"id": "C91", "title": "the recipe in a file reproduces the file", "statement": "When merge saves a recipe to a file and the recipe can be written as text, reading the recipe from the file's metadata and merging it into a dict gives exactly the keys and tensors of the file, whatever the number of threads of either merge. A recipe can be written as text exactly if it holds no tensor and no path; otherwise the file is written without a recipe. (Violated when fallback_model was given: the text is that of the recipe before the fallback was added.)", "quantifier": "all recipes, options, schedules, orders of reading", "why_tests_cant": "the text, the file and both merges are unbounded", "anchors": ["sd_mecha/merging.py:merge", "sd_mecha/merging.py:_get_output_dict", "sd_mecha/serialization.py:serialize", "sd_mecha/serialization.py:deserialize", "sd_mecha/streaming.py:OutSafetensorsDict"]}
{"id": "C92", "title": "weighted_sum stays between the models, rounding included", "statement": "When models of finite floating point numbers are merged by weighted_sum with alpha between 0 and 1, and merge_dtype has at least six bits more than output_dtype at both ends (float64 for float16, bfloat16 and float32, float32 for float16 and bfloat16), every number written is finite and lies between those of the two models, after all the roundings. In particular merging a model with itself gives back the model, bit for bit. Each number is the exact (1-alpha)*a + alpha*b up to three half units in the last place of the larger model, or, where alpha is close enough to 0 or 1 to return a model, up to that closeness. (Violated when merge_dtype is output_dtype, e.g. float16.)", "quantifier": "all dtypes with that relation, all finite numbers, all alphas in [0,1], element by element", "why_tests_cant": "there are 2^32 pairs of float16 numbers and 2^62 alphas", "anchors": ["sd_mecha/extensions/builtin/merge_methods/__init__.py:weighted_sum", "sd_mecha/extensions/builtin/merge_methods/__init__.py:weighted_sum_impl", "sd_mecha/extensions/builtin/merge_methods/__init__.py:cast", "sd_mecha/merging.py:merge"]}
{"id": "C93", "title": "n_average stays between the models, rounding included", "statement": "In whatever order torch adds the models up, each number of merge(n_average(models)) is finite and lies between those of two of the models, and the average of copies of a model is that model (up to the sign of zeros), when merge_dtype is finer than output_dtype and wide enough for the number of models (up to 2^37-1 float16 models in float64). It is the exact average up to three half units in the last place of the largest model. (Violated for bfloat16 models merged in float32: the sum can overflow.)", "quantifier": "all numbers of models within the bound, all finite numbers, all orders of addition", "why_tests_cant": "the order of additions is not fixed by torch; the numbers and the orders are too many", "anchors": ["sd_mecha/extensions/builtin/merge_methods/__init__.py:n_average", "sd_mecha/extensions/builtin/merge_methods/__init__.py:cast"]}
{"id": "C94", "title": "adding back a difference is exact for float16 models", "statement": "With alpha 1 and the default dtypes, a + (b - c) on float16 models is computed without any rounding before the output cast; so add_difference(a, subtract(b, a)) gives b, with the same bits but for the sign of zeros. (Violated for bfloat16 and float32 models in float64, and for float16 models in float32: small weights are lost.)", "quantifier": "all finite numbers of all dtypes whose sums the merge dtype holds", "why_tests_cant": "there are 2^48 triples of float16 numbers", "anchors": ["sd_mecha/extensions/builtin/merge_methods/__init__.py:add_difference", "sd_mecha/extensions/builtin/merge_methods/__init__.py:subtract"]}
{"id": "C95", "title": "what the casts of merge do to a weight", "statement": "A model whose dtype is the output dtype and that only passes through merge keeps every bit, infinities and NaN included, if merge_dtype holds all its numbers. With the default output_dtype float16, a finite weight of another dtype becomes an infinity of the same sign exactly if it is at least 65520 in absolute value, and zero exactly if it is at most 2^-25. In general it becomes the nearest number of the output dtype.", "quantifier": "all numbers, all dtypes that the merge dtype holds", "why_tests_cant": "there are 2^32 float32 numbers, and the boundaries lie between numbers of float16", "anchors": ["sd_mecha/extensions/builtin/merge_methods/__init__.py:cast", "sd_mecha/merging.py:merge", "sd_mecha/merging.py:CastInputDicts"]}
{"id": "C96", "title": "which file a path stands for", "statement": "A model given by an absolute path is the file at that path; one given by a relative path is the file in the first of model_dirs that has it, or else in the current directory. It is read when its name ends in .safetensors, and FileNotFoundError means that none of these places has it. Two names share one open file exactly when they stand for the same file, links followed. A file is read by the only registered format that matches. (Violated for links: a name ending in .safetensors that is a link to a file named otherwise, as in the cache of huggingface_hub, raises RuntimeError.)", "quantifier": "all file systems, current directories, lists of directories, paths and registered formats", "why_tests_cant": "file systems and directory lists are unbounded", "anchors": ["sd_mecha/merging.py:LoadInputDictsVisitor.__load_dict", "sd_mecha/extensions/model_formats.py:SingleFileModelFormat", "sd_mecha/extensions/model_formats.py:register_model_format", "sd_mecha/streaming.py:InSafetensorsDict.__init__"]}
{"id": "C97", "title": "an output changes no other file", "statement": "merge(output=path) writes to that path if it is absolute, otherwise under that name in the first of model_dirs, or in the current directory if there is none. The same name with the same model_dirs then reads the file just written. No other file is changed, and every model whose name does not stand for the output is read as before. (Violated: nothing prevents the output from being one of the inputs, which is emptied before it is read; and an output can take over a name that stood for a model in a later directory.)", "quantifier": "all file systems, current directories, lists of directories, output paths and model names", "why_tests_cant": "file systems and names are unbounded", "anchors": ["sd_mecha/merging.py:_get_output_dict", "sd_mecha/streaming.py:OutSafetensorsDict.__init__", "sd_mecha/merging.py:LoadInputDictsVisitor.__load_dict"]}
{"id": "C98", "title": "recipes can be merged again", "statement": "A recipe that was merged once has the same keys when it is merged again, whatever was merged in between, including merges that failed. Merging a recipe gives the same keys in a fresh process and after any other merges of its nodes, when the config of each of its models and in-memory dicts is given or is inferred alike for every parameter it is an input of. (Violated without that: a merge leaves the configs it found on the nodes, so a dict of unknown architecture that was merged with a smaller one loses keys in every later merge, and one that fits two configs is refused for the second. A dict of recipes over data of unknown architecture has no keys at all.)", "quantifier": "all recipes, dicts of recipes included, sharing nodes in any way, registries of configs, keys of the inputs, histories of merges and results of the key check", "why_tests_cant": "the effect depends on the whole history of merges of shared nodes", "anchors": ["sd_mecha/merging.py:LoadInputDictsVisitor", "sd_mecha/merging.py:CloseInputDictsVisitor", "sd_mecha/merging.py:open_input_dicts", "sd_mecha/extensions/merge_methods.py:MergeMethod.get_return_config"]}
{"id": "C99", "title": "the numbers in a file", "statement": "The file of a tensor holds its numbers as the safetensors format says, on machines of either byte order, and reading it gives the numbers back: for floating point types the bits in the file have the IEEE value of the number stored. In particular, after merge(weighted_sum(a, b, alpha)) with 0 <= alpha <= 1 every number in the output file has a value between those of the same number in the files of a and b. (Violated on big-endian machines: uint16, uint32 and uint64 tensors cannot be written, and what was written is read without swapping the bytes.)", "quantifier": "all numbers of all dtypes, both byte orders, all contents of the input files, alphas and dtypes of the merge", "why_tests_cant": "tests run on one machine with a handful of tensors; the claim is about every bit pattern and byte order", "anchors": ["sd_mecha/streaming.py:tensor_to_bytes", "sd_mecha/streaming.py:InSafetensorsDict._load_tensor", "sd_mecha/streaming.py:DTYPE_MAPPING"]}
{"id": "C100", "title": "buffer sizes do not matter", "statement": "The size of the buffers (total_buffer_size divided among the files and threads) does not change what a merge reads or writes: the same tensors written with any buffer size, threads and interleaving read back the same with any buffer size and in any order of reads. (Violated when a buffer or a tensor is larger than what the operating system transfers in one call, 2 GiB: input tensors that lie further than that behind the start of the buffer are read as zeros, whatever the file holds, and an output tensor is cut without an error.)", "quantifier": "all buffer sizes, files, keys, tensors, orders of reads, interleavings of writes and transfer limits", "why_tests_cant": "tests use small files and one buffer size; files and buffers of more than 2 GiB are out of reach of unit tests", "anchors": ["sd_mecha/streaming.py:InSafetensorsDict._ensure_buffer", "sd_mecha/streaming.py:OutSafetensorsDict._flush_buffer", "sd_mecha/merging.py:merge"]}
{"id": "C101", "title": "tasks that share input files", "statement": "The tasks of a merge share the input files and take turns in any order, and each looks at the tensors it was given whenever it likes: every task computes from them exactly what it computes on its own when every file is a plain dictionary of tensors, with the same errors, and needs no more turns because of the others. Files written by the library are such dictionaries, with exactly the tensors written.", "quantifier": "all sets of files and buffer sizes, numbers of tasks, programs of tasks, interleavings", "why_tests_cant": "a race between a reader that refills the buffer and another that still looks at a tensor shows up only under particular interleavings and buffer sizes; tests sample a few", "anchors": ["sd_mecha/streaming.py:InSafetensorsDict._load_tensor", "sd_mecha/streaming.py:InSafetensorsDict._ensure_buffer", "sd_mecha/merging.py:merge", "sd_mecha/merging.py:KeyMergeVisitor"]}
{"id": "C102", "title": "registered configs can be inferred however they were made", "statement": "Whatever configs are registered, inferring the config of a state dict returns a set of configs and never raises because of how a config was made. (Violated: a ModelConfigImpl is a dataclass with equality and no hash, so a registered one that lists at least a tenth of the keys makes the inference raise TypeError unless a config that covers the keys is met first; configs read from YAML are not affected.)", "quantifier": "all registries, ways of making configs, and key sets", "why_tests_cant": "whether the inference raises depends on the registry, the order of identifiers and the keys; tests only use configs shipped as YAML", "anchors": ["sd_mecha/extensions/model_configs.py:ModelConfigImpl", "sd_mecha/extensions/model_configs.py:register_aux", "sd_mecha/extensions/model_configs.py:get_all", "sd_mecha/merging.py:infer_model_configs"]}
{"id": "C103", "title": "a config read from a file acts like the config in the file", "statement": "A config that is read from its file on first use acts like the config in the file: however many threads use it and however they take turns, each attribute is what the file says (or reading the file raises, and the next use tries again), no use ever finds the config missing, and once it has been read later changes of the file do not matter. The architecture and implementation it reports are the two parts of its identifier. (Violated: two threads using it for the first time while the file changes can replace each other's config; and the shipped flux configs are registered under their file names, which are not the identifiers in the files, so flux-flux reports the architecture flux_dev.)", "quantifier": "all files, attribute accesses, numbers of threads, interleavings, changes of the file", "why_tests_cant": "the creation is not locked, so what a thread sees depends on the interleaving; tests read each config from one thread", "anchors": ["sd_mecha/extensions/model_configs.py:LazyModelConfigBase", "sd_mecha/extensions/model_configs.py:resolve_lazy_model_config_attribute", "sd_mecha/extensions/model_configs.py:YamlModelConfig", "sd_mecha/extensions/builtin/model_configs/__init__.py"]}
{"id": "C104", "title": "a cache does not change what a method gives", "statement": "Giving a rotate node a cache (set_cache) only saves time: every call gives what it would give without a cache, whichever threads share the cache and however they take turns, and every call ends. (Violated: the rotation and its eigenvalues are stored in half precision, so the second call for a key differs from the first; a rotation cached for an alignment that is not whole is reused for one that is; the tensors of the second call do not matter for its rotation; and two threads making the same call can raise KeyError.)", "quantifier": "all tensors, alignments, keys, lists of calls, numbers of threads and interleavings, and whatever the linear algebra computes", "why_tests_cant": "whether a cached value is reused, and whether an entry is there when it is read, depends on earlier calls and on the interleaving", "anchors": ["sd_mecha/recipe_nodes.py:MergeRecipeNode.set_cache", "sd_mecha/extensions/builtin/merge_methods/__init__.py:rotate", "sd_mecha/extensions/builtin/merge_methods/svd.py:fractional_matrix_power", "sd_mecha/extensions/merge_methods.py:MergeMethod.merge_key"]}
{"id": "C105", "title": "converting and merging can be exchanged", "statement": "Merging models entry by entry (any function of the entries at the same place, as weighted_sum, n_average, add_difference or a cast with fixed parameters) and then converting to another layout gives the same tensors, and the same errors, as converting each model first and then merging; for any chain of the builtin conversions between layouts of an architecture and for exchange_ema. (Violated for low-rank models, whose conversion multiplies tensors: the average of two of them, converted, is not the average of the converted models; and for methods that look at whole tensors, as the sdxl conversion stacks three tensors.)", "quantifier": "all state dicts with the same keys and shapes, all numbers of models, all kinds of entries and functions of entries, all keys, all chains of conversions", "why_tests_cant": "a statement about all keys of all models and all entrywise methods; a test compares two orders for one method on one key", "anchors": ["sd_mecha/conversion.py:convert", "sd_mecha/extensions/builtin/model_configs/convert_sd1_kohya_to_original.py", "sd_mecha/extensions/builtin/model_configs/convert_sdxl_kohya_to_original.py", "sd_mecha/extensions/builtin/model_configs/convert_sdxl_diffusers_unet_to_original.py", "sd_mecha/extensions/builtin/model_configs/convert_flux.py", "sd_mecha/extensions/builtin/merge_methods/ema.py:exchange_ema", "sd_mecha/extensions/builtin/lycoris.py:compose_lora_up_down"]}
{"id": "C106", "title": "the order of the models does not matter", "statement": "n_average, geometric_median, ties_sum, ties_sum_extended without the ratio of model_stock, and the bounds of clamp give the same result, or the same error, for the same models in another order; slerp(a, b, alpha) is slerp(b, a, 1 - alpha), and weighted_sum(a, b, alpha) is weighted_sum(b, a, 1 - alpha) unless all weights are within 2e-5 of 0 or of 1, and within 1e-5 of the difference of the models always. As computed: the average of up to 8192 finite float16 models in the default float64 is the same number for every order of the models and of the additions; in general two orders differ by a few units in the last place of the output dtype. (Violated exactly: weighted_sum takes 1 - 1e-6 for 1 but does not take 1e-6 for 0; and averages of bfloat16 models depend on their order.)", "quantifier": "all numbers of models, all permutations of them, all tensors, weights, tolerances and numbers of iterations; all IEEE numbers and all orders of the additions", "why_tests_cant": "a test compares a few orders of a few models; a rounding that depends on the order shows up for special numbers only", "anchors": ["sd_mecha/extensions/builtin/merge_methods/__init__.py:n_average", "sd_mecha/extensions/builtin/merge_methods/__init__.py:weighted_sum", "sd_mecha/extensions/builtin/merge_methods/__init__.py:slerp", "sd_mecha/extensions/builtin/merge_methods/__init__.py:clamp", "sd_mecha/extensions/builtin/merge_methods/__init__.py:ties_sum", "sd_mecha/extensions/builtin/merge_methods/__init__.py:ties_sum_extended", "sd_mecha/extensions/builtin/merge_methods/__init__.py:geometric_median"]}
{"id": "C107", "title": "ties_sum keeps to the deltas that agree, rounding included", "statement": "As computed in IEEE arithmetic and cast to the output dtype, an entry of ties_sum is finite and lies between two of the (trimmed) deltas that have the elected sign, or is zero if there are none, whatever the order of torch's additions; by default the elected sign is exactly that of the majority of the deltas, so the merged entry never has the sign of a minority; and with vote_sgn=True it is that of the exact sum for models in float16. (Violated with vote_sgn=True for bfloat16 models: the sum that elects the sign can be rounded to zero, and then no delta is kept.)", "quantifier": "all finite IEEE numbers, all numbers of models for which the merge dtype has enough bits, all orders of both sums, all pairs of dtypes with six bits between them", "why_tests_cant": "a statement about all numbers and all orders of the additions; the failing cases are rare", "anchors": ["sd_mecha/extensions/builtin/merge_methods/__init__.py:ties_sum", "sd_mecha/extensions/builtin/merge_methods/__init__.py:ties_sum_deltas"]}
{"id": "C108", "title": "clamp stays within its bounds, rounding included", "statement": "As computed in IEEE arithmetic and cast to the output dtype, an entry of clamp is finite and lies between two of the entries of the bounds, for every stiffness between 0 and 1. With the default stiffness 0 it is exactly the entry of the clamped model, or the least or the greatest bound where the entry lies outside; with stiffness 1 it is exactly that with the two bounds next to the average of the bounds.", "quantifier": "all finite IEEE numbers, all numbers of bounds, all stiffnesses in [0, 1], all dtypes such that the merge dtype has six bits more than the output dtype", "why_tests_cant": "a statement about all floating point numbers; (1-s)*x + s*x need not be x, so that a few inputs could leave the range by one unit", "anchors": ["sd_mecha/extensions/builtin/merge_methods/__init__.py:clamp"]}
{"id": "C109", "title": "in tells what a recipe uses", "statement": "model in recipe is true exactly if a model node with the same path is the recipe or one of its inputs at any depth, and merge in recipe exactly if that very node is; neither ever raises, and a recipe contains whatever models and merges its inputs contain. literal in recipe is true exactly if an input has an equal value, and a literal contains itself. (Violated for models inside a dict of recipes, which a merge reads but in does not find; asking for a literal raises RuntimeError once a tensor with several entries is met, even if the literal is among the inputs; NaN is not found; 1 is found where the recipe has True.)", "quantifier": "all recipes of any depth, all items", "why_tests_cant": "recipes are unbounded trees; the failures depend on the kinds and the order of the other inputs", "anchors": ["sd_mecha/recipe_nodes.py:LiteralRecipeNode.__contains__", "sd_mecha/recipe_nodes.py:ModelRecipeNode.__contains__", "sd_mecha/recipe_nodes.py:MergeRecipeNode.__contains__"]}
{"id": "C110", "title": "progress and warnings are exact", "statement": "While merge runs, it announces every key once on the progress bar; if it returns, the bar is exactly full (skipped keys count), and with check_finite it has warned exactly once about each merged tensor that has an entry which is not finite and about nothing else. If it raises, the bar is not full and no other key was warned about. With threads=0 the reports come in the order of the keys, up to the one that fails. (Violated for numbers: an infinite number in a merged dict is not warned about.)", "quantifier": "all recipes, keys, outputs, numbers of threads and schedules", "why_tests_cant": "the order of the reports depends on the schedule of the threads; a test sees one of them", "anchors": ["sd_mecha/merging.py:merge", "sd_mecha/merging.py:_track_output", "sd_mecha/merging.py:_track_progress"]}
{"id": "C111", "title": "the masks stay in range, rounding included", "statement": "As computed in IEEE arithmetic and cast to the output dtype, an entry of train_difference_mask, add_opposite_mask and add_strict_opposite_mask is finite and between 0 and 1.8 alpha, 2 alpha and 2 alpha, whatever the models hold, NaN and infinities included, for every alpha of 0 or more for which that number is finite. The first two are exactly zero where a equals b, the third wherever c is not strictly between a and b or one of the three is not finite. They are exactly full where b equals c and differs from a, and where c is the middle of a and b. (Violated: in a merge in float16 the squares of add_strict_opposite_mask vanish, so that it is zero at the middle of two models at distance 2^-12.)", "quantifier": "all IEEE numbers a, b, c, all alpha of 0 or more, all dtypes; for add_strict_opposite_mask to be full, merge dtypes that can hold the squares of differences", "why_tests_cant": "a statement about all floating point numbers, including overflowing and vanishing differences, quotients of infinities and 0/0", "anchors": ["sd_mecha/extensions/builtin/merge_methods/__init__.py:train_difference_mask", "sd_mecha/extensions/builtin/merge_methods/__init__.py:add_opposite_mask", "sd_mecha/extensions/builtin/merge_methods/__init__.py:add_strict_opposite_mask"]}
{"id": "C112", "title": "the text of a recipe is no longer than its graph", "statement": "However often a recipe is used inside another one, serialize writes it once: the text has, after its header, at most one line for each distinct recipe, dict, model or configured literal used in the recipe, and exactly one for recipes that can be read back (C01). A recipe of n merges, each using the one below it twice, has n + 2 lines, although it contains the model 2^n times.", "quantifier": "all recipes that serialize, of any depth and with any sharing", "why_tests_cant": "a bound over all recipe graphs; the expanded tree of a graph with sharing grows exponentially, so that tests only reach small ones", "anchors": ["sd_mecha/serialization.py:SerializerVisitor", "sd_mecha/serialization.py:serialize"]}
{"id": "C113", "title": "a path stands for the model it names", "statement": "A path given to a merge method builds the same recipe as sd_mecha.model(path) given there, whatever the position and however many paths there are. sd_mecha.model takes a path, a path as text, or a mapping of tensors, and nothing else. (Violated elsewhere: the operators, merge - for the recipe and for fallback_model - and the exported wrappers refuse a path with TypeError, although their annotations allow it; sd_mecha.model checks only the first value of a mapping.)", "quantifier": "all methods, signatures, positional and keyword arguments, any number of paths among them, all registries", "why_tests_cant": "any subset of the arguments of any method may be paths, bound by position, keyword or default", "anchors": ["sd_mecha/extensions/merge_methods.py:value_to_node", "sd_mecha/extensions/merge_methods.py:MergeMethod.create_recipe", "sd_mecha/helpers.py:model", "sd_mecha/helpers.py:literal", "sd_mecha/merging.py:merge", "sd_mecha/recipe_nodes.py:RecipeNode", "sd_mecha/merge_method_wrappers.py"]}
{"id": "C114", "title": "a recipe used in several places has one value", "statement": "If the merge methods of a recipe give the same result whenever they get the same inputs - functions of their inputs, and dropout with a seed - then the recipe has the same value at a key wherever and whenever it is evaluated. Every use of a merge node is one more call of its method: an evaluation that succeeds makes as many calls as the recipe has merge nodes, each counted once for every use. (Violated: dropout without a seed gives each use of the recipe a value of its own, so that d - d is not zero; and n merges, each using the one below it twice, take 2^n - 1 calls instead of n.)", "quantifier": "all recipes, with any sharing, lazy and eager inputs, all merge methods, all states of the world in which they are evaluated", "why_tests_cant": "any recipe graph and any methods; the cost of shared recipes grows exponentially", "anchors": ["sd_mecha/merging.py:KeyMergeVisitor", "sd_mecha/merging.py:MergeNodeWrapperStateDict", "sd_mecha/merging.py:ErrorHolder", "sd_mecha/extensions/builtin/merge_methods/__init__.py:dropout"]}
{"id": "C115", "title": "with CUDA, merged tensors are complete when merge returns", "statement": "On a machine with CUDA each worker of merge launches its operations on a stream of its own, and launching does not wait. Nevertheless, with output_device=\"cpu\" or with check_finite (both are defaults), once merge has returned every key is in the output and its tensor holds the value that the key's recipe has when it is computed alone, one operation after the other; later work on any stream does not change it. No worker waits for ever. (Violated: with results left on the gpu and check_finite=False, merge returns tensors that are still to be computed, by streams the caller cannot wait for; and models on the gpu that the caller's stream is still computing may be read before they are ready.)", "quantifier": "any number of workers, any assignment of keys to workers, any operations, every interleaving of workers and streams, any work pending on other streams", "why_tests_cant": "timing of asynchronous streams: a wrong order shows up rarely, on some machines", "anchors": ["sd_mecha/merging.py:_wrap_thread_context", "sd_mecha/merging.py:_track_output", "sd_mecha/merging.py:merge"]}
{"id": "C116", "title": "the tensors a merge returns are the caller's to change", "statement": "When merge returns a state dict in memory, writing to one of its tensors changes neither the tensors of the in-memory models that were merged nor the other tensors of the result. Holds when the merge dtype and the output dtype differ, as they do by default, or when the recipe of every key ends in a method that computes a new tensor, for methods that write to nothing. (Violated: output[key] = res does not copy, and casting to the dtype a tensor already has gives the tensor itself; a model that already has the merge dtype, merged with that dtype as output dtype through methods that hand on their input - none, fallback, pick, omit - is returned as is, and keys that come from one tensor return it twice.)", "quantifier": "all recipes, any number of keys, all heaps of tensors, all methods that only read", "why_tests_cant": "aliasing depends on the recipe and on dtypes; nothing is wrong until the result is written to", "anchors": ["sd_mecha/merging.py:_track_output", "sd_mecha/merging.py:merge", "sd_mecha/extensions/builtin/merge_methods/__init__.py:cast", "sd_mecha/extensions/builtin/merge_methods/__init__.py:fallback"]}
{"id": "C117", "title": "what becomes of the numbers given to a merge method", "statement": "A float given to a merge method arrives in the method as the same number. (Violated under the default options: numbers become float32 tensors before they are cast to merge_dtype, so 0.1 arrives as 0.10000000149, 1-2^-30 as 1, 2^-150 as 0 and 2^128 as infinity; in merge_dtype float16 a weight of 70000 is infinite, and an int of 65520 raises OverflowError.) It arrives unchanged exactly if it is a float32 number; otherwise it is off by one part in 2^24 and 2^-150 at most; bounds such as 0 and 1, and the order of numbers, are kept, so weighted_sum with a number in [0,1] stays between the models. Ints up to 2^24, and up to the mantissa of merge_dtype, arrive unchanged.", "quantifier": "all doubles, all ints, every IEEE merge dtype", "why_tests_cant": "all numbers; tests use numbers such as 0.5 that survive", "anchors": ["sd_mecha/merging.py:CastInputDicts.visit_literal", "sd_mecha/merging.py:cast_node_value", "sd_mecha/extensions/builtin/merge_methods/__init__.py:cast"]}
{"id": "C118", "title": "what get_dtype and get_device tell", "statement": "get_dtype(model) and get_device(model) tell the dtype and the device of the model's tensors, so that cast(r, dtype=get_dtype(model)) gives r the dtype of the model. (Violated under the default options: all inputs are cast to merge_device and merge_dtype before anything is computed, so every recipe over models and data whose methods keep the dtype is told to be float64 on cpu, whatever is in the files.) Without merge_dtype and merge_device the dtype and device told are those of the value of the recipe at the key, casting to them gives a tensor of that dtype and device, and a dtype the library has no name for raises KeyError.", "quantifier": "all recipes, model contents, keys, dtypes, devices and merge options", "why_tests_cant": "all recipes and stored dtypes; a test merging float64 models, or calling the method directly, sees the expected dtype", "anchors": ["sd_mecha/extensions/builtin/merge_methods/__init__.py:get_dtype", "sd_mecha/extensions/builtin/merge_methods/__init__.py:get_device", "sd_mecha/extensions/builtin/merge_methods/__init__.py:cast", "sd_mecha/merging.py:CastInputDicts"]}
{"id": "C119", "title": "select_max_white_delta selects by whitened deviation", "statement": "select_max_white_delta takes at each place the delta whose whitened deviation, weighted by 1-alpha and alpha, is greater; with alpha 0 it gives a. (Violated: the covariance is taken over the elements, observed twice, instead of over the two deltas; it has rank one, so that for two or more elements its inverse root is infinite and every whitened value is an infinity or NaN. So the result is b whatever alpha is; if all elements of a or of b are equal the method raises.)", "quantifier": "all one-dimensional tensors of at least two elements, every alpha, every eigendecomposition", "why_tests_cant": "all tensors; a test with rounded arithmetic sees a selection that looks plausible", "anchors": ["sd_mecha/extensions/builtin/merge_methods/__init__.py:select_max_white_delta"]}
{"id": "C120", "title": "what copy_distribution copies", "statement": "copy_distribution gives a tensor with the mean and the standard deviation of a. (Violated: only in expectation over the noise. The mean is off by the mean of the noise drawn times the deviation, the deviation is multiplied by that of the noise; they are those of a exactly if the noise has mean 0 and deviation 1, or all elements of a are equal.) Nothing else of a is kept, not even the order of its elements.", "quantifier": "all tensors and all noise", "why_tests_cant": "all draws; a test compares means with a tolerance", "anchors": ["sd_mecha/extensions/builtin/merge_methods/__init__.py:copy_distribution"]}
{"id": "C121", "title": "state dict parameters are mappings", "statement": "A parameter declared as a StateDict behaves like a Python mapping: k in sd and sd.get(k) say what sd[k] does, a model has the keys its file has under their names or aliases, a | b has the keys of both, a merge has a key only if each input read at that key has it, and with check_mandatory_keys every key that is not optional is there. The keys that are listed are the keys that are there, so items() and values() succeed. (Violated: keys(), len and iteration list the keys of the config. Listed keys can be missing, and then items() and values() raise a KeyError for the first one; keys outside the config are in sd and not listed; after pick_component all keys are still listed, so items() raises; a literal has every key and lists none, keys() raises AttributeError.)", "quantifier": "all configs, files, recipes and keys", "why_tests_cant": "all recipes and all files; complete models show no difference", "anchors": ["sd_mecha/merging.py:MergeNodeWrapperStateDict", "sd_mecha/merging.py:check_model_config", "sd_mecha/extensions/merge_methods.py:StateDict", "sd_mecha/extensions/builtin/merge_methods/__init__.py:pick_component"]}
{"id": "C122", "title": "types of parameters", "statement": "Parameter(X) accepts exactly type variables and the types whose class derives from StateDict, str, int, float, bool, None or Tensor, and Return(X) the same without StateDict; anything else is refused with a TypeError when the annotation is written. Every argument of a call that binds then has a type, the variadic ones that of the variadic parameter, and reaches the method, without an exception, as a lazy state dict exactly when it was declared as one, and otherwise as a value; without a merge space it is in \"param\" exactly when it has a default or is declared as a Python literal. X | None and Optional[X] declare what X does. is_subclass, which decides this, answers whether every object of one type is of the other. (Violated: None | X declares None, of int | str | None only int is kept, StateDict[None] declares None and not a state dict; is_subclass accepts any union against a type variable.)", "quantifier": "all class hierarchies, types, signatures and numbers of arguments", "why_tests_cant": "all user-defined classes and signatures", "anchors": ["sd_mecha/typing_.py:is_subclass", "sd_mecha/extensions/merge_methods.py:Parameter", "sd_mecha/extensions/merge_methods.py:Return", "sd_mecha/extensions/merge_methods.py:FunctionArgs", "sd_mecha/extensions/merge_methods.py:MergeMethod.get_input_merge_spaces", "sd_mecha/merging.py:RecipeMergeVisitor"]}
{"id": "C123", "title": "an open model file is a mapping", "statement": "An open safetensors file behaves like a Python mapping whatever was read before: len, keys() and iteration agree, each key is listed once and __metadata__ never; k in d says whether d[k] gives a tensor; items() and values() give every key listed with the tensor that d[k] gives, and these tensors keep their contents whatever is read later; metadata() gives, without reading, the shape and dtype the tensors have; items() of a file written by the library are the tensors that were written. Once the file is closed every use raises. A key that is listed is in the mapping, and the length of the mapping that is written is the number of tensors. (Violated: a listed key whose dtype the library does not know is not in d, and items() and metadata() raise KeyError; the length of an OutSafetensorsDict counts __metadata__, so it is 1 before anything is written and one too many at the end.)", "quantifier": "all files, buffer sizes and earlier reads; all histories of writing threads", "why_tests_cant": "all files and all orders of reads and writes", "anchors": ["sd_mecha/streaming.py:InSafetensorsDict", "sd_mecha/streaming.py:OutSafetensorsDict.__len__", "sd_mecha/streaming.py:TensorMetadata"]}
{"id": "C124", "title": "recipe files", "statement": "serialize(r, output=p) leaves the text it returns in the file that p names and changes nothing else; if it raises, nothing is changed, and it raises only if the recipe cannot be written as text or the file cannot be made. deserialize_path(p) gives the recipe of the text of the file if p exists and is named something.mecha, and raises ValueError for a path that leads nowhere or has another name; \\r\\n, \\r and \\n end lines alike. A recipe that was saved comes back from the file, and every other recipe file gives what it gave. deserialize also accepts the lines of the file, and any path that serialize writes can be loaded. (Violated: a recipe with a carriage return in a string comes back from its text but not from its file; serialize writes to names that deserialize_path refuses; deserialize(f.readlines()), as in the repository's own example, never gives a recipe, since the version line keeps its newline; a text that ends with a newline, as editors leave it, always raises.)", "quantifier": "all recipes, file systems with symbolic links, paths and registries", "why_tests_cant": "unbounded recipes, texts and file systems", "anchors": ["sd_mecha/serialization.py:deserialize_path", "sd_mecha/serialization.py:serialize", "sd_mecha/serialization.py:deserialize", "examples/recipe_deserialize.py"]}
{"id": "C125", "title": "dicts of values", "statement": "A dict given to a merge method is accepted exactly if it is empty or its values are alike: all numbers, all strings, all None, all tensors, or all recipes of one model config and one merge space, which are then those of the literal that the dict becomes (otherwise it has no config and is in param space). Values of another kind than the first, and a path or a dict in first place, raise TypeError; recipes that differ in config or merge space raise RuntimeError. literal(d) of a dict of recipes is accepted exactly if they have one config, which is the one that is given, if any, and one merge space, which the one given replaces; otherwise it raises ValueError. What literal accepts, a merge method accepts, and the same mistake raises the same exception. (Violated: literal does not look at the kinds of values, and a literal is taken by a merge method as it is, so that a dict of a number, a string and a recipe passes; recipes of different configs raise ValueError in literal and RuntimeError in a call.) A dict given to merge is accepted on the same terms if it is not empty. (Violated: a strict merge, the default, refuses every state dict of tensors.)", "quantifier": "all dicts, recipes, registries, configs and merge spaces", "why_tests_cant": "unbounded dicts and recipes", "anchors": ["sd_mecha/extensions/merge_methods.py:value_to_node", "sd_mecha/recipe_nodes.py:LiteralRecipeNode", "sd_mecha/helpers.py:literal"]}
