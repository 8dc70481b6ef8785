{"id": "C01", "title": "Model.walk enumerates exactly the model's nodes, each once", "statement": "For every model graph (trees, shared layers, cycles), walk(order) for each of bfs, dfs_pre and dfs_post terminates and yields every node reachable through layers exactly once and nothing else; bfs and dfs_pre yield the root first, dfs_post yields it last; an unknown order raises ValueError.", "quantifier": "all finite object graphs of any size and shape, all roots, all order arguments", "why_tests_cant": "The set of graphs with sharing and cycles is infinite; tests only cover a few small trees.", "anchors": ["thinc/model.py: Model.walk, Model._walk_bfs, Model._walk_dfs"]}
{"id": "C02", "title": "Traversal orders mean what they say", "statement": "bfs yields nodes in non-decreasing distance from the root; on acyclic graphs dfs_post yields every layer before each model that contains it; on tree-shaped models dfs_pre and dfs_post coincide with the recursive pre-order and post-order.", "quantifier": "all finite graphs (acyclic / tree-shaped where stated)", "why_tests_cant": "Ordering must hold for every sharing pattern; replace_node and serialization depend on it.", "anchors": ["thinc/model.py: Model._walk_bfs, Model._walk_dfs"]}
{"id": "C03", "title": "A declared dimension is written once", "statement": "Over any history of set_dim/get_dim/has_dim calls: only declared names can be set; once a dimension has a value, no call without force changes it; a forced change is refused when any parameter is allocated; a failed call leaves the model unchanged; get_dim returns the last accepted value and raises KeyError (unknown) or ValueError (unset) otherwise.", "quantifier": "all call histories, names and values", "why_tests_cant": "A history property over unbounded call sequences.", "anchors": ["thinc/model.py: Model.has_dim, Model.get_dim, Model.set_dim, Model.maybe_get_dim"]}
{"id": "C04", "title": "Parameter reads return the last write and writes are isolated", "statement": "get_param(name) returns the value of the last set_param(name, value) with a non-None value on that model, regardless of any interleaved operations on other names or gradients; has_param is False for unregistered, None for unallocated and True for allocated names; failed reads raise KeyError and change nothing. Finding: set_param(name, None) makes has_param return None but get_param keeps returning the old array.", "quantifier": "all histories of set_param/get_param/set_grad/inc_grad over all names", "why_tests_cant": "Interleavings over unboundedly many keys and calls.", "anchors": ["thinc/model.py: Model.get_param, Model.set_param, Model.has_param", "thinc/backends/_param_server.py: ParamServer.get_param, set_param, has_param"]}
{"id": "C05", "title": "Gradients accumulate additively until overwritten", "statement": "After any history, get_grad(name) is the elementwise sum of all inc_grad increments since the last set_grad (plus that value), independent of operations on other names; the first inc_grad copies, so the caller's increment array is never modified by later increments.", "quantifier": "all histories of inc_grad/set_grad, all names and array sizes", "why_tests_cant": "Order and aliasing of arbitrarily long accumulation histories.", "anchors": ["thinc/model.py: Model.inc_grad, Model.set_grad, Model.get_grad", "thinc/backends/_param_server.py: ParamServer.inc_grad, set_grad"]}
{"id": "C06", "title": "finish_update applies the optimizer once per gradient", "statement": "finish_update calls the optimizer exactly once for every (node, parameter) that has a gradient, for every node of the model even when shared, in walk order, with that node's id, current parameter and gradient; afterwards each such parameter holds the value the optimizer returned, and parameters without gradients and nodes outside the model are untouched.", "quantifier": "all model graphs, parameter/gradient states and optimizer functions", "why_tests_cant": "Shared layers and arbitrary graphs; a missed or doubled update is silent.", "anchors": ["thinc/model.py: Model.finish_update, Model.walk"]}
{"id": "C07", "title": "use_params is a temporary substitution", "statement": "Inside use_params(params) every allocated parameter whose (id,name) key is in params has the given value and all other parameters are unchanged; after a normal exit every parameter has exactly its previous value, including for shared layers entered several times and for nested uses. Finding: if the body raises, the substituted values stay.", "quantifier": "all model graphs with sharing, all params dictionaries, all bodies that do not themselves set parameters", "why_tests_cant": "Sharing makes the backup/restore order significant; exceptions are untested.", "anchors": ["thinc/model.py: Model.use_params"]}
{"id": "C08", "title": "References stay inside the tree", "statement": "set_ref(name, node) succeeds iff node is None or reachable from the model, otherwise raises ValueError and changes nothing; get_ref returns the last node set, KeyError if unregistered, ValueError if unset; any history of set_ref keeps every reference inside the owner's walk.", "quantifier": "all graphs and call histories", "why_tests_cant": "Universally quantified over graphs and histories.", "anchors": ["thinc/model.py: Model.set_ref, Model.get_ref, Model.has_ref, Model.maybe_get_ref"]}
{"id": "C09", "title": "replace_node substitutes everywhere", "statement": "replace_node(old, new) returns True iff old occurs in the model; afterwards, in every node other than old that was in the model, each occurrence of old in its layers is replaced by new at the same position and nothing else in any layers list changes; references to old become references to new. It raises when a visited node has an unset reference (finding).", "quantifier": "all graphs, all old/new nodes", "why_tests_cant": "Replacement must be complete at every depth and sharing pattern.", "anchors": ["thinc/model.py: Model.replace_node"]}
{"id": "C10", "title": "remove_node removes every occurrence and repairs references", "statement": "After a successful remove_node(node) no layers list reachable from the root contains node, the other entries keep their order, and references to nodes no longer in the tree are None while all others are unchanged. Finding: it raises ValueError after having already edited the layers whenever some node in the remaining tree has an unset reference.", "quantifier": "all graphs and nodes", "why_tests_cant": "Quantifies over graphs; the failing interaction with unset references is untested.", "anchors": ["thinc/model.py: Model.remove_node"]}
{"id": "C11", "title": "copy is a faithful, independent clone", "statement": "copy() of an acyclic model returns a model whose graph is isomorphic (a layer object shared in the original at several places below the root is one object in the copy), with the same names, dims, attrs, allocated parameters and gradients, whose nodes are all new objects with ids distinct from all existing ids, and no later parameter or gradient write to one is visible through the other. Finding: references are not copied.", "quantifier": "all acyclic model graphs with sharing and all parameter states", "why_tests_cant": "Sharing patterns are unbounded.", "anchors": ["thinc/model.py: Model.copy, Model._copy"]}
{"id": "C12", "title": "Serialization round-trips", "statement": "For every model whose references point to nodes below their owner, to_dict succeeds, and from_dict of that message on any model with the same layer structure and compatible dims succeeds and yields a model with the same names, dims, references (by position), attributes, and parameters; serializing the result gives the same message. Finding: references accepted by the constructor that point to in-tree nodes not below their owner serialize but cannot be deserialized.", "quantifier": "all graphs with sharing, all parameter/dim/ref states", "why_tests_cant": "Must hold for every graph shape and state.", "anchors": ["thinc/model.py: Model.to_dict, Model.from_dict"]}
{"id": "C13", "title": "from_dict/can_from_dict reject structural mismatches", "statement": "from_dict raises ValueError and changes nothing when the number of nodes differs; can_from_dict returns False in that case and whenever the names (strict), shim counts, declared dims, set dims or parameter shapes mismatch. Finding: can_from_dict can return True while from_dict fails because references are not checked.", "quantifier": "all messages and models", "why_tests_cant": "All combinations of message and model.", "anchors": ["thinc/model.py: Model.from_dict, Model.can_from_dict"]}
{"id": "C14", "title": "Model and shim ids are unique under concurrency", "statement": "For every number of threads and every interleaving of their steps, models constructed concurrently receive pairwise distinct ids, strictly increasing in lock-acquisition order.", "quantifier": "all thread counts, all schedules", "why_tests_cant": "Schedules cannot be enumerated by tests.", "anchors": ["thinc/model.py: Model.__init__ (global_id, global_id_lock)", "thinc/shims/shim.py: Shim.__init__"]}
{"id": "C15", "title": "Operator and backend contexts nest and restore", "statement": "define_operators/use_ops: inside the block the new binding is visible, after a normal exit the previous binding is restored for any nesting; use_ops also restores when the body raises; bindings changed in one thread's context are invisible to others. Finding: define_operators and data_validation do not restore on an exception.", "quantifier": "all nestings and programs of enter/exit/raise events", "why_tests_cant": "Arbitrary nestings and exceptional exits.", "anchors": ["thinc/model.py: Model.define_operators", "thinc/backends/__init__.py: use_ops, get_current_ops, set_current_ops", "thinc/util.py: data_validation"]}
{"id": "C16", "title": "Bulk attribute setters touch exactly the matching nodes", "statement": "set_dropout_rate(model, drop, attrs) sets the listed attributes to drop on exactly those nodes of the model that already have them, and change_attr_values(model, mapping) sets exactly the mapped attributes that already exist on nodes of that name; no attribute is ever added and nodes outside the model are unchanged.", "quantifier": "all graphs, attribute sets and mappings", "why_tests_cant": "All graphs and mappings.", "anchors": ["thinc/model.py: set_dropout_rate, change_attr_values"]}
{"id": "C17", "title": "Optimizer state is per key", "statement": "The sequence of updates of one parameter key (weights returned, update count, moments, averages) depends only on the calls made for that key: interleaving calls for other keys in any order changes nothing, for SGD and Adam at fixed hyperparameters. For RAdam at fixed betas the shared step buffer does not break this.", "quantifier": "all interleavings of calls over all keys, all gradients", "why_tests_cant": "Interleavings are unbounded; leakage would be numerically subtle.", "anchors": ["thinc/optimizers.py: Optimizer.__call__, Optimizer._adam, Optimizer._radam"]}
{"id": "C18", "title": "Each optimizer call consumes the gradient", "statement": "After optimizer(key, weights, gradient) with a non-empty gradient the gradient is all zeros and the key's update count is one higher; an empty gradient is a no-op on all state.", "quantifier": "all configurations, keys, weights and gradients", "why_tests_cant": "All configurations (L2, clipping, decay, averages, RAdam/Adam/SGD).", "anchors": ["thinc/optimizers.py: Optimizer.__call__"]}
{"id": "C19", "title": "SGD, L2 and weight decay compute the documented update", "statement": "With b1=b2=0 the new weights are w - lr*lr_scale*clip(g + L2*w) without weight decay, and decoupled decay multiplies by (1 - lr*lr_scale*L2) as coded; b2>0 with b1=0 raises NotImplementedError.", "quantifier": "all weights, gradients and hyperparameters (reals)", "why_tests_cant": "All parameter values.", "anchors": ["thinc/optimizers.py: Optimizer.__call__"]}
{"id": "C20", "title": "Adam moments are exponentially weighted averages", "statement": "After n updates of a key with gradients g1..gn the first and second moments are (1-b)*sum b^(n-i) g_i (respectively g_i^2), the bias-corrected first moment is a convex combination of the gradients, and the parameter update equals the textbook Adam step with epsilon scaled as coded; the blocked C loop computes exactly the elementwise update for every array length.", "quantifier": "all n, gradient sequences, array lengths", "why_tests_cant": "Unbounded histories and array sizes; the block boundary case.", "anchors": ["thinc/optimizers.py: Optimizer._adam", "thinc/backends/numpy_ops.pyx: NumpyOps.adam, _adam_momentum", "thinc/backends/ops.py: Ops.adam"]}
{"id": "C21", "title": "Gradient clipping bounds the norm and keeps the direction", "statement": "clip_gradient(g, threshold) with threshold>0 returns a non-negative multiple of g whose Euclidean norm is at most threshold, and returns g unchanged if its norm is below threshold.", "quantifier": "all real vectors of any length and thresholds", "why_tests_cant": "All vectors.", "anchors": ["thinc/backends/ops.py: Ops.clip_gradient"]}
{"id": "C22", "title": "Parameter averages stay in the hull of their inputs", "statement": "update_averages computes ema' = ema + (1-decay)(w-ema) with decay=min((1+t)/(10+t), max_decay) in [0,1) for t>=0, so each average lies between the bounds of the initial average (zero) and all weights seen, over any history.", "quantifier": "all histories", "why_tests_cant": "Unbounded histories.", "anchors": ["thinc/backends/ops.py: Ops.update_averages", "thinc/optimizers.py: Optimizer.__call__"]}
{"id": "C23", "title": "Generator hyperparameters are stepped correctly", "statement": "An optimizer hyperparameter given as a generator yields its k-th element at step k for any non-decreasing sequence of queried steps (including repeats and jumps), the last element after exhaustion, and raises ValueError when the step decreases.", "quantifier": "all generators (finite or infinite) and all step query sequences", "why_tests_cant": "All query histories.", "anchors": ["thinc/optimizers.py: _wrap_generator, _wrap_generator_schedule"]}
{"id": "C24", "title": "Schedules compute bounded, monotone curves as documented", "statement": "constant, constant_then, decaying, compounding (clipped at stop in either direction), warmup_linear, slanted_triangular and cyclic_triangular produce their documented values at every step: compounding and decaying are monotone and never pass stop/zero; warmup_linear peaks at initial_rate and ends at 0; cyclic_triangular is periodic and stays within [min_lr, max_lr]; negative steps raise ValueError.", "quantifier": "all steps and parameters", "why_tests_cant": "All steps.", "anchors": ["thinc/schedules.py: Schedule.__call__, constant, constant_then, decaying, compounding, _clip, warmup_linear, slanted_triangular, cyclic_triangular"]}
{"id": "C25", "title": "plateau decays exactly after max_patience non-improving scores", "statement": "For every history of (step, last_score) evaluations, the plateau schedule returns inner(step)*scale^n where n is the number of completed runs of max_patience consecutive non-improving scores at new steps since the last improvement; evaluating repeatedly without a new score or at the same step does not change the state.", "quantifier": "all histories of steps and scores", "why_tests_cant": "State machine over unbounded histories.", "anchors": ["thinc/schedules.py: plateau, _PlateauState"]}
{"id": "C26", "title": "minibatch partitions the data", "statement": "Ops.minibatch(size, sequence, shuffle, buffer) yields consecutive non-empty batches whose concatenation is the sequence (a permutation of it, the same one as the index shuffle, when shuffle=True), where each batch has the requested size except possibly the last, independent of the buffer setting, for constant and varying integer sizes; its advertised length equals the number of batches. Findings: with fractional sizes (as produced by every schedule generator) trailing items are dropped; size 0 never terminates.", "quantifier": "all sequences, positive size schedules, buffers, permutations", "why_tests_cant": "All sizes and buffers.", "anchors": ["thinc/backends/ops.py: Ops.minibatch, Ops._get_batch, Ops._get_batch_sizes"]}
{"id": "C27", "title": "multibatch keeps sequences aligned", "statement": "Ops.multibatch yields tuples of batches that take the same positions from every sequence: for sequences of equal length each batch contains the same rows, in the same order, of every sequence, and the rows partition the (shuffled) data. Finding: sequences of unequal length are accepted and extra items silently dropped.", "quantifier": "all tuples of sequences, sizes, permutations, buffers", "why_tests_cant": "All inputs.", "anchors": ["thinc/backends/ops.py: Ops.multibatch"]}
{"id": "C28", "title": "flatten/unflatten are inverse", "statement": "unflatten(flatten(Xs, pad), lengths(Xs), pad) = Xs for every list of sequences (including empty ones) and every padding, and flatten produces exactly pad zero rows before each non-empty item and pad after the last.", "quantifier": "all lists of sequences and pads", "why_tests_cant": "All ragged shapes including empties.", "anchors": ["thinc/backends/ops.py: Ops.flatten, Ops.unflatten"]}
{"id": "C29", "title": "pad/unpad are inverse and zero-filled", "statement": "pad(seqs, round_to) returns a batch whose length is the least multiple of round_to not less than the longest sequence, with each sequence followed by zeros; unpad of the result with the original lengths returns the sequences; round_to<1 and an empty batch raise ValueError.", "quantifier": "all batches and round_to", "why_tests_cant": "All shapes.", "anchors": ["thinc/backends/ops.py: Ops.pad, Ops.unpad"]}
{"id": "C30", "title": "list2padded/padded2list are inverse and Padded is well formed", "statement": "For every list of sequences, padded2list(list2padded(seqs)) = seqs in the original order; the Padded value has lengths sorted descending, indices the corresponding permutation, size_at_t[t] = the number of sequences longer than t, and zeros beyond each sequence's end.", "quantifier": "all lists of sequences incl. empty and singleton", "why_tests_cant": "All shapes; the fast paths for 0/1 sequences differ.", "anchors": ["thinc/backends/ops.py: Ops.list2padded, Ops.padded2list"]}
{"id": "C31", "title": "Sequence-format adapters are representation independent", "statement": "Wrapping a row-wise layer with with_array (list, ragged, padded) or a per-sequence layer with with_list/with_padded/with_ragged gives, for every input representation of the same sequences, the same sequences as applying the layer directly, and the same for the backward pass.", "quantifier": "all batches of sequences, all representations, all wrapped functions", "why_tests_cant": "All inputs and layers.", "anchors": ["thinc/layers/with_array.py", "thinc/layers/with_list.py", "thinc/layers/with_ragged.py", "thinc/layers/with_padded.py", "thinc/layers/list2ragged.py", "thinc/layers/ragged2list.py", "thinc/layers/list2padded.py", "thinc/layers/padded2list.py", "thinc/layers/list2array.py"]}
{"id": "C32", "title": "LSTM packing round-trips", "statement": "_padded_to_packed followed by _packed_to_padded reproduces the padded data exactly when cells beyond size_at_t are zero; packing lists, for each time step, the active sequences in order.", "quantifier": "all padded batches", "why_tests_cant": "All shapes.", "anchors": ["thinc/layers/lstm.py: _padded_to_packed, _packed_to_padded"]}
{"id": "C33", "title": "Ragged and Padded indexing select whole sequences", "statement": "Ragged[i] and Ragged[i:j] (0<=i<=j<=n, i given) return exactly the selected sequences with their lengths; indexing by an array of positions selects those sequences in order. Findings: Ragged[-1] loses its length, Ragged[:k] raises TypeError, Padded indexing stores lengths in size_at_t.", "quantifier": "all ragged values and indices", "why_tests_cant": "All shapes and indices.", "anchors": ["thinc/types.py: Ragged.__getitem__, Ragged._get_starts_ends, Padded.__getitem__"]}
{"id": "C34", "title": "Sequence reductions reduce each sequence and backprop is their adjoint", "statement": "reduce_sum/mean/max/first/last compute, for each sequence, the sum/mean/max/first/last of its rows (empty sequences give 0 for sum/mean and raise for max/first/last), never mixing sequences; each backprop is the adjoint (transpose) of its forward map: <backprop(dY), X> = <dY, forward(X)>.", "quantifier": "all ragged arrays", "why_tests_cant": "All shapes; offsets are easy to get wrong.", "anchors": ["thinc/backends/ops.py: Ops.reduce_sum, reduce_mean, reduce_max, reduce_first, reduce_last, backprop_reduce_*", "thinc/backends/cpu_kernels.hh: cpu_reduce_*, cpu_backprop_reduce_*"]}
{"id": "C35", "title": "seq2col gathers the window and backprop_seq2col is its adjoint", "statement": "seq2col(X, nW, lengths) puts at row r, window slot k the row r+k-nW of X when it lies in the same sequence and zeros otherwise, for every window size and ragged batch; backprop_seq2col is its adjoint; mismatched lengths raise.", "quantifier": "all ragged arrays and window sizes", "why_tests_cant": "All shapes and window sizes larger than sequences.", "anchors": ["thinc/backends/numpy_ops.pyx: NumpyOps.seq2col, backprop_seq2col, check_seq2col_lengths", "thinc/backends/cpu_kernels.hh: seq2col, backprop_seq2col", "thinc/backends/ops.py: Ops.seq2col, Ops.backprop_seq2col"]}
{"id": "C36", "title": "maxout returns the first maximum and routes the gradient to it", "statement": "For every piece count the (unrolled and generic) maxout kernels return the maximum and the index of its first occurrence; backprop_maxout puts the gradient at exactly that piece and zero elsewhere; an out-of-range index is rejected when >= P.", "quantifier": "all arrays and piece counts >= 1", "why_tests_cant": "The unrolled variants must agree with the generic loop for all inputs.", "anchors": ["thinc/backends/cpu_kernels.hh: argmax, cpu_maxout, cpu_backprop_maxout", "thinc/backends/ops.py: Ops.maxout, Ops.backprop_maxout"]}
{"id": "C37", "title": "gather_add/scatter_add are adjoint and index-safe", "statement": "scatter_add(table, ids, values) adds each value row to its id's row, summing duplicates in order; it is the adjoint of row lookup; gather_add sums the indexed rows. Finding: the CPU gather_add bounds check accepts index == number of rows (and negative indices), an out-of-bounds read.", "quantifier": "all tables and index arrays", "why_tests_cant": "All index patterns including duplicates.", "anchors": ["thinc/backends/numpy_ops.pyx: NumpyOps.gather_add, scatter_add, cpu_scatter_add", "thinc/backends/cpu_kernels.hh: cpu_gather_add"]}
{"id": "C38", "title": "SparseLinear indices are in range and its gradient is the adjoint", "statement": "For every key, value and length array, both SparseLinear hashing variants access weight indices within the table; the gradient accumulation is the adjoint of the score computation. (v1 requires the table length to be a power of two plus slack.)", "quantifier": "all feature batches and table lengths", "why_tests_cant": "All keys.", "anchors": ["thinc/layers/sparselinear.pyx: set_scoresC, set_gradientC"]}
{"id": "C39", "title": "ngrams and hash have the documented shape and range", "statement": "ngrams(n, keys) has length max(0, len-n+1) and element i depends only on keys[i..i+n); hash returns four 32-bit words per id determined by (id, seed).", "quantifier": "all key arrays, n and seeds", "why_tests_cant": "All arrays.", "anchors": ["thinc/backends/numpy_ops.pyx: NumpyOps.ngrams, NumpyOps.hash, MurmurHash3_x86_128_uint64"]}
{"id": "C40", "title": "Embed and HashEmbed gradients are adjoint to lookup", "statement": "The table gradient accumulated by Embed/HashEmbed backprop is the adjoint of the forward lookup (including the per-dimension dropout mask); HashEmbed bucket indices are always within the table. Finding: HashEmbed's backprop after an empty batch fails (unbound local).", "quantifier": "all tables, ids, masks", "why_tests_cant": "All inputs.", "anchors": ["thinc/layers/embed.py: forward", "thinc/layers/hashembed.py: forward"]}
{"id": "C41", "title": "Combinators backpropagate by the chain rule", "statement": "If every child layer's callback is the adjoint of its forward tangent at the given input, then so is the callback of chain, add, concatenate (arrays), residual, tuplify, siamese, map_list, clone and with_debug/resizable wrappers, for any number of layers and any nesting.", "quantifier": "all layers, any arity and nesting depth, all inputs", "why_tests_cant": "Universally quantified over layers.", "anchors": ["thinc/layers/chain.py", "thinc/layers/add.py", "thinc/layers/concatenate.py", "thinc/layers/residual.py", "thinc/layers/tuplify.py", "thinc/layers/siamese.py", "thinc/layers/map_list.py", "thinc/layers/clone.py"]}
{"id": "C42", "title": "Dense layers compute the exact gradient", "statement": "Linear, Relu, Maxout, ClippedLinear and LayerNorm callbacks return the adjoint of the derivative of their output with respect to the input, and increment parameter gradients by the adjoint with respect to each parameter.", "quantifier": "all shapes, weights, inputs and output gradients (reals, away from kinks)", "why_tests_cant": "All values and shapes.", "anchors": ["thinc/layers/linear.py: forward", "thinc/layers/relu.py: forward", "thinc/layers/maxout.py: forward", "thinc/layers/clipped_linear.py: forward", "thinc/layers/layernorm.py: forward"]}
{"id": "C43", "title": "Dropout is the identity at prediction time and consistent in training", "statement": "With rate 0, disabled, or is_train=False dropout returns its input and the identity callback; otherwise forward and backward use the same mask, whose entries are 0 or 1/(1-rate).", "quantifier": "all inputs, rates and random draws", "why_tests_cant": "All random draws.", "anchors": ["thinc/layers/dropout.py", "thinc/backends/ops.py: Ops.get_dropout_mask"]}
{"id": "C44", "title": "Activation backprops are the true derivatives", "statement": "For relu, clipped_linear (positive slope), relu_k, hard_sigmoid, hard_tanh, swish, hard_swish, hard_swish_mobilenet, dish, gelu_approx, mish (below the threshold), sigmoid, tanh: backprop multiplies the incoming gradient by the derivative of the forward function at every real point where it is differentiable. Finding: clipped_linear with negative slope always backpropagates zero.", "quantifier": "all real inputs", "why_tests_cant": "A continuum of inputs.", "anchors": ["thinc/backends/ops.py: Ops.relu, clipped_linear, swish, hard_swish, hard_swish_mobilenet, dish, gelu_approx, mish, sigmoid and their backprop_*"]}
{"id": "C45", "title": "softmax is a probability distribution with the right Jacobian", "statement": "softmax rows are positive, sum to 1, are invariant under adding a constant to the row, preserve order, and backprop_softmax multiplies by the Jacobian; softmax_sequences normalizes per sequence.", "quantifier": "all real rows of any width", "why_tests_cant": "All real inputs.", "anchors": ["thinc/backends/ops.py: Ops.softmax, Ops.backprop_softmax, Ops.softmax_sequences, Ops.backprop_softmax_sequences"]}
{"id": "C46", "title": "to_categorical produces one-hot or smoothed distributions", "statement": "Each row of to_categorical(Y, n_classes, label_smoothing) sums to 1 with the maximum at Y's class, for every valid smoothing; invalid smoothing or class counts raise ValueError.", "quantifier": "all label arrays, class counts and smoothing values", "why_tests_cant": "All label values.", "anchors": ["thinc/util.py: to_categorical"]}
{"id": "C47", "title": "Losses and their gradients are consistent", "statement": "CategoricalCrossentropy.get_grad is guesses - truths (row-masked, normalized) and get_loss is the sum of squares of that gradient; composed with Softmax's callback it is the gradient of -sum t log softmax(z/T) with respect to z; L2Distance.get_grad is proportional to the derivative of its loss; CosineDistance gradient is the derivative of its loss; sequence losses equal per-sequence losses.", "quantifier": "all guesses and truths", "why_tests_cant": "All real inputs.", "anchors": ["thinc/loss.py: CategoricalCrossentropy, SequenceCategoricalCrossentropy, L2Distance, CosineDistance"]}
{"id": "C48", "title": "LSTM weight layout is a bijection", "statement": "Splitting, transposing and re-assembling the flat LSTM parameter vector visits every position exactly once for each depth, direction and size; the initializer allocates exactly the number of values the kernels read.", "quantifier": "all depths, dirs, sizes", "why_tests_cant": "All configurations.", "anchors": ["thinc/backends/ops.py: _split_weights, _transpose_weights, _untranspose_unsplit_weights", "thinc/layers/lstm.py: init"]}
{"id": "C49", "title": "Resizing an output layer preserves existing predictions", "statement": "resize_linear_weighted keeps the first min(old,new) output rows of W and b identical and fills new rows with the filler, so scores of the old classes are unchanged.", "quantifier": "all layers and sizes", "why_tests_cant": "All sizes.", "anchors": ["thinc/layers/resizable.py: resize_linear_weighted, _resize_parameter"]}
{"id": "C50", "title": "Recursive conversion visits every leaf once and preserves structure", "statement": "convert_recursive applies the conversion to exactly the matching leaves of nested lists/tuples/dicts/ArgsKwargs, keeping the structure; iterate_recursive yields the same leaves in the same order; ArgsKwargs.from_items(a.items()) = a.", "quantifier": "all nested values", "why_tests_cant": "All nesting depths.", "anchors": ["thinc/util.py: convert_recursive, iterate_recursive", "thinc/types.py: ArgsKwargs"]}
{"id": "C51", "title": "Combinators do not modify their input (finding)", "statement": "add/tuplify/residual should leave the caller's arrays unchanged. Finding: add accumulates in place into the first layer's output, so when that layer returns its input object (noop, disabled dropout) the caller's array and the inputs of later layers are overwritten.", "quantifier": "all layer lists, aliasing patterns", "why_tests_cant": "Aliasing is invisible to value-level tests.", "anchors": ["thinc/layers/add.py: forward", "thinc/layers/tuplify.py: tuplify_forward"]}
{"id": "C52", "title": "bidirectional processes the reversed sequence (finding)", "statement": "bidirectional(l2r, r2l) should run r2l on the time-reversed input and route each half of the gradient to its own layer. Finding: neither happens: r2l sees the unreversed data and both layers receive the first half of the gradient.", "quantifier": "all layers and padded batches", "why_tests_cant": "Shape-only tests pass.", "anchors": ["thinc/layers/bidirectional.py: _reverse, _split, forward"]}
{"id": "C53", "title": "Shape adapters invert their own transformation", "statement": "with_getitem, with_flatten (v1/v2), with_reshape, array_getitem: outputs and input gradients have the structure of the input with only the selected part transformed. Findings: with_getitem with a negative index of -1 duplicates items; with_flatten.v1 splits the gradient along the wrong axis; with_reshape hands its layer a 3-d gradient; concatenate over list outputs concatenates instead of adding gradients.", "quantifier": "all inputs", "why_tests_cant": "All shapes.", "anchors": ["thinc/layers/with_getitem.py", "thinc/layers/with_flatten.py", "thinc/layers/with_flatten_v2.py", "thinc/layers/with_reshape.py", "thinc/layers/concatenate.py: _list_forward", "thinc/layers/array_getitem.py"]}
{"id": "C54", "title": "uniqued is transparent", "statement": "uniqued(layer) returns the same output rows as layer for every layer that acts row-wise and depends only on the key column, and feeds layer the per-unique-row sum of the output gradients.", "quantifier": "all key columns and row-wise layers", "why_tests_cant": "All duplication patterns.", "anchors": ["thinc/layers/uniqued.py: forward"]}
{"id": "C55", "title": "Gradient scaler and PyTorch shim state machine", "statement": "The scaler multiplies the scale by growth_factor exactly after growth_interval consecutive finite steps and by backoff_factor on each overflow; a step whose gradients overflowed never reaches the optimizer, and gradients are zeroed after every finish_update. Finding: deserializing a PyTorch shim with the default callbacks leaves the weights unchanged.", "quantifier": "all histories of finite/overflowing steps", "why_tests_cant": "Unbounded histories.", "anchors": ["thinc/shims/pytorch_grad_scaler.py", "thinc/shims/pytorch.py: finish_update, default_deserialize_torch_model"]}
{"id": "C56", "title": "LSTM backward pass (findings)", "statement": "The LSTM backward pass should return the gradient of the forward pass. Back-propagation through time of the LSTM equations is right; the NumpyOps kernel computes it for every sequence of a batch and either direction, except for the first step; its gradient of the input is right for any depth as long as the first inputs do not move. Findings: the base implementation never stores the gate gradients, so all returned gradients are zero; the NumpyOps version starts the parameter gradient from the parameter values, never differentiates the first step, and pairs the gate gradients with the wrong hiddens in the gradient of the hidden weights.", "quantifier": "all sequences and parameters", "why_tests_cant": "Only shapes are tested.", "anchors": ["thinc/backends/ops.py: backprop_lstm", "thinc/backends/numpy_ops.pyx: backprop_lstm"]}
{"id": "C57", "title": "A training step lowers the loss", "statement": "begin_update, the gradient of the loss, the callback and finish_update with plain (possibly clipped) gradient descent, or with the first step of Adam, lower the loss for every small enough learning rate, unless the gradient of all parameters is zero.", "quantifier": "all networks whose callbacks are right, all batches, losses and optimizer states", "why_tests_cant": "Tests check that the loss goes down on one example.", "anchors": ["thinc/model.py: begin_update, finish_update", "thinc/optimizers.py: Optimizer.__call__", "thinc/loss.py"]}
{"id": "C58", "title": "Initialization infers widths and sizes parameters", "statement": "initialize never changes a dim that is set, never touches nodes outside the model, and leaves every parameter with the shape its node's dims say, even when it raises; after success a layer, chain or concatenation maps every batch of the width it was shown to batches of one width, and a chain gets the width of its outputs. Findings: add and residual initialize with mismatched widths and fail when used; concatenate gives each layer the full width of Y; layers in nested chains are initialized 2^depth times without data; every layer of a chain without nO takes the width of Y, hidden ones too.", "quantifier": "all models built from chain, add, concatenate, residual, tuplify and five kinds of layers, with any sharing, any data", "why_tests_cant": "Tests initialize a handful of models.", "anchors": ["thinc/model.py: initialize", "thinc/util.py: get_width", "thinc/layers/chain.py: init", "thinc/layers/add.py: init", "thinc/layers/concatenate.py: init", "thinc/layers/residual.py: init", "thinc/layers/tuplify.py: init", "thinc/layers/linear.py: init", "thinc/layers/maxout.py: init", "thinc/layers/layernorm.py: init"]}
{"id": "C59", "title": "CUDA kernels compute what the NumPy implementation computes, in any interleaving", "statement": "For every grid and every interleaving of the threads' memory accesses, gather_add, seq2col, maxout, reduce_sum, reduce_max, pad, the elementwise kernels and their backprops in _custom_kernels.cu access memory inside their arrays and return what the NumPy implementation returns; the grid-stride loop visits each index once; wrappers refuse bad lengths, positions and shapes. Findings: reduce_mean divides by the length plus 1e-10; four CupyOps fallbacks return None; the backprops of the reductions do not check the number of gradient rows and maxout does not check that there are pieces, so threads read outside.", "quantifier": "all grids, schedules, shapes, lengths", "why_tests_cant": "Race freedom and memory safety for all schedules; GPU tests need hardware.", "anchors": ["thinc/backends/_custom_kernels.cu", "thinc/backends/_custom_kernels.py: gather_add, seq2col, maxout, reduce_sum, reduce_mean, reduce_max, pad, backprop_*, check functions", "thinc/backends/cupy_ops.py: reduce_*, backprop_reduce_*"]}
{"id": "C60", "title": "GPU activations, gradient clipping and Adam agree with the CPU", "statement": "In any interleaving the CUDA kernels of clipped_linear, dish, mish, their backprops and those of hard_swish and hard_swish_mobilenet compute the functions of the base class; swish and gelu stay within 17 e^-17 and e^-18/sqrt(2 pi) of the exact functions and their backprops multiply by the derivative of what is computed; CuPy's clip_gradient and adam agree with the base class. Findings: swish and gelu jump at their thresholds; CPU and GPU swish differ without bound for very negative inputs; adam ignores mod_rate.", "quantifier": "all real inputs, grids, schedules", "why_tests_cant": "Tests compare backends on random samples and need a GPU.", "anchors": ["thinc/backends/_custom_kernels.cu", "thinc/backends/cupy_ops.py: dish, gelu, mish, swish, clipped_linear, backprop_*, clip_gradient, adam"]}
{"id": "C61", "title": "The GPU hash equals the CPU hash", "statement": "In any interleaving CupyOps.hash of 64-bit ids with a 32-bit seed returns exactly the rows of NumpyOps.hash: the general MurmurHash3_x64_128 of the CUDA source, run on the eight little-endian bytes of an id, is the specialised function of the CPU, and the bytes it writes are the four uint32 words. Finding: CupyOps.hash does not convert the ids and reads 8 bytes for each, so any non-empty array of narrower ids is read outside.", "quantifier": "all arrays of uint64 ids, seeds, grids, schedules", "why_tests_cant": "Tests compare a few ids and need a GPU.", "anchors": ["thinc/backends/_murmur3.cu", "thinc/backends/_custom_kernels.py: hash", "thinc/backends/cupy_ops.py: CupyOps.hash"]}
{"id": "C62", "title": "Attention, Cauchy similarity and the reduction layers differentiate", "statement": "ParametricAttention (both versions) multiplies each row with the softmax, within its sequence, of the product of its transformed row with the learned vector, and its callback returns the gradient in the input, the transform's parameters and the vector; CauchySimilarity and reduce_sum, _mean, _first, _last and _max return the gradient of what they compute, also under siamese and chains; gradients of another shape are refused. Findings: products beyond 20 all count alike while the callback still returns a gradient; an empty batch raises on the compiled backend; CauchySimilarity broadcasts one row but returns a gradient of another shape; with a tie reduce_max has no derivative.", "quantifier": "all inputs, lengths, widths, weights and curves through them", "why_tests_cant": "Tests check shapes of a few batches.", "anchors": ["thinc/layers/parametricattention.py", "thinc/layers/parametricattention_v2.py", "thinc/layers/cauchysimilarity.py", "thinc/layers/reduce_first.py", "thinc/layers/reduce_last.py", "thinc/layers/reduce_max.py", "thinc/layers/reduce_mean.py", "thinc/layers/reduce_sum.py", "thinc/util.py: check_consistency"]}
{"id": "C63", "title": "Wrapped models of other frameworks get and give back what they should", "statement": "PyTorchWrapper passes tensors in the structure of its input (one argument, positional, keyword or both), returns the module's output as arrays, and its callback returns the gradient of every array of the input in its place; PyTorchRNNWrapper keeps the arrays of the batch; with_cpu moves arrays to the CPU and outputs back. Findings: lists come back as tuples; outputs of several tensors cannot be backpropagated; arrays of integers raise in training; a module that raises during prediction stays in evaluation mode; with_cpu ignores is_train and raises for dicts.", "quantifier": "all nested inputs and outputs, all modules and states of the framework", "why_tests_cant": "Tests run a few modules and inputs.", "anchors": ["thinc/layers/pytorchwrapper.py", "thinc/layers/with_cpu.py", "thinc/shims/pytorch.py", "thinc/util.py: xp2torch, torch2xp"]}
{"id": "C64", "title": "Initializers give arrays of the right shape and variance", "statement": "The LeCun, He and Glorot initializers, normal and uniform, give an array of the shape asked for; uniform values are bounded; with uncorrelated draws, a row of the weights times a vector has as expected square the scheme's variance (1/fan-in, 2/fan-in, 2/(fan-in+fan-out)) times the vector's sum of squares. uniform_init stays within its bounds and zero_init gives zeros. Findings: normal_init uses its mean as standard deviation, so it gives zeros by default and raises for negative means; Maxout's weights have the pieces where the schemes look for the inputs.", "quantifier": "all shapes, generators, expectations and vectors", "why_tests_cant": "Tests check shapes and one distribution.", "anchors": ["thinc/initializers.py"]}
{"id": "C65", "title": "Mapping layers look every id up", "statement": "remap_ids (both versions), premap_ids and strings2arrays give one row per key, in order, with the value of the table, the default, or the hash modulo 2^64; premap_ids agrees with remap_ids; a column of a matrix is selected as NumPy does; wrong tables, shapes, columns and values out of range raise. Findings: the callback of remap_ids.v2 returns uninitialised memory in the shape of the output's gradient; layers made by remap_ids without a table share one; premap_ids cuts values to 32 bits and only takes int64 arrays.", "quantifier": "all tables, keys, arrays and columns", "why_tests_cant": "Tests map nine keys.", "anchors": ["thinc/layers/remap_ids.py", "thinc/layers/premap_ids.pyx", "thinc/layers/strings2arrays.py"]}
{"id": "C66", "title": "TensorFlow and MXNet models train through their shims", "statement": "finish_update calls the optimizer once with all trainable variables and gradients, flat and in order, writes every part back in its shape and leaves the rest of the model alone, and clears the gradients; without gradients, or with another number of them, it raises before the optimizer runs. Callbacks with one argument add up gradients over steps. use_params shows the block the given values and restores the model when weight names are distinct; weights round trip through bytes. Findings: callbacks of several arguments differentiate by rows of the first; use_params ignores the averages of an optimizer and does not restore when the block raises or names repeat; copying and moving a model lose its weights; the callback of a prediction raises NameError; moving an MXNet model replaces its block by a shim.", "quantifier": "all models, variables, tapes and optimizers", "why_tests_cant": "Tests train one Keras model and copy one; without TensorFlow they are skipped.", "anchors": ["thinc/shims/tensorflow.py", "thinc/shims/mxnet.py", "thinc/layers/tensorflowwrapper.py", "thinc/layers/mxnetwrapper.py"]}
{"id": "C67", "title": "NumPy kernels read and write the elements of arrays", "statement": "Arrays are views of memory with strides. relu and mish of any view, not in place, give a new array with the function of every element and change nothing else; in place they are right for arrays without gaps, in rows or columns. Their backward passes combine the right elements when the orders of both arrays agree. Memoryview parameters give the elements or raise. gemm multiplies any views and fills a contiguous out of the right shape and nothing else; adam without gaps is the kernel of the model. Findings: relu and mish in place, and adam, ignore strides and touch neighbouring memory or leave the buffer; backward passes pair wrong elements when one array is transposed or has gaps; gemm leaves a non-contiguous out unchanged and overruns a smaller one; mish of float16 ignores the threshold.", "quantifier": "all memories, views with at most two dimensions, shapes, strides and kernels", "why_tests_cant": "Tests only use arrays made by the allocator.", "anchors": ["thinc/backends/numpy_ops.pyx", "thinc/backends/ops.py", "thinc/backends/cpu_kernels.hh"]}
{"id": "C68", "title": "Position encodings are sines and cosines of multiples of the position", "statement": "position_encode fills a new array, or a contiguous out of the right shape, with one row per position, and raises for other shapes and negative numbers. Columns 2k and 2k+1 are the sine and cosine of the position times a speed; moving by m positions is a rotation of every pair that does not depend on the position; for an even number of columns the product of two rows depends only on their distance and every row has the same norm. Findings: the speeds are those of the paper for the square of the period; for an odd number of columns the last repeats column D-3; an out with gaps is filled wrongly.", "quantifier": "all sizes, periods, memories and views", "why_tests_cant": "Tests check nothing about the values.", "anchors": ["thinc/backends/numpy_ops.pyx", "thinc/backends/ops.py"]}
{"id": "C69", "title": "GPU selection, allocators, enabling frameworks and moving models act on the devices asked for", "statement": "require_gpu(id) succeeds exactly if the GPU it looks for exists, and then the backend and the current devices of CuPy and PyTorch are set; prefer_gpu reports whether there is a GPU; require_cpu always selects the best CPU backend; PyTorch's default device follows the backend; set_gpu_allocator makes at most one pool per name, shared by all contexts; array tests exclude each other; to_cpu and to_gpu give every node below the backend, move every parameter and gradient with its values and every shim, and touch nothing else. Findings: require_gpu with a missing device raises leaving CupyOps current; prefer_gpu can raise; set_gpu_allocator('pytorch') before require_gpu silently does nothing; to_gpu(1) moves shims to device 0; a shim that cannot move leaves a model half moved; enabling TensorFlow or MXNet through thinc.api, as documented, has no effect on thinc.util.", "quantifier": "all machines, device numbers, contexts, orders of imports, model graphs and parameters", "why_tests_cant": "Tests run on machines without GPUs; these functions are marked no cover.", "anchors": ["thinc/compat.py", "thinc/util.py", "thinc/backends/__init__.py", "thinc/model.py", "thinc/shims/pytorch.py"]}
{"id": "C70", "title": "An optimizer built from numbers, lists, generators or schedules uses their values at each step", "statement": "Optimizer(...) accepts a number, a non-empty list or generator, or a schedule for each hyperparameter and refuses anything else with ValueError. Although it queries each schedule several times per call, mutates generator schedules, and shares them between all keys, in every history of calls, step_schedules and scores it returns the same results, errors, momenta, counts and averages as an optimizer whose hyperparameters are given as functions of the step. Adam, RAdam and SGD pass on the given hyperparameters and fill in the documented defaults; SGD refuses betas and never raises NotImplementedError. Finding: a call that raises has already counted an update.", "quantifier": "all argument kinds, step histories, keys, arrays and arithmetics; schedules whose value depends on past scores (plateau) are excluded from the functional reading", "why_tests_cant": "Tests build single optimizers and check single schedules or a few steps.", "anchors": ["thinc/optimizers.py", "thinc/schedules.py"]}
{"id": "C71", "title": "Initializing wrappers and the remaining parametric layers keeps set dims, sizes every parameter from its dims, and matches the wrapped layer", "statement": "Initializing any model built from Sigmoid, MultiSoftmax, Embed, HashEmbed, CauchySimilarity, ParametricAttention (v1, v2), SparseLinear, LSTM, the dense layers and the combinators chain, add, concatenate, residual, tuplify, with_list/ragged/padded/array/array2d/reshape/getitem/flatten/cpu, map_list, uniqued, resizable, siamese and bidirectional never changes a dim that is set, touches no other node, and leaves every parameter with the shape its dims imply (also after an exception); the assertion in the LSTM's init always holds. with_array and with_array2d end with exactly their layer's dims. Findings: with_list, with_padded, with_cpu and resizable keep stale unset dims, so add(with_cpu(LayerNorm()), ...) raises after its layers were initialized; siamese without data skips its first layer and cannot be built before its input width is known; with_reshape without data initializes its layer twice; Sigmoid takes data of the wrong width; a bidirectional LSTM of odd width loses a column; ParametricAttention_v2 sets the key transform's nO only if it is already set.", "quantifier": "all models of these layers, all data, dims, depths, initializers and conversions; conversions and forward passes used during init are oracles", "why_tests_cant": "Tests initialize single layers and a few wrapped models with concrete widths.", "anchors": ["thinc/layers/sigmoid.py", "thinc/layers/multisoftmax.py", "thinc/layers/embed.py", "thinc/layers/hashembed.py", "thinc/layers/cauchysimilarity.py", "thinc/layers/parametricattention.py", "thinc/layers/parametricattention_v2.py", "thinc/layers/sparselinear.pyx", "thinc/layers/lstm.py", "thinc/layers/with_list.py", "thinc/layers/with_ragged.py", "thinc/layers/with_padded.py", "thinc/layers/with_array.py", "thinc/layers/with_array2d.py", "thinc/layers/with_reshape.py", "thinc/layers/with_getitem.py", "thinc/layers/with_flatten.py", "thinc/layers/with_flatten_v2.py", "thinc/layers/map_list.py", "thinc/layers/uniqued.py", "thinc/layers/resizable.py", "thinc/layers/with_cpu.py", "thinc/layers/siamese.py", "thinc/layers/bidirectional.py"]}
{"id": "C72", "title": "Instrumenting layers with with_debug, with_nvtx_range or with_signpost_interval changes no results, and ranges nest; copies keep acting on the original", "statement": "Wrapping any layers of a model any number of times with the three instrumentation wrappers leaves outputs, exceptions, gradients and node contents of calls, backward passes and initialization unchanged when hooks do not raise; hooks run before the layer, and one that raises stops it; a successful call or backward pass closes exactly the NVTX ranges it opened. Refuted: after Model.copy, a copy of a with_debug layer computes with the original's parameters and adds to its gradients, and initializing a copy of a layer with any of the three wrappers initializes the original; an exception leaves NVTX ranges open.", "quantifier": "all models, all layer functions that cannot look into callbacks, all nesting depths, hooks and orders of wrapping", "why_tests_cant": "Tests wrap single layers and count hook calls.", "anchors": ["thinc/layers/with_debug.py", "thinc/layers/with_nvtx_range.py", "thinc/layers/with_signpost_interval.py", "thinc/util.py", "thinc/model.py"]}
{"id": "C73", "title": "Validation in Model.initialize accepts exactly data of the annotated types, looking at five items of a list, and refuses before anything changes", "statement": "validate_array returns exactly the arrays with the required number of axes and dtype, and otherwise raises ValueError; validate_fwd_input_output passes exactly if X is of the annotated type and the pair of Y and a callback is of the return type, where lists are cut to their first five items; forward functions need three parameters; with validation on, initialization of valid data does the same as with it off, and invalid data raises before any state changes. Refuted: data that passes is of the annotated type (a bad sixth item passes), and data of the annotated type passes (a list for a tuple of six items is cut).", "quantifier": "all annotations built from Any, array types, lists, tuples, unions and Callable, with any behaviour of pydantic on others; all objects", "why_tests_cant": "Tests validate a few arrays and layers.", "anchors": ["thinc/util.py", "thinc/types.py", "thinc/model.py"]}
{"id": "C74", "title": "Arrays are allocated, reshaped and cast as asked, and are sent as the same bytes by every machine and backend", "statement": "alloc gives the shape, dtype and zeros asked for and fails exactly for negative dimensions; reshape keeps items in order and gives the only fitting shape, failing if there is none or several; asarray of NumpyOps and CupyOps gives arrays of the dtype asked for on their device, returns fitting arrays and tensors themselves, casts others item by item, puts each number of nested sequences at its index and refuses ragged ones; to_numpy changes the byte order only, so that to_bytes gives the same bytes for equal arrays on any machine and backend, and from_bytes gives the same numbers back; insert_into pads with zeros. Refuted: asarray of the base Ops honours the dtype (it ignores it for tensors); an array received has the machine's byte order.", "quantifier": "all shapes, nested sequences, arrays, number types, casts and codecs", "why_tests_cant": "Tests allocate and convert a few arrays.", "anchors": ["thinc/backends/ops.py", "thinc/backends/numpy_ops.pyx", "thinc/backends/cupy_ops.py", "thinc/util.py", "thinc/model.py"]}
{"id": "C75", "title": "gemm of AppleOps and NumpyOps passes the right sizes and strides to BLAS, so that it multiplies", "statement": "With reference BLAS on flat buffers, gemm of NumpyOps and AppleOps computes every entry of the product of its possibly transposed operands and stays inside its buffers, for all shapes, with and without an output array of the right shape; the two agree and equal the product used in the theorems on layers; gemm of AppleOps raises ValueError exactly if an array is not a C-contiguous float32 array or the shapes do not fit. Refuted: gemm of AppleOps is right for an inner dimension of 0 (it returns uninitialized memory); gemm of NumpyOps stays inside its buffers for any output array.", "quantifier": "all shapes, transpositions and items, of any number type", "why_tests_cant": "Tests multiply a few matrices.", "anchors": ["thinc/backends/_accelerate.pyx", "thinc/backends/apple_ops.pyx", "thinc/backends/numpy_ops.pyx", "thinc/backends/cblas.pyx"]}
{"id": "C76", "title": "The mypy plugin reports exactly the layers that do not fit, and gives chains a sound type", "statement": "For calls of functions that return Model[_, XY_YZ_OutT] the type is from the inputs of the first to the outputs of the last model, and the failures reported are exactly those neighbours whose outputs are not a subtype of the next inputs, at both arguments; a chain without failures is type safe for every meaning of types for which subtyping is sound. For XY_XY_OutT nothing is reported exactly if all models have the types of the first. All other calls keep the default type. Refuted: the plugin never raises (it raises IndexError for concatenate() without layers); it checks calls with a subclass of Model.", "quantifier": "all calls, types and subtype relations", "why_tests_cant": "Tests run mypy on a few modules.", "anchors": ["thinc/mypy.py"]}
{"id": "C77", "title": "The functions that build layers put together what they say", "statement": "For all arguments and in every state: Relu, Mish, Dish, Gelu, Swish, HardSwish, HardSwishMobilenet, Maxout and ClippedLinear build the activation, then layer normalization if asked for, then dropout if asked for, with the initializers given or the defaults, out of new models only; HardSigmoid, HardTanh and ReluK are ClippedLinear with the slopes and bounds of their names; Embed and HashEmbed take the column first, and HashEmbed layers made without seed have different seeds; chain, add, concatenate, tuplify and residual compute the combination of what their layers compute. Refuted: the width of outputs is known after initialization (not with dropout); init_b of HardSigmoid, HardTanh and ReluK has an effect; add and concatenate leave their arguments alone; adding a model to itself gives twice the model; add recognises sums.", "quantifier": "all options, layers and states", "why_tests_cant": "Tests build a few layers of each kind.", "anchors": ["thinc/layers/relu.py", "thinc/layers/mish.py", "thinc/layers/dish.py", "thinc/layers/gelu.py", "thinc/layers/swish.py", "thinc/layers/hard_swish.py", "thinc/layers/hard_swish_mobilenet.py", "thinc/layers/clipped_linear.py", "thinc/layers/maxout.py", "thinc/layers/linear.py", "thinc/layers/sigmoid.py", "thinc/layers/softmax.py", "thinc/layers/layernorm.py", "thinc/layers/dropout.py", "thinc/layers/embed.py", "thinc/layers/hashembed.py", "thinc/layers/array_getitem.py", "thinc/layers/noop.py", "thinc/layers/chain.py", "thinc/layers/add.py", "thinc/layers/concatenate.py", "thinc/layers/tuplify.py", "thinc/layers/residual.py", "thinc/model.py"]}
{"id": "C78", "title": "Models and shims survive bytes and files", "statement": "Writing a model to a file and reading it into a compatible model of the same structure succeeds, shows the same data and serializes to the same bytes again; other files are untouched. can_from_disk says yes exactly if there is a file with a message that fits, and then from_disk succeeds if references point below their owners. An attribute is written exactly if msgpack knows all its values, and is read as it was exactly if it has no tuples. Shims that cannot be serialized leave all files alone. Refuted: to_disk of a model that cannot be serialized keeps the file that was there (it is emptied first); can_from_bytes always answers (it raises AttributeError for bytes that hold no dictionary); a model that was written and read computes the same (the index (0, 1) of array_getitem becomes [0, 1]).", "quantifier": "all models, files, attributes and msgpack codecs that read what they write", "why_tests_cant": "Tests write and read a few models in memory and on disk.", "anchors": ["thinc/model.py", "thinc/shims/shim.py", "thinc/layers/array_getitem.py"]}
{"id": "C79", "title": "Wrapped PyTorch models are built as asked for", "statement": "Building a PyTorchShim gives one new id and one new shim with the config, optimizer and serialization functions given; the module and the gradient scaler are moved to the device asked for or the default one; nothing else that exists changes, and ids are given out once, even if building fails. With CuPy, the first shim makes PyTorch's memory pool the allocator. The versions of PyTorchWrapper, the RNN wrapper and the TorchScript wrapper differ only in defaults. Conversion to TorchScript keeps the gradient scaler, the conversions and mixed precision, and raises with nothing changed otherwise. TorchScript shims come back from bytes with their values and config, on the default device. Refuted: conversion gives a layer like the old one (config, optimizer, serialization functions, dimensions and name are dropped, parameters on other devices are moved); a shim that could not be loaded is as before (its config was replaced).", "quantifier": "all machines, modules, devices and histories", "why_tests_cant": "Tests build and convert a few layers on the CPU.", "anchors": ["thinc/shims/shim.py", "thinc/shims/pytorch.py", "thinc/shims/torchscript.py", "thinc/layers/pytorchwrapper.py", "thinc/layers/torchscriptwrapper.py"]}
{"id": "C80", "title": "Keras and MXNet models are built, saved and loaded", "statement": "keras_subclass gives a class its name, example data, shape and compile arguments (given ones win over the defaults) and registers it; models made under the name keep their arguments. maybe_handshake_model leaves models alone that Keras can describe, and compiles, builds, calls once and makes trainable the decorated others, in this order; others raise ValueError unchanged. TensorFlowWrapper gives the layer asked for exactly if TensorFlow is there and the handshake succeeds. Whole models come back from bytes; weights come back into a model that is there. MXNet parameters longer than a file buffer come back. Refuted: a name belongs to one class; the class is checked when weights are loaded; a shim without a model can be loaded from name and weights (it always raises); MXNet parameters that fit into the buffer of a file come back (MXNet reads an empty file); temporary files are removed if saving or loading fails.", "quantifier": "all classes, models, arguments, weights and file systems", "why_tests_cant": "Tests save and load a few models; the MXNet one has 37 kB of parameters, more than a buffer.", "anchors": ["thinc/layers/tensorflowwrapper.py", "thinc/shims/tensorflow.py", "thinc/layers/mxnetwrapper.py", "thinc/shims/mxnet.py", "thinc/util.py"]}
{"id": "C81", "title": "The CUDA kernels compute with 32-bit integers", "statement": "The kernels compute loop variables and offsets as int. A launch of a kernel whose threads carry no variables from one iteration to the next is defined exactly if it is with unbounded integers, the loop can count to its end (iterations plus threads of the grid are at most 2^31) and every int of every iteration is in range. For arrays of at most 2^31 numbers (less for seq2col) and loops that can be counted, every kernel computes what it computes with unbounded integers, so C59 and C61 hold. maxout is defined exactly if the start of its last window is in range. Refuted: sizes and grid in range are enough. The addition that ends the loop overflows for iterations near 2^31; maxout overflows with sizes below 2^31; gather_add overflows for rows of the table beyond 2^31 numbers.", "quantifier": "all grids, sizes, lengths and indices", "why_tests_cant": "Tests use small arrays; 64-bit indices are never needed.", "anchors": ["thinc/backends/_custom_kernels.cu", "thinc/backends/_murmur3.cu"]}
{"id": "C82", "title": "The LSTM layer treats each sequence on its own", "statement": "With NumpyOps, for every number of layers and directions and every Padded batch that represents a list of sequences, one of them with rows, the output of the LSTM layer represents the outputs of the LSTM network for each sequence on its own, in the original order, whatever the padding and the other sequences are. In training each weight is multiplied by its element of the dropout mask, with any kernels; without a positive rate training gives the output of prediction. After a prediction the callback raises. The gradient of the weights is the kernel's, masked again, so dropped weights get none. With one layer and one direction the gradient of the input is that of each sequence on its own. Refuted: every parameter the output depends on gets a gradient; the initial state HC0 never does.", "quantifier": "all depths, directions, widths, batches, rates and draws", "why_tests_cant": "Tests check shapes and run a few batches.", "anchors": ["thinc/layers/lstm.py"]}
{"id": "C83", "title": "Kernels in floating point: rounding, overflow and NaN", "statement": "With IEEE 754 floats of any precision in place of exact numbers: sums of integers are exact up to 2^prec, and counting by adding ones stops there, also in the reduce_sum kernel. relu of NumpyOps keeps positive elements and NaN and sets the rest to +0; the product of the other backends agrees up to the sign of zero except that minus infinity becomes NaN (refuted: the backends agree). The gradients of relu are tabulated in the same way. Clipping a gradient with an element whose square overflows sets all finite elements to zero (refuted: a gradient that is not zero stays so), and a gradient with NaN is returned as it is. An overflow in the second moment of Adam is permanent and freezes the weight. maxout returns the first of the largest candidates exactly if there is no NaN; a NaN in front is the result; with four or more pieces later NaNs are passed over; refuted for three pieces: a NaN in the middle hides a larger candidate. Clipping to a range stays in the range and keeps NaN. Gradients scaled by a power of two without overflow are unscaled exactly, and doubling and halving keep the loss scale a power of two. Refuted: the mean of ones in the reduce_mean kernel is one.", "quantifier": "all binary formats with precision at least 2 and larger exponent range, all arrays", "why_tests_cant": "Tests compare backends on random normal values with a tolerance; no test has infinities or NaN.", "anchors": ["thinc/backends/cpu_kernels.hh", "thinc/backends/ops.py", "thinc/backends/numpy_ops.pyx", "thinc/shims/pytorch_grad_scaler.py"]}
{"id": "C84", "title": "Glue: allocators, lazy kernels, get_gradients, conversions, calls of losses", "statement": "The allocators that route CuPy through PyTorch or TensorFlow back the declared memory with a tensor at most three bytes shorter, exactly as long iff the size is at most 1024 or a multiple of four (refuted: always enough). A LazyKernel is compiled by the first call whose compilation succeeds and never again; every call before raises; without a GPU every call raises ValueError; each kernel asked for by name is in the list of compiled kernels, and each compiled kernel has a variable. registry.create never replaces a registry. SparseLinear gives the CPU result for arrays on the GPU if its parameters are NumPy arrays (refuted: for a model initialised with CupyOps it raises for every input). PyTorchLSTM has the width set on it iff it is one-directional or nO is even (refuted in general). get_gradients is exactly the dictionary of the gradients of the reachable nodes, with zero gradients (the docstring is refuted), and raises KeyError iff a gradient exists for an unset parameter. torch2xp, tensorflow2xp and mxnet2xp put the array where ops says, or else where the tensor is; round trips through TensorFlow and MXNet keep the side, through PyTorch iff the device is on it (refuted in general). Calling a loss gives its gradient and its loss. logloss of probabilities lies between -ln(1+1e-8) and -ln(1e-8) (refuted: it is not negative).", "quantifier": "all sizes, all graphs, all sequences of calls, all inputs", "why_tests_cant": "test_model_gpu.py and test_layers_api.py run a few of these; the allocators, logloss and SparseLinear on a GPU model are untested.", "anchors": ["thinc/backends/_cupy_allocators.py", "thinc/backends/_custom_kernels.py", "thinc/config.py", "thinc/layers/sparselinear.pyx", "thinc/layers/lstm.py", "thinc/model.py", "thinc/util.py", "thinc/backends/ops.py", "thinc/loss.py"]}
{"id": "C85", "title": "Ids of nodes and shims as optimizer keys", "statement": "The optimizer keeps its state by (id, parameter name). Nodes, created or copied, have pairwise distinct ids, so no key in common; a copied node gets an id greater than all before. Shims made by their constructor have distinct ids; a copied shim keeps the id of its original. A node and a shim share a key exactly when their numbers, from separate counters, coincide and a parameter has the same name in both (refuted: keys are unique). In every history of training, the updates under a key that no other node or shim has, and everything the optimizer keeps for it, are those of training its owner alone; with a shared key, or with a copy of a shim, they are not (refuted).", "quantifier": "all sequences of creations and copies of nodes and shims, all training histories", "why_tests_cant": "test_model.py copies models with parameters and compares them; the ids of shims and shared optimizer keys are untested.", "anchors": ["thinc/model.py", "thinc/shims/shim.py", "thinc/shims/pytorch.py", "thinc/shims/tensorflow.py", "thinc/shims/mxnet.py", "thinc/optimizers.py"]}
{"id": "C86", "title": "Names of the registered functions", "statement": "Within each registry no name is registered for two functions and no function is registered twice, so after importing thinc each of the 104 names gives its function, in whatever order the modules are imported and whatever other names are registered besides. An unregistered name raises a ValueError; a second registration of a name silently replaces the first and entry points of installed packages take precedence (refuted: a name keeps its function). Names outside the registry of backends end in a version, and the earlier versions of a function are registered too; backends are registered under their class names. The documentation uses an unregistered name (refuted).", "quantifier": "all registrations in the package; all import orders and additional registrations", "why_tests_cant": "test_config.py and test_import__all__.py resolve some names and import all; that names are distinct and versions complete is untested.", "anchors": ["thinc/config.py", "thinc/layers/__init__.py", "thinc/loss.py", "thinc/initializers.py", "thinc/schedules.py", "thinc/optimizers.py", "thinc/backends/numpy_ops.pyx", "thinc/backends/cupy_ops.py", "thinc/backends/mps_ops.py", "thinc/backends/apple_ops.pyx"]}
