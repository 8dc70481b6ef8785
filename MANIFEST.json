{
 "claims": [
  {
   "property": "C01",
   "status": "proved",
   "theorems": [
    "C01_walk_exact_once",
    "C01_walk_terminates",
    "C01_unknown_order"
   ],
   "note": ""
  },
  {
   "property": "C02",
   "status": "proved",
   "theorems": [
    "C02_root_first",
    "C02_root_last",
    "C02_bfs_by_distance",
    "C02_bfs_is_level_order",
    "C02_post_children_first",
    "C02_dfs_is_recursive_search",
    "C02_dfs_on_trees"
   ],
   "note": ""
  },
  {
   "property": "C03",
   "status": "proved",
   "theorems": [
    "C03_last_accepted",
    "C03_written_once",
    "C03_only_declared",
    "C03_forced_change",
    "C03_failed_unchanged",
    "C03_only_dims_change"
   ],
   "note": ""
  },
  {
   "property": "C04",
   "status": "proved",
   "theorems": [
    "C04_last_write",
    "C04_isolated",
    "C04_has_param",
    "C04_unregistered",
    "C04_maybe_get",
    "C04_unset_read_refuted"
   ],
   "note": ""
  },
  {
   "property": "C05",
   "status": "proved",
   "theorems": [
    "C05_gradients_accumulate",
    "C05_increments_not_modified",
    "C05_set_grad_aliases_refuted"
   ],
   "note": ""
  },
  {
   "property": "C06",
   "status": "proved",
   "theorems": [
    "C06_finish_update_effect",
    "C06_once_per_gradient",
    "C06_finish_update_succeeds"
   ],
   "note": ""
  },
  {
   "property": "C07",
   "status": "proved",
   "theorems": [
    "C07_use_params",
    "C07_transparent",
    "C07_exception_refuted"
   ],
   "note": ""
  },
  {
   "property": "C08",
   "status": "proved",
   "theorems": [
    "C08_set_ref_iff",
    "C08_failed_unchanged",
    "C08_last_ref",
    "C08_refs_stay_in_tree"
   ],
   "note": ""
  },
  {
   "property": "C09",
   "status": "proved",
   "theorems": [
    "C09_replace_everywhere",
    "C09_replace_succeeds",
    "C09_unset_ref_refuted"
   ],
   "note": ""
  },
  {
   "property": "C10",
   "status": "proved",
   "theorems": [
    "C10_remove_everywhere",
    "C10_remove_outcome",
    "C10_partial_edit_refuted"
   ],
   "note": ""
  },
  {
   "property": "C11",
   "status": "proved",
   "theorems": [
    "C11_copy_is_isomorphic",
    "C11_copy_is_independent",
    "C11_copy_ids_unique",
    "C11_refs_refuted",
    "C11_shim_id_refuted",
    "C11_tied_array_refuted"
   ],
   "note": ""
  },
  {
   "property": "C12",
   "status": "proved",
   "theorems": [
    "C12_round_trip",
    "C12_from_dict_effect",
    "C12_refs_refuted",
    "C12_dangling_reference"
   ],
   "note": ""
  },
  {
   "property": "C13",
   "status": "proved",
   "theorems": [
    "C13_from_dict_succeeds_iff",
    "C13_can_from_dict_iff",
    "C13_accepted_loads",
    "C13_length_mismatch",
    "C13_partial_update_refuted"
   ],
   "note": ""
  },
  {
   "property": "C14",
   "status": "proved",
   "theorems": [
    "C14_ids_unique",
    "C14_progress",
    "C14_all_served"
   ],
   "note": ""
  },
  {
   "property": "C15",
   "status": "proved",
   "theorems": [
    "C15_use_ops_restores",
    "C15_use_ops_unknown",
    "C15_use_ops_nests",
    "C15_define_restores",
    "C15_validation_restores",
    "C15_define_nests",
    "C15_define_visible",
    "C15_operator_errors",
    "C15_get_ops",
    "C15_get_ops_error",
    "C15_threads_isolated",
    "C15_define_exception_refuted",
    "C15_validation_exception_refuted"
   ],
   "note": ""
  },
  {
   "property": "C16",
   "status": "proved",
   "theorems": [
    "C16_set_dropout_rate",
    "C16_change_attr_values"
   ],
   "note": ""
  },
  {
   "property": "C17",
   "status": "proved",
   "theorems": [
    "C17_per_key",
    "C17_radam_schedule_refuted"
   ],
   "note": ""
  },
  {
   "property": "C18",
   "status": "proved",
   "theorems": [
    "C18_gradient_zeroed",
    "C18_counted",
    "C18_empty_gradient"
   ],
   "note": ""
  },
  {
   "property": "C19",
   "status": "proved",
   "theorems": [
    "C19_sgd",
    "C19_momentum_without_beta1"
   ],
   "note": ""
  },
  {
   "property": "C20",
   "status": "proved",
   "theorems": [
    "C20_moments",
    "C20_adam_step",
    "C20_bias_corrected_convex",
    "C20_blocked_loop",
    "C20_kernels_agree",
    "C20_radam_bias_refuted",
    "C20_radam_step",
    "C20_radam_lr_scale_refuted"
   ],
   "note": ""
  },
  {
   "property": "C21",
   "status": "proved",
   "theorems": [
    "C21_clip_gradient"
   ],
   "note": ""
  },
  {
   "property": "C22",
   "status": "proved",
   "theorems": [
    "C22_average_step",
    "C22_decay",
    "C22_average_bounds"
   ],
   "note": ""
  },
  {
   "property": "C23",
   "status": "proved",
   "theorems": [
    "C23_values",
    "C23_unique",
    "C23_decrease",
    "C23_empty"
   ],
   "note": ""
  },
  {
   "property": "C24",
   "status": "proved",
   "theorems": [
    "C24_negative_step",
    "C24_constant",
    "C24_constant_then",
    "C24_decaying",
    "C24_decaying_zero",
    "C24_compounding_up",
    "C24_compounding_down",
    "C24_warmup_linear",
    "C24_cyclic_triangular",
    "C24_slanted_triangular",
    "C24_slanted_short_refuted",
    "C24_slanted_negative_refuted",
    "C24_to_generator",
    "C24_to_generator_errors"
   ],
   "note": ""
  },
  {
   "property": "C25",
   "status": "proved",
   "theorems": [
    "C25_values",
    "C25_same_evaluation",
    "C25_no_evaluation",
    "C25_order_checked",
    "C25_order_refuted"
   ],
   "note": ""
  },
  {
   "property": "C26",
   "status": "proved",
   "theorems": [
    "C26_minibatch_partition",
    "C26_minibatch_in_order",
    "C26_minibatch_buffer_irrelevant",
    "C26_minibatch_exhausted",
    "C26_minibatch_zero_size_diverges",
    "C26_minibatch_fractional_sizes_refuted"
   ],
   "note": ""
  },
  {
   "property": "C27",
   "status": "proved",
   "theorems": [
    "C27_multibatch_aligned",
    "C27_multibatch_length_check_refuted"
   ],
   "note": ""
  },
  {
   "property": "C28",
   "status": "proved",
   "theorems": [
    "C28_unflatten_flatten",
    "C28_layout",
    "C28_empty",
    "C28_flatten_unflatten",
    "C28_mismatch",
    "C28_zero_width_refuted"
   ],
   "note": ""
  },
  {
   "property": "C29",
   "status": "proved",
   "theorems": [
    "C29_pad",
    "C29_unpad_pad",
    "C29_errors"
   ],
   "note": ""
  },
  {
   "property": "C30",
   "status": "proved",
   "theorems": [
    "C30_list2padded",
    "C30_padded2list"
   ],
   "note": ""
  },
  {
   "property": "C31",
   "status": "proved",
   "theorems": [
    "C31_with_list",
    "C31_with_ragged",
    "C31_with_padded",
    "C31_with_array_list",
    "C31_with_array_ragged",
    "C31_with_array_padded",
    "C31_with_array2d_padded",
    "C31_passes_through",
    "C31_conversions",
    "C31_no_rows_refuted",
    "C31_gradient_order_refuted"
   ],
   "note": ""
  },
  {
   "property": "C32",
   "status": "proved",
   "theorems": [
    "C32_pack",
    "C32_unpack",
    "C32_round_trip",
    "C32_of_list",
    "C32_no_rows_refuted"
   ],
   "note": ""
  },
  {
   "property": "C33",
   "status": "proved",
   "theorems": [
    "C33_int",
    "C33_slice",
    "C33_array",
    "C33_last_refuted",
    "C33_errors",
    "C33_open_slice_refuted",
    "C33_negative_start_refuted",
    "C33_step_refuted",
    "C33_empty_refuted",
    "C33_padded_refuted"
   ],
   "note": ""
  },
  {
   "property": "C34",
   "status": "proved",
   "theorems": [
    "C34_sum",
    "C34_mean",
    "C34_max",
    "C34_first",
    "C34_last",
    "C34_sum_mean_errors",
    "C34_max_errors",
    "C34_first_last_errors",
    "C34_no_fault",
    "C34_sum_adjoint",
    "C34_mean_adjoint",
    "C34_max_adjoint",
    "C34_max_positions",
    "C34_first_adjoint",
    "C34_last_adjoint",
    "C34_max_position_checked",
    "C34_only_empty_refuted",
    "C34_zero_width_refuted",
    "C34_negative_position_refuted",
    "C34_negative_position_fault_refuted",
    "C34_few_gradient_rows_refuted"
   ],
   "note": ""
  },
  {
   "property": "C35",
   "status": "proved",
   "theorems": [
    "C35_windows",
    "C35_one_sequence",
    "C35_lengths_checked",
    "C35_negative_window",
    "C35_adjoint",
    "C35_portable",
    "C35_portable_adjoint",
    "C35_portable_other_windows",
    "C35_layer_array",
    "C35_layer_ragged",
    "C35_gradient_width_refuted"
   ],
   "note": ""
  },
  {
   "property": "C36",
   "status": "proved",
   "theorems": [
    "C36_maxout",
    "C36_empty_axes",
    "C36_backprop",
    "C36_adjoint",
    "C36_position_checked",
    "C36_negative_position_refuted",
    "C36_empty_batch_refuted"
   ],
   "note": ""
  },
  {
   "property": "C37",
   "status": "proved",
   "theorems": [
    "C37_gather_add",
    "C37_gather_bounds_refuted",
    "C37_gather_generic_checked",
    "C37_gather_empty_refuted",
    "C37_scatter_add",
    "C37_scatter_adjoint",
    "C37_scatter_negative_skipped",
    "C37_scatter_generic_checked",
    "C37_scatter_bounds_refuted",
    "C37_scatter_shapes",
    "C37_scatter_one_row",
    "C37_scatter_one_column"
   ],
   "note": ""
  },
  {
   "property": "C38",
   "status": "proved",
   "theorems": [
    "C38_hash_range",
    "C38_slots_in_range",
    "C38_scores",
    "C38_adjoint",
    "C38_v2_classes_disjoint",
    "C38_v1_unused_weights",
    "C38_lengths_refuted",
    "C38_no_weights_refuted",
    "C38_empty_batch_refuted",
    "C38_test_vectors"
   ],
   "note": ""
  },
  {
   "property": "C39",
   "status": "proved",
   "theorems": [
    "C39_hash",
    "C39_seed_checked",
    "C39_backends",
    "C39_backends_refuted",
    "C39_backends_seed",
    "C39_hash_injective",
    "C39_ngrams",
    "C39_ngrams_length",
    "C39_ngrams_local",
    "C39_ngrams_empty_refuted",
    "C39_ngrams_backends",
    "C39_ngrams_backends_refuted"
   ],
   "note": ""
  },
  {
   "property": "C40",
   "status": "proved",
   "theorems": [
    "C40_embed_adjoint",
    "C40_embed_range_checked",
    "C40_hashembed_adjoint",
    "C40_hashembed_vectors",
    "C40_hashembed_empty_refuted",
    "C40_embed_negative_refuted",
    "C40_gradient_masked_in_place_refuted"
   ],
   "note": ""
  },
  {
   "property": "C41",
   "status": "proved",
   "theorems": [
    "C41_noop",
    "C41_chain",
    "C41_add",
    "C41_concatenate",
    "C41_residual",
    "C41_tuplify",
    "C41_siamese",
    "C41_map_list",
    "C41_clone",
    "C41_clone_zero",
    "C41_with_debug",
    "C41_resizable",
    "C41_nested",
    "C41_add_ragged_raises",
    "C41_residual_short",
    "C41_add_lists_refuted",
    "C41_add_tuples_refuted",
    "C41_concatenate_mixed",
    "C41_concatenate_list_refuted",
    "C41_concatenate_ragged_refuted"
   ],
   "note": ""
  },
  {
   "property": "C42",
   "status": "proved",
   "theorems": [
    "C42_linear",
    "C42_relu",
    "C42_clipped_linear",
    "C42_clipped_slope_zero",
    "C42_maxout",
    "C42_layernorm",
    "C42_input_width",
    "C42_maxout_width",
    "C42_missing_bias",
    "C42_gradient_rows",
    "C42_layernorm_width_refuted"
   ],
   "note": ""
  },
  {
   "property": "C43",
   "status": "proved",
   "theorems": [
    "C43_off",
    "C43_training",
    "C43_factors",
    "C43_extreme_rates",
    "C43_gradient",
    "C43_no_shape",
    "C43_list_gradient",
    "C43_short_gradient_refuted",
    "C43_empty_ragged_refuted"
   ],
   "note": ""
  },
  {
   "property": "C44",
   "status": "partial",
   "theorems": [
    "C44_relu",
    "C44_clipped_linear",
    "C44_clipped_linear_forward",
    "C44_relu_k",
    "C44_hard_sigmoid",
    "C44_hard_tanh",
    "C44_clipped_negative_slope_refuted",
    "C44_hard_swish",
    "C44_hard_swish_mobilenet",
    "C44_dish",
    "C44_tanh",
    "C44_mish",
    "C44_mish_forward",
    "C44_mish_kernels",
    "C44_sigmoid_partial",
    "C44_sigmoid_refuted",
    "C44_sigmoid_error",
    "C44_swish_partial",
    "C44_swish_refuted",
    "C44_gelu_approx_partial",
    "C44_gelu_approx_refuted",
    "C44_gelu_formula",
    "C44_gaussian_pdf",
    "C44_erf_odd",
    "C44_gelu_refuted",
    "C44_HardSwish",
    "C44_HardSwishMobilenet",
    "C44_Mish",
    "C44_Swish_partial",
    "C44_Sigmoid_partial",
    "C44_sigmoid_activation_partial",
    "C44_Dish_refuted_shapes",
    "C44_Dish_refuted"
   ],
   "note": "Holds for the functions and layers named without suffix. sigmoid, swish and gelu_approx are clipped or rounded, so the statement is false beyond the clip; the _partial theorems prove it where it holds and the _refuted ones give the points where it fails."
  },
  {
   "property": "C45",
   "status": "proved",
   "theorems": [
    "C45_softmax",
    "C45_rows",
    "C45_empty_width",
    "C45_shift",
    "C45_order",
    "C45_jacobian",
    "C45_differentiates",
    "C45_softmax_activation",
    "C45_sequences",
    "C45_sequence_distribution",
    "C45_sequences_mismatch",
    "C45_sequences_differentiates_partial",
    "C45_sequences_refuted",
    "C45_Softmax",
    "C45_Softmax_errors",
    "C45_MultiSoftmax_refuted",
    "C45_MultiSoftmax_gradient"
   ],
   "note": "The Jacobian of softmax_sequences is proved inside its clip at ±20 (_partial) and refuted outside; the rest of the statement holds without restriction."
  },
  {
   "property": "C46",
   "status": "proved",
   "theorems": [
    "C46_rows",
    "C46_distribution",
    "C46_default",
    "C46_invalid",
    "C46_label_range",
    "C46_no_classes"
   ],
   "note": ""
  },
  {
   "property": "C47",
   "status": "proved",
   "theorems": [
    "C47_labels",
    "C47_strings",
    "C47_floats",
    "C47_float_missing",
    "C47_loss_value",
    "C47_softmax",
    "C47_errors",
    "C47_no_names",
    "C47_smoothed_negatives_refuted",
    "C47_sequences",
    "C47_sequences_errors",
    "C47_L2",
    "C47_L2_errors",
    "C47_cosine",
    "C47_cosine_value",
    "C47_cosine_errors",
    "C47_sequences_config"
   ],
   "note": ""
  },
  {
   "property": "C48",
   "status": "proved",
   "theorems": [
    "C48_split",
    "C48_too_short",
    "C48_transpose",
    "C48_positions",
    "C48_join",
    "C48_split_join",
    "C48_init",
    "C48_init_wrong",
    "C48_init_no_layers",
    "C48_odd_width_refuted",
    "C48_no_inputs"
   ],
   "note": ""
  },
  {
   "property": "C49",
   "status": "proved",
   "theorems": [
    "C49_parameters",
    "C49_scores",
    "C49_same",
    "C49_unset",
    "C49_no_inputs",
    "C49_nested",
    "C49_shrink_refuted",
    "C49_to_none",
    "C49_container",
    "C49_container_dim_refuted"
   ],
   "note": ""
  },
  {
   "property": "C50",
   "status": "proved",
   "theorems": [
    "C50_convert",
    "C50_leaves",
    "C50_nothing",
    "C50_there_and_back",
    "C50_argskwargs",
    "C50_integers_refuted",
    "C50_keys_refuted"
   ],
   "note": ""
  },
  {
   "property": "C51",
   "status": "proved",
   "theorems": [
    "C51_add",
    "C51_noop",
    "C51_relu",
    "C51_add_overwrites_input_refuted",
    "C51_add_later_layers_refuted",
    "C51_add_relu_gradient_refuted",
    "C51_tuplify",
    "C51_tuplify_overwrites_gradient_refuted",
    "C51_residual",
    "C51_residual_padded_refuted"
   ],
   "note": ""
  },
  {
   "property": "C52",
   "status": "proved",
   "theorems": [
    "C52_forward_unreversed",
    "C52_reversed_input_refuted",
    "C52_backward_first_half",
    "C52_second_half_ignored",
    "C52_gradient_refuted",
    "C52_errors"
   ],
   "note": ""
  },
  {
   "property": "C53",
   "status": "proved",
   "theorems": [
    "C53_getitem",
    "C53_getitem_negative",
    "C53_getitem_last_refuted",
    "C53_getitem_range",
    "C53_flatten_v2",
    "C53_flatten_v2_count_refuted",
    "C53_flatten_v1",
    "C53_flatten_v1_columns_refuted",
    "C53_flatten_v1_gradient_refuted",
    "C53_flatten_v1_empty_refuted",
    "C53_reshape",
    "C53_reshape_gradient_refuted",
    "C53_array_getitem",
    "C53_array_getitem_basic",
    "C53_array_getitem_range",
    "C53_array_getitem_repeated_refuted",
    "C53_array_getitem_empty_refuted",
    "C53_array_getitem_empty_gradient_refuted"
   ],
   "note": ""
  },
  {
   "property": "C54",
   "status": "proved",
   "theorems": [
    "C54_transparent",
    "C54_unique_rows",
    "C54_first_row",
    "C54_small",
    "C54_inputs_refuted",
    "C54_other_columns_refuted"
   ],
   "note": ""
  },
  {
   "property": "C55",
   "status": "proved",
   "theorems": [
    "C55_backoff",
    "C55_growth",
    "C55_scale",
    "C55_disabled",
    "C55_noted",
    "C55_never_applied",
    "C55_applied",
    "C55_zeroed",
    "C55_stepped",
    "C55_transparent",
    "C55_accumulation_refuted",
    "C55_use_params",
    "C55_averages_refuted",
    "C55_use_params_partial_keys_refuted",
    "C55_use_params_raise_refuted",
    "C55_deserialize_refuted",
    "C55_scale_errors"
   ],
   "note": ""
  },
  {
   "property": "C56",
   "status": "partial",
   "theorems": [
    "C56_bptt",
    "C56_back_direction",
    "C56_one_layer",
    "C56_input_gradient_partial",
    "C56_hidden_weights_refuted",
    "C56_forward",
    "C56_base_forward_refuted",
    "C56_base_backward",
    "C56_base_refuted",
    "C56_wrong_size",
    "C56_one_step",
    "C56_first_step",
    "C56_numpy_refuted",
    "C56_gates_partial"
   ],
   "note": "Back-propagation through time is proved right for the equations, the kernel is proved to compute it without the first step, and its input gradient is proved right when the first inputs are fixed (_partial). The statement as a whole is false of the code and refuted for both implementations, and for the hidden weights."
  },
  {
   "property": "C57",
   "status": "proved",
   "theorems": [
    "C57_step",
    "C57_L2",
    "C57_cosine",
    "C57_cross_entropy"
   ],
   "note": ""
  },
  {
   "property": "C58",
   "status": "proved",
   "theorems": [
    "C58_dims_kept",
    "C58_frame",
    "C58_params_sized",
    "C58_ready",
    "C58_shape_only",
    "C58_chain_width",
    "C58_chain_fills",
    "C58_calls",
    "C58_nested_calls",
    "C58_add_first_no_nO",
    "C58_add_mismatch_refuted",
    "C58_residual_mismatch_refuted",
    "C58_concat_width_refuted",
    "C58_width_ids",
    "C58_width_raises",
    "C58_width_first"
   ],
   "note": ""
  },
  {
   "property": "C59",
   "status": "proved",
   "theorems": [
    "C59_visits_once",
    "C59_any_interleaving",
    "C59_shared_cells_refuted",
    "C59_empty_grid",
    "C59_gather_add",
    "C59_gather_add_checked",
    "C59_reduce_sum",
    "C59_reduce_max",
    "C59_maxout",
    "C59_backprop_maxout",
    "C59_backprop_reduce_sum",
    "C59_backprop_reduce_mean",
    "C59_backprop_reduce_max",
    "C59_seq2col",
    "C59_backprop_seq2col",
    "C59_seq2col_one",
    "C59_map",
    "C59_map2",
    "C59_map3",
    "C59_shapes_checked",
    "C59_pad",
    "C59_pad_refused",
    "C59_lengths_negative",
    "C59_lengths_sum",
    "C59_lengths_zero",
    "C59_which_checked",
    "C59_reduce_mean",
    "C59_reduce_mean_refuted",
    "C59_reduce_mean_gap",
    "C59_reduce_mean_close",
    "C59_fallback_returns_refuted",
    "C59_unchecked_refuted"
   ],
   "note": ""
  },
  {
   "property": "C60",
   "status": "proved",
   "theorems": [
    "C60_same_forward",
    "C60_same_backward",
    "C60_relu",
    "C60_slope_zero",
    "C60_thresholds",
    "C60_swish_inside",
    "C60_swish_close",
    "C60_swish_gradient",
    "C60_swish_continuous_refuted",
    "C60_swish_backends_refuted",
    "C60_erf",
    "C60_gelu_close",
    "C60_gelu_inside",
    "C60_gelu_gradient",
    "C60_gelu_continuous_refuted",
    "C60_clip_gradient",
    "C60_adam",
    "C60_adam_shapes",
    "C60_mod_rate_refuted"
   ],
   "note": ""
  },
  {
   "property": "C61",
   "status": "proved",
   "theorems": [
    "C61_gpu_hash_is_cpu_hash",
    "C61_test_vectors",
    "C61_murmur_of_8_bytes",
    "C61_narrow_ids_refuted",
    "C61_edges",
    "C61_seed_low_bits"
   ],
   "note": ""
  },
  {
   "property": "C62",
   "status": "proved",
   "theorems": [
    "C62_attention",
    "C62_attention_versions",
    "C62_attention_v1",
    "C62_attention_distribution",
    "C62_attention_no_query",
    "C62_attention_width",
    "C62_attention_key_error",
    "C62_attention_empty_refuted",
    "C62_attention_clip_refuted",
    "C62_cauchy",
    "C62_cauchy_siamese",
    "C62_cauchy_facts",
    "C62_cauchy_errors",
    "C62_cauchy_arity",
    "C62_cauchy_broadcast_refuted",
    "C62_reduce_sum",
    "C62_reduce_mean",
    "C62_reduce_first",
    "C62_reduce_last",
    "C62_reduce_max",
    "C62_reduce_max_tie_refuted",
    "C62_reduce_shape"
   ],
   "note": ""
  },
  {
   "property": "C63",
   "status": "proved",
   "theorems": [
    "C63_training",
    "C63_prediction",
    "C63_integers",
    "C63_tensorflow_training",
    "C63_tensorflow_prediction",
    "C63_rnn",
    "C63_with_cpu",
    "C63_with_cpu_dict",
    "C63_list_refuted",
    "C63_eval_refuted",
    "C63_with_cpu_refuted",
    "C63_names",
    "C63_not_arguments",
    "C63_rnn_refuses"
   ],
   "note": "The framework is a parameter: what the module computes, what autograd does to its state, the gradients of tensors. Devices and mixed precision are left out."
  },
  {
   "property": "C64",
   "status": "proved",
   "theorems": [
    "C64_shapes",
    "C64_bounds",
    "C64_variance",
    "C64_uniform_init",
    "C64_zero_init",
    "C64_normal_init_refuted",
    "C64_maxout_refuted"
   ],
   "note": "The random number generator is a parameter; float32 rounding is left out."
  },
  {
   "property": "C65",
   "status": "proved",
   "theorems": [
    "C65_remap",
    "C65_remap_v2",
    "C65_remap_v2_errors",
    "C65_remap_matrix",
    "C65_premap",
    "C65_premap_remap",
    "C65_premap_errors",
    "C65_strings",
    "C65_gradient_refuted",
    "C65_shared_refuted"
   ],
   "note": "preshed's maps are assumed to behave like dicts; hash_unicode is a parameter; inputs are on the CPU."
  },
  {
   "property": "C66",
   "status": "proved",
   "theorems": [
    "C66_tf_finish_update",
    "C66_tf_finish_update_errors",
    "C66_tf_accumulate",
    "C66_tf_backprop",
    "C66_tf_arguments_refuted",
    "C66_tf_arguments_finish_refuted",
    "C66_tf_keywords_refuted",
    "C66_tf_use_params",
    "C66_tf_use_params_raise_refuted",
    "C66_tf_averages_refuted",
    "C66_tf_clone_refuted",
    "C66_tf_copy_refuted",
    "C66_tf_from_weights",
    "C66_tf_load_shape",
    "C66_tf_from_weights_refuted",
    "C66_tf_predict_refuted",
    "C66_mx_finish_update",
    "C66_mx_modes",
    "C66_mx_to_device_refuted",
    "C66_tf_names_refuted"
   ],
   "note": "The frameworks themselves (tapes, layers, files) are parameters; to_bytes through files and h5py is not modelled beyond the list of weights."
  },
  {
   "property": "C67",
   "status": "proved",
   "theorems": [
    "C67_unary_copy",
    "C67_unary_inplace",
    "C67_unary_strided_refuted",
    "C67_unary_reversed_refuted",
    "C67_binary_copy",
    "C67_binary_inplace",
    "C67_binary_shape",
    "C67_binary_order_refuted",
    "C67_binary_gaps_refuted",
    "C67_mish_threshold_refuted",
    "C67_memoryview",
    "C67_gemm",
    "C67_gemm_out",
    "C67_gemm_out_refuted",
    "C67_gemm_small_refuted",
    "C67_gemm_errors",
    "C67_adam",
    "C67_adam_strided_refuted"
   ],
   "note": "Arrays of at most two dimensions; one element type per heap; out overlapping the inputs of gemm is not modelled."
  },
  {
   "property": "C68",
   "status": "proved",
   "theorems": [
    "C68_new",
    "C68_out",
    "C68_errors",
    "C68_gaps_refuted",
    "C68_columns",
    "C68_relative",
    "C68_distance",
    "C68_norm",
    "C68_bounded",
    "C68_period_refuted",
    "C68_period",
    "C68_odd_refuted"
   ],
   "note": "float32 rounding is not modelled; sinf, cosf and powf are parameters, for values those of the reals."
  },
  {
   "property": "C69",
   "status": "proved",
   "theorems": [
    "C69_require_gpu_iff",
    "C69_require_gpu",
    "C69_require_gpu_error",
    "C69_require_gpu_atomic_refuted",
    "C69_prefer_gpu",
    "C69_prefer_gpu_total",
    "C69_prefer_gpu_raises_refuted",
    "C69_require_cpu",
    "C69_default_device_gpu",
    "C69_default_device_cpu",
    "C69_default_device_missing",
    "C69_default_device_refuted",
    "C69_allocator",
    "C69_allocator_again",
    "C69_allocator_error",
    "C69_allocator_silent_refuted",
    "C69_frameworks_enabled",
    "C69_enable_documented_refuted",
    "C69_kinds",
    "C69_kinds_gpu",
    "C69_array_module",
    "C69_thread_ops",
    "C69_thread_ops_iff",
    "C69_to_cpu",
    "C69_to_cpu_total",
    "C69_to_gpu",
    "C69_to_gpu_total",
    "C69_to_gpu_shims_refuted",
    "C69_to_gpu_atomic_refuted"
   ],
   "note": "CuPy, PyTorch and their errors for missing devices are in the record of the machine; whether cupy.asarray copies between devices is a parameter."
  },
  {
   "property": "C70",
   "status": "proved",
   "theorems": [
    "C70_schedules",
    "C70_stateless",
    "C70_constant_then",
    "C70_arguments",
    "C70_adam",
    "C70_sgd",
    "C70_sgd_arguments",
    "C70_sgd_total",
    "C70_failed_call_refuted"
   ],
   "note": "Generators passed for two hyperparameters at once (which would interleave) are not modelled."
  },
  {
   "property": "C71",
   "status": "proved",
   "theorems": [
    "C71_dims_kept",
    "C71_frame",
    "C71_params_sized",
    "C71_lstm_assertion",
    "C71_width_clash",
    "C71_multisoftmax_y",
    "C71_hashembed_data",
    "C71_with_array",
    "C71_with_array_raises",
    "C71_copied_dims",
    "C71_pass",
    "C71_pass_same",
    "C71_bidirectional",
    "C71_map_list",
    "C71_lstm_built",
    "C71_wrapper_forgets",
    "C71_reshape_twice",
    "C71_siamese_skips",
    "C71_siamese_width",
    "C71_siamese_pair",
    "C71_multisoftmax_width",
    "C71_siamese_needs",
    "C71_add_of_wrapped_refuted",
    "C71_sigmoid_width_refuted",
    "C71_lstm_odd_refuted",
    "C71_key_width_refuted",
    "C71_constants",
    "C71_getitem"
   ],
   "note": "Truth value of an array in map_list is an error; negative indices of with_getitem are not modelled."
  },
  {
   "property": "C72",
   "status": "proved",
   "theorems": [
    "C72_call_transparent",
    "C72_init_transparent",
    "C72_hook_raises",
    "C72_backprop_hook",
    "C72_ranges_call",
    "C72_ranges_back",
    "C72_copied",
    "C72_copy_calls_original",
    "C72_copy_inits_original",
    "C72_copy_refuted",
    "C72_copy_init_refuted",
    "C72_range_left_open_refuted",
    "C72_wrapping",
    "C72_no_signpost"
   ],
   "note": "Intervals of the os_signpost library are external and not modelled."
  },
  {
   "property": "C73",
   "status": "proved",
   "theorems": [
    "C73_array",
    "C73_array_error",
    "C73_accepts",
    "C73_validate",
    "C73_validate_error",
    "C73_count",
    "C73_return",
    "C73_first_five",
    "C73_good_accepted",
    "C73_init_unchanged",
    "C73_init_refused",
    "C73_sixth_refuted",
    "C73_tuple_refuted",
    "C73_dtypes"
   ],
   "note": "pydantic itself is not modelled beyond whether it accepts an object for the listed annotations."
  },
  {
   "property": "C74",
   "status": "proved",
   "theorems": [
    "C74_alloc",
    "C74_alloc_error",
    "C74_reshape",
    "C74_reshape_error",
    "C74_reshape_back",
    "C74_np_dtype",
    "C74_cupy_dtype",
    "C74_as_is",
    "C74_cast",
    "C74_nested",
    "C74_ragged",
    "C74_byte_order",
    "C74_portable",
    "C74_received",
    "C74_insert",
    "C74_insert_many",
    "C74_base_dtype_refuted",
    "C74_order_refuted",
    "C74_gpu_refused",
    "C74_to_numpy_refused",
    "C74_util_to_numpy",
    "C74_insert_errors",
    "C74_load_refused"
   ],
   "note": "numpy's and CuPy's constructors are modelled as documented; msgpack's encoding of an array as its dtype, shape and bytes is assumed."
  },
  {
   "property": "C75",
   "status": "proved",
   "theorems": [
    "C75_sgemm",
    "C75_apple",
    "C75_blis",
    "C75_agree",
    "C75_apple_errors",
    "C75_inner_refuted",
    "C75_out_refuted",
    "C75_cblas"
   ],
   "note": "BLAS is its reference implementation; that BLIS and Accelerate agree with it, up to rounding, is assumed."
  },
  {
   "property": "C76",
   "status": "proved",
   "theorems": [
    "C76_chained",
    "C76_chained_quiet",
    "C76_chained_safe",
    "C76_homogeneous",
    "C76_homogeneous_quiet",
    "C76_otherwise",
    "C76_other_function",
    "C76_subclass_refuted",
    "C76_raises",
    "C76_no_arguments_refuted"
   ],
   "note": "mypy itself is not modelled: `is_subtype` and `==` of types are parameters, and the wording of messages is left out."
  },
  {
   "property": "C77",
   "status": "proved",
   "theorems": [
    "C77_chain",
    "C77_add_new",
    "C77_concatenate_new",
    "C77_tuplify",
    "C77_residual",
    "C77_few_layers",
    "C77_add_extends",
    "C77_concatenate_extends",
    "C77_add_self_refuted",
    "C77_concatenate_self_refuted",
    "C77_add_name_refuted",
    "C77_dense",
    "C77_dense_width_refuted",
    "C77_hard",
    "C77_hard_sigmoid",
    "C77_hard_tanh",
    "C77_relu_k",
    "C77_embed",
    "C77_hashembed",
    "C77_seeds",
    "C77_softmax_versions"
   ],
   "note": "Initializers are names; parameters and their values are in C71 and C36."
  },
  {
   "property": "C78",
   "status": "proved",
   "theorems": [
    "C78_round_trip",
    "C78_to_disk",
    "C78_to_disk_erases_refuted",
    "C78_to_disk_directory",
    "C78_from_disk",
    "C78_can_from_disk_iff",
    "C78_accepted_loads",
    "C78_can_from_bytes",
    "C78_can_from_bytes_refuted",
    "C78_shim_to_disk",
    "C78_shim_disk",
    "C78_attr_written",
    "C78_attr_idempotent",
    "C78_attr_same_iff",
    "C78_getitem_refuted",
    "C78_from_bytes_errors"
   ],
   "note": "msgpack is a parameter: `loads (dumps m) = m` is a hypothesis of the round trip. Integers beyond 64 bits, nesting beyond msgpack's limit and permissions of files are not modelled."
  },
  {
   "property": "C79",
   "status": "proved",
   "theorems": [
    "C79_shim",
    "C79_succeeds",
    "C79_not_module",
    "C79_no_device",
    "C79_script_class",
    "C79_memory",
    "C79_v3",
    "C79_rnn",
    "C79_script",
    "C79_versions",
    "C79_kept",
    "C79_convert",
    "C79_convert_errors",
    "C79_convert_refuted",
    "C79_script_round",
    "C79_script_empty",
    "C79_script_load_refuted"
   ],
   "note": "torch.jit.script, save and load are oracles; a scripted module is a new object with the parameters the oracle gives it, so sharing of parameters with the original is not modelled."
  },
  {
   "property": "C80",
   "status": "proved",
   "theorems": [
    "C80_subclass",
    "C80_create",
    "C80_create_unknown",
    "C80_name_refuted",
    "C80_plain",
    "C80_handshake",
    "C80_handshake_missing",
    "C80_handshake_error",
    "C80_layer",
    "C80_layer_errors",
    "C80_saved",
    "C80_round_h5",
    "C80_round_name",
    "C80_name_ignored_refuted",
    "C80_never_new_refuted",
    "C80_empty",
    "C80_mxnet_saved",
    "C80_mxnet_leak_refuted",
    "C80_mxnet_round",
    "C80_mxnet_small_refuted",
    "C80_mxnet_layer"
   ],
   "note": "Inheritance between decorated classes and TensorFlow's device contexts are left out; the buffer rule is `at most bufsize bytes stay in the buffer`."
  },
  {
   "property": "C81",
   "status": "proved",
   "theorems": [
    "C81_exact",
    "C81_map",
    "C81_gather_add",
    "C81_gather_add_exact",
    "C81_pad",
    "C81_pad_exact",
    "C81_maxout",
    "C81_reduce_sum",
    "C81_reduce_sum_exact",
    "C81_reduce_max",
    "C81_reduce_max_exact",
    "C81_backprop_maxout",
    "C81_backprop_maxout_exact",
    "C81_seq2col",
    "C81_backprop_seq2col",
    "C81_backprop_reduce_sum",
    "C81_backprop_reduce_mean",
    "C81_backprop_reduce_max",
    "C81_loop_refuted",
    "C81_maxout_refuted",
    "C81_gather_add_refuted",
    "C81_backprop_reduce_rows_refuted",
    "C81_backprop_reduce_sum_refuted",
    "C81_seq2col_refuted",
    "C81_backprop_seq2col_refuted"
   ],
   "note": "Sizes passed from Python are assumed to fit; what CuPy does with ones that do not is left out. Pointer arithmetic is in 64 bits."
  },
  {
   "property": "C82",
   "status": "proved",
   "theorems": [
    "C82_forward",
    "C82_masked_weights",
    "C82_no_dropout",
    "C82_training",
    "C82_prediction",
    "C82_gradients",
    "C82_input_gradient",
    "C82_not_set",
    "C82_initial_state_refuted"
   ],
   "note": "Batches without rows raise in the kernel (C56). The input gradient is stated for one layer and one direction; C56_input_gradient_partial covers more layers."
  },
  {
   "property": "C83",
   "status": "proved",
   "theorems": [
    "C83_integer_sum",
    "C83_sub",
    "C83_integer_sub",
    "C83_count",
    "C83_reduce_sum",
    "C83_mean_of_ones_refuted",
    "C83_relu_numpy",
    "C83_relu_product",
    "C83_relu_rows",
    "C83_relu_agree",
    "C83_relu_agree_refuted",
    "C83_backprop_relu_numpy",
    "C83_backprop_relu_product",
    "C83_clip_overflow",
    "C83_clip_not_zero_refuted",
    "C83_clip_nan",
    "C83_adam_overflow",
    "C83_adam_frozen",
    "C83_maxout",
    "C83_maxout_first_nan",
    "C83_maxout_later_nan",
    "C83_maxout_nan_refuted",
    "C83_max_nan",
    "C83_clip_range",
    "C83_clip_range_nan",
    "C83_unscale_exact",
    "C83_scale_power"
   ],
   "note": "The transcendental functions are not part of SpecFloat; layers that need them are not instantiated. Sums of numpy that are computed pairwise, fused multiply-add and flushing to zero are left out."
  },
  {
   "property": "C84",
   "status": "proved",
   "theorems": [
    "C84_allocator_short",
    "C84_allocator_exact",
    "C84_allocator_enough",
    "C84_allocator_refuted",
    "C84_kernel_once",
    "C84_kernel_fails",
    "C84_kernel_names",
    "C84_kernel_used",
    "C84_kernel_variables",
    "C84_kernel_compiles",
    "C84_kernel_no_gpu",
    "C84_create",
    "C84_create_existing",
    "C84_sparse_gpu_refuted",
    "C84_sparse_gpu_error",
    "C84_sparse_host",
    "C84_sparse_backward",
    "C84_sparse_mixed",
    "C84_pytorch_lstm",
    "C84_pytorch_lstm_refuted",
    "C84_pytorch_lstm_noop",
    "C84_get_gradients",
    "C84_get_gradients_error",
    "C84_get_gradients_key_error",
    "C84_get_gradients_refuted",
    "C84_torch2xp",
    "C84_torch2xp_mps",
    "C84_tensorflow2xp",
    "C84_mxnet2xp",
    "C84_round_trip",
    "C84_round_trip_torch",
    "C84_round_trip_torch_refuted",
    "C84_cc_call",
    "C84_seq_call",
    "C84_l2_call",
    "C84_cosine_call",
    "C84_cosine_call_error",
    "C84_logloss",
    "C84_logloss_perfect",
    "C84_logloss_refuted"
   ],
   "note": "What cupy, torch, tensorflow and mxnet do with a request is assumed as described in the comments of the model."
  },
  {
   "property": "C85",
   "status": "proved",
   "theorems": [
    "C85_nodes",
    "C85_node_keys",
    "C85_copied_node",
    "C85_shims",
    "C85_copied_shim",
    "C85_node_shim",
    "C85_keys_refuted",
    "C85_private_node",
    "C85_private_shim",
    "C85_private_copy",
    "C85_alone",
    "C85_collision_refuted",
    "C85_copy_refuted"
   ],
   "note": "The names of the parameters of a foreign module are given; they do not change."
  },
  {
   "property": "C86",
   "status": "proved",
   "theorems": [
    "C86_unique",
    "C86_once",
    "C86_resolves",
    "C86_last",
    "C86_stable_refuted",
    "C86_entry_points",
    "C86_unknown",
    "C86_only_registered",
    "C86_documented_refuted",
    "C86_versions",
    "C86_earlier_versions",
    "C86_backends"
   ],
   "note": "catalogue and confection are not part of the repository: the dictionary of registrations and the precedence of entry points are modelled from their documented behaviour."
  }
 ]
}