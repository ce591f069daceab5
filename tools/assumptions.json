{
"where": {
"C01_each_sample_once": "DataProps",
"C02_batch_is_mean": "DataProps",
"C03_sequence_boundaries_one_set": "DataProps",
"C03_sequence_boundaries_two_sets": "DataProps",
"C04_reordering_refuted": "DataProps",
"C04_sequences_stay_in_place_partial": "DataProps",
"C04_sequences_stay_in_place_two_sets_partial": "DataProps",
"C05_short_series_is_undefined": "DataProps",
"C05_time_series_windows": "DataProps",
"C06_time_series_permutation_refuted": "DataProps",
"C06_unshuffle_restores_order_partial": "DataProps",
"C07_above_the_bound_refuted": "NormProps",
"C07_exact_bounds": "NormProps",
"C07_normalize_constant_column_refuted": "DataProps",
"C07_normalize_float_partial": "NormProps",
"C07_normalize_partial": "DataProps",
"C07_overflow_refuted": "NormProps",
"C08_acceptance_partial": "DataProps",
"C08_flat_sequential_rejected_partial": "DataProps",
"C08_mismatch_accepted_refuted": "DataProps",
"C09_label_after_shuffle_refuted": "DataProps",
"C09_label_matches_when_unshuffled_partial": "DataProps",
"C10_clock_wrap_refuted": "WaitProps",
"C10_or_partial": "WaitProps",
"C10_zero_threshold_refuted": "WaitProps",
"C11_and_partial": "WaitProps",
"C11_mae_refuted": "WaitProps",
"C12_mixing_partial": "WaitProps",
"C12_mixing_refuted": "WaitProps",
"C13_counts": "TrainProps",
"C13_label_without_one_throws": "TrainProps",
"C13_schedule": "TrainProps",
"C13_train_exact": "TrainProps",
"C14_confusion_counters_partial": "StatProps",
"C14_counting": "StatProps",
"C14_nan_refuted": "StatProps",
"C15_accuracy_float": "StatProps",
"C15_accuracy_real": "StatProps",
"C15_refuted": "StatProps",
"C16_best_float_partial": "F1Best",
"C16_best_partial": "StatProps",
"C16_f1_rmse_refuted": "StatProps",
"C17_errors_partial": "StatProps",
"C17_errors_refuted": "StatProps",
"C18_cluster_partial": "StatProps",
"C18_cluster_refuted": "StatProps",
"C19_outputs_are_pure": "PureProps",
"C19_parameters_decide": "PureProps",
"C20_refuted": "RecProps",
"C20_reset_ignored_refuted": "RecProps",
"C21_abnormal_output": "PureProps",
"C21_training_stops": "TrainProps",
"C22_step_is_gradient_descent": "GradProps",
"C23_bias_weight_is_overwritten_refuted": "GradProps",
"C24_first_step": "GradProps",
"C24_momentum_network": "GradProps",
"C24_momentum_neuron": "RoundProps",
"C25_last_convolution_refuted": "FactoryProps",
"C25_partial": "FactoryProps",
"C25_pooling1D_refuted": "FactoryProps",
"C25_pooling2D_refuted": "FactoryProps",
"C26_accepted_float": "AcceptProps",
"C26_accepted_iff": "AcceptProps",
"C26_accepted_real": "AcceptProps",
"C26_dense_accepted": "FactoryProps",
"C26_empty_kernel_refuted": "AcceptProps",
"C26_invalid_rejected": "FactoryProps",
"C26_large_inputs_refuted": "FactoryProps",
"C26_negative_input_refuted": "NegProps",
"C26_negative_kernel_1D": "NegProps",
"C26_negative_kernel_refuted": "NegProps",
"C26_negative_pooling_refuted": "NegProps",
"C26_optimizer_checked": "FactoryProps",
"C26_undefined_refuted": "AcceptProps",
"C27_counts_the_weights": "FactoryProps",
"C27_number_of_parameters": "FactoryProps",
"C28_convolution1D": "FilterProps",
"C28_convolution2D": "FilterProps",
"C29_locally1D": "LocalProps",
"C29_locally2D_partial": "LocalProps",
"C29_locally2D_refuted": "LocalProps",
"C29_tiles_partition": "LocalProps",
"C30_channels1D_refuted": "PoolProps",
"C30_high2D_refuted": "PoolProps",
"C30_orders": "PoolProps",
"C30_pooling1D_partial": "PoolProps",
"C30_pooling2D_partial": "PoolProps",
"C30_wide2D_refuted": "PoolProps",
"C31_convolution1D_partial": "BackProps",
"C31_convolution2D_partial": "BackProps",
"C31_convolution_refuted": "BackProps",
"C31_locally1D_partial": "BackProps",
"C31_locally1D_refuted": "BackProps",
"C31_locally2D": "BackProps",
"C32_rounds_partial": "RoundProps",
"C32_sum_of_position_refuted": "RoundProps",
"C33_convolution_refuted": "LOptProps",
"C33_dropout_partial": "LOptProps",
"C34_order_float_refuted": "SoftProps",
"C34_shift_float_refuted": "SoftProps",
"C34_softmax": "LOptProps",
"C34_softmax_float_partial": "SoftProps",
"C34_softmax_layer": "LOptProps",
"C35_gelu_refuted": "ActProps",
"C35_range_float": "ActFloatProps",
"C35_range_float_partial": "ActProps",
"C35_range_partial": "ActProps",
"C36_derivative_partial": "ActProps",
"C36_iSigmoid_refuted": "ActProps",
"C37_equality_laws": "SaveProps",
"C37_loadable_iff_finite": "SaveProps",
"C37_nan_forgotten_refuted": "SaveProps",
"C37_saved_loads_equal_partial": "SaveProps",
"C37_unreadable_file_refuted": "SaveProps",
"C38_copy_differs_refuted": "CopyProps",
"C38_copy_equal_partial": "CopyProps",
"C38_independent": "CopyProps",
"C38_networks_are_values": "CopyProps",
"C39_equal_same_outputs_partial": "EqProps",
"C39_not_reflexive_refuted": "EqProps",
"C39_number_laws": "EqProps",
"C39_optimizers_refuted": "EqProps",
"C39_reflexive_partial": "EqProps",
"C39_reflexive_real": "EqProps",
"C39_symmetric_partial": "EqProps",
"C39_transitive": "EqProps",
"C40_lost_stop_refuted": "AsyncProps",
"C40_seen_then_stopped_partial": "AsyncProps",
"C40_stop_returns_partial": "AsyncProps",
"C41_declared_training_protected_partial": "AsyncProps",
"C41_just_started_refuted": "AsyncProps",
"C41_one_training_at_a_time": "AsyncProps",
"C41_save_during_training_refuted": "AsyncProps",
"C42_saved_exactly_when_better_partial": "TrainProps",
"C42_saved_network_unusable_refuted": "TrainProps",
"C43_grid_2D_bijection": "ToolsProps",
"C43_grid_3D_partial": "ToolsProps",
"C43_roughenZ_refuted": "ToolsProps",
"C44_extremum_partial": "ToolsProps",
"C44_singleton_refuted": "ToolsProps",
"C45_recombination_refuted": "ToolsProps",
"C45_short_durations_partial": "ToolsProps",
"C46_random_partial": "ToolsProps",
"C46_random_refuted": "ToolsProps",
"C47_convolution_weights_refuted": "VisualProps",
"C47_grid_binary32": "VisualProps",
"C47_input_drawn": "VisualProps",
"C47_local_drawn_partial": "VisualLocalProps",
"C47_local_edge_refuted": "VisualLocalProps",
"C47_local_filters_refuted": "VisualLocalProps",
"C47_local_pixels_partial": "VisualLocalProps",
"C47_local_weights_partial": "VisualLocalProps",
"C47_local_weights_refuted": "VisualProps",
"C47_many_channels_refuted": "VisualProps",
"C47_not_while_training": "VisualProps",
"C47_outputs_drawn": "VisualProps",
"C47_pooling_weights_refuted": "VisualProps",
"C47_range_refuted": "VisualProps",
"C47_two_channels_refuted": "VisualProps",
"C47_weight_level": "VisualLocalProps",
"C48_exact_counts_partial": "StatProps",
"C48_exact_counts_refuted": "StatProps",
"C49_regularisers": "LOptProps",
"C50_literals_partial": "WaitProps",
"C50_literals_refuted": "WaitProps",
"C51_precision_only_for_regression": "DataProps",
"C52_gru_partial": "RecProps",
"C52_gru_refuted": "RecProps",
"C52_recurrent": "RecProps",
"C53_time_series_coverage": "DataProps",
"C54_log_columns": "ToolsProps",
"C54_numbers_are_distinguished": "ToolsProps",
"C55_flatten_concatenates": "ToolsProps",
"C56_batches_partition": "TrainProps",
"C56_epochs_present_each_sample_once": "TrainProps",
"C57_exception_blocks_refuted": "AsyncProps",
"C58_accuracy_float": "EvalProps",
"C58_accuracy_real": "EvalProps",
"C58_evaluations": "EvalProps",
"C58_one_answer_per_sample": "EvalProps",
"C59_number_of_trainings": "EvalProps",
"C59_plain_trainings": "EvalProps",
"C60_comes_back_partial": "AsyncWaitProps",
"C60_default_only_nan": "AsyncWaitProps",
"C60_epochs_learned_partial": "AsyncWaitProps",
"C60_nothing_to_wait_for_refuted": "AsyncWaitProps",
"C60_stale_epoch_refuted": "AsyncWaitProps",
"C60_time_has_passed": "AsyncWaitProps",
"C61_evaluate": "EvalCallProps",
"C61_other_width_refuted": "EvalCallProps",
"C61_recurrent_refuted": "EvalCallProps",
"C61_same_parameters_same_figures": "EvalCallProps",
"C61_verbose_refuted": "EvalCallProps",
"C62_samples_survive": "SampleProps",
"C63_epochs_refuted": "SummaryProps",
"C63_locally_name_refuted": "SummaryProps",
"C63_recurrent_shapes_refuted": "SummaryProps",
"C63_summary_partial": "SummaryProps",
"C64_announced_for_life": "ValidProps",
"C64_nan_is_valid_refuted": "ValidProps",
"C65_evaluation_scores_float": "F1Eval",
"C65_evaluation_scores_real": "F1Eval",
"C65_regression_scores_zero": "F1Props",
"C65_scores_float": "F1Props",
"C65_scores_real": "F1Props",
"C65_scores_refuted": "F1Props",
"C66_sequences": "VisitProps",
"C66_series": "VisitProps",
"C67_momentum_step": "MixProps",
"C67_step_is_gradient_descent": "MixProps",
"C68_gru_biases_never_learn_refuted": "RecTrainProps",
"C68_recurrent_bias_never_learns_refuted": "RecTrainProps",
"C68_recurrent_step_refuted": "RecTrainProps",
"C68_reset_gate_never_learns_refuted": "RecTrainProps",
"C68_reset_gate_refuted": "RecTrainProps",
"C68_update_gate_refuted": "RecTrainProps",
"C69_regularization_refuted": "ScaleProps",
"C69_scaled_momentum_step": "ScaleProps",
"C69_scaled_step": "ScaleProps",
"C69_softmax_refuted": "ScaleProps",
"C70_new_network_finite": "FiniteProps",
"C70_predictions_finite": "FiniteProps",
"C70_recurrence_refuted": "FiniteProps",
"C70_valid_bounded_finite": "FiniteValid",
"C70_valid_network_finite": "FiniteValid",
"C71_cancellation_refuted": "AccProps",
"C71_flat_networks": "AccProps",
"C71_prediction_accuracy": "AccProps",
"C72_always_trains": "LearnProps",
"C72_any_accuracy": "LearnProps",
"C72_constructed": "LearnProps",
"C72_one_sample_learned": "LearnProps",
"C72_perfect_network_spoiled_refuted": "LearnSpoil",
"C72_too_fast_diverges": "LearnProps",
"C72_zero_input_refuted": "LearnProps",
"C73_every_schedule_partial": "RaceProps",
"C73_prediction_alone": "RaceProps",
"C73_torn_prediction_refuted": "RaceProps",
"C73_training_alone": "RaceProps",
"C73_wrong_input_learned_refuted": "RaceProps",
"C74_abnormal_prediction_refuted": "LookProps",
"C74_only_trainings_matter_partial": "LookProps",
"C74_recurrent_refuted": "LookProps",
"C74_same_trainings_same_network_partial": "LookProps",
"C74_used_network_partial": "FreqProps",
"C75_by_the_clock_partial": "FreqProps",
"C75_evaluation_frequency_partial": "FreqProps",
"C75_recurrent_refuted": "FreqProps",
"C76_each_alone": "ShareProps",
"C76_every_schedule": "ShareProps",
"C76_out_of_bounds_refuted": "ShareProps",
"C76_wrong_samples_refuted": "ShareProps",
"C77_centred_batch_refuted": "MiniProps",
"C77_constructed": "MiniProps",
"C77_linear_exact_partial": "MiniProps",
"C77_only_a_constant_refuted": "MiniProps",
"C77_same_inputs_partial": "MiniProps",
"C78_recurrent_refuted": "ResumeProps",
"C78_resumed_partial": "ResumeProps",
"C78_stopped_refuted": "ResumeProps",
"C78_through_a_file_partial": "ResumeProps",
"C78_with_evaluations_partial": "ResumeProps",
"C79_abnormal_refuted": "TestOrderProps",
"C79_any_order": "TestOrderProps",
"C79_float_error_refuted": "TestOrderProps",
"C79_recurrent_refuted": "TestOrderProps",
"C79_sums_of_reals": "TestOrderProps",
"C80_locally_connected_refuted": "FieldProps",
"C80_moved2D": "FieldProps",
"C80_output2D": "FieldProps",
"C80_receptive_field1D": "FieldProps",
"C80_receptive_field2D": "FieldProps",
"C81_momentum_goes_on_partial": "KeepProps",
"C81_right_network_kept_partial": "KeepProps",
"C81_right_network_spoiled_refuted": "KeepProps",
"C81_right_sample_partial": "KeepProps",
"C82_after_a_crash_partial": "CrashProps",
"C82_autosave_one_file": "CrashProps",
"C82_best_network_lost_refuted": "CrashProps",
"C82_cut_file_partial": "CrashProps",
"C82_cut_file_throws": "CrashProps",
"C82_cut_value_throws": "CrashProps",
"C82_damaged_file_refuted": "CrashProps",
"C82_previous_network_lost_refuted": "CrashProps",
"C82_saved_until_next_save": "CrashProps",
"C83_binary32": "NeutralProps",
"C83_options_of_one": "NeutralProps",
"C83_options_of_zero_partial": "NeutralProps",
"C83_trainings": "NeutralTrainProps",
"C83_trainings_binary32": "NeutralTrainProps",
"C83_trainings_zero_partial": "NeutralTrainProps",
"C84_binary32_refuted": "RateProps",
"C84_multiplier_is_rate": "RateProps",
"C84_trainings": "RateProps",
"C84_without_regularization": "RateProps",
"C85_layers_before": "FrozenProps",
"C85_layers_trainings": "FrozenProps",
"C85_predictions_kept_refuted": "FrozenProps",
"C85_trainings": "FrozenProps",
"C85_zero_multiplier": "FrozenProps",
"network_layers": "FilterProps"
},
"axioms": {
"C01_each_sample_once": [],
"C02_batch_is_mean": [],
"C03_sequence_boundaries_one_set": [],
"C03_sequence_boundaries_two_sets": [],
"C04_reordering_refuted": [],
"C04_sequences_stay_in_place_partial": [],
"C04_sequences_stay_in_place_two_sets_partial": [],
"C05_short_series_is_undefined": [],
"C05_time_series_windows": [],
"C06_time_series_permutation_refuted": [],
"C06_unshuffle_restores_order_partial": [],
"C07_above_the_bound_refuted": [],
"C07_exact_bounds": [
"ClassicalDedekindReals.sig_not_dec",
"ClassicalDedekindReals.sig_forall_dec",
"FunctionalExtensionality.functional_extensionality_dep",
"Classical_Prop.classic"
],
"C07_normalize_constant_column_refuted": [],
"C07_normalize_float_partial": [
"ClassicalDedekindReals.sig_not_dec",
"ClassicalDedekindReals.sig_forall_dec",
"FunctionalExtensionality.functional_extensionality_dep",
"Classical_Prop.classic"
],
"C07_normalize_partial": [
"ClassicalDedekindReals.sig_not_dec",
"ClassicalDedekindReals.sig_forall_dec",
"FunctionalExtensionality.functional_extensionality_dep"
],
"C07_overflow_refuted": [],
"C08_acceptance_partial": [],
"C08_flat_sequential_rejected_partial": [],
"C08_mismatch_accepted_refuted": [],
"C09_label_after_shuffle_refuted": [],
"C09_label_matches_when_unshuffled_partial": [],
"C10_clock_wrap_refuted": [],
"C10_or_partial": [],
"C10_zero_threshold_refuted": [],
"C11_and_partial": [],
"C11_mae_refuted": [],
"C12_mixing_partial": [],
"C12_mixing_refuted": [],
"C13_counts": [],
"C13_label_without_one_throws": [],
"C13_schedule": [],
"C13_train_exact": [],
"C14_confusion_counters_partial": [],
"C14_counting": [
"ClassicalDedekindReals.sig_not_dec",
"ClassicalDedekindReals.sig_forall_dec",
"FunctionalExtensionality.functional_extensionality_dep",
"Classical_Prop.classic"
],
"C14_nan_refuted": [],
"C15_accuracy_float": [
"ClassicalDedekindReals.sig_not_dec",
"ClassicalDedekindReals.sig_forall_dec",
"FunctionalExtensionality.functional_extensionality_dep",
"Classical_Prop.classic"
],
"C15_accuracy_real": [
"ClassicalDedekindReals.sig_not_dec",
"ClassicalDedekindReals.sig_forall_dec",
"FunctionalExtensionality.functional_extensionality_dep"
],
"C15_refuted": [],
"C16_best_float_partial": [
"ClassicalDedekindReals.sig_not_dec",
"ClassicalDedekindReals.sig_forall_dec",
"FunctionalExtensionality.functional_extensionality_dep",
"Classical_Prop.classic"
],
"C16_best_partial": [],
"C16_f1_rmse_refuted": [],
"C17_errors_partial": [
"ClassicalDedekindReals.sig_not_dec",
"ClassicalDedekindReals.sig_forall_dec",
"FunctionalExtensionality.functional_extensionality_dep"
],
"C17_errors_refuted": [],
"C18_cluster_partial": [],
"C18_cluster_refuted": [],
"C19_outputs_are_pure": [],
"C19_parameters_decide": [],
"C20_refuted": [
"ClassicalDedekindReals.sig_not_dec",
"ClassicalDedekindReals.sig_forall_dec",
"FunctionalExtensionality.functional_extensionality_dep",
"Classical_Prop.classic"
],
"C20_reset_ignored_refuted": [],
"C21_abnormal_output": [],
"C21_training_stops": [],
"C22_step_is_gradient_descent": [
"ClassicalDedekindReals.sig_not_dec",
"ClassicalDedekindReals.sig_forall_dec",
"FunctionalExtensionality.functional_extensionality_dep",
"Classical_Prop.classic"
],
"C23_bias_weight_is_overwritten_refuted": [
"ClassicalDedekindReals.sig_not_dec",
"ClassicalDedekindReals.sig_forall_dec",
"FunctionalExtensionality.functional_extensionality_dep",
"Classical_Prop.classic"
],
"C24_first_step": [
"ClassicalDedekindReals.sig_not_dec",
"ClassicalDedekindReals.sig_forall_dec",
"FunctionalExtensionality.functional_extensionality_dep",
"Classical_Prop.classic"
],
"C24_momentum_network": [
"ClassicalDedekindReals.sig_not_dec",
"ClassicalDedekindReals.sig_forall_dec",
"FunctionalExtensionality.functional_extensionality_dep",
"Classical_Prop.classic"
],
"C24_momentum_neuron": [],
"C25_last_convolution_refuted": [],
"C25_partial": [],
"C25_pooling1D_refuted": [],
"C25_pooling2D_refuted": [],
"C26_accepted_float": [
"ClassicalDedekindReals.sig_not_dec",
"ClassicalDedekindReals.sig_forall_dec",
"FunctionalExtensionality.functional_extensionality_dep",
"Classical_Prop.classic"
],
"C26_accepted_iff": [],
"C26_accepted_real": [
"ClassicalDedekindReals.sig_not_dec",
"ClassicalDedekindReals.sig_forall_dec",
"FunctionalExtensionality.functional_extensionality_dep"
],
"C26_dense_accepted": [
"ClassicalDedekindReals.sig_not_dec",
"ClassicalDedekindReals.sig_forall_dec",
"FunctionalExtensionality.functional_extensionality_dep"
],
"C26_empty_kernel_refuted": [
"ClassicalDedekindReals.sig_not_dec",
"ClassicalDedekindReals.sig_forall_dec",
"FunctionalExtensionality.functional_extensionality_dep"
],
"C26_invalid_rejected": [],
"C26_large_inputs_refuted": [],
"C26_negative_input_refuted": [],
"C26_negative_kernel_1D": [],
"C26_negative_kernel_refuted": [],
"C26_negative_pooling_refuted": [],
"C26_optimizer_checked": [],
"C26_undefined_refuted": [],
"C27_counts_the_weights": [],
"C27_number_of_parameters": [],
"C28_convolution1D": [],
"C28_convolution2D": [],
"C29_locally1D": [],
"C29_locally2D_partial": [],
"C29_locally2D_refuted": [],
"C29_tiles_partition": [],
"C30_channels1D_refuted": [],
"C30_high2D_refuted": [],
"C30_orders": [
"ClassicalDedekindReals.sig_not_dec",
"ClassicalDedekindReals.sig_forall_dec",
"FunctionalExtensionality.functional_extensionality_dep"
],
"C30_pooling1D_partial": [],
"C30_pooling2D_partial": [],
"C30_wide2D_refuted": [],
"C31_convolution1D_partial": [
"ClassicalDedekindReals.sig_not_dec",
"ClassicalDedekindReals.sig_forall_dec",
"FunctionalExtensionality.functional_extensionality_dep"
],
"C31_convolution2D_partial": [
"ClassicalDedekindReals.sig_not_dec",
"ClassicalDedekindReals.sig_forall_dec",
"FunctionalExtensionality.functional_extensionality_dep"
],
"C31_convolution_refuted": [
"ClassicalDedekindReals.sig_not_dec",
"ClassicalDedekindReals.sig_forall_dec",
"FunctionalExtensionality.functional_extensionality_dep"
],
"C31_locally1D_partial": [
"ClassicalDedekindReals.sig_not_dec",
"ClassicalDedekindReals.sig_forall_dec",
"FunctionalExtensionality.functional_extensionality_dep"
],
"C31_locally1D_refuted": [
"ClassicalDedekindReals.sig_not_dec",
"ClassicalDedekindReals.sig_forall_dec",
"FunctionalExtensionality.functional_extensionality_dep"
],
"C31_locally2D": [
"ClassicalDedekindReals.sig_not_dec",
"ClassicalDedekindReals.sig_forall_dec",
"FunctionalExtensionality.functional_extensionality_dep"
],
"C32_rounds_partial": [],
"C32_sum_of_position_refuted": [
"ClassicalDedekindReals.sig_not_dec",
"ClassicalDedekindReals.sig_forall_dec",
"FunctionalExtensionality.functional_extensionality_dep"
],
"C33_convolution_refuted": [],
"C33_dropout_partial": [],
"C34_order_float_refuted": [
"ClassicalDedekindReals.sig_not_dec",
"ClassicalDedekindReals.sig_forall_dec",
"FunctionalExtensionality.functional_extensionality_dep",
"Classical_Prop.classic"
],
"C34_shift_float_refuted": [
"ClassicalDedekindReals.sig_not_dec",
"ClassicalDedekindReals.sig_forall_dec",
"FunctionalExtensionality.functional_extensionality_dep",
"Classical_Prop.classic"
],
"C34_softmax": [
"ClassicalDedekindReals.sig_not_dec",
"ClassicalDedekindReals.sig_forall_dec",
"FunctionalExtensionality.functional_extensionality_dep",
"Classical_Prop.classic"
],
"C34_softmax_float_partial": [
"ClassicalDedekindReals.sig_not_dec",
"ClassicalDedekindReals.sig_forall_dec",
"FunctionalExtensionality.functional_extensionality_dep",
"Classical_Prop.classic"
],
"C34_softmax_layer": [
"ClassicalDedekindReals.sig_not_dec",
"ClassicalDedekindReals.sig_forall_dec",
"FunctionalExtensionality.functional_extensionality_dep",
"Classical_Prop.classic"
],
"C35_gelu_refuted": [
"ClassicalDedekindReals.sig_not_dec",
"ClassicalDedekindReals.sig_forall_dec",
"FunctionalExtensionality.functional_extensionality_dep"
],
"C35_range_float": [
"ClassicalDedekindReals.sig_not_dec",
"ClassicalDedekindReals.sig_forall_dec",
"FunctionalExtensionality.functional_extensionality_dep",
"Classical_Prop.classic"
],
"C35_range_float_partial": [
"ClassicalDedekindReals.sig_not_dec",
"ClassicalDedekindReals.sig_forall_dec",
"FunctionalExtensionality.functional_extensionality_dep",
"Classical_Prop.classic"
],
"C35_range_partial": [
"ClassicalDedekindReals.sig_not_dec",
"ClassicalDedekindReals.sig_forall_dec",
"FunctionalExtensionality.functional_extensionality_dep",
"Classical_Prop.classic"
],
"C36_derivative_partial": [
"ClassicalDedekindReals.sig_not_dec",
"ClassicalDedekindReals.sig_forall_dec",
"FunctionalExtensionality.functional_extensionality_dep",
"Classical_Prop.classic"
],
"C36_iSigmoid_refuted": [
"ClassicalDedekindReals.sig_not_dec",
"ClassicalDedekindReals.sig_forall_dec",
"FunctionalExtensionality.functional_extensionality_dep",
"Classical_Prop.classic"
],
"C37_equality_laws": [
"ClassicalDedekindReals.sig_not_dec",
"ClassicalDedekindReals.sig_forall_dec",
"FunctionalExtensionality.functional_extensionality_dep"
],
"C37_loadable_iff_finite": [],
"C37_nan_forgotten_refuted": [],
"C37_saved_loads_equal_partial": [],
"C37_unreadable_file_refuted": [],
"C38_copy_differs_refuted": [],
"C38_copy_equal_partial": [],
"C38_independent": [],
"C38_networks_are_values": [],
"C39_equal_same_outputs_partial": [],
"C39_not_reflexive_refuted": [],
"C39_number_laws": [
"ClassicalDedekindReals.sig_not_dec",
"ClassicalDedekindReals.sig_forall_dec",
"FunctionalExtensionality.functional_extensionality_dep"
],
"C39_optimizers_refuted": [],
"C39_reflexive_partial": [],
"C39_reflexive_real": [
"ClassicalDedekindReals.sig_not_dec",
"ClassicalDedekindReals.sig_forall_dec",
"FunctionalExtensionality.functional_extensionality_dep"
],
"C39_symmetric_partial": [],
"C39_transitive": [],
"C40_lost_stop_refuted": [],
"C40_seen_then_stopped_partial": [],
"C40_stop_returns_partial": [],
"C41_declared_training_protected_partial": [],
"C41_just_started_refuted": [],
"C41_one_training_at_a_time": [],
"C41_save_during_training_refuted": [],
"C42_saved_exactly_when_better_partial": [],
"C42_saved_network_unusable_refuted": [],
"C43_grid_2D_bijection": [],
"C43_grid_3D_partial": [],
"C43_roughenZ_refuted": [],
"C44_extremum_partial": [],
"C44_singleton_refuted": [],
"C45_recombination_refuted": [],
"C45_short_durations_partial": [],
"C46_random_partial": [],
"C46_random_refuted": [],
"C47_convolution_weights_refuted": [],
"C47_grid_binary32": [
"ClassicalDedekindReals.sig_not_dec",
"ClassicalDedekindReals.sig_forall_dec",
"FunctionalExtensionality.functional_extensionality_dep",
"Classical_Prop.classic"
],
"C47_input_drawn": [],
"C47_local_drawn_partial": [
"ClassicalDedekindReals.sig_not_dec",
"ClassicalDedekindReals.sig_forall_dec",
"FunctionalExtensionality.functional_extensionality_dep",
"Classical_Prop.classic"
],
"C47_local_edge_refuted": [],
"C47_local_filters_refuted": [],
"C47_local_pixels_partial": [],
"C47_local_weights_partial": [],
"C47_local_weights_refuted": [],
"C47_many_channels_refuted": [],
"C47_not_while_training": [],
"C47_outputs_drawn": [],
"C47_pooling_weights_refuted": [],
"C47_range_refuted": [],
"C47_two_channels_refuted": [],
"C47_weight_level": [
"ClassicalDedekindReals.sig_not_dec",
"ClassicalDedekindReals.sig_forall_dec",
"FunctionalExtensionality.functional_extensionality_dep",
"Classical_Prop.classic"
],
"C48_exact_counts_partial": [
"ClassicalDedekindReals.sig_not_dec",
"ClassicalDedekindReals.sig_forall_dec",
"FunctionalExtensionality.functional_extensionality_dep",
"Classical_Prop.classic"
],
"C48_exact_counts_refuted": [
"ClassicalDedekindReals.sig_not_dec",
"ClassicalDedekindReals.sig_forall_dec",
"FunctionalExtensionality.functional_extensionality_dep",
"Classical_Prop.classic"
],
"C49_regularisers": [
"ClassicalDedekindReals.sig_not_dec",
"ClassicalDedekindReals.sig_forall_dec",
"FunctionalExtensionality.functional_extensionality_dep"
],
"C50_literals_partial": [],
"C50_literals_refuted": [],
"C51_precision_only_for_regression": [],
"C52_gru_partial": [],
"C52_gru_refuted": [
"ClassicalDedekindReals.sig_not_dec",
"ClassicalDedekindReals.sig_forall_dec",
"FunctionalExtensionality.functional_extensionality_dep"
],
"C52_recurrent": [],
"C53_time_series_coverage": [],
"C54_log_columns": [],
"C54_numbers_are_distinguished": [],
"C55_flatten_concatenates": [],
"C56_batches_partition": [],
"C56_epochs_present_each_sample_once": [],
"C57_exception_blocks_refuted": [],
"C58_accuracy_float": [
"ClassicalDedekindReals.sig_not_dec",
"ClassicalDedekindReals.sig_forall_dec",
"FunctionalExtensionality.functional_extensionality_dep",
"Classical_Prop.classic"
],
"C58_accuracy_real": [
"ClassicalDedekindReals.sig_not_dec",
"ClassicalDedekindReals.sig_forall_dec",
"FunctionalExtensionality.functional_extensionality_dep"
],
"C58_evaluations": [],
"C58_one_answer_per_sample": [],
"C59_number_of_trainings": [],
"C59_plain_trainings": [],
"C60_comes_back_partial": [],
"C60_default_only_nan": [],
"C60_epochs_learned_partial": [],
"C60_nothing_to_wait_for_refuted": [],
"C60_stale_epoch_refuted": [],
"C60_time_has_passed": [],
"C61_evaluate": [],
"C61_other_width_refuted": [],
"C61_recurrent_refuted": [],
"C61_same_parameters_same_figures": [],
"C61_verbose_refuted": [],
"C62_samples_survive": [],
"C63_epochs_refuted": [],
"C63_locally_name_refuted": [],
"C63_recurrent_shapes_refuted": [],
"C63_summary_partial": [],
"C64_announced_for_life": [],
"C64_nan_is_valid_refuted": [],
"C65_evaluation_scores_float": [
"ClassicalDedekindReals.sig_not_dec",
"ClassicalDedekindReals.sig_forall_dec",
"FunctionalExtensionality.functional_extensionality_dep",
"Classical_Prop.classic"
],
"C65_evaluation_scores_real": [
"ClassicalDedekindReals.sig_not_dec",
"ClassicalDedekindReals.sig_forall_dec",
"FunctionalExtensionality.functional_extensionality_dep"
],
"C65_regression_scores_zero": [
"ClassicalDedekindReals.sig_not_dec",
"ClassicalDedekindReals.sig_forall_dec",
"FunctionalExtensionality.functional_extensionality_dep",
"Classical_Prop.classic"
],
"C65_scores_float": [
"ClassicalDedekindReals.sig_not_dec",
"ClassicalDedekindReals.sig_forall_dec",
"FunctionalExtensionality.functional_extensionality_dep",
"Classical_Prop.classic"
],
"C65_scores_real": [
"ClassicalDedekindReals.sig_not_dec",
"ClassicalDedekindReals.sig_forall_dec",
"FunctionalExtensionality.functional_extensionality_dep"
],
"C65_scores_refuted": [],
"C66_sequences": [],
"C66_series": [],
"C67_momentum_step": [
"ClassicalDedekindReals.sig_not_dec",
"ClassicalDedekindReals.sig_forall_dec",
"FunctionalExtensionality.functional_extensionality_dep",
"Classical_Prop.classic"
],
"C67_step_is_gradient_descent": [
"ClassicalDedekindReals.sig_not_dec",
"ClassicalDedekindReals.sig_forall_dec",
"FunctionalExtensionality.functional_extensionality_dep",
"Classical_Prop.classic"
],
"C68_gru_biases_never_learn_refuted": [],
"C68_recurrent_bias_never_learns_refuted": [],
"C68_recurrent_step_refuted": [
"ClassicalDedekindReals.sig_not_dec",
"ClassicalDedekindReals.sig_forall_dec",
"FunctionalExtensionality.functional_extensionality_dep",
"Classical_Prop.classic"
],
"C68_reset_gate_never_learns_refuted": [
"ClassicalDedekindReals.sig_not_dec",
"ClassicalDedekindReals.sig_forall_dec",
"FunctionalExtensionality.functional_extensionality_dep"
],
"C68_reset_gate_refuted": [
"ClassicalDedekindReals.sig_not_dec",
"ClassicalDedekindReals.sig_forall_dec",
"FunctionalExtensionality.functional_extensionality_dep",
"Classical_Prop.classic"
],
"C68_update_gate_refuted": [
"ClassicalDedekindReals.sig_not_dec",
"ClassicalDedekindReals.sig_forall_dec",
"FunctionalExtensionality.functional_extensionality_dep",
"Classical_Prop.classic"
],
"C69_regularization_refuted": [
"ClassicalDedekindReals.sig_not_dec",
"ClassicalDedekindReals.sig_forall_dec",
"FunctionalExtensionality.functional_extensionality_dep",
"Classical_Prop.classic"
],
"C69_scaled_momentum_step": [
"ClassicalDedekindReals.sig_not_dec",
"ClassicalDedekindReals.sig_forall_dec",
"FunctionalExtensionality.functional_extensionality_dep",
"Classical_Prop.classic"
],
"C69_scaled_step": [
"ClassicalDedekindReals.sig_not_dec",
"ClassicalDedekindReals.sig_forall_dec",
"FunctionalExtensionality.functional_extensionality_dep",
"Classical_Prop.classic"
],
"C69_softmax_refuted": [
"ClassicalDedekindReals.sig_not_dec",
"ClassicalDedekindReals.sig_forall_dec",
"FunctionalExtensionality.functional_extensionality_dep"
],
"C70_new_network_finite": [
"ClassicalDedekindReals.sig_not_dec",
"ClassicalDedekindReals.sig_forall_dec",
"FunctionalExtensionality.functional_extensionality_dep",
"Classical_Prop.classic"
],
"C70_predictions_finite": [
"ClassicalDedekindReals.sig_not_dec",
"ClassicalDedekindReals.sig_forall_dec",
"FunctionalExtensionality.functional_extensionality_dep",
"Classical_Prop.classic"
],
"C70_recurrence_refuted": [
"ClassicalDedekindReals.sig_not_dec",
"ClassicalDedekindReals.sig_forall_dec",
"FunctionalExtensionality.functional_extensionality_dep",
"Classical_Prop.classic"
],
"C70_valid_bounded_finite": [
"ClassicalDedekindReals.sig_not_dec",
"ClassicalDedekindReals.sig_forall_dec",
"FunctionalExtensionality.functional_extensionality_dep",
"Classical_Prop.classic"
],
"C70_valid_network_finite": [
"ClassicalDedekindReals.sig_not_dec",
"ClassicalDedekindReals.sig_forall_dec",
"FunctionalExtensionality.functional_extensionality_dep",
"Classical_Prop.classic"
],
"C71_cancellation_refuted": [
"ClassicalDedekindReals.sig_not_dec",
"ClassicalDedekindReals.sig_forall_dec",
"FunctionalExtensionality.functional_extensionality_dep",
"Classical_Prop.classic"
],
"C71_flat_networks": [
"ClassicalDedekindReals.sig_not_dec",
"ClassicalDedekindReals.sig_forall_dec",
"FunctionalExtensionality.functional_extensionality_dep",
"Classical_Prop.classic"
],
"C71_prediction_accuracy": [
"ClassicalDedekindReals.sig_not_dec",
"ClassicalDedekindReals.sig_forall_dec",
"FunctionalExtensionality.functional_extensionality_dep",
"Classical_Prop.classic"
],
"C72_always_trains": [
"ClassicalDedekindReals.sig_not_dec",
"ClassicalDedekindReals.sig_forall_dec",
"FunctionalExtensionality.functional_extensionality_dep"
],
"C72_any_accuracy": [
"ClassicalDedekindReals.sig_not_dec",
"ClassicalDedekindReals.sig_forall_dec",
"FunctionalExtensionality.functional_extensionality_dep"
],
"C72_constructed": [
"ClassicalDedekindReals.sig_not_dec",
"ClassicalDedekindReals.sig_forall_dec",
"FunctionalExtensionality.functional_extensionality_dep"
],
"C72_one_sample_learned": [
"ClassicalDedekindReals.sig_not_dec",
"ClassicalDedekindReals.sig_forall_dec",
"FunctionalExtensionality.functional_extensionality_dep"
],
"C72_perfect_network_spoiled_refuted": [
"ClassicalDedekindReals.sig_not_dec",
"ClassicalDedekindReals.sig_forall_dec",
"FunctionalExtensionality.functional_extensionality_dep"
],
"C72_too_fast_diverges": [
"ClassicalDedekindReals.sig_not_dec",
"ClassicalDedekindReals.sig_forall_dec",
"FunctionalExtensionality.functional_extensionality_dep"
],
"C72_zero_input_refuted": [
"ClassicalDedekindReals.sig_not_dec",
"ClassicalDedekindReals.sig_forall_dec",
"FunctionalExtensionality.functional_extensionality_dep"
],
"C73_every_schedule_partial": [],
"C73_prediction_alone": [],
"C73_torn_prediction_refuted": [
"ClassicalDedekindReals.sig_not_dec",
"ClassicalDedekindReals.sig_forall_dec",
"FunctionalExtensionality.functional_extensionality_dep"
],
"C73_training_alone": [],
"C73_wrong_input_learned_refuted": [
"ClassicalDedekindReals.sig_not_dec",
"ClassicalDedekindReals.sig_forall_dec",
"FunctionalExtensionality.functional_extensionality_dep"
],
"C74_abnormal_prediction_refuted": [],
"C74_only_trainings_matter_partial": [],
"C74_recurrent_refuted": [],
"C74_same_trainings_same_network_partial": [],
"C74_used_network_partial": [],
"C75_by_the_clock_partial": [],
"C75_evaluation_frequency_partial": [],
"C75_recurrent_refuted": [],
"C76_each_alone": [],
"C76_every_schedule": [],
"C76_out_of_bounds_refuted": [],
"C76_wrong_samples_refuted": [],
"C77_centred_batch_refuted": [
"ClassicalDedekindReals.sig_not_dec",
"ClassicalDedekindReals.sig_forall_dec",
"FunctionalExtensionality.functional_extensionality_dep"
],
"C77_constructed": [
"ClassicalDedekindReals.sig_not_dec",
"ClassicalDedekindReals.sig_forall_dec",
"FunctionalExtensionality.functional_extensionality_dep"
],
"C77_linear_exact_partial": [
"ClassicalDedekindReals.sig_not_dec",
"ClassicalDedekindReals.sig_forall_dec",
"FunctionalExtensionality.functional_extensionality_dep",
"Classical_Prop.classic"
],
"C77_only_a_constant_refuted": [
"ClassicalDedekindReals.sig_not_dec",
"ClassicalDedekindReals.sig_forall_dec",
"FunctionalExtensionality.functional_extensionality_dep"
],
"C77_same_inputs_partial": [
"ClassicalDedekindReals.sig_not_dec",
"ClassicalDedekindReals.sig_forall_dec",
"FunctionalExtensionality.functional_extensionality_dep",
"Classical_Prop.classic"
],
"C78_recurrent_refuted": [],
"C78_resumed_partial": [],
"C78_stopped_refuted": [],
"C78_through_a_file_partial": [],
"C78_with_evaluations_partial": [],
"C79_abnormal_refuted": [],
"C79_any_order": [],
"C79_float_error_refuted": [],
"C79_recurrent_refuted": [],
"C79_sums_of_reals": [
"ClassicalDedekindReals.sig_not_dec",
"ClassicalDedekindReals.sig_forall_dec",
"FunctionalExtensionality.functional_extensionality_dep"
],
"C80_locally_connected_refuted": [],
"C80_moved2D": [],
"C80_output2D": [],
"C80_receptive_field1D": [],
"C80_receptive_field2D": [],
"C81_momentum_goes_on_partial": [
"ClassicalDedekindReals.sig_not_dec",
"ClassicalDedekindReals.sig_forall_dec",
"FunctionalExtensionality.functional_extensionality_dep"
],
"C81_right_network_kept_partial": [
"ClassicalDedekindReals.sig_not_dec",
"ClassicalDedekindReals.sig_forall_dec",
"FunctionalExtensionality.functional_extensionality_dep"
],
"C81_right_network_spoiled_refuted": [
"ClassicalDedekindReals.sig_not_dec",
"ClassicalDedekindReals.sig_forall_dec",
"FunctionalExtensionality.functional_extensionality_dep"
],
"C81_right_sample_partial": [
"ClassicalDedekindReals.sig_not_dec",
"ClassicalDedekindReals.sig_forall_dec",
"FunctionalExtensionality.functional_extensionality_dep"
],
"C82_after_a_crash_partial": [],
"C82_autosave_one_file": [],
"C82_best_network_lost_refuted": [],
"C82_cut_file_partial": [],
"C82_cut_file_throws": [],
"C82_cut_value_throws": [],
"C82_damaged_file_refuted": [],
"C82_previous_network_lost_refuted": [],
"C82_saved_until_next_save": [],
"C83_binary32": [
"ClassicalDedekindReals.sig_not_dec",
"ClassicalDedekindReals.sig_forall_dec",
"FunctionalExtensionality.functional_extensionality_dep",
"Classical_Prop.classic"
],
"C83_options_of_one": [],
"C83_options_of_zero_partial": [
"ClassicalDedekindReals.sig_not_dec",
"ClassicalDedekindReals.sig_forall_dec",
"FunctionalExtensionality.functional_extensionality_dep"
],
"C83_trainings": [],
"C83_trainings_binary32": [
"ClassicalDedekindReals.sig_not_dec",
"ClassicalDedekindReals.sig_forall_dec",
"FunctionalExtensionality.functional_extensionality_dep",
"Classical_Prop.classic"
],
"C83_trainings_zero_partial": [
"ClassicalDedekindReals.sig_not_dec",
"ClassicalDedekindReals.sig_forall_dec",
"FunctionalExtensionality.functional_extensionality_dep"
],
"C84_binary32_refuted": [],
"C84_multiplier_is_rate": [
"ClassicalDedekindReals.sig_not_dec",
"ClassicalDedekindReals.sig_forall_dec",
"FunctionalExtensionality.functional_extensionality_dep"
],
"C84_trainings": [
"ClassicalDedekindReals.sig_not_dec",
"ClassicalDedekindReals.sig_forall_dec",
"FunctionalExtensionality.functional_extensionality_dep"
],
"C84_without_regularization": [
"ClassicalDedekindReals.sig_not_dec",
"ClassicalDedekindReals.sig_forall_dec",
"FunctionalExtensionality.functional_extensionality_dep"
],
"C85_layers_before": [
"ClassicalDedekindReals.sig_not_dec",
"ClassicalDedekindReals.sig_forall_dec",
"FunctionalExtensionality.functional_extensionality_dep"
],
"C85_layers_trainings": [
"ClassicalDedekindReals.sig_not_dec",
"ClassicalDedekindReals.sig_forall_dec",
"FunctionalExtensionality.functional_extensionality_dep"
],
"C85_predictions_kept_refuted": [],
"C85_trainings": [
"ClassicalDedekindReals.sig_not_dec",
"ClassicalDedekindReals.sig_forall_dec",
"FunctionalExtensionality.functional_extensionality_dep"
],
"C85_zero_multiplier": [
"ClassicalDedekindReals.sig_not_dec",
"ClassicalDedekindReals.sig_forall_dec",
"FunctionalExtensionality.functional_extensionality_dep"
],
"network_layers": []
}
}