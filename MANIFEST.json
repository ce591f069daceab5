{
 "claims": [
  {
   "property": "C01",
   "status": "proved",
   "theorems": [
    "C01_each_sample_once"
   ],
   "note": ""
  },
  {
   "property": "C02",
   "status": "proved",
   "theorems": [
    "C02_batch_is_mean"
   ],
   "note": ""
  },
  {
   "property": "C03",
   "status": "proved",
   "theorems": [
    "C03_sequence_boundaries_one_set",
    "C03_sequence_boundaries_two_sets"
   ],
   "note": ""
  },
  {
   "property": "C04",
   "status": "partial",
   "theorems": [
    "C04_sequences_stay_in_place_partial",
    "C04_sequences_stay_in_place_two_sets_partial",
    "C04_reordering_refuted"
   ],
   "note": "The code never reorders sequences: proved that every shuffle leaves the visiting order unchanged (each sequence once, in order), and the reordering claim is refuted."
  },
  {
   "property": "C05",
   "status": "proved",
   "theorems": [
    "C05_time_series_windows",
    "C05_short_series_is_undefined"
   ],
   "note": "The size hypothesis is shown necessary."
  },
  {
   "property": "C06",
   "status": "partial",
   "theorems": [
    "C06_time_series_permutation_refuted",
    "C06_unshuffle_restores_order_partial"
   ],
   "note": "Refuted: two shuffles can lose a sample. unshuffle() restores every sample (proved)."
  },
  {
   "property": "C07",
   "status": "partial",
   "theorems": [
    "C07_normalize_partial",
    "C07_normalize_float_partial",
    "C07_exact_bounds",
    "C07_normalize_constant_column_refuted",
    "C07_above_the_bound_refuted",
    "C07_overflow_refuted"
   ],
   "note": "Over the reals: every column that is not constant. In binary32, for values and bounds up to 2^126: such a column goes from exactly lo to exactly (hi-lo)+lo as floats compute it, which is hi when hi-lo is exact, in order. Refuted: constant columns are not brought into the range; normalize(-1,0.1) leaves a value above 0.1; values whose difference overflows become NaN."
  },
  {
   "property": "C08",
   "status": "partial",
   "theorems": [
    "C08_acceptance_partial",
    "C08_flat_sequential_rejected_partial",
    "C08_mismatch_accepted_refuted"
   ],
   "note": "The exact acceptance condition is proved; mismatched row counts are accepted and then read out of bounds (refuted)."
  },
  {
   "property": "C09",
   "status": "partial",
   "theorems": [
    "C09_label_matches_when_unshuffled_partial",
    "C09_label_after_shuffle_refuted"
   ],
   "note": "Holds when unshuffled; refuted after a shuffle."
  },
  {
   "property": "C10",
   "status": "partial",
   "theorems": [
    "C10_or_partial",
    "C10_zero_threshold_refuted",
    "C10_clock_wrap_refuted"
   ],
   "note": "Proved for every ||-tree with positive thresholds below 24 days; a threshold of 0 is lost (refuted)."
  },
  {
   "property": "C11",
   "status": "partial",
   "theorems": [
    "C11_and_partial",
    "C11_mae_refuted"
   ],
   "note": "Proved for every &&-tree whose MAE criterion, if any, comes last; an MAE criterion elsewhere is dropped (refuted)."
  },
  {
   "property": "C12",
   "status": "partial",
   "theorems": [
    "C12_mixing_partial",
    "C12_mixing_refuted"
   ],
   "note": "Exact characterisation of when the operators throw; a mix on the right-hand side is accepted (refuted)."
  },
  {
   "property": "C13",
   "status": "proved",
   "theorems": [
    "C13_train_exact",
    "C13_schedule",
    "C13_counts",
    "C13_label_without_one_throws"
   ],
   "note": "Single thread. Termination without error: networks in the scope of C25 after any history, data whose rows have the right sizes and, for a classification, a 1 in each testing label (without it train throws, shown). The schedule: any network and data. Arithmetic: any with order laws (binary32 and R have them)."
  },
  {
   "property": "C14",
   "status": "partial",
   "theorems": [
    "C14_confusion_counters_partial",
    "C14_counting",
    "C14_nan_refuted",
    "C58_evaluations"
   ],
   "note": "All samples whose values are numbers; a NaN regression output is counted as well treated (refuted)."
  },
  {
   "property": "C15",
   "status": "partial",
   "theorems": [
    "C15_accuracy_real",
    "C15_accuracy_float",
    "C15_refuted",
    "C58_accuracy_real",
    "C58_accuracy_float"
   ],
   "note": "Full over the reals, and in binary32 up to 2^24 samples; outputs all <= -2 and an empty test set are refuted."
  },
  {
   "property": "C16",
   "status": "partial",
   "theorems": [
    "C16_best_partial",
    "C16_best_float_partial",
    "C16_f1_rmse_refuted"
   ],
   "note": "In binary32 for every history of non-empty tests of finite values, with no hypothesis on the reports. Rates and MAE proved for every history; F1 maximum and RMSE minimum are never recorded (refuted)."
  },
  {
   "property": "C17",
   "status": "partial",
   "theorems": [
    "C17_errors_partial",
    "C17_errors_refuted"
   ],
   "note": "MAE is right for one output; the general formulas are proved and differ from MAE/RMSE (refuted)."
  },
  {
   "property": "C18",
   "status": "partial",
   "theorems": [
    "C18_cluster_partial",
    "C18_cluster_refuted"
   ],
   "note": "Right unless all outputs are <= -2 (refuted)."
  },
  {
   "property": "C19",
   "status": "proved",
   "theorems": [
    "C19_outputs_are_pure",
    "C19_parameters_decide"
   ],
   "note": "Any arithmetic, any history; networks with recurrent or GRU layers are excluded by the property."
  },
  {
   "property": "C20",
   "status": "partial",
   "theorems": [
    "C20_reset_ignored_refuted",
    "C20_refuted"
   ],
   "note": "Refuted: temporalReset changes no output of a recurrent or GRU layer, and a flagged input gives different outputs after different histories."
  },
  {
   "property": "C21",
   "status": "proved",
   "theorems": [
    "C21_abnormal_output",
    "C21_training_stops"
   ],
   "note": "Any network, any arithmetic, any history; no step after the abnormal output in a running train()."
  },
  {
   "property": "C22",
   "status": "proved",
   "theorems": [
    "C22_step_is_gradient_descent"
   ],
   "note": "Real arithmetic, every depth and width; activations other than iSigmoid (whose derivative is wrong, C36), ReLU sums off the corner."
  },
  {
   "property": "C23",
   "status": "partial",
   "theorems": [
    "C23_bias_weight_is_overwritten_refuted"
   ],
   "note": "Refuted: the bias weight is overwritten by -lr*g; exact characterisation proved."
  },
  {
   "property": "C24",
   "status": "proved",
   "theorems": [
    "C24_momentum_neuron",
    "C24_momentum_network",
    "C24_first_step"
   ],
   "note": "Neuron level in every arithmetic over any number of steps; network level over the reals with derivatives and predictions interleaved."
  },
  {
   "property": "C25",
   "status": "partial",
   "theorems": [
    "C25_partial",
    "C25_pooling1D_refuted",
    "C25_pooling2D_refuted",
    "C25_last_convolution_refuted"
   ],
   "note": "Every accepted network and every history of uses; excludes 1-D pooling of several channels, 2-D pooling wider than high, training a final convolution (all three refuted) and negative kernel sizes."
  },
  {
   "property": "C26",
   "status": "partial",
   "theorems": [
    "C26_invalid_rejected",
    "C26_optimizer_checked",
    "C26_dense_accepted",
    "C26_accepted_iff",
    "C26_accepted_real",
    "C26_accepted_float",
    "C26_large_inputs_refuted",
    "C26_undefined_refuted",
    "C26_empty_kernel_refuted",
    "C26_negative_kernel_1D",
    "C26_negative_kernel_refuted",
    "C26_negative_pooling_refuted",
    "C26_negative_input_refuted"
   ],
   "note": "The exact condition of acceptance, for every list of layers of every kind with positive input dimensions and kernel sizes that are not negative (any arithmetic; in the reals and in binary32 with the bounds as numbers). Refuted: inputs of 1000001..2073600 values are refused although announced; layers with no filter, poolings and local layers with kernel size 0 and inputs whose size overflows int are not rejected but undefined; convolutions with kernel size 0 are accepted. Negative sizes: 1-D convolutions and locally connected layers are refused; 2-D convolutions are accepted and look at the first input value only, some 1-D poolings are accepted and ignore their input, two negative input dimensions are accepted (refuted). Not modelled: 2-D locally connected and pooling layers with a negative kernel size."
  },
  {
   "property": "C27",
   "status": "proved",
   "theorems": [
    "C27_number_of_parameters",
    "C27_counts_the_weights"
   ],
   "note": "Every accepted list with positive input dimensions and non-negative kernel sizes; also the shapes."
  },
  {
   "property": "C28",
   "status": "proved",
   "theorems": [
    "network_layers",
    "C28_convolution1D",
    "C28_convolution2D"
   ],
   "note": "Every convolution of every network after every history of uses; non-negative kernel sizes."
  },
  {
   "property": "C29",
   "status": "partial",
   "theorems": [
    "C29_tiles_partition",
    "C29_locally1D",
    "C29_locally2D_partial",
    "C29_locally2D_refuted"
   ],
   "note": "1-D in full; 2-D when both directions have the same number of tiles; otherwise some input cell is read by no neuron (refuted in general)."
  },
  {
   "property": "C30",
   "status": "partial",
   "theorems": [
    "C30_pooling1D_partial",
    "C30_pooling2D_partial",
    "C30_orders",
    "C30_channels1D_refuted",
    "C30_wide2D_refuted",
    "C30_high2D_refuted"
   ],
   "note": "1-D with one channel and 2-D with as many tiles in both directions, forward and backward; the other cases are refuted in general."
  },
  {
   "property": "C31",
   "status": "partial",
   "theorems": [
    "C31_locally2D",
    "C31_locally1D_partial",
    "C31_locally1D_refuted",
    "C31_convolution1D_partial",
    "C31_convolution2D_partial",
    "C31_convolution_refuted"
   ],
   "note": "Exact arithmetic, layers without layer optimizers. 2-D locally connected: proved for every shape. 1-D locally connected: proved for one filter or one tile, refuted for every other shape (wrong tile). Convolutions: proved for one position, refuted for several (weights change between positions)."
  },
  {
   "property": "C32",
   "status": "partial",
   "theorems": [
    "C32_rounds_partial",
    "C32_sum_of_position_refuted"
   ],
   "note": "Inputs and momentum rows match positions in every round; the activation derivative uses the last sum (refuted)."
  },
  {
   "property": "C33",
   "status": "partial",
   "theorems": [
    "C33_dropout_partial",
    "C33_convolution_refuted"
   ],
   "note": "Layers with one output per neuron (dense, recurrent, GRU, locally connected); refuted for convolutions, where the mask has one entry per filter."
  },
  {
   "property": "C34",
   "status": "partial",
   "theorems": [
    "C34_softmax",
    "C34_softmax_layer",
    "C34_softmax_float_partial",
    "C34_order_float_refuted",
    "C34_shift_float_refuted"
   ],
   "note": "In full in exact real arithmetic. In binary32, with any expf that is monotone, 1 at 0 and within [0,1] below, for up to 2^24 finite outputs up to 2^126: outputs within [0,1], sum 1 up to n/2^23, order kept weakly, the largest at least 2^-24. Refuted in binary32: a strictly larger output can become equal (and the class announced change), adding a constant can change the answer."
  },
  {
   "property": "C35",
   "status": "partial",
   "theorems": [
    "C35_range_partial",
    "C35_range_float",
    "C35_range_float_partial",
    "C35_gelu_refuted"
   ],
   "note": "All but GELU (refuted), over the reals and in binary32 for every float but NaN, infinities included, with any library whose tanhf and expf stay in their ranges."
  },
  {
   "property": "C36",
   "status": "partial",
   "theorems": [
    "C36_derivative_partial",
    "C36_iSigmoid_refuted"
   ],
   "note": "All but iSigmoid."
  },
  {
   "property": "C37",
   "status": "partial",
   "theorems": [
    "C37_saved_loads_equal_partial",
    "C37_loadable_iff_finite",
    "C37_equality_laws",
    "C37_unreadable_file_refuted",
    "C37_nan_forgotten_refuted"
   ],
   "note": "Any network state (any layers), any arithmetic with the equality laws (binary32 and R have them). Proved when every number held is finite; the file of any other network cannot be read (shown, and reachable). The flag remembering an abnormal output is not saved (refuted)."
  },
  {
   "property": "C38",
   "status": "partial",
   "theorems": [
    "C38_networks_are_values",
    "C38_independent",
    "C38_copy_equal_partial",
    "C38_copy_differs_refuted"
   ],
   "note": "Independence proved in full on a model with the pointers (layers, optimizer of every neuron, back pointer of every layer optimizer), for every program making, loading, copying, using and deleting networks. Equality proved for idle networks in the scope of C25 after any history when no number is NaN; refuted for a network that is training or was asked to stop (no exception, and the copy differs)."
  },
  {
   "property": "C39",
   "status": "partial",
   "theorems": [
    "C39_reflexive_partial",
    "C39_reflexive_real",
    "C39_symmetric_partial",
    "C39_transitive",
    "C39_equal_same_outputs_partial",
    "C39_number_laws",
    "C39_not_reflexive_refuted",
    "C39_optimizers_refuted"
   ],
   "note": "Transitive in full; reflexive when no number held is NaN; symmetric, in bounds and implying equal outputs when the layers have the same numbers of layer optimizers. Each restriction is shown necessary by a reachable counterexample."
  },
  {
   "property": "C40",
   "status": "partial",
   "theorems": [
    "C40_stop_returns_partial",
    "C40_seen_then_stopped_partial",
    "C40_lost_stop_refuted"
   ],
   "note": "Interleaving model of the caller and the training thread, sequentially consistent memory, no exception. Proved once isTraining() has become true; refuted right after startTrainingAsync: the new thread clears the stop request and trains for ever."
  },
  {
   "property": "C41",
   "status": "partial",
   "theorems": [
    "C41_one_training_at_a_time",
    "C41_declared_training_protected_partial",
    "C41_save_during_training_refuted",
    "C41_just_started_refuted"
   ],
   "note": "Never two trainings at once: proved for every schedule. saveAs/train throw once the thread has declared itself; refuted before: saveAs then writes while the thread learns, and isTraining() is false."
  },
  {
   "property": "C42",
   "status": "partial",
   "theorems": [
    "C42_saved_exactly_when_better_partial",
    "C42_saved_network_unusable_refuted"
   ],
   "note": "Saved after exactly the evaluations whose accuracy is above all the earlier ones, when no accuracy is NaN and no abnormal output. Refuted: a network saved by autosave is not idle, so it can neither be trained nor saved again."
  },
  {
   "property": "C43",
   "status": "partial",
   "theorems": [
    "C43_grid_2D_bijection",
    "C43_grid_3D_partial",
    "C43_roughenZ_refuted"
   ],
   "note": "2-D full; 3-D flatten is injective with correct x and y; roughenZ is wrong (refuted)."
  },
  {
   "property": "C44",
   "status": "partial",
   "theorems": [
    "C44_extremum_partial",
    "C44_singleton_refuted"
   ],
   "note": "One-element vectors throw (refuted)."
  },
  {
   "property": "C45",
   "status": "partial",
   "theorems": [
    "C45_short_durations_partial",
    "C45_recombination_refuted"
   ],
   "note": "Right up to one minute, wrong above (refuted)."
  },
  {
   "property": "C46",
   "status": "partial",
   "theorems": [
    "C46_random_partial",
    "C46_random_refuted"
   ],
   "note": "Right when max>0; max can be returned when max<=0 (refuted). Uniformity of the draw is not modelled."
  },
  {
   "property": "C47",
   "status": "partial",
   "theorems": [
    "C47_outputs_drawn",
    "C47_not_while_training",
    "C47_grid_binary32",
    "C47_input_drawn",
    "C47_convolution_weights_refuted",
    "C47_pooling_weights_refuted",
    "C47_local_weights_refuted",
    "C47_local_weights_partial",
    "C47_local_edge_refuted",
    "C47_local_filters_refuted",
    "C47_local_pixels_partial",
    "C47_weight_level",
    "C47_local_drawn_partial",
    "C47_two_channels_refuted",
    "C47_many_channels_refuted",
    "C47_range_refuted"
   ],
   "note": "The pictures of the outputs and of one- or three-channel inputs are right when every value is between 0 and 1 (255 v fits in a byte), for every grid; outside that range, and for two-channel inputs, the function is undefined (refuted). The pictures of the weights are refuted: a neuron past the last one is read for every 2-D convolution with two positions or more and for every 2-D max pooling, and the picture of a locally connected layer with two filters or more does not depend on its last neuron. What the picture of a locally connected layer shows is proved exactly (each pixel is the sum of the weights stamped there, with stride 1 and every (c+1)-th neuron) in any state of the layer, and is right for one filter of 1 x 1 kernels; the right edge never shows a weight and kernels as big as the picture show the first filter everywhere (refuted). In binary32 it is drawn whenever no sum is NaN and tanhf stays between -1 and 1. Missing: the BMP encoding. Inputs with four channels or more are drawn, but with the wrong pixels (refuted)."
  },
  {
   "property": "C48",
   "status": "partial",
   "theorems": [
    "C48_exact_counts_partial",
    "C48_exact_counts_refuted"
   ],
   "note": "Exact up to 2^24 samples, stuck beyond (refuted)."
  },
  {
   "property": "C49",
   "status": "proved",
   "theorems": [
    "C49_regularisers"
   ],
   "note": "Exact real arithmetic."
  },
  {
   "property": "C50",
   "status": "partial",
   "theorems": [
    "C50_literals_partial",
    "C50_literals_refuted"
   ],
   "note": "Exact range where the literals are right; overflow outside (refuted)."
  },
  {
   "property": "C51",
   "status": "proved",
   "theorems": [
    "C51_precision_only_for_regression"
   ],
   "note": ""
  },
  {
   "property": "C52",
   "status": "partial",
   "theorems": [
    "C52_recurrent",
    "C52_gru_partial",
    "C52_gru_refuted"
   ],
   "note": "Recurrent neurons in full; GRU: the exact formula (state always zero), refuted against the documented one (exact arithmetic). Layers without layer optimizers."
  },
  {
   "property": "C53",
   "status": "proved",
   "theorems": [
    "C53_time_series_coverage"
   ],
   "note": ""
  },
  {
   "property": "C54",
   "status": "proved",
   "theorems": [
    "C54_log_columns",
    "C54_numbers_are_distinguished"
   ],
   "note": ""
  },
  {
   "property": "C55",
   "status": "proved",
   "theorems": [
    "C55_flatten_concatenates"
   ],
   "note": ""
  },
  {
   "property": "C56",
   "status": "proved",
   "theorems": [
    "C56_epochs_present_each_sample_once",
    "C56_batches_partition"
   ],
   "note": "Plain (non temporal) data, any network, any arithmetic."
  },
  {
   "property": "C57",
   "status": "partial",
   "theorems": [
    "C57_exception_blocks_refuted"
   ],
   "note": "Refuted: after train() was left by an exception every later train and saveAs throws (unless startTrainingAsync is used). C13_label_without_one_throws shows such an exception."
  },
  {
   "property": "C58",
   "status": "proved",
   "theorems": [
    "C58_evaluations",
    "C58_one_answer_per_sample",
    "C58_accuracy_real",
    "C58_accuracy_float"
   ],
   "note": "Any arithmetic; the accuracy over the reals and, up to 2^24 samples, in binary32. An evaluation is abandoned (results NaN) after an abnormal output, as the statement says."
  },
  {
   "property": "C59",
   "status": "proved",
   "theorems": [
    "C59_number_of_trainings",
    "C59_plain_trainings"
   ],
   "note": "The counter is an unbounded integer in the model (int64 in the code)."
  },
  {
   "property": "C60",
   "status": "partial",
   "theorems": [
    "C60_epochs_learned_partial",
    "C60_comes_back_partial",
    "C60_time_has_passed",
    "C60_default_only_nan",
    "C60_stale_epoch_refuted",
    "C60_nothing_to_wait_for_refuted"
   ],
   "note": "Proved for every schedule and program once the thread has run its first instruction; it returns under a fair schedule when no exception leaves the training. Refuted: right after startTrainingAsync the member epoch still holds the number of an earlier training, so waitFor(n_ep) may return with nothing learned; without a training thread waitFor never returns."
  },
  {
   "property": "C61",
   "status": "proved",
   "theorems": [
    "C61_evaluate",
    "C61_same_parameters_same_figures",
    "C61_recurrent_refuted",
    "C61_other_width_refuted",
    "C61_verbose_refuted"
   ],
   "note": "Proved for any life of any constructed network, any numbers; the figures are functions of parameters and test samples for feed-forward networks. Refuted: with a recurrent layer two evaluations in a row differ (plain data and time series); evaluate accepts data of another width (out of bounds read, or meaningless figures); in a verbose build it dereferences a null pointer."
  },
  {
   "property": "C62",
   "status": "proved",
   "theorems": [
    "C62_samples_survive"
   ],
   "note": "Any arithmetic; every constructor (vectors of samples, vectors of sequences), every history, including trainings by several networks."
  },
  {
   "property": "C63",
   "status": "partial",
   "theorems": [
    "C63_summary_partial",
    "C63_recurrent_shapes_refuted",
    "C63_locally_name_refuted",
    "C63_epochs_refuted"
   ],
   "note": "The exact text, line by line, for every architecture in the scope of C25 after any use; the three refutations are the places where the text is wrong. The decimal text of a float is a parameter."
  },
  {
   "property": "C64",
   "status": "proved",
   "theorems": [
    "C64_announced_for_life",
    "C64_nan_is_valid_refuted"
   ],
   "note": "Networks in the scope of C25 and C13. The refutation: after a training with a NaN label all parameters are NaN and isValid() returns 0."
  },
  {
   "property": "C65",
   "status": "proved",
   "theorems": [
    "C65_scores_real",
    "C65_scores_float",
    "C65_regression_scores_zero",
    "C65_evaluation_scores_real",
    "C65_evaluation_scores_float",
    "C65_scores_refuted"
   ],
   "note": "Exact over the reals; in binary32 the bounds and the perfect case. The evaluation theorems carry it through training of any network in the scope of C58."
  },
  {
   "property": "C66",
   "status": "proved",
   "theorems": [
    "C66_series",
    "C66_sequences"
   ],
   "note": "Series of at least r+1 samples (a shorter one is undefined behaviour, C10). That epochs are complete unless the training is stopped is C13."
  },
  {
   "property": "C67",
   "status": "partial",
   "theorems": [
    "C67_step_is_gradient_descent",
    "C67_momentum_step"
   ],
   "note": "Real arithmetic, any depth and any mix of the layer kinds whose training is right: fully connected, recurrent, 2-D locally connected, 1-D locally connected with one filter or one tile, convolutions with one position, max pooling with one channel (1-D) or as many tiles both ways (2-D). Missing, because false: the other shapes (C28-C31), GRU layers, recurrent and bias weights (C23, C68). Layer optimizers are left out (C33, C49)."
  },
  {
   "property": "C68",
   "status": "partial",
   "theorems": [
    "C68_recurrent_bias_never_learns_refuted",
    "C68_gru_biases_never_learn_refuted",
    "C68_reset_gate_never_learns_refuted",
    "C68_recurrent_step_refuted",
    "C68_update_gate_refuted",
    "C68_reset_gate_refuted"
   ],
   "note": "What is true (weights of the inputs of recurrent neurons) is C67. The rest is refuted: for every history the bias weights (any arithmetic) and the reset gate (reals) never move, although their derivatives are not zero; witnesses for the weight of the previous output and for the update gate."
  },
  {
   "property": "C69",
   "status": "partial",
   "theorems": [
    "C69_scaled_step",
    "C69_scaled_momentum_step",
    "C69_softmax_refuted",
    "C69_regularization_refuted"
   ],
   "note": "Real arithmetic, the layer kinds of C67, any dropouts and error multipliers. False of Softmax and of L1/L2, with witnesses for every learning rate."
  },
  {
   "property": "C70",
   "status": "proved",
   "theorems": [
    "C70_predictions_finite",
    "C70_new_network_finite",
    "C70_valid_network_finite",
    "C70_valid_bounded_finite",
    "C70_recurrence_refuted"
   ],
   "note": "Binary32. The valid_ theorems are about every network with isValid() == 0, no NaN weight and no recurrent layer, however it was built, trained or loaded (with only bounded activation functions: any depth, inputs up to 2^88). The refutation delimits it: a recurrent layer with an unbounded activation function is excluded by hypothesis."
  },
  {
   "property": "C71",
   "status": "proved",
   "theorems": [
    "C71_prediction_accuracy",
    "C71_flat_networks",
    "C71_cancellation_refuted"
   ],
   "note": "Binary32 against the reals, for any tanhf of the stated accuracy (a correctly rounded one exists and has accuracy 2 * 2^-24: best_accurate). Softmax, the other activation functions (iSigmoid, GELU, gaussian) and the recurrent layers are outside the statement. The last theorem shows why the bound is in terms of the inputs and weights and not of the output."
  },
  {
   "property": "C72",
   "status": "proved",
   "theorems": [
    "C72_always_trains",
    "C72_one_sample_learned",
    "C72_any_accuracy",
    "C72_zero_input_refuted",
    "C72_too_fast_diverges",
    "C72_constructed",
    "C72_perfect_network_spoiled_refuted"
   ],
   "note": "Real arithmetic. C72_constructed: the networks meant are those the constructor makes from Input(k), FullyConnected<identity>(m) and StochasticGradientDescent(lr, 0). The refutation shows the effect of the bias update (C23) on what can be learned: with a bias weight that accumulated, an input of zeros would be learned too."
  },
  {
   "property": "C73",
   "status": "partial",
   "theorems": [
    "C73_every_schedule_partial",
    "C73_training_alone",
    "C73_prediction_alone",
    "C73_wrong_input_learned_refuted",
    "C73_torn_prediction_refuted"
   ],
   "note": "Two threads interleaved between the calls of the layers, sequentially consistent memory, any arithmetic for the first three theorems. Proved: safety and counting under every schedule, and that an undisturbed call is trainOnce / output. Refuted: independence (for every network with one linear layer, every sample and every other input) and consistency of the prediction. Missing: threads that interleave inside a layer, which is a data race (undefined in C++)."
  },
  {
   "property": "C74",
   "status": "partial",
   "theorems": [
    "C74_only_trainings_matter_partial",
    "C74_same_trainings_same_network_partial",
    "C74_used_network_partial",
    "C74_abnormal_prediction_refuted",
    "C74_recurrent_refuted"
   ],
   "note": "Proved in any arithmetic for every feed-forward architecture (pooling with several channels included), any calls, any sizes of the vectors. Refuted beyond: for every network, one abnormal prediction freezes the weights; recurrent layers (computed witness, with and without temporalReset)."
  },
  {
   "property": "C75",
   "status": "partial",
   "theorems": [
    "C75_evaluation_frequency_partial",
    "C75_by_the_clock_partial",
    "C75_recurrent_refuted"
   ],
   "note": "Proved for every feed-forward network after any uses, in any arithmetic for a rule that ignores results, and for the float32 arithmetic with the rules the literals build. Assumes the evaluated run meets no abnormal number (an abnormal test output stops the training). Refuted with a recurrent layer (computed witness)."
  },
  {
   "property": "C76",
   "status": "partial",
   "theorems": [
    "C76_each_alone",
    "C76_every_schedule",
    "C76_out_of_bounds_refuted",
    "C76_wrong_samples_refuted"
   ],
   "note": "Interleaving model, one step per source line, sequentially consistent memory, a training that evaluates nothing itself (evaluationFrequency 0). Proved for every schedule: weights, counting, only the training set is learned (batches of one sample). Refuted, for every network and data: bounds, labels, once per epoch."
  },
  {
   "property": "C77",
   "status": "partial",
   "theorems": [
    "C77_same_inputs_partial",
    "C77_linear_exact_partial",
    "C77_centred_batch_refuted",
    "C77_only_a_constant_refuted",
    "C77_constructed"
   ],
   "note": "Over the reals, momentum 0. Proved where true (samples of a batch with the same inputs), the difference characterised exactly for one linear layer, and refuted for whole trainings of train(), in any order of the samples. Missing: the exact difference for deeper networks."
  },
  {
   "property": "C78",
   "status": "partial",
   "theorems": [
    "C78_resumed_partial",
    "C78_through_a_file_partial",
    "C78_with_evaluations_partial",
    "C78_recurrent_refuted",
    "C78_stopped_refuted"
   ],
   "note": "Proved without evaluations in between for all networks (also through a file, when its numbers are finite), with evaluations for feed-forward networks; refuted with a recurrent layer evaluated in between and for a stop in the middle of an epoch. The trainings stop by epochs."
  },
  {
   "property": "C79",
   "status": "proved",
   "theorems": [
    "C79_any_order",
    "C79_sums_of_reals",
    "C79_float_error_refuted",
    "C79_abnormal_refuted",
    "C79_recurrent_refuted"
   ],
   "note": "Proved for feed-forward networks and evaluations that end without an abnormal output; errors compared when sums do not depend on the order (real numbers). The limits of the statement are shown by counterexamples."
  },
  {
   "property": "C80",
   "status": "proved",
   "theorems": [
    "C80_receptive_field2D",
    "C80_receptive_field1D",
    "C80_output2D",
    "C80_moved2D",
    "C80_locally_connected_refuted"
   ],
   "note": "Proved for stacks of convolutions and max poolings (2-D poolings with as many tiles in both directions, 1-D with one channel, the shapes the library supports correctly: C30), with any layer optimizers but softmax."
  },
  {
   "property": "C81",
   "status": "partial",
   "theorems": [
    "C81_right_sample_partial",
    "C81_momentum_goes_on_partial",
    "C81_right_network_kept_partial",
    "C81_right_network_spoiled_refuted"
   ],
   "note": "Fully connected layers of any depth, real arithmetic, batches of one sample. Proved for networks without bias; refuted for every network with a bias in its linear last layer; what one training does is characterised exactly, with and without momentum."
  },
  {
   "property": "C82",
   "status": "partial",
   "theorems": [
    "C82_cut_file_throws",
    "C82_cut_value_throws",
    "C82_cut_file_partial",
    "C82_after_a_crash_partial",
    "C82_saved_until_next_save",
    "C82_previous_network_lost_refuted",
    "C82_autosave_one_file",
    "C82_best_network_lost_refuted",
    "C82_damaged_file_refuted"
   ],
   "note": "A cut inside the last value gives a network that differs from the one saved in the size of its last training set only. Refuted: the network saved before survives a crash; a damaged file is refused. Simplifications: the headers of Boost are left out; the bytes reach the disk in order; the learning rate and the momentum are finite numbers in the theorems on loading."
  },
  {
   "property": "C83",
   "status": "partial",
   "theorems": [
    "C83_options_of_one",
    "C83_binary32",
    "C83_options_of_zero_partial",
    "C83_trainings",
    "C83_trainings_binary32",
    "C83_trainings_zero_partial"
   ],
   "note": "The network with the options and the one without are built from the same weights and given the same calls; the draws of the options that were there are the same (in the program they come from one generator, so a Dropout(0) put before another Dropout shifts its draws). With floats the regularizations with factor 0 add 0 times a mean of weights, which is not neutral when the mean is infinite: they are covered with real arithmetic only."
  },
  {
   "property": "C84",
   "status": "proved",
   "theorems": [
    "C84_multiplier_is_rate",
    "C84_without_regularization",
    "C84_trainings",
    "C84_binary32_refuted"
   ],
   "note": "Real arithmetic: the theorem is about the functions computed, not about roundings; C84_binary32_refuted shows two networks of three neurons whose weights differ in binary32 after two trainings. The two networks are built from the same draws of initial weights and both are accepted (the rates r and c * r are between 0 and 1)."
  },
  {
   "property": "C85",
   "status": "proved",
   "theorems": [
    "C85_zero_multiplier",
    "C85_trainings",
    "C85_layers_before",
    "C85_layers_trainings",
    "C85_predictions_kept_refuted"
   ],
   "note": "Real arithmetic (with floats a weight could change by 0 * infinity). What is proved includes the defect that the weight of the bias of simple neurons becomes the last change of it, here 0, which C85_predictions_kept_refuted shows in binary32."
  }
 ]
}