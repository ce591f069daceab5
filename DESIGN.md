# Formal model of StraightforwardNeuralNetwork in Rocq/Coq 8.16.1

This file is generated by `tools/mkdesign.py` from `tools/design_head.md`, `properties.jsonl`, `MANIFEST.json` and
`tools/assumptions.json` (itself written by `tools/assumptions.py` from `Print Assumptions`).

## 1. Approach

* `rocq/theories/*Model.v`: Gallina functions, one per C++ function, each with a comment citing file and lines.
* `rocq/theories/*Spec.v`: small independent vocabularies for the statements, written without the loops of the model.
* `rocq/theories/*Proofs.v` (and `Safe*`, `Train*`, `Eq*`, `Alike*`, `EvalSized`, `Float32`, `NumOrder`, ...): lemmas.
* `rocq/theories/*Props.v`: the property theorems, `Print Assumptions` beneath, and an `Example` (or a witness theorem) showing a
  concrete non-trivial case that meets the hypotheses.

Every C++ call has an outcome: `outcome A := Ok a | Throw msg | UB`. An access outside a vector, `back()` on an empty vector, a division
of integers by zero, a signed overflow (where user-given sizes are computed with) are `UB`.

Arithmetic on `float` is a record `Num` of operations **without laws**. Three kinds of statements:
1. for every `Num`: routing, indexing, control flow, histories, safety (so also for IEEE binary32);
2. for every `Num` with the order laws `order_laws N ok` (comparison behaves on the values that satisfy `ok`); proved for binary32 with
   `ok` = "not NaN" and for the reals;
3. over the reals (`RNum`) for analytic statements, and over binary32 (`Num32`, built on `Coq.Floats.SpecFloat`, bridged to rounding of
   reals through Flocq) for statements about rounding. `exp` and `tanh` are parameters of `Num32`.

Randomness is an argument (the order drawn by a shuffle, the mask bits of a dropout, the initial weights). Time is an argument (the
milliseconds read at each check). Threads are interleaved by an arbitrary schedule. Loops that may not terminate take a fuel; statements say
that more fuel gives the same result, and that some fuel is enough.

A property the code violates is recorded by a theorem `..._refuted` (kernel-checked), together with the strongest positive statement found,
suffixed `_partial`.

## 2. Trusted base

* The kernel of Coq 8.16.1 (with its virtual machine: concrete witnesses are computed with `vm_compute`).
* The axioms of the standard library listed in section 7: those of the real numbers, functional extensionality and excluded middle. Nothing
  else: no axiom, parameter, admitted proof, functor or module type is declared in `/verif/rocq`. Flocq and Coquelicot are used as libraries;
  what they rest on is the same standard-library axioms. (The opaque module fields of `Coq.Reals` and of `Coq.ssr.ssrunder`, which a scan of
  loaded libraries may list, are defined in the standard library and are not assumptions of any theorem.)
* The faithfulness of the model to the C++ text: read by hand, each definition cites the lines it models. Tested by seeded wrong programs
  (section 5).

## 3. What is modelled

| C++ | model |
|---|---|
| `include/snn/tools/Tools.hpp`, `src/tools/Tools.cpp` | ToolsModel |
| `src/data/*`, `include/snn/data/*` (Data, Set, the six composites) | DataModel |
| `Wait.hpp/.cpp` (criteria, literals, `isOver`) | WaitModel |
| `StatisticAnalysis.*`, `computeCluster` | StatModel |
| activation functions | ActModel |
| CircularData, Neuron, SimpleNeuron, RecurrentNeuron, GatedRecurrentUnit, StochasticGradientDescent | NeuronModel |
| Layer, SimpleLayer, FullyConnected, Recurrence, GruLayer, FilterLayer, Convolution1D/2D, LocallyConnected1D/2D, MaxPooling1D/2D, Dropout, L1, L2, ErrorMultiplier, Softmax | LayerModel |
| LayerFactory, LayerOptimizerFactory, the constructors, every `isValid` | FactoryModel |
| NeuralNetwork (outputs, back-propagation, `trainOnce`, getters) | NetModel |
| StraightforwardNeuralNetwork (`computeOutput`, `computeCluster`, `train`, `trainSync`, `evaluate`, `saveAs`, `saveSync`) | TrainModel |
| `startTrainingAsync`, `stopTrainingAsync`, `waitFor`, `isTraining` and the flags, two threads | AsyncModel, AsyncWaitModel (waitFor) |
| every `serialize`, `loadFrom` | SaveModel |
| copy constructors and `clone()`, with pointers | CopyModel |
| every `operator==` | EqModel |
| NeuralNetworkVisualization, the part of BitmapImage it uses | VisualModel |

## 4. Simplifications, and what is not modelled

* Sizes and indices derived from vector lengths are natural numbers (no 2^31 limit); counts of samples and epochs are unbounded. Sizes given by
  the user to the factory are 32-bit integers with overflow as `UB`; a negative kernel size is not modelled faithfully for 2-D locally connected and pooling layers, so the theorems about
  built networks assume `sane_descriptions`/`sane_kernel`.
* `#pragma omp simd` sums are taken in index order. `powf(y, 2)` is `y * y`. `abs` in StatisticAnalysis is the float overload. `assert`s are
  ignored (NDEBUG). Promotions of `float` to `double` inside a formula are not modelled.
* The random generators: which values they give is an argument; their distribution is not modelled (C46 says so for `randomBetween`).
* `evaluate(data)` called directly by the user passes a null `wait` that is only dereferenced in a build with verbosity: the default build is
  modelled by `evaluateData`, the verbose one by `evaluateVerbose` (C61).
* Log messages (`tools::log`, progress, accuracy) are left out: they change nothing but the logging clock.
* After an exception the state is lost in the `outcome` type (the caller sees only that it threw); what remains of the flags after an
  exception is in AsyncModel (C57).
* AsyncModel: sequential consistency (the C++ members are plain `bool`s: formally a data race), one caller thread, data accepted by
  `validData`; the arithmetic is left out.
* SaveModel: the headers of the Boost archive are left out; that a finite `float` survives its decimal text, and that `is >> float` fails on
  `nan`/`inf`, are assumptions about the standard library, built into the model of the archive; the disk does not fail.
* CopyModel: destruction frees the cells; the table of activation functions is shared and immutable and not represented.
* VisualModel: the BMP encoding is left out; picture sizes are natural numbers; the conversions from float to int are parameters, with their
  binary32 instance in VisualFloat.
* Not modelled at all: `ExtendedException` (its text), `tests/`, `examples/`, dataset readers.

## 5. Seeded wrong programs

`tools/mutants.json` lists realistic edits of the model files; `tools/mutate.py` applies each in a scratch copy, rebuilds the theorems of the
claims it breaks, and appends the result to `seeded/LOG.jsonl` (`theorems_failed` lists everything that no longer builds, also downstream of the
first failing proof). Survivors led to new or tightened theorems (`theorems_tightened`): C58, C59 and others.

## 6. Per property

| id | property | what is modelled | how it is proved | status |
|---|---|---|---|---|
| C01 | Every training sample is used exactly once per epoch (non-temporal data) | DataModel: Data, its sets and composites; a shuffle takes the order drawn by the random generator as an argument | permutation invariant, induction on the list of operations | proved |
| C02 | A training batch is the mean of consecutive distinct samples, inputs and labels alike | DataModel: getTrainingData/getTrainingOutputs with a batch | loop invariant on the accumulation, any arithmetic | proved |
| C03 | Sequence boundaries of 3-D (sequential) data are flagged exactly | DataModel: flatten of 3-D data, CompositeForTemporalData | induction on the list of sequences | proved |
| C04 | shuffle() reorders whole sequences of sequential data | DataModel: CompositeForTemporalData::shuffle | the loop never swaps (its test is inverted): induction on histories; witness for the refutation | partial |
| C05 | Time-series shuffle trains only on genuine windows, each sample at most once per epoch | DataModel: CompositeForTimeSeries | loop invariant on the blocks, induction on histories | proved |
| C06 | Time-series visiting order is a permutation of the samples | DataModel: CompositeForTimeSeries | witness; unshuffle by computation of its loop | partial |
| C07 | normalize(min,max) maps the training inputs into [min,max] | DataModel: normalize | column invariant; over the reals, and monotone rounding in binary32 | partial |
| C08 | A Data set whose number of inputs and labels differ is rejected | DataModel: the constructors and isValid | exact decision of what is accepted | partial |
| C09 | getTrainingLabel(i) is the class of the sample getTrainingData(i) returns | DataModel: getTrainingLabel | case analysis; witness after a shuffle | partial |
| C10 | Stopping criteria joined by || stop as soon as one of them holds | WaitModel: operator||, isOver | induction on the tree of criteria | partial |
| C11 | Stopping criteria joined by && stop only when all of them hold | WaitModel: operator&&, isOver | induction on the tree of criteria | partial |
| C12 | Mixing || and && is always rejected | WaitModel: both operators | exact characterisation of the throwing cases | partial |
| C13 | train(data, n epochs, batch b, evaluation every f epochs) does exactly that | TrainModel: train, trainSync with the loops, emitting a log of events | induction on the fuel of the loops; safety invariant for termination without error | proved |
| C14 | Confusion counters partition the evaluations | StatModel: the counters | fold invariant | partial |
| C15 | Accuracy is the fraction of correctly treated samples and lies in [0,1] | StatModel, Flocq for binary32 | fold invariant, rounding lemmas | partial |
| C16 | Best-so-far metrics are the extremum over the history | StatModel: histories of tests | induction on the history | partial |
| C17 | MAE and RMSE are the mean absolute and root mean squared errors | StatModel over the reals | fold invariant | partial |
| C18 | computeCluster returns the index of the largest output | StatModel.clusterOf | fold invariant | partial |
| C19 | computeOutput is a pure function of the parameters for feed-forward networks | NetModel, LayerModel, NeuronModel | induction on layers and histories: outputs depend on the parameters only | proved |
| C20 | temporalReset gives recurrent layers a fresh start | NeuronModel: recurrent neurons and GRU | the flag is not used: computation; witness | partial |
| C21 | Once an output is not a normal number, training never changes a weight again | NetModel, TrainModel | invariant of the flag; induction on the log | proved |
| C22 | A training step follows the gradient of the squared error | GradProofs/DenseProofs: the training step of dense networks over the reals (Coquelicot derivatives) | chain rule by induction on the layers | proved |
| C23 | The bias weight follows the gradient too | same | computation of the update; witness | partial |
| C24 | Momentum accumulates the previous update | NeuronModel (any arithmetic), dense networks over the reals | induction on the steps | proved |
| C25 | Built layers chain with consistent sizes | FactoryModel, SafeProofs/SafeLayers/SafeNet | well-formedness invariant of layers and networks, preserved by every use; witnesses for the excluded cases | partial |
| C26 | Invalid architectures are rejected with an error, valid ones are not | FactoryModel: LayerFactory, isValid; AcceptSpec: the documented limits | necessary and sufficient condition per layer (sizes in int arithmetic), induction on the list of descriptions | partial |
| C27 | getNumberOfParameters counts the weights | FactoryModel | induction on the list of descriptions | proved |
| C28 | Convolution computes the discrete cross-correlation | LayerModel: Convolution1D/2D | index arithmetic of buildKernelIndexes; induction on histories | proved |
| C29 | Locally connected layers tile the input | LayerModel: LocallyConnected1D/2D | index arithmetic; counting argument for the refutation | partial |
| C30 | Max pooling returns the maximum of each window of each channel | LayerModel: MaxPooling1D/2D | index arithmetic; fold invariant of the maximum | partial |
| C31 | The backward pass of a filter layer is the transpose of its forward pass | LayerModel: backOutput of the filter layers over the reals | sums over positions and neurons | partial |
| C32 | The per-neuron queue returns, for the k-th back-propagation, the inputs of the k-th forward pass | NeuronModel: CircularData | invariant of the queue over rounds | partial |
| C33 | Dropout scales outputs at test time and masks the same neurons forward and backward | LayerModel: Dropout | case analysis; invariant of the mask | partial |
| C34 | Softmax yields a probability distribution preserving order | LayerModel: Softmax, reals and binary32 with expf a parameter | properties of exp; in binary32 induction on the running sum with the rounding error of each addition (Flocq), monotonicity of rounding, what fpclassify tells (SoftProps) | partial |
| C35 | Activation functions stay inside their declared range | ActModel, reals and binary32 | real analysis; monotonicity of rounding | partial |
| C36 | Activation derivatives are the derivatives | ActModel, Coquelicot | derivatives | partial |
| C37 | A saved network loads back to an equal network with the same predictions | SaveModel: serialize of every class on a stream of primitive values | reader/writer inversion by induction on the classes | partial |
| C38 | A copied network is equal to and independent of the original | CopyModel: objects in a heap with pointers; CopySpec: values | simulation between the heap and the values | partial |
| C39 | Network equality is an equivalence relation and implies equal predictions | EqModel: operator== of every class | induction on the structure; simulation for equal outputs | partial |
| C40 | stopTrainingAsync always ends the training | AsyncModel: interleavings of two threads | invariants and a ranking function over every schedule; witness schedule | partial |
| C41 | No two trainings run at once and no save happens during training | AsyncModel | invariants over every schedule; witness schedule | partial |
| C42 | Autosave writes exactly when the accuracy (or error) is better, and the file can be trained again | TrainModel: evaluate, saveSync | induction on the log; invariant | partial |
| C43 | 2-D and 3-D index maps are inverse bijections | ToolsModel: flatten/roughen | Euclidean division | partial |
| C44 | getMinValue/getMaxValue return the extremum of any non-empty vector | ToolsModel | fold invariant | partial |
| C45 | Durations print as hours/minutes/seconds with fields below 60 | ToolsModel | arithmetic | partial |
| C46 | randomBetween(min,max) returns an integer in [min,max) | ToolsModel | arithmetic on rand() | partial |
| C47 | Pictures of a network show what they are named after | VisualModel: the drawing functions; VisualFloat: binary32 instance of the conversions | loops over pixels as folds; VisualLocal: the loops that stamp the weights add them at distinct places, and a drawing loop paints the union of what its turns paint | partial |
| C48 | Statistics counters stay exact however long the test set is | StatModel in binary32 (Flocq) | exactness below 2^24; absorption above | partial |
| C49 | Layer regularisers add their penalty to every error and nothing else | LayerModel: L1, L2, ErrorMultiplier | computation of the loops | proved |
| C50 | Duration literals denote what they say | WaitModel: the literals | integer overflow analysis | partial |
| C51 | Parameter getters and setters are partial functions of the problem type | DataModel | case analysis over every data set | proved |
| C52 | A recurrent step computes the documented recurrence | NeuronModel: RecurrentNeuron, GatedRecurrentUnit | induction on the steps | partial |
| C53 | Time-series training covers the whole series | DataModel: CompositeForTimeSeries | pigeonhole over consecutive shuffles | proved |
| C54 | Numbers in the log columns are aligned and unambiguous | ToolsModel | decimal strings | proved |
| C55 | Flattening a 2-D vector keeps every element in order | ToolsModel | induction | proved |
| C56 | Each epoch of a training presents every sample exactly once | TrainModel and DataModel together | refinement of the log of the training by a small relation | proved |
| C57 | A training that fails leaves the network usable | AsyncModel with exceptions | witness; invariant that the flag stays | partial |
| C58 | What an evaluation reports is about this network and this test set | TrainModel: evaluate; EvalSpec: trials and answers | the loop refines the relation [answers]; induction on the training | proved |
| C59 | The number of trainings counts the learning steps | TrainModel | counting invariant over the log | proved |
| C60 | waitFor waits for what it is told | AsyncModel + AsyncWaitModel (waitFor, the member epoch) | inductive invariant relating epoch and the batches learned; ranking function under fairness for the return; explicit schedules for the refutations | partial |
| C61 | evaluate(data) looks and does not touch | TrainModel.evaluateData / evaluateVerbose, EvalSpec (trials, answers) | simulation between two runs of the evaluation loop whose networks have equal parameters (C19) and whose counters agree; every life is a sequence of uses (TrainUses.lived_uses); computed counterexamples | proved |
| C62 | A data set keeps the samples it was given | DataModel, TrainModel; SampleSpec: the histories of a data set | the stored rows are invariant under every operation (train by a generic data invariant over its run); permutation of the indexes from C12 | proved |
| C63 | summary() describes the network | SummaryModel (every summary method, as strings); SummarySpec: lines of label and value | each layer of a used network is the built layer up to weights (works_wf); the text is then read line by line | partial |
| C64 | What a network announces does not change, and isValid() says whether its weights are in range | FactoryModel.net_isValid, TrainModel | every life is a sequence of uses; the frame of each layer and the settings of its neurons are invariant | proved |
| C65 | The weighted clustering rate and the F1 score mean what they say | StatModel.computeWeightedClusteringRate, computeF1Score | the counters are the numbers of hits, members and claims (C14); algebra over the reals; in binary32 monotonicity of rounding, and halves and integers up to 2^24 are exact | proved |
| C66 | Training on a time series or on sequences respects time | TrainModel.trainSync on DataModel series and sequences | VisitSpec states plans of visits and when a log carries them out; a generic induction over the training loop with an invariant on the data preserved by shuffle, instantiated with the series invariant (SeriesProofs) and with the constant plan of sequences | proved |
| C67 | In networks mixing kinds of layers a training step follows the gradient | NetModel.trainOnce over the reals, every layer kind of LayerModel but GRU | MixSpec says which kinds and where the error is differentiable; each kind of layer is shown to be a differentiable unit whose backOutput returns the transposed derivative and whose train subtracts lr times it (MixLayers, MixKinds, MixRec, MixFilter, MixPool); induction on the chain of layers, histories by uses | partial |
| C68 | All the weights of recurrent and gated recurrent layers learn | NeuronModel recurrent and GRU neurons in any network | invariants over any history of uses (RecFrozen): the tail of the weights for any numbers, the zero previous output and hence zero error of the reset gate over the reals; derivatives of concrete networks computed with Coquelicot | partial |
| C69 | With dropouts and error multipliers a training step follows the gradient of the training pass | NetModel.trainOnce over the reals with the layer optimizers of LayerModel | ScaleSpec: error multipliers, the error of the training pass; a dropout is linear and the back pass multiplies by the mask the training pass left, a multiplier scales the error of all that precedes, so each layer is the unit of C67 times a factor (ScaleProofs) and induction on the chain gives the product (ScaleChain) | partial |
| C70 | Predictions are finite numbers | NetModel.net_output, net_outputForTraining and getLayerOutputs over Num32 | FiniteSpec: within, quiet networks, the bound each layer gives (next, reach) and when no sum can overflow (tame); rounding to nearest does not pass a representable bound (FiniteProofs), a sum of c products is within c 2^(w+e), which is representable for c < 2^24 (FiniteLayers), induction on layers and on the sequence of calls (FiniteNet, FiniteProps); the refutation computes 300 predictions in the kernel | proved |
| C71 | A prediction in floats is within an explicit bound of the exact one | NetModel.net_output over Num32 and over RNum | AccSpec: near, twin networks (same parameters as floats and as reals), the bound each layer gives (next_size, next_error, final_error). rnd_rel: relative error 2^-24 plus 2^-150 of one operation (Flocq); fold_acc: induction over the weighted sum; act_near: the four activation functions are 1-Lipschitz (tanh by the mean value theorem); the maximum too (AccLayers); paired runs of the same code in the two arithmetics, by induction over rows, neurons, optimizers and layers (AccLayers, AccNet) | proved |
| C72 | Training again and again on one sample learns it | NetModel.trainOnce over RNum | LearnSpec: repeated (n calls of trainOnce on the same sample), linear_network, squares. step_plain: one call acts on the error e and the bias weight b of each neuron as e := (1 - 2 lr (s + 1)) e + b, b := 2 lr e (from trainOnce_dense); contracts: a weighted maximum of |e| and |b| decreases geometrically when |h| + q < 1; grows: e + b/l is multiplied by the root l < -1 of l^2 = h l + q; an input of zeros makes o := 2 lr (d - o). Induction over the number of trainings | proved |
| C73 | Predicting while another thread trains the network | RaceModel (new): trainOnce and output cut into one step per call of a layer, two program counters, schedules as lists of turns | C73_training_alone / C73_prediction_alone: the steps of one thread without the other compute exactly NetModel.trainOnce / net_output (induction over the layers), so the cut is faithful. Safety: an invariant (sizes between the layers, vectors held by the two threads, error vectors that fit the layer to come, counters) kept by every step, induction over the schedule. Refutations: the schedule is run symbolically for every linear network; the torn prediction is a computed witness | partial |
| C74 | Predictions made between trainings do not change what is learned | NeuronModel, LayerModel, NetModel; LookSpec (calls, answers, indistinguishable) | paired runs: two networks equal up to the remembered inputs (same position of the queue), sums and maxima give the same answers and stay so; a forward pass of a training overwrites all that differs, because every queue is exactly one pass long (a convolution pushes once per window); a call that does not train turns every queue by a whole number of rounds. The constructor makes networks of that form. Refutations: induction over the calls after the flag is set; computed witness | partial |
| C75 | How often a network is evaluated during train() does not change what it learns | TrainModel, WaitModel; FreqSpec (clocked, steps) | simulation of the run with evaluations by the run without: the networks stay related by the relation of C74 (each test prediction is idle for it), the position is set again by the epoch, the decisions to continue agree because the rule ignores accuracy and error (induction over the literals and operators) | partial |
| C76 | evaluate() may be called while startTrainingAsync trains the network | ShareModel (program counters of trainSync and evaluate on one shared state, interleaved) | each thread alone refines train / evaluateData (induction on the fuel); invariant over the schedule (rows of the training set, count of the learned steps); the refutations build the schedule from the undisturbed runs: the network learned is independent of the statistics, so the run of the epoch can be replayed after the caller has started, and the index is then beyond the other set | partial |
| C77 | Training with batches of b samples is mini-batch gradient descent | TrainModel, DataModel (getTrainingData on batches), NetModel over the reals | the mean of the squared distances to o is the squared distance of the mean plus a constant, so C22 applies when the inputs agree; on a linear layer the error of the mean sample is the mean of the errors, which leaves a covariance; for whole trainings, the presentation of C56 and the invariant: first-layer input weights, activations and biases as before the training (a step on the zero vector keeps them) | partial |
| C78 | A training can be interrupted and resumed | TrainModel (train, trainSync), SaveModel | the first training and the whole one make the same epochs as long as the smaller bound is not reached; from there a simulation between the second training and the rest of the whole one (epoch shifted, checks shifted, the order of the data and the members equal), with C37 for the file and the relation of C75 for the evaluations | partial |
| C79 | The results of an evaluation do not depend on the order of the test samples | StatModel, TrainModel (evaluate) | the effect of a sample on the statistics is, output by output, to add one to a counter it designates and an error to a sum: two samples commute (the errors when sums do), hence all permutations by induction; the answers of the network to each sample are those of C19 whatever came before | proved |
| C80 | What convolutions and poolings see: the same pattern gives the same values wherever it is | LayerModel, FactoryModel, NetModel | the values of one convolution are the neuron applied to the window (C28); the place of the maximum among the cells of a complete tile depends only on their values (invariant of the search); composition by induction on the stack, where the receptive field grows | proved |
| C81 | A network that is already right is left alone | NeuronModel, LayerModel, NetModel, TrainModel | no error at the outputs gives no error at any layer (induction from the last layer on the backpropagated sums of GradProofs); the step of the optimizer with error 0; a network at rest is an invariant of the presentation of the epochs (C56) | partial |
| C82 | A network file cut short is never taken for a network | SaveModel, TrainModel, CrashModel (a file cut short, the content of the file at a crash) | every reader takes values from the front of the file only (closed under the combinators of SaveModel); a network ends with seven values of which the first is the only text of the file, so the position of the text read is known and the file cannot be shorter; the last value by the exact reading of C37; which save is in the file by induction on the history; the file of the automatic save is an invariant of the training | partial |
| C83 | Options of layers that have no effect change nothing | LayerModel, NetModel, FactoryModel; NeutralFloat (binary32 as the type of Flocq) | options put into a list are proved idle (identity on outputs, on errors, and unchanged by a training) and removed from the three loops over the options, the numbering of the draws shifted; the layers, the chains of layers, trainOnce and the calls follow by a relation between the two networks that every call keeps; the factory builds the one from the other. The trainings (TrainModel, SaveModel): epochs, batches, evaluations and waits are pushed through the same relation, so the decision to stop is the same | partial |
| C84 | An error multiplier on the last layer is a learning rate | NeuronModel, LayerModel, NetModel, FactoryModel, TrainModel with the real numbers | a relation between the two networks: equal but for the stored errors, which are multiplied by c in the one; each function of the neurons (simple, recurrent, GRU), of the layers (dense, filters, pooling), of the options and of the network maps related states and errors scaled by c to related states and errors scaled by c; RateTrain pushes any relation kept by the calls of a network through epochs, evaluations, waits and saves, for any arithmetic | proved |
| C85 | A layer whose errors are multiplied by 0 does not learn, nor do the layers before it | NeuronModel, LayerModel, NetModel, FactoryModel, TrainModel with the real numbers | C84 with c = 0 relates the network to one with the rate 0; for the rate 0 an invariant (no previous change is other than 0, each neuron has its first weights or lost its bias) is kept by every function of the neurons, layers and network; the two together go through the trainings by the generic induction of RateTrain; FrozenLayers keeps for the layers up to the one with the multiplier that errors which are 0 stay 0 on the way back, whatever the later layers do | proved |

The exact scope of each theorem, and what is missing for the partial ones, is in the `note` of MANIFEST.json. A `_refuted` theorem is a proof that the code does not have the property as stated; it is kept beside the strongest positive statement.

## 7. What Print Assumptions lists for each theorem

`R` = ClassicalDedekindReals.sig_forall_dec, ClassicalDedekindReals.sig_not_dec, FunctionalExtensionality.functional_extensionality_dep (the axioms of the standard library's real numbers); `C` = Classical_Prop.classic in addition (used inside Flocq and Coquelicot). No mark: closed under the global context.

* **R**: `C07_normalize_partial`, `C15_accuracy_real`, `C17_errors_partial`, `C26_accepted_real`, `C26_dense_accepted`, `C26_empty_kernel_refuted`, `C30_orders`, `C31_convolution1D_partial`, `C31_convolution2D_partial`, `C31_convolution_refuted`, `C31_locally1D_partial`, `C31_locally1D_refuted`, `C31_locally2D`, `C32_sum_of_position_refuted`, `C35_gelu_refuted`, `C37_equality_laws`, `C39_number_laws`, `C39_reflexive_real`, `C49_regularisers`, `C52_gru_refuted`, `C58_accuracy_real`, `C65_evaluation_scores_real`, `C65_scores_real`, `C68_reset_gate_never_learns_refuted`, `C69_softmax_refuted`, `C72_always_trains`, `C72_any_accuracy`, `C72_constructed`, `C72_one_sample_learned`, `C72_perfect_network_spoiled_refuted`, `C72_too_fast_diverges`, `C72_zero_input_refuted`, `C73_torn_prediction_refuted`, `C73_wrong_input_learned_refuted`, `C77_centred_batch_refuted`, `C77_constructed`, `C77_only_a_constant_refuted`, `C79_sums_of_reals`, `C81_momentum_goes_on_partial`, `C81_right_network_kept_partial`, `C81_right_network_spoiled_refuted`, `C81_right_sample_partial`, `C83_options_of_zero_partial`, `C83_trainings_zero_partial`, `C84_multiplier_is_rate`, `C84_trainings`, `C84_without_regularization`, `C85_layers_before`, `C85_layers_trainings`, `C85_trainings`, `C85_zero_multiplier`.
* **R + C**: `C07_exact_bounds`, `C07_normalize_float_partial`, `C14_counting`, `C15_accuracy_float`, `C16_best_float_partial`, `C20_refuted`, `C22_step_is_gradient_descent`, `C23_bias_weight_is_overwritten_refuted`, `C24_first_step`, `C24_momentum_network`, `C26_accepted_float`, `C34_order_float_refuted`, `C34_shift_float_refuted`, `C34_softmax`, `C34_softmax_float_partial`, `C34_softmax_layer`, `C35_range_float`, `C35_range_float_partial`, `C35_range_partial`, `C36_derivative_partial`, `C36_iSigmoid_refuted`, `C47_grid_binary32`, `C47_local_drawn_partial`, `C47_weight_level`, `C48_exact_counts_partial`, `C48_exact_counts_refuted`, `C58_accuracy_float`, `C65_evaluation_scores_float`, `C65_regression_scores_zero`, `C65_scores_float`, `C67_momentum_step`, `C67_step_is_gradient_descent`, `C68_recurrent_step_refuted`, `C68_reset_gate_refuted`, `C68_update_gate_refuted`, `C69_regularization_refuted`, `C69_scaled_momentum_step`, `C69_scaled_step`, `C70_new_network_finite`, `C70_predictions_finite`, `C70_recurrence_refuted`, `C70_valid_bounded_finite`, `C70_valid_network_finite`, `C71_cancellation_refuted`, `C71_flat_networks`, `C71_prediction_accuracy`, `C77_linear_exact_partial`, `C77_same_inputs_partial`, `C83_binary32`, `C83_trainings_binary32`.
* **closed**: `C01_each_sample_once`, `C02_batch_is_mean`, `C03_sequence_boundaries_one_set`, `C03_sequence_boundaries_two_sets`, `C04_reordering_refuted`, `C04_sequences_stay_in_place_partial`, `C04_sequences_stay_in_place_two_sets_partial`, `C05_short_series_is_undefined`, `C05_time_series_windows`, `C06_time_series_permutation_refuted`, `C06_unshuffle_restores_order_partial`, `C07_above_the_bound_refuted`, `C07_normalize_constant_column_refuted`, `C07_overflow_refuted`, `C08_acceptance_partial`, `C08_flat_sequential_rejected_partial`, `C08_mismatch_accepted_refuted`, `C09_label_after_shuffle_refuted`, `C09_label_matches_when_unshuffled_partial`, `C10_clock_wrap_refuted`, `C10_or_partial`, `C10_zero_threshold_refuted`, `C11_and_partial`, `C11_mae_refuted`, `C12_mixing_partial`, `C12_mixing_refuted`, `C13_counts`, `C13_label_without_one_throws`, `C13_schedule`, `C13_train_exact`, `C14_confusion_counters_partial`, `C14_nan_refuted`, `C15_refuted`, `C16_best_partial`, `C16_f1_rmse_refuted`, `C17_errors_refuted`, `C18_cluster_partial`, `C18_cluster_refuted`, `C19_outputs_are_pure`, `C19_parameters_decide`, `C20_reset_ignored_refuted`, `C21_abnormal_output`, `C21_training_stops`, `C24_momentum_neuron`, `C25_last_convolution_refuted`, `C25_partial`, `C25_pooling1D_refuted`, `C25_pooling2D_refuted`, `C26_accepted_iff`, `C26_invalid_rejected`, `C26_large_inputs_refuted`, `C26_negative_input_refuted`, `C26_negative_kernel_1D`, `C26_negative_kernel_refuted`, `C26_negative_pooling_refuted`, `C26_optimizer_checked`, `C26_undefined_refuted`, `C27_counts_the_weights`, `C27_number_of_parameters`, `C28_convolution1D`, `C28_convolution2D`, `C29_locally1D`, `C29_locally2D_partial`, `C29_locally2D_refuted`, `C29_tiles_partition`, `C30_channels1D_refuted`, `C30_high2D_refuted`, `C30_pooling1D_partial`, `C30_pooling2D_partial`, `C30_wide2D_refuted`, `C32_rounds_partial`, `C33_convolution_refuted`, `C33_dropout_partial`, `C37_loadable_iff_finite`, `C37_nan_forgotten_refuted`, `C37_saved_loads_equal_partial`, `C37_unreadable_file_refuted`, `C38_copy_differs_refuted`, `C38_copy_equal_partial`, `C38_independent`, `C38_networks_are_values`, `C39_equal_same_outputs_partial`, `C39_not_reflexive_refuted`, `C39_optimizers_refuted`, `C39_reflexive_partial`, `C39_symmetric_partial`, `C39_transitive`, `C40_lost_stop_refuted`, `C40_seen_then_stopped_partial`, `C40_stop_returns_partial`, `C41_declared_training_protected_partial`, `C41_just_started_refuted`, `C41_one_training_at_a_time`, `C41_save_during_training_refuted`, `C42_saved_exactly_when_better_partial`, `C42_saved_network_unusable_refuted`, `C43_grid_2D_bijection`, `C43_grid_3D_partial`, `C43_roughenZ_refuted`, `C44_extremum_partial`, `C44_singleton_refuted`, `C45_recombination_refuted`, `C45_short_durations_partial`, `C46_random_partial`, `C46_random_refuted`, `C47_convolution_weights_refuted`, `C47_input_drawn`, `C47_local_edge_refuted`, `C47_local_filters_refuted`, `C47_local_pixels_partial`, `C47_local_weights_partial`, `C47_local_weights_refuted`, `C47_many_channels_refuted`, `C47_not_while_training`, `C47_outputs_drawn`, `C47_pooling_weights_refuted`, `C47_range_refuted`, `C47_two_channels_refuted`, `C50_literals_partial`, `C50_literals_refuted`, `C51_precision_only_for_regression`, `C52_gru_partial`, `C52_recurrent`, `C53_time_series_coverage`, `C54_log_columns`, `C54_numbers_are_distinguished`, `C55_flatten_concatenates`, `C56_batches_partition`, `C56_epochs_present_each_sample_once`, `C57_exception_blocks_refuted`, `C58_evaluations`, `C58_one_answer_per_sample`, `C59_number_of_trainings`, `C59_plain_trainings`, `C60_comes_back_partial`, `C60_default_only_nan`, `C60_epochs_learned_partial`, `C60_nothing_to_wait_for_refuted`, `C60_stale_epoch_refuted`, `C60_time_has_passed`, `C61_evaluate`, `C61_other_width_refuted`, `C61_recurrent_refuted`, `C61_same_parameters_same_figures`, `C61_verbose_refuted`, `C62_samples_survive`, `C63_epochs_refuted`, `C63_locally_name_refuted`, `C63_recurrent_shapes_refuted`, `C63_summary_partial`, `C64_announced_for_life`, `C64_nan_is_valid_refuted`, `C65_scores_refuted`, `C66_sequences`, `C66_series`, `C68_gru_biases_never_learn_refuted`, `C68_recurrent_bias_never_learns_refuted`, `C73_every_schedule_partial`, `C73_prediction_alone`, `C73_training_alone`, `C74_abnormal_prediction_refuted`, `C74_only_trainings_matter_partial`, `C74_recurrent_refuted`, `C74_same_trainings_same_network_partial`, `C74_used_network_partial`, `C75_by_the_clock_partial`, `C75_evaluation_frequency_partial`, `C75_recurrent_refuted`, `C76_each_alone`, `C76_every_schedule`, `C76_out_of_bounds_refuted`, `C76_wrong_samples_refuted`, `C78_recurrent_refuted`, `C78_resumed_partial`, `C78_stopped_refuted`, `C78_through_a_file_partial`, `C78_with_evaluations_partial`, `C79_abnormal_refuted`, `C79_any_order`, `C79_float_error_refuted`, `C79_recurrent_refuted`, `C80_locally_connected_refuted`, `C80_moved2D`, `C80_output2D`, `C80_receptive_field1D`, `C80_receptive_field2D`, `C82_after_a_crash_partial`, `C82_autosave_one_file`, `C82_best_network_lost_refuted`, `C82_cut_file_partial`, `C82_cut_file_throws`, `C82_cut_value_throws`, `C82_damaged_file_refuted`, `C82_previous_network_lost_refuted`, `C82_saved_until_next_save`, `C83_options_of_one`, `C83_trainings`, `C84_binary32_refuted`, `C85_predictions_kept_refuted`, `network_layers`.
