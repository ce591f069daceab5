#!/usr/bin/env python3
# Writes /verif/DESIGN.md: hand-written parts below, tables from properties.jsonl, MANIFEST.json and tools/assumptions.json.
import json
V='/verif'
P=[json.loads(l) for l in open(V+'/properties.jsonl')]
M={c['property']:c for c in json.load(open(V+'/MANIFEST.json'))['claims']}
A=json.load(open(V+'/tools/assumptions.json'))
HOW={
'C01':('DataModel: Data, its sets and composites; a shuffle takes the order drawn by the random generator as an argument','permutation invariant, induction on the list of operations'),
'C02':('DataModel: getTrainingData/getTrainingOutputs with a batch','loop invariant on the accumulation, any arithmetic'),
'C03':('DataModel: flatten of 3-D data, CompositeForTemporalData','induction on the list of sequences'),
'C04':('DataModel: CompositeForTemporalData::shuffle','the loop never swaps (its test is inverted): induction on histories; witness for the refutation'),
'C05':('DataModel: CompositeForTimeSeries','loop invariant on the blocks, induction on histories'),
'C06':('DataModel: CompositeForTimeSeries','witness; unshuffle by computation of its loop'),
'C07':('DataModel: normalize','column invariant; over the reals, and monotone rounding in binary32'),
'C08':('DataModel: the constructors and isValid','exact decision of what is accepted'),
'C09':('DataModel: getTrainingLabel','case analysis; witness after a shuffle'),
'C10':('WaitModel: operator||, isOver','induction on the tree of criteria'),
'C11':('WaitModel: operator&&, isOver','induction on the tree of criteria'),
'C12':('WaitModel: both operators','exact characterisation of the throwing cases'),
'C13':('TrainModel: train, trainSync with the loops, emitting a log of events','induction on the fuel of the loops; safety invariant for termination without error'),
'C14':('StatModel: the counters','fold invariant'),
'C15':('StatModel, Flocq for binary32','fold invariant, rounding lemmas'),
'C16':('StatModel: histories of tests','induction on the history'),
'C17':('StatModel over the reals','fold invariant'),
'C18':('StatModel.clusterOf','fold invariant'),
'C19':('NetModel, LayerModel, NeuronModel','induction on layers and histories: outputs depend on the parameters only'),
'C20':('NeuronModel: recurrent neurons and GRU','the flag is not used: computation; witness'),
'C21':('NetModel, TrainModel','invariant of the flag; induction on the log'),
'C22':('GradProofs/DenseProofs: the training step of dense networks over the reals (Coquelicot derivatives)','chain rule by induction on the layers'),
'C23':('same','computation of the update; witness'),
'C24':('NeuronModel (any arithmetic), dense networks over the reals','induction on the steps'),
'C25':('FactoryModel, SafeProofs/SafeLayers/SafeNet','well-formedness invariant of layers and networks, preserved by every use; witnesses for the excluded cases'),
'C26':('FactoryModel: LayerFactory, isValid; AcceptSpec: the documented limits','necessary and sufficient condition per layer (sizes in int arithmetic), induction on the list of descriptions'),
'C27':('FactoryModel','induction on the list of descriptions'),
'C28':('LayerModel: Convolution1D/2D','index arithmetic of buildKernelIndexes; induction on histories'),
'C29':('LayerModel: LocallyConnected1D/2D','index arithmetic; counting argument for the refutation'),
'C30':('LayerModel: MaxPooling1D/2D','index arithmetic; fold invariant of the maximum'),
'C31':('LayerModel: backOutput of the filter layers over the reals','sums over positions and neurons'),
'C32':('NeuronModel: CircularData','invariant of the queue over rounds'),
'C33':('LayerModel: Dropout','case analysis; invariant of the mask'),
'C34':('LayerModel: Softmax, reals and binary32 with expf a parameter','properties of exp; in binary32 induction on the running sum with the rounding error of each addition (Flocq), monotonicity of rounding, what fpclassify tells (SoftProps)'),
'C35':('ActModel, reals and binary32','real analysis; monotonicity of rounding'),
'C36':('ActModel, Coquelicot','derivatives'),
'C37':('SaveModel: serialize of every class on a stream of primitive values','reader/writer inversion by induction on the classes'),
'C38':('CopyModel: objects in a heap with pointers; CopySpec: values','simulation between the heap and the values'),
'C39':('EqModel: operator== of every class','induction on the structure; simulation for equal outputs'),
'C40':('AsyncModel: interleavings of two threads','invariants and a ranking function over every schedule; witness schedule'),
'C41':('AsyncModel','invariants over every schedule; witness schedule'),
'C42':('TrainModel: evaluate, saveSync','induction on the log; invariant'),
'C43':('ToolsModel: flatten/roughen','Euclidean division'),
'C44':('ToolsModel','fold invariant'),
'C45':('ToolsModel','arithmetic'),
'C46':('ToolsModel','arithmetic on rand()'),
'C47':('VisualModel: the drawing functions; VisualFloat: binary32 instance of the conversions','loops over pixels as folds; VisualLocal: the loops that stamp the weights add them at distinct places, and a drawing loop paints the union of what its turns paint'),
'C48':('StatModel in binary32 (Flocq)','exactness below 2^24; absorption above'),
'C49':('LayerModel: L1, L2, ErrorMultiplier','computation of the loops'),
'C50':('WaitModel: the literals','integer overflow analysis'),
'C51':('DataModel','case analysis over every data set'),
'C52':('NeuronModel: RecurrentNeuron, GatedRecurrentUnit','induction on the steps'),
'C53':('DataModel: CompositeForTimeSeries','pigeonhole over consecutive shuffles'),
'C54':('ToolsModel','decimal strings'),
'C55':('ToolsModel','induction'),
'C56':('TrainModel and DataModel together','refinement of the log of the training by a small relation'),
'C57':('AsyncModel with exceptions','witness; invariant that the flag stays'),
'C58':('TrainModel: evaluate; EvalSpec: trials and answers','the loop refines the relation [answers]; induction on the training'),
'C60':('AsyncModel + AsyncWaitModel (waitFor, the member epoch)','inductive invariant relating epoch and the batches learned; ranking function under fairness for the return; explicit schedules for the refutations'),
'C61':('TrainModel.evaluateData / evaluateVerbose, EvalSpec (trials, answers)','simulation between two runs of the evaluation loop whose networks have equal parameters (C19) and whose counters agree; every life is a sequence of uses (TrainUses.lived_uses); computed counterexamples'),
'C62':('DataModel, TrainModel; SampleSpec: the histories of a data set','the stored rows are invariant under every operation (train by a generic data invariant over its run); permutation of the indexes from C12'),
'C63':('SummaryModel (every summary method, as strings); SummarySpec: lines of label and value','each layer of a used network is the built layer up to weights (works_wf); the text is then read line by line'),
'C64':('FactoryModel.net_isValid, TrainModel','every life is a sequence of uses; the frame of each layer and the settings of its neurons are invariant'),
'C65':('StatModel.computeWeightedClusteringRate, computeF1Score','the counters are the numbers of hits, members and claims (C14); algebra over the reals; in binary32 monotonicity of rounding, and halves and integers up to 2^24 are exact'),
'C66':('TrainModel.trainSync on DataModel series and sequences','VisitSpec states plans of visits and when a log carries them out; a generic induction over the training loop with an invariant on the data preserved by shuffle, instantiated with the series invariant (SeriesProofs) and with the constant plan of sequences'),
'C67':('NetModel.trainOnce over the reals, every layer kind of LayerModel but GRU','MixSpec says which kinds and where the error is differentiable; each kind of layer is shown to be a differentiable unit whose backOutput returns the transposed derivative and whose train subtracts lr times it (MixLayers, MixKinds, MixRec, MixFilter, MixPool); induction on the chain of layers, histories by uses'),
'C68':('NeuronModel recurrent and GRU neurons in any network','invariants over any history of uses (RecFrozen): the tail of the weights for any numbers, the zero previous output and hence zero error of the reset gate over the reals; derivatives of concrete networks computed with Coquelicot'),
'C69':('NetModel.trainOnce over the reals with the layer optimizers of LayerModel','ScaleSpec: error multipliers, the error of the training pass; a dropout is linear and the back pass multiplies by the mask the training pass left, a multiplier scales the error of all that precedes, so each layer is the unit of C67 times a factor (ScaleProofs) and induction on the chain gives the product (ScaleChain)'),
'C70':('NetModel.net_output, net_outputForTraining and getLayerOutputs over Num32','FiniteSpec: within, quiet networks, the bound each layer gives (next, reach) and when no sum can overflow (tame); rounding to nearest does not pass a representable bound (FiniteProofs), a sum of c products is within c 2^(w+e), which is representable for c < 2^24 (FiniteLayers), induction on layers and on the sequence of calls (FiniteNet, FiniteProps); the refutation computes 300 predictions in the kernel'),
'C71':('NetModel.net_output over Num32 and over RNum','AccSpec: near, twin networks (same parameters as floats and as reals), the bound each layer gives (next_size, next_error, final_error). rnd_rel: relative error 2^-24 plus 2^-150 of one operation (Flocq); fold_acc: induction over the weighted sum; act_near: the four activation functions are 1-Lipschitz (tanh by the mean value theorem); the maximum too (AccLayers); paired runs of the same code in the two arithmetics, by induction over rows, neurons, optimizers and layers (AccLayers, AccNet)'),
'C72':('NetModel.trainOnce over RNum','LearnSpec: repeated (n calls of trainOnce on the same sample), linear_network, squares. step_plain: one call acts on the error e and the bias weight b of each neuron as e := (1 - 2 lr (s + 1)) e + b, b := 2 lr e (from trainOnce_dense); contracts: a weighted maximum of |e| and |b| decreases geometrically when |h| + q < 1; grows: e + b/l is multiplied by the root l < -1 of l^2 = h l + q; an input of zeros makes o := 2 lr (d - o). Induction over the number of trainings'),
'C73':('RaceModel (new): trainOnce and output cut into one step per call of a layer, two program counters, schedules as lists of turns','C73_training_alone / C73_prediction_alone: the steps of one thread without the other compute exactly NetModel.trainOnce / net_output (induction over the layers), so the cut is faithful. Safety: an invariant (sizes between the layers, vectors held by the two threads, error vectors that fit the layer to come, counters) kept by every step, induction over the schedule. Refutations: the schedule is run symbolically for every linear network; the torn prediction is a computed witness'),
'C74':('NeuronModel, LayerModel, NetModel; LookSpec (calls, answers, indistinguishable)','paired runs: two networks equal up to the remembered inputs (same position of the queue), sums and maxima give the same answers and stay so; a forward pass of a training overwrites all that differs, because every queue is exactly one pass long (a convolution pushes once per window); a call that does not train turns every queue by a whole number of rounds. The constructor makes networks of that form. Refutations: induction over the calls after the flag is set; computed witness'),
'C75':('TrainModel, WaitModel; FreqSpec (clocked, steps)','simulation of the run with evaluations by the run without: the networks stay related by the relation of C74 (each test prediction is idle for it), the position is set again by the epoch, the decisions to continue agree because the rule ignores accuracy and error (induction over the literals and operators)'),
'C76':('ShareModel (program counters of trainSync and evaluate on one shared state, interleaved)','each thread alone refines train / evaluateData (induction on the fuel); invariant over the schedule (rows of the training set, count of the learned steps); the refutations build the schedule from the undisturbed runs: the network learned is independent of the statistics, so the run of the epoch can be replayed after the caller has started, and the index is then beyond the other set'),
'C77':('TrainModel, DataModel (getTrainingData on batches), NetModel over the reals','the mean of the squared distances to o is the squared distance of the mean plus a constant, so C22 applies when the inputs agree; on a linear layer the error of the mean sample is the mean of the errors, which leaves a covariance; for whole trainings, the presentation of C56 and the invariant: first-layer input weights, activations and biases as before the training (a step on the zero vector keeps them)'),
'C78':('TrainModel (train, trainSync), SaveModel','the first training and the whole one make the same epochs as long as the smaller bound is not reached; from there a simulation between the second training and the rest of the whole one (epoch shifted, checks shifted, the order of the data and the members equal), with C37 for the file and the relation of C75 for the evaluations'),
'C79':('StatModel, TrainModel (evaluate)','the effect of a sample on the statistics is, output by output, to add one to a counter it designates and an error to a sum: two samples commute (the errors when sums do), hence all permutations by induction; the answers of the network to each sample are those of C19 whatever came before'),
'C80':('LayerModel, FactoryModel, NetModel','the values of one convolution are the neuron applied to the window (C28); the place of the maximum among the cells of a complete tile depends only on their values (invariant of the search); composition by induction on the stack, where the receptive field grows'),
'C81':('NeuronModel, LayerModel, NetModel, TrainModel','no error at the outputs gives no error at any layer (induction from the last layer on the backpropagated sums of GradProofs); the step of the optimizer with error 0; a network at rest is an invariant of the presentation of the epochs (C56)'),
'C82':('SaveModel, TrainModel, CrashModel (a file cut short, the content of the file at a crash)','every reader takes values from the front of the file only (closed under the combinators of SaveModel); a network ends with seven values of which the first is the only text of the file, so the position of the text read is known and the file cannot be shorter; the last value by the exact reading of C37; which save is in the file by induction on the history; the file of the automatic save is an invariant of the training'),
'C83':('LayerModel, NetModel, FactoryModel; NeutralFloat (binary32 as the type of Flocq)','options put into a list are proved idle (identity on outputs, on errors, and unchanged by a training) and removed from the three loops over the options, the numbering of the draws shifted; the layers, the chains of layers, trainOnce and the calls follow by a relation between the two networks that every call keeps; the factory builds the one from the other. The trainings (TrainModel, SaveModel): epochs, batches, evaluations and waits are pushed through the same relation, so the decision to stop is the same'),
'C84':('NeuronModel, LayerModel, NetModel, FactoryModel, TrainModel with the real numbers','a relation between the two networks: equal but for the stored errors, which are multiplied by c in the one; each function of the neurons (simple, recurrent, GRU), of the layers (dense, filters, pooling), of the options and of the network maps related states and errors scaled by c to related states and errors scaled by c; RateTrain pushes any relation kept by the calls of a network through epochs, evaluations, waits and saves, for any arithmetic'),
'C85':('NeuronModel, LayerModel, NetModel, FactoryModel, TrainModel with the real numbers','C84 with c = 0 relates the network to one with the rate 0; for the rate 0 an invariant (no previous change is other than 0, each neuron has its first weights or lost its bias) is kept by every function of the neurons, layers and network; the two together go through the trainings by the generic induction of RateTrain; FrozenLayers keeps for the layers up to the one with the multiplier that errors which are 0 stay 0 on the way back, whatever the later layers do'),
'C59':('TrainModel','counting invariant over the log'),
}
EXTRA={}
try: exec(open(V+'/tools/design_extra.py').read())
except FileNotFoundError: pass
HOW.update(EXTRA)
o=open(V+'/tools/design_head.md').read()
o+='\n## 6. Per property\n\n| id | property | what is modelled | how it is proved | status |\n|---|---|---|---|---|\n'
for p in P:
    i=p['id']; h=HOW[i]; o+=f"| {i} | {p['title']} | {h[0]} | {h[1]} | {M[i]['status']} |\n"
o+='\nThe exact scope of each theorem, and what is missing for the partial ones, is in the `note` of MANIFEST.json. A `_refuted` theorem is a proof that the code does not have the property as stated; it is kept beside the strongest positive statement.\n'
o+='\n## 7. What Print Assumptions lists for each theorem\n\n`R` = ClassicalDedekindReals.sig_forall_dec, ClassicalDedekindReals.sig_not_dec, FunctionalExtensionality.functional_extensionality_dep (the axioms of the standard library\'s real numbers); `C` = Classical_Prop.classic in addition (used inside Flocq and Coquelicot). No mark: closed under the global context.\n\n'
from collections import defaultdict
g=defaultdict(list)
for c in M.values():
    for t in c['theorems']:
        ax=set(A['axioms'][t]); k='closed'
        if ax: k='R'
        if 'Classical_Prop.classic' in ax: k='R + C'
        extra=ax-{'ClassicalDedekindReals.sig_forall_dec','ClassicalDedekindReals.sig_not_dec','FunctionalExtensionality.functional_extensionality_dep','Classical_Prop.classic'}
        if extra: k+=' + '+', '.join(sorted(extra))
        if t not in g[k]: g[k].append(t)
for k in sorted(g): o+=f"* **{k}**: "+', '.join(f'`{t}`' for t in sorted(g[k]))+'.\n'
open(V+'/DESIGN.md','w').write(o)
