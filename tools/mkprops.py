import json
P=[]
def p(id,title,statement,quant,why,anchors):
    P.append(dict(id=id,title=title,statement=statement,quantifier=quant,why_tests_cant=why,anchors=anchors))
D="src/data/"; NN="src/neural_network/"; L=NN+"layer/"; O=NN+"optimizer/"; IH="include/snn/neural_network/"
IT='include/snn/tools/'
p("C01","Every training sample is used exactly once per epoch (non-temporal data)",
 "For a Data set built with nature::nonTemporal, after any number of calls to shuffle() and unshuffle(), the samples that getTrainingData(0..size-1) exposes are a rearrangement of the training set: each sample appears exactly once, and getTrainingOutputs(i) always returns the label row of the very sample that getTrainingData(i) returns.",
 "every data set, every sequence of shuffle/unshuffle calls, every outcome of the random generator, every index",
 "the shuffle is random: a test sees a handful of permutations out of N!",
 [D+"CompositeForNonTemporalData.cpp: shuffle, unshuffle",D+"Data.cpp: initialize, getTrainingData",D+"ProblemComposite.cpp: getTrainingOutputs"])
p("C02","A training batch is the mean of consecutive distinct samples, inputs and labels alike",
 "getTrainingData(i,b) and getTrainingOutputs(i,b) with b>1 return the component-wise mean of the b rows visited at positions i..i+b-1, and both use the same rows; with b<=1 they return the row itself. No access leaves the arrays when i+b<=size.",
 "every data set with rectangular rows, every index and batch size with i+b<=size, every shuffle state",
 "all batch sizes and offsets, including the 2-row special case, cannot be enumerated",
 [D+"Data.cpp: getTrainingData",D+"ProblemComposite.cpp: getTrainingOutputs"])
p("C03","Sequence boundaries of 3-D (sequential) data are flagged exactly",
 "When a Data set is built from a list of non-empty sequences, sample i is reported as the first of its sequence exactly when it is, a testing sample is evaluated exactly when it is the last of its sequence, and the flattened samples keep their order.",
 "every list of non-empty sequences, for the one-set and the two-set constructors, every index",
 "arbitrary numbers and lengths of sequences",
 [D+"Data.cpp: flatten",D+"CompositeForTemporalData.cpp"])
p("C04","shuffle() reorders whole sequences of sequential data",
 "For sequential data, shuffle() visits every sequence exactly once, each in its own order, in a random order of the sequences.",
 "every list of sequences, every random generator outcome, any number of shuffles",
 "needs every permutation of every family of sequences",
 [D+"CompositeForTemporalData.cpp: constructor, shuffle"])
p("C05","Time-series shuffle trains only on genuine windows, each sample at most once per epoch",
 "For nature::timeSeries with r recurrences and at least r+1 samples, after any number of shuffles: every index exposed is inside the training set; every sample the network is told to learn on that is not in the initial prefix is preceded by the r samples that precede it in the series, the window starting with a 'first of sequence' mark; and no sample is learnt twice in the same epoch.",
 "every size>=r+1, every r>=1, every number of previous shuffles, every block permutation drawn",
 "offset, rest and permutation interact over many epochs; tests cover a few sizes only",
 [D+"CompositeForTimeSeries.cpp: constructor, shuffle, unshuffle"])
p("C06","Time-series visiting order is a permutation of the samples",
 "After shuffle() on time-series data every training sample is still visited once per epoch.",
 "every size, r, offset and permutation",
 "stale tail positions only show for particular (size, offset, permutation) triples",
 [D+"CompositeForTimeSeries.cpp: shuffle"])
p("C07","normalize(min,max) maps the training inputs into [min,max]",
 "After normalize(lo,hi) with lo<=hi every training value lies in [lo,hi], each non-constant column reaches both bounds, order inside a column is preserved, and the testing set is transformed by the same affine map.",
 "every rectangular data set and all bounds lo<=hi (in the reals, and in binary32)",
 "values are continuous; columns that are constant are the case tests miss",
 [D+"Data.cpp: normalize"])
p("C08","A Data set whose number of inputs and labels differ is rejected",
 "Constructing Data with a different number of input rows and label rows, or otherwise inconsistent, throws instead of yielding an object whose accessors read out of bounds.",
 "every combination of four row counts",
 "the validity test is a conjunction of four comparisons: only an exhaustive argument shows which inconsistent data it lets through",
 [D+"Data.cpp: isValid, initialize",D+"CompositeForClassification.cpp: isValid",D+"CompositeForNonTemporalData.cpp: isValid"])
p("C09","getTrainingLabel(i) is the class of the sample getTrainingData(i) returns",
 "For classification data, in every shuffle state, getTrainingLabel(i) is the index of the 1 in getTrainingOutputs(i), hence belongs to the sample returned by getTrainingData(i).",
 "every classification data set, every shuffle state, every index",
 "depends on the random permutation drawn",
 [D+"CompositeForClassification.cpp: getTrainingLabel"])
p("C10","Stopping criteria joined by || stop as soon as one of them holds",
 "train(data, a || b || ...) stops exactly when at least one of the given criteria (epochs, accuracy, MAE, duration) is met.",
 "every list of criteria with every threshold, every epoch, accuracy, MAE and elapsed time",
 "combinations of thresholds including 0 and absent ones",
 [NN+"Wait.cpp: operator||, isOver, literals"])
p("C11","Stopping criteria joined by && stop only when all of them hold",
 "train(data, a && b && ...) stops exactly when every given criterion is met.",
 "every list of criteria, every measurement",
 "combinations of present and absent criteria",
 [NN+"Wait.cpp: operator&&, isOver"])
p("C12","Mixing || and && is always rejected",
 "Any expression combining criteria with both operators throws, whatever the parenthesisation and size; expressions using a single operator never throw.",
 "every expression tree over criteria",
 "unbounded expression trees",
 [NN+"Wait.cpp: operator||, operator&&"])
p("C13","train(data, n epochs, batch b, evaluation every f epochs) does exactly that",
 "With an epoch criterion n>0 alone and no NaN, train runs exactly n epochs of floor(N/b) steps each at positions 0,b,2b,..., evaluates once at the start and after every epoch divisible by f when f>0, never when f=0, and terminates with the network idle again.",
 "every data size, n, b>=1, f>=0",
 "all loop bounds at once; off-by-one in any of three nested loops",
 [NN+"StraightforwardNeuralNetwork.cpp: trainSync, continueTraining, evaluate, resetTrainingValues"])
p("C14","Confusion counters partition the evaluations",
 "After evaluating a set, for every label TP+TN+FP+FN equals the number of evaluated samples, and well-classified + misclassified equals the number of evaluations counted, for the three problem types; resetting by starting a new test clears all of them.",
 "every sequence of outputs and labels (not NaN), every number of labels",
 "arbitrary histories of evaluations",
 [NN+"StatisticAnalysis.cpp: startTesting, evaluateOnceFor*"])
p("C15","Accuracy is the fraction of correctly treated samples and lies in [0,1]",
 "getGlobalClusteringRate() after a test is (number of correct samples)/(number of samples), where correct means: classification - the label's output is the strict first maximum and above the separator rules of the code; multiple classification - all outputs on the right side of the separator; regression - all outputs within the precision.",
 "every evaluation sequence of length >= 1",
 "arbitrary sequences and outputs",
 [NN+"StatisticAnalysis.cpp: evaluateOnceFor*, computeGlobalClusteringRate"])
p("C16","Best-so-far metrics are the extremum over the history",
 "getGlobalClusteringRateMax, getWeightedClusteringRateMax, getF1ScoreMax are the maxima and getMeanAbsoluteErrorMin, getRootMeanSquaredErrorMin the minima of the values reported over all evaluations so far.",
 "every history of evaluations",
 "monotonicity over unbounded histories",
 [NN+"StatisticAnalysis.cpp: stopTesting"])
p("C17","MAE and RMSE are the mean absolute and root mean squared errors",
 "getMeanAbsoluteError and getRootMeanSquaredError report the mean absolute error and the root of the mean squared error of the evaluated outputs.",
 "every sequence of outputs and desired outputs (real arithmetic)",
 "numerical identity over all inputs",
 [NN+"StatisticAnalysis.cpp: computeMeanAbsoluteError, computeRootMeanSquaredError"])
p("C18","computeCluster returns the index of the largest output",
 "computeCluster(x) returns the smallest index whose output is maximal.",
 "every output vector",
 "all real vectors, including those below the initial sentinel",
 [NN+"StraightforwardNeuralNetwork.cpp: computeCluster"])
p("C19","computeOutput is a pure function of the parameters for feed-forward networks",
 "For networks of fully-connected, convolution, locally-connected and pooling layers, computeOutput never changes weights or the training counters, and its result depends only on the parameters and the input, not on previous calls of any kind (computeOutput, outputs for training).",
 "every network, every history of calls, every input",
 "arbitrary call histories",
 [NN+"NeuralNetwork.cpp: output",L+"neuron/SimpleNeuron.cpp: output",IH+"layer/Layer.tpp: output"])
p("C20","temporalReset gives recurrent layers a fresh start",
 "When the sample is flagged as first of its sequence, the output of a recurrent (Recurrence or GRU) layer depends only on the weights and this input, not on what was computed before.",
 "every weight, input, and history",
 "histories are unbounded",
 [L+"neuron/RecurrentNeuron.cpp: output, reset",L+"neuron/GatedRecurrentUnit.cpp: output, reset"])
p("C21","Once an output is not a normal number, training never changes a weight again",
 "If any output of the network was infinite, NaN or subnormal during an output computation, training stops at the next check, and no later trainOnce changes any weight, for any subsequent history on that object.",
 "every later history of inputs and desired outputs",
 "needs every continuation",
 [NN+"NeuralNetwork.cpp: output, outputForTraining, backpropagationAlgorithm, hasNan"])
p("C22","A training step follows the gradient of the squared error",
 "For a network of fully-connected layers without layer optimizers, momentum 0 and batch size 1, a training step moves each input weight by exactly -learningRate * d/dw of the sum over outputs of (desired-output)^2, all derivatives taken at the weights before the step.",
 "every depth, every layer width, every weight vector, every input and desired output, every activation whose derivative is correct (real arithmetic)",
 "a derivative statement over all reals and all depths; numeric gradient checks only sample it",
 [NN+"NeuralNetwork.cpp: backpropagationAlgorithm, calculateError",L+"neuron/SimpleNeuron.cpp: backOutput, train",O+"StochasticGradientDescent.cpp: updateWeights",IH+"layer/SimpleLayer.tpp"])
p("C23","The bias weight follows the gradient too",
 "A training step moves the bias weight of a neuron by -learningRate times the derivative with respect to it; in particular a zero error with zero momentum leaves it unchanged.",
 "every neuron, error and history",
 "any value of weights and errors",
 [O+"StochasticGradientDescent.cpp: updateWeights(SimpleNeuron), updateWeights(RecurrentNeuron)"])
p("C24","Momentum accumulates the previous update",
 "With momentum m each input weight's update is learningRate/batchSize * error * input + m * (previous update of this weight), over any sequence of training steps.",
 "every sequence of training steps",
 "unbounded sequences",
 [O+"StochasticGradientDescent.cpp: updateWeights"])
p("C25","Built layers chain with consistent sizes",
 "Every network the constructor accepts from a list of layer descriptions maps an input of the declared size through all layers without reading out of bounds, and each layer's output has exactly the number of values its shape announces and the next layer expects.",
 "every accepted list of layer descriptions",
 "arbitrary architectures",
 [L+"LayerFactory.cpp: build, computeNumberOfOutputs, computeNumberOfKernels, computeNumberOfInputs"])
p("C26","Invalid architectures are rejected with an error, valid ones are not",
 "The constructor throws for: no Input layer first, fewer than 2 descriptions, more than 1000 descriptions, an input larger than 2073600 values, empty shapes, more than 3 dimensions where unsupported, an empty layer, a kernel larger than its input, a layer with more than 1000000 inputs, neurons or weights per neuron, a learning rate outside ]0,1[ or a momentum outside [0,1]; and it accepts every other list of layers.",
 "every list of layer descriptions",
 "arbitrary architectures",
 [L+"LayerFactory.cpp",NN+"NeuralNetwork.cpp: isValid"])
p("C27","getNumberOfParameters counts the weights",
 "getNumberOfParameters() equals the total number of weights the layers hold: per fully connected layer n*(inputs+1), recurrence n*(inputs+2), GRU 3*n*(inputs+2), convolution filters*(kernel volume+1), locally connected filters*positions*(kernel volume+1), pooling 0.",
 "every accepted architecture",
 "arbitrary architectures",
 [NN+"NeuralNetwork.cpp: getNumberOfParameters",IH+"layer/Layer.tpp: getNumberOfParameters",L+"LayerFactory.cpp"])
p("C28","Convolution computes the discrete cross-correlation",
 "Output (filter f, position p) of a convolution layer is the activation of the sum over channels and kernel offsets of the input inside the window starting at p times the filter's weight plus bias; every window lies inside the input; all positions of a filter share the same weights.",
 "every input shape, kernel size 1..size, filter number, channel number, and input",
 "arbitrary shapes; window arithmetic errors are shape-dependent",
 [L+"Convolution1D.cpp",L+"Convolution2D.cpp",L+"FilterLayer.cpp"])
p("C29","Locally connected layers tile the input",
 "Each output of a locally connected layer reads its own window; windows are disjoint, lie in the input (missing border cells are skipped), cover every input cell, and neuron (position, filter) reads window 'position'.",
 "every shape, kernel size and filter number",
 "arbitrary shapes (non-square, non-multiple sizes)",
 [L+"LocallyConnected1D.cpp",L+"LocallyConnected2D.cpp"])
p("C30","Max pooling returns the maximum of each window of each channel",
 "Output (position, channel) of a max pooling layer is the maximum of the in-range values of the window in this channel; and the backward pass sends each error exactly to a position that attained the maximum, and 0 elsewhere.",
 "every shape, kernel size, channel number and input",
 "arbitrary shapes and ties",
 [L+"MaxPooling1D.cpp",L+"MaxPooling2D.cpp"])
p("C31","The backward pass of a filter layer is the transpose of its forward pass",
 "For convolution and locally connected layers the error returned for input cell i is the sum, over exactly the (neuron, weight) pairs that multiplied cell i in the forward pass, of weight * neuron error.",
 "every shape, weight and error vector",
 "arbitrary shapes, adjoint identity",
 [L+"Convolution1D.cpp: computeBackOutput",L+"Convolution2D.cpp: computeBackOutput",L+"LocallyConnected1D.cpp: computeBackOutput",L+"LocallyConnected2D.cpp: computeBackOutput"])
p("C32","The per-neuron queue returns, for the k-th back-propagation, the inputs of the k-th forward pass",
 "A neuron used at b positions (batch b) that is asked for b outputs and then b back-propagations uses, at the k-th back-propagation, the inputs and the sum of the k-th output - in every round.",
 "every b>=1 and every number of rounds",
 "unbounded rounds, wrap-around of a circular buffer",
 [L+"neuron/CircularData.cpp",L+"neuron/SimpleNeuron.cpp"])
p("C33","Dropout scales outputs at test time and masks the same neurons forward and backward",
 "At test time a dropout layer multiplies each output by 1-rate (the expectation of training); in training each output is either kept or zeroed, and errors are masked by the very same mask; the mask only changes when a temporal sequence starts.",
 "every output vector, every random draw, every rate",
 "random masks",
 [O+"Dropout.cpp"])
p("C34","Softmax yields a probability distribution preserving order",
 "At test and training time softmax outputs are in (0,1], sum to 1, preserve the order of the outputs (hence computeCluster) and do not change when a constant is added to every output.",
 "every non-empty output vector (real arithmetic)",
 "continuous domain",
 [O+"Softmax.cpp"])
p("C35","Activation functions stay inside their declared range",
 "Each activation function's value lies between its declared minimum and maximum for every input.",
 "every real input",
 "continuous domain",
 [L+"neuron/activation_function/ActivationFunction.cpp",IH+"layer/neuron/activation_function/*.hpp"])
p("C36","Activation derivatives are the derivatives",
 "derivative(x) is the derivative of function at x, for every activation function and every x (for ReLU every x<>0).",
 "every real input",
 "continuous domain; finite differences only sample",
 [IH+"layer/neuron/activation_function/*.hpp"])
p("C37","A saved network loads back to an equal network with the same predictions",
 "loadFrom(saveAs(nn)) == nn and computes the same outputs, and training it further gives the same parameters.",
 "every network state reachable, every input",
 "every reachable state must survive, including training-in-progress state",
 ["include/snn/**/*.hpp: serialize",NN+"StraightforwardNeuralNetwork.cpp: saveAs, loadFrom, operator=="])
p("C38","A copied network is equal to and independent of the original",
 "A copy of a network compares equal to it; training the copy leaves the original unchanged and conversely.",
 "every network, every later history on either object",
 "arbitrary histories",
 [NN+"StraightforwardNeuralNetwork.cpp: copy constructor, operator==",NN+"NeuralNetwork.cpp: copy constructor",L+"*.cpp: clone"])
p("C39","Network equality is an equivalence relation and implies equal predictions",
 "operator== on networks is reflexive, symmetric and transitive, does not read out of bounds, and equal feed-forward networks compute equal outputs.",
 "every pair / triple of networks",
 "all triples",
 [NN+"NeuralNetwork.cpp: operator==",IH+"layer/Layer.tpp: operator==","src/neural_network/layer/neuron/SimpleNeuron.cpp: operator==","src/neural_network/layer/neuron/Neuron.cpp: operator==","src/neural_network/optimizer/StochasticGradientDescent.cpp: operator=="])
p("C40","stopTrainingAsync always ends the training",
 "After startTrainingAsync, a call to stopTrainingAsync returns under every fair schedule, and when it returns no training is in progress.",
 "every interleaving of the caller and the training thread",
 "the losing interleaving is a window of a few instructions",
 [NN+"StraightforwardNeuralNetwork.cpp: startTrainingAsync, stopTrainingAsync, trainSync"])
p("C41","No two trainings run at once and no save happens during training",
 "train, startTrainingAsync and saveAs never run concurrently with a training in progress on the same network: they throw or wait.",
 "every interleaving",
 "interleavings",
 [NN+"StraightforwardNeuralNetwork.cpp: train, startTrainingAsync, saveAs, isTraining"])
p("C42","Autosave writes exactly when the accuracy (or error) is better, and the file can be trained again",
 "With autoSaveWhenBetter, a file is written at the end of exactly those evaluations where the tested metric improved on the best so far; a network loaded from it is idle and can be trained.",
 "every history of evaluations",
 "unbounded histories",
 [NN+"StraightforwardNeuralNetwork.cpp: evaluate, saveSync",NN+"StatisticAnalysis.cpp: stopTesting"])
p("C43","2-D and 3-D index maps are inverse bijections",
 "flatten(x,y,..) and roughenX/Y/Z are inverse bijections between the grid and the range of indices.",
 "every grid size and index",
 "all sizes",
 ["include/snn/tools/Tools.hpp: flatten, roughenX, roughenY, roughenZ"])
p("C44","getMinValue/getMaxValue return the extremum of any non-empty vector",
 "getMinValue and getMaxValue return an element of the vector that bounds all the others, for every non-empty vector, and throw only for the empty one.",
 "every vector",
 "all lengths",
 ["include/snn/tools/Tools.hpp: getMinValue, getMaxValue"])
p("C45","Durations print as hours/minutes/seconds with fields below 60",
 "toString(duration) denotes the duration: hours, minutes<60, seconds<60 recombine to the given time.",
 "every duration",
 "all durations",
 ["include/snn/tools/Tools.hpp: toString"])
p("C46","randomBetween(min,max) returns an integer in [min,max)",
 "The integer randomBetween returns a value v with min<=v<max for every min<max and every draw of the generator.",
 "every pair min<max and every random draw",
 "random draws, sign combinations",
 ["src/tools/Tools.cpp: randomBetween"])
p("C47","Pictures of a network show what they are named after",
 "saveFilterLayersAsBitmap writes one picture per layer with a two-dimensional output, in which every output of the layer for the chosen test row appears as one pixel at its own place, inside the picture; saveData2DAsBitmap shows the test row; saveFeatureMapsAsBitmap shows the weights of every filter; nothing is written while a training is under way, and the network is not changed.",
 "every accepted network in every state, every test row, every number and size of filters",
 "arbitrary layer sizes, grid sizes and outputs; undefined conversions that happen to work on one machine",
 [NN+"NeuralNetworkVisualization.cpp", NN+"StraightforwardNeuralNetwork.cpp: saveFeatureMapsAsBitmap, saveData2DAsBitmap, saveFilterLayersAsBitmap"])
p("C48","Statistics counters stay exact however long the test set is",
 "The counters of correct and incorrect samples count exactly, so the accuracy of a test set of any size is right.",
 "every number of evaluated samples (binary32 arithmetic)",
 "would need more than 2^24 evaluations",
 [IH+"StatisticAnalysis.hpp: numberOfDataWellClassified"])
p("C49","Layer regularisers add their penalty to every error and nothing else",
 "L1/L2 regularisation add value*(sum of |w|)/(number of neurons) (resp. value*(sum of w^2)/(number of neurons)) over the layer's weights to every error; ErrorMultiplier multiplies every error by its factor; outputs are never changed by these three.",
 "every layer, weights, errors",
 "all vectors",
 [O+"L1Regularization.cpp",O+"L2Regularization.cpp",O+"ErrorMultiplier.cpp"])
p("C50","Duration literals denote what they say",
 "n_ms, n_s, n_min denote n milliseconds, seconds, minutes for every n representable in the API.",
 "every n (int overflow included)",
 "overflow only at huge n",
 [NN+"Wait.cpp: operator\"\"_ms, _s, _min"])
p("C51","Parameter getters and setters are partial functions of the problem type",
 "setPrecision/getPrecision succeed exactly for regression data and setSeparator/getSeparator exactly for classification data; a successful set is what the next get returns; a failed set changes nothing.",
 "every problem type, every history of get/set",
 "histories",
 [D+"Data.cpp: setPrecision, getPrecision, setSeparator, getSeparator"])
p("C52","A recurrent step computes the documented recurrence",
 "A recurrent neuron's output is f(w.x + wr*previous output + wb*bias) where previous output is its last output; GRU combines update, reset and output gates as u*o+(1-u)*previous with the layer's previous output.",
 "every input sequence",
 "unbounded sequences",
 [L+"neuron/RecurrentNeuron.cpp: output",L+"neuron/GatedRecurrentUnit.cpp: output"])
p("C53","Time-series training covers the whole series",
 "For time-series data with r recurrences and at least r+1 samples, every training sample is learnt at least once in any r+1 consecutive epochs, whatever happened before.",
 "every series, every r, every earlier history, every outcome of the random generator",
 "random generator and history",
 [D+"TemporalComposite.cpp",D+"CompositeForTimeSeries.cpp: shuffle"])
p("C54","Numbers in the log columns are aligned and unambiguous",
 "toConstSizeString(value, n) is the decimal text of value preceded by spaces only, exactly n characters long when the text fits and the bare text otherwise; different values have different texts.",
 "every int and every width", "all values", [IT+"Tools.hpp: toConstSizeString"])
p("C55","Flattening a 2-D vector keeps every element in order",
 "flatten(v) is the concatenation of the rows of v, whatever their lengths.",
 "every vector of vectors", "all shapes", [IT+"Tools.hpp: flatten(vector2D)"])
p("C56","Each epoch of a training presents every sample exactly once",
 "Training on non temporal data: in every epoch, train makes steps that go through all the training samples in some order, b at a time and without using any of them twice; each step is exactly one trainOnce on the batch (the sample itself or the mean of the b samples, inputs and labels in step), and between the steps the network is only asked for outputs.",
 "every data set, batch size, number of epochs, outcome of the shuffles, earlier history of the data",
 "the order is random and depends on the whole history",
 ["src/neural_network/StraightforwardNeuralNetwork.cpp: trainSync", "src/data/Data.cpp: getTrainingData, shuffle"])
p("C57","A training that fails leaves the network usable",
 "If train() is left by an exception (for example a testing label without a 1), the network is idle again: it can be saved and trained on other data.",
 "every point at which the exception is thrown, every later sequence of calls",
 "every failure point and every later history",
 ["src/neural_network/StraightforwardNeuralNetwork.cpp: train, trainSync, saveAs"])
p("C58","What an evaluation reports is about this network and this test set",
 "Each time train() evaluates, every sample of the testing set of the data passed is shown once, in order, to the network as it is at that moment (with its memory cleared at the start of a sequence or series), the expected outputs are those of the same sample, the separator or precision is the one of the data set, and the statistics reported afterwards are those of exactly these answers: one per sample, or the last one of each sequence. So the reported accuracy is the fraction of the testing samples answered correctly.",
 "every network, data set (plain, sequential, time series), problem type, training history and evaluation in it",
 "the evaluations depend on the whole history of the training",
 ["src/neural_network/StraightforwardNeuralNetwork.cpp: evaluate, evaluateOnce, trainSync", "src/neural_network/NeuralNetwork.cpp: evaluateOnceForRegression, evaluateOnceForClassification", "src/data/Data.cpp: getTestingData, needToEvaluateOnTestingData"])
p("C59","The number of trainings counts the learning steps",
 "getNumberOfTraining() is 0 for a new network, grows by one for every learning step of a training and by nothing else; after n undisturbed epochs on plain data it has grown by n * floor(samples / batch size).",
 "every network, data set, batch size, training", "every history",
 ["src/neural_network/NeuralNetwork.cpp: trainOnce, getNumberOfTraining"])
p("C60","waitFor waits for what it is told",
 "waitFor(n_ep), called on a network that startTrainingAsync is training, returns, and not before n whole epochs of that training have been learned (or an output became NaN); waitFor(n_ms) does not return before n milliseconds; waitFor(Wait()) returns only if an output becomes NaN.",
 "every schedule of the two threads, program of API calls made before, criterion, moment at which a NaN or an exception occurs",
 "the outcome depends on the interleaving of the two threads",
 ["src/neural_network/StraightforwardNeuralNetwork.cpp: waitFor, trainSync, startTrainingAsync", "src/neural_network/Wait.cpp: isOver"])
p("C61","evaluate(data) looks and does not touch",
"evaluate(data), called by the user on a network that is not training, with data of the format of the network, comes back; it changes no parameter, not the number of trainings, not the data set, and leaves the network ready to train; the figures it reports are those of the answers of this network on the test samples of the data. For feed-forward networks the figures depend on the parameters and the test samples only: evaluating twice, after other predictions, on a copy, or after shuffling the data gives the same accuracy, F1, MAE and RMSE. (Refuted for recurrent networks, whose memory is carried from one evaluation to the next; evaluate does not check the format of the data as train does; and compiled with verbosity it dereferences a null pointer.)",
"all constructed networks, all lives (predictions, trainings, evaluations, saves), all data sets of the right format, plain, time series or sequences, all numbers",
"a test evaluates one network on one data set; that nothing but parameters and samples matters quantifies over histories",
["src/neural_network/StraightforwardNeuralNetwork.cpp: evaluate, validData","include/snn/neural_network/StraightforwardNeuralNetwork.hpp: evaluate(data)","src/neural_network/StatisticAnalysis.cpp: startTesting, stopTesting"])

p("C62","A data set keeps the samples it was given",
"Whatever has been done with a Data object - shuffled, unshuffled, read, used for training or evaluation by any networks any number of times - its test samples are those given at construction, in order, with their labels; whatever input and expected output are read at a training position belong together and are one of the given training samples; and unshuffle() restores every training sample to the position it was given at. (normalize is excluded: it changes the inputs on purpose.)",
"all four constructors, all sample lists, all histories of operations, trainings and evaluations",
"a test makes one history; that no interleaving of shuffles and trainings loses, duplicates or mismatches a sample is a statement about all of them",
["src/data/Data.cpp: shuffle, unshuffle, getTrainingData, getTrainingOutputs, getTestingData, getTestingLabel, getTestingOutputs"])

p("C63","summary() describes the network",
"summary() never fails on a constructed network, whatever has been done with it; it shows the number of parameters, the number of trainings, and one paragraph per layer, in order, with the layer's name, the shape it takes, its neurons or filters and kernel size, its number of parameters, its activation, the shape it gives and its optimizers as described by the user, then the learning rate and momentum. (Refuted: the input and output shapes of Recurrence and GruLayer are exchanged; the name of a locally connected layer is not followed by a newline; after a training of n epochs it says n+1.)",
"all architectures, all histories of predictions and training steps, all printings of floats",
"that the text agrees with the description for every layer kind, shape and history is a statement about all of them",
["src/neural_network/StraightforwardNeuralNetwork.cpp: summary","src/neural_network/layer/*.cpp: summary","src/neural_network/optimizer/*.cpp: summary"])

p("C64","What a network announces does not change, and isValid() says whether its weights are in range",
"Whatever predictions, trainings, evaluations and saves a constructed network has gone through, getNumberOfInputs, getNumberOfOutputs, getNumberOfParameters, the shapes and optimizers of its layers, the learning rate and the momentum are those it was built with; and isValid() returns 0 if every parameter is between -100000 and 10000, 303 otherwise, and no other code. (Refuted as a health check: parameters that have become NaN are not seen.)",
"all architectures, all lives, all numbers",
"a test runs one life of one network",
["src/neural_network/NeuralNetwork.cpp: isValid, getNumberOfInputs, getNumberOfOutputs, getNumberOfParameters","src/neural_network/layer/neuron/Neuron.cpp: isValid","include/snn/neural_network/layer/Layer.tpp: isValid"])

p("C65","The weighted clustering rate and the F1 score mean what they say",
"After an evaluation of a classifier getWeightedClusteringRate() is the mean over the classes of the part of the class's test samples the network recognised (output above the separator), getF1Score() the mean over the classes of the F1 score (twice the hits over members plus claims); both are between 0 and 1, and 1 exactly when every class occurs and is found (claimed for exactly its members). In binary32, up to 2^24 samples and classes, both are still finite, between 0 and 1, and exactly 1 for a perfect test; for a regression both are always 0. (Refuted: agreement with the accuracy - a network that classifies every sample well may have F1 score 0 -, and a class absent from the test set counts for 0, so a perfect network gets less than 1.)",
"all test sets, all outputs, all numbers of classes, all histories",
"the rounded sums and quotients must stay in range for every combination of counts",
["src/neural_network/StatisticAnalysis.cpp: computeWeightedClusteringRate, computeF1Score, stopTesting","include/snn/neural_network/StatisticAnalysis.hpp: getF1Score, getWeightedClusteringRate"])

p("C66","Training on a time series or on sequences respects time",
"On a time series with r recurrences, train() makes one plan per epoch: each learning step on a sample comes directly after forward passes over its r predecessors in time order (for the first r samples: all of them), the network's memory is cleared exactly at the start of such a run, no sample is learned twice in an epoch, and any r+1 epochs in a row learn every sample. On sequences every epoch takes the sequences in the given order, each from start to end, learns every element with its own label and clears the memory exactly at the start of each sequence. Each visit is one trainOnce or one forward pass on exactly that sample; between visits the network is only asked for outputs or saved. All this whatever was done with the data before.",
"all networks, series, numbers of recurrences, sequences, random generators, histories of the data, stopping points",
"the offset moves from epoch to epoch and blocks are shuffled: the runs must fit for every permutation, offset and length",
["src/neural_network/StraightforwardNeuralNetwork.cpp: trainSync","src/data/CompositeForTimeSeries.cpp: shuffle, isFirstTrainingDataOfTemporalSequence","src/data/CompositeForTemporalData.cpp: shuffle, isFirstTrainingDataOfTemporalSequence, needToTrainOnTrainingData","src/data/Data.cpp: shuffle, getTrainingData"])

p("C67","In networks mixing kinds of layers a training step follows the gradient",
"For a network of fully connected, recurrent, locally connected, convolution and max pooling layers in any order, in any state of use, where the squared error is differentiable, one trainOnce moves the weight of every input of every neuron by minus the learning rate times the derivative of the squared error with respect to this weight; with momentum, the second of two steps in a row adds the momentum times the first move.",
"all networks of these kinds in which the layer passes errors back exactly (C31), all weights, inputs, desired outputs, learning rates, momentums, histories",
"gradient checking tests a few weights of a few networks at one point and to a tolerance; the statement is exact and for every architecture",
["src/neural_network/NeuralNetwork.cpp: trainOnce, backpropagationAlgorithm","include/snn/neural_network/layer/Layer.tpp: backOutput, train","src/neural_network/layer/neuron/RecurrentNeuron.cpp","src/neural_network/layer/Convolution1D.cpp","src/neural_network/layer/LocallyConnected2D.cpp","src/neural_network/layer/MaxPooling2D.cpp","src/neural_network/optimizer/StochasticGradientDescent.cpp"])

p("C68","All the weights of recurrent and gated recurrent layers learn",
"Training moves every weight of a recurrent neuron (inputs, previous output, bias) and of the three gates of a gated recurrent unit against the derivative of the error. Refuted: the bias weights of recurrent and GRU layers keep forever the value drawn by the constructor, the correction meant for the bias goes to the weight of the previous output, the reset gate of a GRU never changes, and the update gate can move the wrong way.",
"all networks containing a recurrent or GRU layer, all histories of predictions and trainings",
"a network with frozen biases or gates still trains, so accuracy tests pass; that a weight never moves is about every history",
["src/neural_network/optimizer/StochasticGradientDescent.cpp: updateWeights (recurrent neuron)","src/neural_network/layer/neuron/RecurrentNeuron.cpp","src/neural_network/layer/neuron/GatedRecurrentUnit.cpp: backOutput, train"])

p("C69","With dropouts and error multipliers a training step follows the gradient of the training pass",
"For a network of the kinds of C67 whose layers carry any dropouts and error multipliers, one trainOnce moves the weight of every input of every neuron by minus the learning rate times the product of the error multipliers of its layer and the following ones times the derivative of the squared error of the training pass, the outputs with exactly the neurons dropped that this pass drops; with momentum the second of two steps adds momentum times the first move. Refuted for Softmax, which passes errors back unchanged (a weight without any influence on the error moves), and for L1/L2 regularization, which shift the error by a constant (a weight at the minimum of the error grows with a positive input).",
"all networks of these kinds, all optimizers lists of dropouts and multipliers, all random masks, states of use, inputs, desired outputs",
"dropout is random and the training pass cannot be observed without training; the statement fixes the very mask drawn and is exact for every architecture",
["include/snn/neural_network/layer/Layer.tpp: outputForTraining, backOutput","src/neural_network/optimizer/Dropout.cpp","src/neural_network/optimizer/ErrorMultiplier.cpp","src/neural_network/optimizer/Softmax.cpp","src/neural_network/optimizer/L1Regularization.cpp","src/neural_network/NeuralNetwork.cpp: backpropagationAlgorithm"])

p("C70","Predictions are finite numbers",
"Whatever sequence of predictions, training-mode outputs and inspections a network has answered, with inputs of the declared size, every prediction is a vector of finite floats: neither infinite nor NaN. With weights up to 2^w, at most 2^k per neuron, biases up to 1 and inputs up to 2^e, the outputs are bounded by an explicit power of two as long as no sum can pass 2^125; layers with sigmoid, tanh or gaussian, and recurrent ones, bring the bound back to 1, Softmax too. A new network of L layers accepts inputs up to 2^e with e + 22 L <= 125. Refuted for recurrent layers with an unbounded activation function: with initial weights the code can draw, always the same input and temporalReset always set, the predictions grow and become infinite after 300 calls.",
"all architectures, all weights and inputs within the bounds, all library functions expf and tanhf with the elementary bounds stated, all sequences of calls, in binary32",
"overflow depends on the size of every weight and sum; a test sees a few networks whose numbers are small",
["src/neural_network/NeuralNetwork.cpp: output, outputForTraining","src/neural_network/layer/neuron/SimpleNeuron.cpp","src/neural_network/layer/neuron/RecurrentNeuron.cpp","src/neural_network/layer/neuron/GatedRecurrentUnit.cpp","src/neural_network/layer/neuron/Neuron.cpp: randomInitializeWeight","src/neural_network/layer/neuron/activation_function"])

p("C71","A prediction in floats is within an explicit bound of the exact one",
"Take a network of dense, convolution, locally connected and pooling layers with sigmoid, tanh, ReLU or identity, any dropout, and the same network computed with real numbers. If tanhf is within delta of tanh, the inputs are up to B and off by at most d, and each neuron has at most n weights whose absolute values add up to at most A, then every output is a finite float whose distance to the exact output is bounded by following the layers: the error is multiplied by A, plus 3 n (A B 2^-24 + 2^-150) for the weighted sum, plus delta + 3*2^-24 for the activation function, plus one rounding per dropout; pooling adds nothing. With L layers of sigmoid or tanh and inputs between -1 and 1 that is c (1 + A + ... + A^(L-1)). The error is not small next to the output: a new network can predict 0 where the exact prediction is 1.",
"all such networks, weights and inputs within the bounds, all library functions tanhf with the stated accuracy, in binary32 against real arithmetic",
"rounding depends on every weight and input; a test compares a few predictions to a few decimals",
["src/neural_network/NeuralNetwork.cpp: output","src/neural_network/layer/neuron/SimpleNeuron.cpp: output","src/neural_network/layer/Convolution1D.cpp","src/neural_network/layer/LocallyConnected2D.cpp","src/neural_network/layer/MaxPooling1D.cpp","src/neural_network/layer/neuron/activation_function","src/neural_network/optimizer/Dropout.cpp: applyAfterOutputForTesting"])

p("C72","Training again and again on one sample learns it",
"Take a network with one fully connected layer of identity neurons, no momentum and no layer optimizer, and train it again and again on the same input x and label d. Write s for the sum of the squares of x. In exact arithmetic: if s > 0 and learningRate * (s + 2) < 1, the error of every output falls geometrically, so any accuracy is reached and kept. If learningRate * (s + 2) > 1, each output has at most one label for which its error stays bounded. An input of zeros is never learned: since the update of a bias weight replaces it, the prediction goes to 2 lr / (1 + 2 lr) of the label and not to the label. For the same reason a network that already predicts the label exactly is spoiled by one training on that sample: each output becomes wrong by the bias weight it had.",
"all such networks with any weights, inputs, labels, learning rates, random draws and numbers of trainings, in real arithmetic",
"convergence is about every number of trainings; a test runs a few hundred on one starting point",
["src/neural_network/NeuralNetwork.cpp: trainOnce, backpropagationAlgorithm","src/neural_network/layer/neuron/SimpleNeuron.cpp: back, train","src/neural_network/optimizer/StochasticGradientDescent.cpp: updateWeights"])

p("C73","Predicting while another thread trains the network",
"computeOutput may be called while a training thread runs (nothing prevents it). Whatever the schedule, no call reads or writes out of range, every prediction has the size of the output, the architecture stays, each training is counted once, and the network can be used afterwards. One would also expect that a prediction does not disturb the training and is the answer the network gives at some moment. Both are false: a prediction made between the forward and the backward half of a training step makes the step learn the input of the prediction in place of its own, and a prediction that overlaps a training step can be an answer that neither the old nor the new network gives.",
"all constructed networks after any use, all lists of trainings and predictions, all schedules of the two threads (at the grain of one call of a layer)",
"it is about every interleaving of two threads",
["src/neural_network/StraightforwardNeuralNetwork.cpp: computeOutput, startTrainingAsync","src/neural_network/NeuralNetwork.cpp: output, outputForTraining, backpropagationAlgorithm, trainOnce","src/neural_network/layer/neuron/SimpleNeuron.cpp: output, train"])

p("C74","Predictions made between trainings do not change what is learned",
"Calling computeOutput or reading the outputs of the layers between calls of trainOnce (with any inputs, any number of times, and any temporalReset) does not change the result of the training: the weights, the count of trainings and every later answer are those of the same trainings without the other calls. True of every feed-forward network as long as no predicted value is infinite, NaN or subnormal. False otherwise: one such prediction stops the training for good, and a recurrent network keeps its last prediction as memory even with temporalReset.",
"all constructed feed-forward networks (dense, convolution, locally connected, pooling, with any layer optimizer), all sequences of calls with inputs of any size and content, any arithmetic",
"it is about every sequence of calls",
["src/neural_network/NeuralNetwork.cpp: output, trainOnce, getLayerOutputs","src/neural_network/layer/neuron/SimpleNeuron.cpp: output","src/neural_network/layer/neuron/CircularData.cpp: pushBack","src/neural_network/layer/MaxPooling1D.cpp: computeOutput","src/neural_network/layer/neuron/RecurrentNeuron.cpp: output, reset"])

p("C75","How often a network is evaluated during train() does not change what it learns",
"Two calls of train() from the same network, data, seeds and stopping rule, that differ only in evaluationFrequency (0 for never, 1 for every epoch, ...), perform the same training steps on the same samples in the same order, with the same weights after each step, and end with the same weights and networks that answer every later call alike. True of every feed-forward network, new or used, when the stopping rule looks only at epochs and time and no abnormal number comes out. False with a recurrent layer: the evaluation leaves its last prediction in the memory the training starts from.",
"all constructed feed-forward networks after any uses, all data, batch sizes, evaluation frequencies, random draws, clocks and stopping rules of epochs and durations joined by || or &&",
"it compares two executions of any length for every frequency",
["src/neural_network/StraightforwardNeuralNetwork.cpp: trainSync, evaluate, continueTraining","src/neural_network/Wait.cpp: isOver, operator||, operator&&","src/neural_network/layer/neuron/RecurrentNeuron.cpp: output, reset"])

p("C76","evaluate() may be called while startTrainingAsync trains the network",
"A user who calls evaluate(data) from his own thread while the network is training gets no error, and the training goes on as without it: every sample is learned once per epoch, with its own labels. What is true under every schedule: an evaluation never changes a weight, the network counts exactly the steps that learned, and (one sample at a time) every step learns inputs and labels of the training set, never of the testing set. The rest is false, because the loops of the two functions share one member as their index: for every network and data some schedule reads outside of the data, some schedule learns the inputs of a sample with the labels of another, and some schedule learns the first sample twice in the same epoch.",
"all networks, data sets, batch sizes, stopping rules, schedules of the two threads (between source lines) and numbers of calls of evaluate",
"it depends on the interleaving of two threads",
["src/neural_network/StraightforwardNeuralNetwork.cpp: trainSync, evaluate","include/snn/neural_network/StraightforwardNeuralNetwork.hpp: index, evaluate","src/data/Data.cpp: getTrainingData, getTrainingOutputs, getTestingData"])

p("C77","Training with batches of b samples is mini-batch gradient descent",
"With a batch size b above 1, each step should move every weight against the gradient of the mean error over the b samples of the batch. The library trains once on the mean of the inputs and the mean of the labels of the batch instead. What is true: when the b samples have the same inputs, this is gradient descent on the mean error of the batch. In general it is not: on a linear layer the step misses the gradient step by exactly 2 x learningRate x the covariance, over the batch, of the input and of the error of the prediction. Hence a whole training may teach nothing: with batches as large as a training set whose inputs have mean 0 in every coordinate (and momentum 0), train() never changes an input weight of the first layer of a fully connected network, and a linear network can only learn a constant - whatever the labels and the number of epochs.",
"all fully connected networks, batches, training sets with centred inputs, numbers of epochs, shuffles",
"it is about derivatives and about every training, however long",
["src/data/Data.cpp: getTrainingData, getTrainingOutputs","src/data/ProblemComposite.cpp","src/neural_network/StraightforwardNeuralNetwork.cpp: trainSync"])

p("C78","A training can be interrupted and resumed",
"Training for n epochs and then, when the network is ready again, for m more epochs on the same data gives the same network, statistics and order of the data, and presents the same samples in the same order, as one training of n + m epochs, provided the random generators go on from where they were; with any layers, optimizers, momentum, data and batch size, without evaluations in between. This holds too when the network is saved after the n epochs, read back from the file in another program and trained there. With evaluations of whatever frequencies it holds for feed-forward networks, while with a recurrent layer the evaluation made at the start of the second training changes what is learned. A training stopped by stopTrainingAsync() in the middle of an epoch cannot be resumed so: the rest of the epoch is lost.",
"all networks, data, batch sizes, numbers of epochs, random draws, evaluation frequencies, and all states in which a network can be trained",
"it compares whole executions, of any length, whose internal states (momentum, shuffled order, recurrent states) all matter",
["src/neural_network/StraightforwardNeuralNetwork.cpp: train, trainSync, resetTrainingValues, continueTraining, saveAs, loadFrom","src/data/Data.cpp: shuffle"])

p("C79","The results of an evaluation do not depend on the order of the test samples",
"Evaluating a feed-forward network, after any life, on two data sets whose test samples are the same in different orders gives the same accuracies, F1 score, counters, best values and improvement flags, whatever the arithmetic; in real arithmetic the errors are the same too. In float32 the mean absolute error depends on the order; so does everything with a recurrent layer; and when a sample makes an output abnormal, whether results are reported at all depends on its place.",
"all feed-forward networks in all the states their lives lead to, all data sets and all permutations of their test samples",
"there are factorially many orders, and the statement is about every network",
["src/neural_network/StraightforwardNeuralNetwork.cpp: evaluate","src/neural_network/StatisticAnalysis.cpp","src/neural_network/NeuralNetwork.cpp: evaluateOnceForRegression, evaluateOnceForClassification, evaluateOnceForMultipleClassification"])

p("C80","What convolutions and poolings see: the same pattern gives the same values wherever it is",
"In a network that begins with convolutions and max poolings, after any life, each value they compute is a function of its receptive field only, and the same function at every position: if the cells of one image around one position hold what the cells of another image around another position hold, the values there (read through getLayerOutputs, or as answers of the network) are equal bit for bit. The receptive field is 1, plus size-1 for each convolution, times the size for each pooling; moving an image by a multiple of the product of the pooling sizes moves the outputs. Locally connected layers do not have this property.",
"all such networks with any parameters in every state their lives lead to, all pairs of images, all pairs of positions whose receptive fields lie inside",
"there is no bound on sizes, depth, images and trained weights; equality is bit for bit",
["src/neural_network/layer/Convolution1D.cpp","src/neural_network/layer/Convolution2D.cpp","src/neural_network/layer/MaxPooling1D.cpp","src/neural_network/layer/MaxPooling2D.cpp","src/neural_network/NeuralNetwork.cpp: getLayerOutputs"])

p("C81","A network that is already right is left alone",
"Training on samples the network predicts exactly should change nothing. Without momentum it moves no weight of the inputs of any neuron of any layer, but it sets every bias weight of the network to zero. So a network without bias that is right about its whole training set is left exactly as it is by train(), however long it lasts (same weights, same prediction for every input), while one with a bias in its linear last layer gives answers wrong by that bias, for every input, after one training on a sample it was right about. With momentum m each weight goes on by m times its last change, and each bias weight becomes m times what it was.",
"all networks of fully connected layers of any depth, activations and weights without layer optimizers, all data sets, orders, stopping rules, evaluations and numbers of epochs; batches of one sample; real arithmetic",
"being left unchanged is about every epoch of every run and every network that happens to be right; tests train networks that are wrong",
["src/neural_network/NeuralNetwork.cpp: trainOnce, calculateError, backpropagationAlgorithm","src/neural_network/optimizer/StochasticGradientDescent.cpp: updateWeights","src/neural_network/layer/neuron/SimpleNeuron.cpp: backOutput, train","src/neural_network/StraightforwardNeuralNetwork.cpp: train"])

p("C82","A network file cut short is never taken for a network",
"When a process dies while a network is being saved, what is left of the file is never loaded as another network: cut between two values, or inside any value but the last, loadFrom throws; cut inside the last one it gives the network saved, with another size of its last training set, which changes no prediction and no training. So at every moment of any history of saves, whatever can be loaded from a file is the network of the last save, the one that was being saved, or what was there before the first save. But a save writes over the file it replaces: at every save there are moments at which nothing can be loaded, however good the network that was there, and the automatic save always writes to the same file, so a process that dies while a better network is saved leaves nothing of the best so far. And nothing is checked when a file is read: a file with one value changed loads, and its first training is undefined.",
"all networks (all layers, optimizers, statistics), all prefixes of the file between two values or inside one, all histories of trainings and saves to any files, all crash points; any arithmetic",
"a crash can happen after any byte of any file; tests save and load whole files",
["src/neural_network/StraightforwardNeuralNetwork.cpp: saveSync, saveAs, loadFrom, evaluate","include/snn/neural_network/StraightforwardNeuralNetwork.hpp: serialize, autoSaveFilePath","include/snn/neural_network/NeuralNetwork.hpp: serialize"])

p("C83","Options of layers that have no effect change nothing",
"A layer given ErrorMultiplier(1) or Dropout(0), any number of times and anywhere in its list of options, behaves as the layer without: the network described with such options in any of its layers is accepted or refused as the one without, and then gives the same predictions, the same intermediate outputs, the same weights and the same count of trainings after any calls, whatever the other options of its layers draw, as long as the draws are the same; and whatever is done with two StraightforwardNeuralNetworks so described (trainings with any stopping rule and any data, evaluations, predictions) shows the same weights, results of evaluations and order of the data. With real arithmetic L1Regularization(0) and L2Regularization(0) are without effect too.",
"all architectures (all kinds of layers, of activations, with any options of their own), all places, all sequences of trainings, predictions and inspections, all draws; any arithmetic where x * 1 = x, binary32 in particular (reals for the regularizations)",
"tests try one option on one layer and look whether the network learns",
["src/neural_network/optimizer/Dropout.cpp","src/neural_network/optimizer/ErrorMultiplier.cpp","src/neural_network/optimizer/L1Regularization.cpp","src/neural_network/optimizer/L2Regularization.cpp","src/neural_network/optimizer/LayerOptimizerFactory.cpp","include/snn/neural_network/layer/Layer.tpp"])

p("C84","An error multiplier on the last layer is a learning rate",
"With real arithmetic, ErrorMultiplier(c) put after the other options of the last layer of a network described with the learning rate r does what the learning rate c * r does without it (the factors of the regularizations of the layers before the last being multiplied by c in the one): after any calls the two networks give the same answers, the same intermediate outputs, the same weights and the same count of trainings, and two StraightforwardNeuralNetworks so described show the same predictions, weights, results of evaluations and order of the data, whatever the stopping rules. The momentum is not concerned. With floats the weights may differ by the roundings.",
"all architectures (all kinds of layers, all activations, any options), all factors, rates and momentums accepted, all initial weights, all sequences of trainings, predictions and inspections, all draws of the options",
"tests train one network with one rate and look at the accuracy; the scaling goes through every kind of neuron, the filters, the recurrences and the momentum",
["src/neural_network/optimizer/ErrorMultiplier.cpp","src/neural_network/optimizer/StochasticGradientDescent.cpp","include/snn/neural_network/layer/Layer.tpp","src/neural_network/NeuralNetwork.cpp"])

p("C85","A layer whose errors are multiplied by 0 does not learn, nor do the layers before it",
"With real arithmetic, in a network one of whose layers ends with ErrorMultiplier(0), no layer before it having a regularization, this layer and those before it never learn, whatever the layers after it are: after any trainings, predictions and inspections the weights of each of their neurons are those it was built with, except that the weight of the bias may have become 0; the same holds after each training of a StraightforwardNeuralNetwork, whatever the data, the stopping rules, the learning rate and the momentum. On the last layer it keeps the whole network. The predictions are not kept: the first training takes the bias away from dense neurons.",
"all architectures (all kinds of layers, all activations, any options but regularizations before the layer), all rates and momentums accepted, all initial weights, all histories of trainings, predictions and inspections, all draws",
"tests train a few networks and never with a multiplier 0; that nothing leaks from the momentum, the recurrences or the dropped errors into the weights is about all histories",
["src/neural_network/optimizer/ErrorMultiplier.cpp","src/neural_network/optimizer/StochasticGradientDescent.cpp","include/snn/neural_network/layer/Layer.tpp","src/neural_network/NeuralNetwork.cpp"])

with open('/verif/properties.jsonl','w') as f:
    for x in P: f.write(json.dumps(x)+"\n")
print(len(P))
