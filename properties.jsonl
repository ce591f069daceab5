{"id": "C01", "title": "Every training sample is used exactly once per epoch (non-temporal data)", "statement": "For a Data set built with nature::nonTemporal, after any number of calls to shuffle() and unshuffle(), the samples that getTrainingData(0..size-1) exposes are a rearrangement of the training set: each sample appears exactly once, and getTrainingOutputs(i) always returns the label row of the very sample that getTrainingData(i) returns.", "quantifier": "every data set, every sequence of shuffle/unshuffle calls, every outcome of the random generator, every index", "why_tests_cant": "the shuffle is random: a test sees a handful of permutations out of N!", "anchors": ["src/data/CompositeForNonTemporalData.cpp: shuffle, unshuffle", "src/data/Data.cpp: initialize, getTrainingData", "src/data/ProblemComposite.cpp: getTrainingOutputs"]}
{"id": "C02", "title": "A training batch is the mean of consecutive distinct samples, inputs and labels alike", "statement": "getTrainingData(i,b) and getTrainingOutputs(i,b) with b>1 return the component-wise mean of the b rows visited at positions i..i+b-1, and both use the same rows; with b<=1 they return the row itself. No access leaves the arrays when i+b<=size.", "quantifier": "every data set with rectangular rows, every index and batch size with i+b<=size, every shuffle state", "why_tests_cant": "all batch sizes and offsets, including the 2-row special case, cannot be enumerated", "anchors": ["src/data/Data.cpp: getTrainingData", "src/data/ProblemComposite.cpp: getTrainingOutputs"]}
{"id": "C03", "title": "Sequence boundaries of 3-D (sequential) data are flagged exactly", "statement": "When a Data set is built from a list of non-empty sequences, sample i is reported as the first of its sequence exactly when it is, a testing sample is evaluated exactly when it is the last of its sequence, and the flattened samples keep their order.", "quantifier": "every list of non-empty sequences, for the one-set and the two-set constructors, every index", "why_tests_cant": "arbitrary numbers and lengths of sequences", "anchors": ["src/data/Data.cpp: flatten", "src/data/CompositeForTemporalData.cpp"]}
{"id": "C04", "title": "shuffle() reorders whole sequences of sequential data", "statement": "For sequential data, shuffle() visits every sequence exactly once, each in its own order, in a random order of the sequences.", "quantifier": "every list of sequences, every random generator outcome, any number of shuffles", "why_tests_cant": "needs every permutation of every family of sequences", "anchors": ["src/data/CompositeForTemporalData.cpp: constructor, shuffle"]}
{"id": "C05", "title": "Time-series shuffle trains only on genuine windows, each sample at most once per epoch", "statement": "For nature::timeSeries with r recurrences and at least r+1 samples, after any number of shuffles: every index exposed is inside the training set; every sample the network is told to learn on that is not in the initial prefix is preceded by the r samples that precede it in the series, the window starting with a 'first of sequence' mark; and no sample is learnt twice in the same epoch.", "quantifier": "every size>=r+1, every r>=1, every number of previous shuffles, every block permutation drawn", "why_tests_cant": "offset, rest and permutation interact over many epochs; tests cover a few sizes only", "anchors": ["src/data/CompositeForTimeSeries.cpp: constructor, shuffle, unshuffle"]}
{"id": "C06", "title": "Time-series visiting order is a permutation of the samples", "statement": "After shuffle() on time-series data every training sample is still visited once per epoch.", "quantifier": "every size, r, offset and permutation", "why_tests_cant": "stale tail positions only show for particular (size, offset, permutation) triples", "anchors": ["src/data/CompositeForTimeSeries.cpp: shuffle"]}
{"id": "C07", "title": "normalize(min,max) maps the training inputs into [min,max]", "statement": "After normalize(lo,hi) with lo<=hi every training value lies in [lo,hi], each non-constant column reaches both bounds, order inside a column is preserved, and the testing set is transformed by the same affine map.", "quantifier": "every rectangular data set and all bounds lo<=hi (in the reals, and in binary32)", "why_tests_cant": "values are continuous; columns that are constant are the case tests miss", "anchors": ["src/data/Data.cpp: normalize"]}
{"id": "C08", "title": "A Data set whose number of inputs and labels differ is rejected", "statement": "Constructing Data with a different number of input rows and label rows, or otherwise inconsistent, throws instead of yielding an object whose accessors read out of bounds.", "quantifier": "every combination of four row counts", "why_tests_cant": "the validity test is a conjunction of four comparisons: only an exhaustive argument shows which inconsistent data it lets through", "anchors": ["src/data/Data.cpp: isValid, initialize", "src/data/CompositeForClassification.cpp: isValid", "src/data/CompositeForNonTemporalData.cpp: isValid"]}
{"id": "C09", "title": "getTrainingLabel(i) is the class of the sample getTrainingData(i) returns", "statement": "For classification data, in every shuffle state, getTrainingLabel(i) is the index of the 1 in getTrainingOutputs(i), hence belongs to the sample returned by getTrainingData(i).", "quantifier": "every classification data set, every shuffle state, every index", "why_tests_cant": "depends on the random permutation drawn", "anchors": ["src/data/CompositeForClassification.cpp: getTrainingLabel"]}
{"id": "C10", "title": "Stopping criteria joined by || stop as soon as one of them holds", "statement": "train(data, a || b || ...) stops exactly when at least one of the given criteria (epochs, accuracy, MAE, duration) is met.", "quantifier": "every list of criteria with every threshold, every epoch, accuracy, MAE and elapsed time", "why_tests_cant": "combinations of thresholds including 0 and absent ones", "anchors": ["src/neural_network/Wait.cpp: operator||, isOver, literals"]}
{"id": "C11", "title": "Stopping criteria joined by && stop only when all of them hold", "statement": "train(data, a && b && ...) stops exactly when every given criterion is met.", "quantifier": "every list of criteria, every measurement", "why_tests_cant": "combinations of present and absent criteria", "anchors": ["src/neural_network/Wait.cpp: operator&&, isOver"]}
{"id": "C12", "title": "Mixing || and && is always rejected", "statement": "Any expression combining criteria with both operators throws, whatever the parenthesisation and size; expressions using a single operator never throw.", "quantifier": "every expression tree over criteria", "why_tests_cant": "unbounded expression trees", "anchors": ["src/neural_network/Wait.cpp: operator||, operator&&"]}
{"id": "C13", "title": "train(data, n epochs, batch b, evaluation every f epochs) does exactly that", "statement": "With an epoch criterion n>0 alone and no NaN, train runs exactly n epochs of floor(N/b) steps each at positions 0,b,2b,..., evaluates once at the start and after every epoch divisible by f when f>0, never when f=0, and terminates with the network idle again.", "quantifier": "every data size, n, b>=1, f>=0", "why_tests_cant": "all loop bounds at once; off-by-one in any of three nested loops", "anchors": ["src/neural_network/StraightforwardNeuralNetwork.cpp: trainSync, continueTraining, evaluate, resetTrainingValues"]}
{"id": "C14", "title": "Confusion counters partition the evaluations", "statement": "After evaluating a set, for every label TP+TN+FP+FN equals the number of evaluated samples, and well-classified + misclassified equals the number of evaluations counted, for the three problem types; resetting by starting a new test clears all of them.", "quantifier": "every sequence of outputs and labels (not NaN), every number of labels", "why_tests_cant": "arbitrary histories of evaluations", "anchors": ["src/neural_network/StatisticAnalysis.cpp: startTesting, evaluateOnceFor*"]}
{"id": "C15", "title": "Accuracy is the fraction of correctly treated samples and lies in [0,1]", "statement": "getGlobalClusteringRate() after a test is (number of correct samples)/(number of samples), where correct means: classification - the label's output is the strict first maximum and above the separator rules of the code; multiple classification - all outputs on the right side of the separator; regression - all outputs within the precision.", "quantifier": "every evaluation sequence of length >= 1", "why_tests_cant": "arbitrary sequences and outputs", "anchors": ["src/neural_network/StatisticAnalysis.cpp: evaluateOnceFor*, computeGlobalClusteringRate"]}
{"id": "C16", "title": "Best-so-far metrics are the extremum over the history", "statement": "getGlobalClusteringRateMax, getWeightedClusteringRateMax, getF1ScoreMax are the maxima and getMeanAbsoluteErrorMin, getRootMeanSquaredErrorMin the minima of the values reported over all evaluations so far.", "quantifier": "every history of evaluations", "why_tests_cant": "monotonicity over unbounded histories", "anchors": ["src/neural_network/StatisticAnalysis.cpp: stopTesting"]}
{"id": "C17", "title": "MAE and RMSE are the mean absolute and root mean squared errors", "statement": "getMeanAbsoluteError and getRootMeanSquaredError report the mean absolute error and the root of the mean squared error of the evaluated outputs.", "quantifier": "every sequence of outputs and desired outputs (real arithmetic)", "why_tests_cant": "numerical identity over all inputs", "anchors": ["src/neural_network/StatisticAnalysis.cpp: computeMeanAbsoluteError, computeRootMeanSquaredError"]}
{"id": "C18", "title": "computeCluster returns the index of the largest output", "statement": "computeCluster(x) returns the smallest index whose output is maximal.", "quantifier": "every output vector", "why_tests_cant": "all real vectors, including those below the initial sentinel", "anchors": ["src/neural_network/StraightforwardNeuralNetwork.cpp: computeCluster"]}
{"id": "C19", "title": "computeOutput is a pure function of the parameters for feed-forward networks", "statement": "For networks of fully-connected, convolution, locally-connected and pooling layers, computeOutput never changes weights or the training counters, and its result depends only on the parameters and the input, not on previous calls of any kind (computeOutput, outputs for training).", "quantifier": "every network, every history of calls, every input", "why_tests_cant": "arbitrary call histories", "anchors": ["src/neural_network/NeuralNetwork.cpp: output", "src/neural_network/layer/neuron/SimpleNeuron.cpp: output", "include/snn/neural_network/layer/Layer.tpp: output"]}
{"id": "C20", "title": "temporalReset gives recurrent layers a fresh start", "statement": "When the sample is flagged as first of its sequence, the output of a recurrent (Recurrence or GRU) layer depends only on the weights and this input, not on what was computed before.", "quantifier": "every weight, input, and history", "why_tests_cant": "histories are unbounded", "anchors": ["src/neural_network/layer/neuron/RecurrentNeuron.cpp: output, reset", "src/neural_network/layer/neuron/GatedRecurrentUnit.cpp: output, reset"]}
{"id": "C21", "title": "Once an output is not a normal number, training never changes a weight again", "statement": "If any output of the network was infinite, NaN or subnormal during an output computation, training stops at the next check, and no later trainOnce changes any weight, for any subsequent history on that object.", "quantifier": "every later history of inputs and desired outputs", "why_tests_cant": "needs every continuation", "anchors": ["src/neural_network/NeuralNetwork.cpp: output, outputForTraining, backpropagationAlgorithm, hasNan"]}
{"id": "C22", "title": "A training step follows the gradient of the squared error", "statement": "For a network of fully-connected layers without layer optimizers, momentum 0 and batch size 1, a training step moves each input weight by exactly -learningRate * d/dw of the sum over outputs of (desired-output)^2, all derivatives taken at the weights before the step.", "quantifier": "every depth, every layer width, every weight vector, every input and desired output, every activation whose derivative is correct (real arithmetic)", "why_tests_cant": "a derivative statement over all reals and all depths; numeric gradient checks only sample it", "anchors": ["src/neural_network/NeuralNetwork.cpp: backpropagationAlgorithm, calculateError", "src/neural_network/layer/neuron/SimpleNeuron.cpp: backOutput, train", "src/neural_network/optimizer/StochasticGradientDescent.cpp: updateWeights", "include/snn/neural_network/layer/SimpleLayer.tpp"]}
{"id": "C23", "title": "The bias weight follows the gradient too", "statement": "A training step moves the bias weight of a neuron by -learningRate times the derivative with respect to it; in particular a zero error with zero momentum leaves it unchanged.", "quantifier": "every neuron, error and history", "why_tests_cant": "any value of weights and errors", "anchors": ["src/neural_network/optimizer/StochasticGradientDescent.cpp: updateWeights(SimpleNeuron), updateWeights(RecurrentNeuron)"]}
{"id": "C24", "title": "Momentum accumulates the previous update", "statement": "With momentum m each input weight's update is learningRate/batchSize * error * input + m * (previous update of this weight), over any sequence of training steps.", "quantifier": "every sequence of training steps", "why_tests_cant": "unbounded sequences", "anchors": ["src/neural_network/optimizer/StochasticGradientDescent.cpp: updateWeights"]}
{"id": "C25", "title": "Built layers chain with consistent sizes", "statement": "Every network the constructor accepts from a list of layer descriptions maps an input of the declared size through all layers without reading out of bounds, and each layer's output has exactly the number of values its shape announces and the next layer expects.", "quantifier": "every accepted list of layer descriptions", "why_tests_cant": "arbitrary architectures", "anchors": ["src/neural_network/layer/LayerFactory.cpp: build, computeNumberOfOutputs, computeNumberOfKernels, computeNumberOfInputs"]}
{"id": "C26", "title": "Invalid architectures are rejected with an error, valid ones are not", "statement": "The constructor throws for: no Input layer first, fewer than 2 descriptions, more than 1000 descriptions, an input larger than 2073600 values, empty shapes, more than 3 dimensions where unsupported, an empty layer, a kernel larger than its input, a layer with more than 1000000 inputs, neurons or weights per neuron, a learning rate outside ]0,1[ or a momentum outside [0,1]; and it accepts every other list of layers.", "quantifier": "every list of layer descriptions", "why_tests_cant": "arbitrary architectures", "anchors": ["src/neural_network/layer/LayerFactory.cpp", "src/neural_network/NeuralNetwork.cpp: isValid"]}
{"id": "C27", "title": "getNumberOfParameters counts the weights", "statement": "getNumberOfParameters() equals the total number of weights the layers hold: per fully connected layer n*(inputs+1), recurrence n*(inputs+2), GRU 3*n*(inputs+2), convolution filters*(kernel volume+1), locally connected filters*positions*(kernel volume+1), pooling 0.", "quantifier": "every accepted architecture", "why_tests_cant": "arbitrary architectures", "anchors": ["src/neural_network/NeuralNetwork.cpp: getNumberOfParameters", "include/snn/neural_network/layer/Layer.tpp: getNumberOfParameters", "src/neural_network/layer/LayerFactory.cpp"]}
{"id": "C28", "title": "Convolution computes the discrete cross-correlation", "statement": "Output (filter f, position p) of a convolution layer is the activation of the sum over channels and kernel offsets of the input inside the window starting at p times the filter's weight plus bias; every window lies inside the input; all positions of a filter share the same weights.", "quantifier": "every input shape, kernel size 1..size, filter number, channel number, and input", "why_tests_cant": "arbitrary shapes; window arithmetic errors are shape-dependent", "anchors": ["src/neural_network/layer/Convolution1D.cpp", "src/neural_network/layer/Convolution2D.cpp", "src/neural_network/layer/FilterLayer.cpp"]}
{"id": "C29", "title": "Locally connected layers tile the input", "statement": "Each output of a locally connected layer reads its own window; windows are disjoint, lie in the input (missing border cells are skipped), cover every input cell, and neuron (position, filter) reads window 'position'.", "quantifier": "every shape, kernel size and filter number", "why_tests_cant": "arbitrary shapes (non-square, non-multiple sizes)", "anchors": ["src/neural_network/layer/LocallyConnected1D.cpp", "src/neural_network/layer/LocallyConnected2D.cpp"]}
{"id": "C30", "title": "Max pooling returns the maximum of each window of each channel", "statement": "Output (position, channel) of a max pooling layer is the maximum of the in-range values of the window in this channel; and the backward pass sends each error exactly to a position that attained the maximum, and 0 elsewhere.", "quantifier": "every shape, kernel size, channel number and input", "why_tests_cant": "arbitrary shapes and ties", "anchors": ["src/neural_network/layer/MaxPooling1D.cpp", "src/neural_network/layer/MaxPooling2D.cpp"]}
{"id": "C31", "title": "The backward pass of a filter layer is the transpose of its forward pass", "statement": "For convolution and locally connected layers the error returned for input cell i is the sum, over exactly the (neuron, weight) pairs that multiplied cell i in the forward pass, of weight * neuron error.", "quantifier": "every shape, weight and error vector", "why_tests_cant": "arbitrary shapes, adjoint identity", "anchors": ["src/neural_network/layer/Convolution1D.cpp: computeBackOutput", "src/neural_network/layer/Convolution2D.cpp: computeBackOutput", "src/neural_network/layer/LocallyConnected1D.cpp: computeBackOutput", "src/neural_network/layer/LocallyConnected2D.cpp: computeBackOutput"]}
{"id": "C32", "title": "The per-neuron queue returns, for the k-th back-propagation, the inputs of the k-th forward pass", "statement": "A neuron used at b positions (batch b) that is asked for b outputs and then b back-propagations uses, at the k-th back-propagation, the inputs and the sum of the k-th output - in every round.", "quantifier": "every b>=1 and every number of rounds", "why_tests_cant": "unbounded rounds, wrap-around of a circular buffer", "anchors": ["src/neural_network/layer/neuron/CircularData.cpp", "src/neural_network/layer/neuron/SimpleNeuron.cpp"]}
{"id": "C33", "title": "Dropout scales outputs at test time and masks the same neurons forward and backward", "statement": "At test time a dropout layer multiplies each output by 1-rate (the expectation of training); in training each output is either kept or zeroed, and errors are masked by the very same mask; the mask only changes when a temporal sequence starts.", "quantifier": "every output vector, every random draw, every rate", "why_tests_cant": "random masks", "anchors": ["src/neural_network/optimizer/Dropout.cpp"]}
{"id": "C34", "title": "Softmax yields a probability distribution preserving order", "statement": "At test and training time softmax outputs are in (0,1], sum to 1, preserve the order of the outputs (hence computeCluster) and do not change when a constant is added to every output.", "quantifier": "every non-empty output vector (real arithmetic)", "why_tests_cant": "continuous domain", "anchors": ["src/neural_network/optimizer/Softmax.cpp"]}
{"id": "C35", "title": "Activation functions stay inside their declared range", "statement": "Each activation function's value lies between its declared minimum and maximum for every input.", "quantifier": "every real input", "why_tests_cant": "continuous domain", "anchors": ["src/neural_network/layer/neuron/activation_function/ActivationFunction.cpp", "include/snn/neural_network/layer/neuron/activation_function/*.hpp"]}
{"id": "C36", "title": "Activation derivatives are the derivatives", "statement": "derivative(x) is the derivative of function at x, for every activation function and every x (for ReLU every x<>0).", "quantifier": "every real input", "why_tests_cant": "continuous domain; finite differences only sample", "anchors": ["include/snn/neural_network/layer/neuron/activation_function/*.hpp"]}
{"id": "C37", "title": "A saved network loads back to an equal network with the same predictions", "statement": "loadFrom(saveAs(nn)) == nn and computes the same outputs, and training it further gives the same parameters.", "quantifier": "every network state reachable, every input", "why_tests_cant": "every reachable state must survive, including training-in-progress state", "anchors": ["include/snn/**/*.hpp: serialize", "src/neural_network/StraightforwardNeuralNetwork.cpp: saveAs, loadFrom, operator=="]}
{"id": "C38", "title": "A copied network is equal to and independent of the original", "statement": "A copy of a network compares equal to it; training the copy leaves the original unchanged and conversely.", "quantifier": "every network, every later history on either object", "why_tests_cant": "arbitrary histories", "anchors": ["src/neural_network/StraightforwardNeuralNetwork.cpp: copy constructor, operator==", "src/neural_network/NeuralNetwork.cpp: copy constructor", "src/neural_network/layer/*.cpp: clone"]}
{"id": "C39", "title": "Network equality is an equivalence relation and implies equal predictions", "statement": "operator== on networks is reflexive, symmetric and transitive, does not read out of bounds, and equal feed-forward networks compute equal outputs.", "quantifier": "every pair / triple of networks", "why_tests_cant": "all triples", "anchors": ["src/neural_network/NeuralNetwork.cpp: operator==", "include/snn/neural_network/layer/Layer.tpp: operator==", "src/neural_network/layer/neuron/SimpleNeuron.cpp: operator==", "src/neural_network/layer/neuron/Neuron.cpp: operator==", "src/neural_network/optimizer/StochasticGradientDescent.cpp: operator=="]}
{"id": "C40", "title": "stopTrainingAsync always ends the training", "statement": "After startTrainingAsync, a call to stopTrainingAsync returns under every fair schedule, and when it returns no training is in progress.", "quantifier": "every interleaving of the caller and the training thread", "why_tests_cant": "the losing interleaving is a window of a few instructions", "anchors": ["src/neural_network/StraightforwardNeuralNetwork.cpp: startTrainingAsync, stopTrainingAsync, trainSync"]}
{"id": "C41", "title": "No two trainings run at once and no save happens during training", "statement": "train, startTrainingAsync and saveAs never run concurrently with a training in progress on the same network: they throw or wait.", "quantifier": "every interleaving", "why_tests_cant": "interleavings", "anchors": ["src/neural_network/StraightforwardNeuralNetwork.cpp: train, startTrainingAsync, saveAs, isTraining"]}
{"id": "C42", "title": "Autosave writes exactly when the accuracy (or error) is better, and the file can be trained again", "statement": "With autoSaveWhenBetter, a file is written at the end of exactly those evaluations where the tested metric improved on the best so far; a network loaded from it is idle and can be trained.", "quantifier": "every history of evaluations", "why_tests_cant": "unbounded histories", "anchors": ["src/neural_network/StraightforwardNeuralNetwork.cpp: evaluate, saveSync", "src/neural_network/StatisticAnalysis.cpp: stopTesting"]}
{"id": "C43", "title": "2-D and 3-D index maps are inverse bijections", "statement": "flatten(x,y,..) and roughenX/Y/Z are inverse bijections between the grid and the range of indices.", "quantifier": "every grid size and index", "why_tests_cant": "all sizes", "anchors": ["include/snn/tools/Tools.hpp: flatten, roughenX, roughenY, roughenZ"]}
{"id": "C44", "title": "getMinValue/getMaxValue return the extremum of any non-empty vector", "statement": "getMinValue and getMaxValue return an element of the vector that bounds all the others, for every non-empty vector, and throw only for the empty one.", "quantifier": "every vector", "why_tests_cant": "all lengths", "anchors": ["include/snn/tools/Tools.hpp: getMinValue, getMaxValue"]}
{"id": "C45", "title": "Durations print as hours/minutes/seconds with fields below 60", "statement": "toString(duration) denotes the duration: hours, minutes<60, seconds<60 recombine to the given time.", "quantifier": "every duration", "why_tests_cant": "all durations", "anchors": ["include/snn/tools/Tools.hpp: toString"]}
{"id": "C46", "title": "randomBetween(min,max) returns an integer in [min,max)", "statement": "The integer randomBetween returns a value v with min<=v<max for every min<max and every draw of the generator.", "quantifier": "every pair min<max and every random draw", "why_tests_cant": "random draws, sign combinations", "anchors": ["src/tools/Tools.cpp: randomBetween"]}
{"id": "C47", "title": "Pictures of a network show what they are named after", "statement": "saveFilterLayersAsBitmap writes one picture per layer with a two-dimensional output, in which every output of the layer for the chosen test row appears as one pixel at its own place, inside the picture; saveData2DAsBitmap shows the test row; saveFeatureMapsAsBitmap shows the weights of every filter; nothing is written while a training is under way, and the network is not changed.", "quantifier": "every accepted network in every state, every test row, every number and size of filters", "why_tests_cant": "arbitrary layer sizes, grid sizes and outputs; undefined conversions that happen to work on one machine", "anchors": ["src/neural_network/NeuralNetworkVisualization.cpp", "src/neural_network/StraightforwardNeuralNetwork.cpp: saveFeatureMapsAsBitmap, saveData2DAsBitmap, saveFilterLayersAsBitmap"]}
{"id": "C48", "title": "Statistics counters stay exact however long the test set is", "statement": "The counters of correct and incorrect samples count exactly, so the accuracy of a test set of any size is right.", "quantifier": "every number of evaluated samples (binary32 arithmetic)", "why_tests_cant": "would need more than 2^24 evaluations", "anchors": ["include/snn/neural_network/StatisticAnalysis.hpp: numberOfDataWellClassified"]}
{"id": "C49", "title": "Layer regularisers add their penalty to every error and nothing else", "statement": "L1/L2 regularisation add value*(sum of |w|)/(number of neurons) (resp. value*(sum of w^2)/(number of neurons)) over the layer's weights to every error; ErrorMultiplier multiplies every error by its factor; outputs are never changed by these three.", "quantifier": "every layer, weights, errors", "why_tests_cant": "all vectors", "anchors": ["src/neural_network/optimizer/L1Regularization.cpp", "src/neural_network/optimizer/L2Regularization.cpp", "src/neural_network/optimizer/ErrorMultiplier.cpp"]}
{"id": "C50", "title": "Duration literals denote what they say", "statement": "n_ms, n_s, n_min denote n milliseconds, seconds, minutes for every n representable in the API.", "quantifier": "every n (int overflow included)", "why_tests_cant": "overflow only at huge n", "anchors": ["src/neural_network/Wait.cpp: operator\"\"_ms, _s, _min"]}
{"id": "C51", "title": "Parameter getters and setters are partial functions of the problem type", "statement": "setPrecision/getPrecision succeed exactly for regression data and setSeparator/getSeparator exactly for classification data; a successful set is what the next get returns; a failed set changes nothing.", "quantifier": "every problem type, every history of get/set", "why_tests_cant": "histories", "anchors": ["src/data/Data.cpp: setPrecision, getPrecision, setSeparator, getSeparator"]}
{"id": "C52", "title": "A recurrent step computes the documented recurrence", "statement": "A recurrent neuron's output is f(w.x + wr*previous output + wb*bias) where previous output is its last output; GRU combines update, reset and output gates as u*o+(1-u)*previous with the layer's previous output.", "quantifier": "every input sequence", "why_tests_cant": "unbounded sequences", "anchors": ["src/neural_network/layer/neuron/RecurrentNeuron.cpp: output", "src/neural_network/layer/neuron/GatedRecurrentUnit.cpp: output"]}
{"id": "C53", "title": "Time-series training covers the whole series", "statement": "For time-series data with r recurrences and at least r+1 samples, every training sample is learnt at least once in any r+1 consecutive epochs, whatever happened before.", "quantifier": "every series, every r, every earlier history, every outcome of the random generator", "why_tests_cant": "random generator and history", "anchors": ["src/data/TemporalComposite.cpp", "src/data/CompositeForTimeSeries.cpp: shuffle"]}
{"id": "C54", "title": "Numbers in the log columns are aligned and unambiguous", "statement": "toConstSizeString(value, n) is the decimal text of value preceded by spaces only, exactly n characters long when the text fits and the bare text otherwise; different values have different texts.", "quantifier": "every int and every width", "why_tests_cant": "all values", "anchors": ["include/snn/tools/Tools.hpp: toConstSizeString"]}
{"id": "C55", "title": "Flattening a 2-D vector keeps every element in order", "statement": "flatten(v) is the concatenation of the rows of v, whatever their lengths.", "quantifier": "every vector of vectors", "why_tests_cant": "all shapes", "anchors": ["include/snn/tools/Tools.hpp: flatten(vector2D)"]}
{"id": "C56", "title": "Each epoch of a training presents every sample exactly once", "statement": "Training on non temporal data: in every epoch, train makes steps that go through all the training samples in some order, b at a time and without using any of them twice; each step is exactly one trainOnce on the batch (the sample itself or the mean of the b samples, inputs and labels in step), and between the steps the network is only asked for outputs.", "quantifier": "every data set, batch size, number of epochs, outcome of the shuffles, earlier history of the data", "why_tests_cant": "the order is random and depends on the whole history", "anchors": ["src/neural_network/StraightforwardNeuralNetwork.cpp: trainSync", "src/data/Data.cpp: getTrainingData, shuffle"]}
{"id": "C57", "title": "A training that fails leaves the network usable", "statement": "If train() is left by an exception (for example a testing label without a 1), the network is idle again: it can be saved and trained on other data.", "quantifier": "every point at which the exception is thrown, every later sequence of calls", "why_tests_cant": "every failure point and every later history", "anchors": ["src/neural_network/StraightforwardNeuralNetwork.cpp: train, trainSync, saveAs"]}
{"id": "C58", "title": "What an evaluation reports is about this network and this test set", "statement": "Each time train() evaluates, every sample of the testing set of the data passed is shown once, in order, to the network as it is at that moment (with its memory cleared at the start of a sequence or series), the expected outputs are those of the same sample, the separator or precision is the one of the data set, and the statistics reported afterwards are those of exactly these answers: one per sample, or the last one of each sequence. So the reported accuracy is the fraction of the testing samples answered correctly.", "quantifier": "every network, data set (plain, sequential, time series), problem type, training history and evaluation in it", "why_tests_cant": "the evaluations depend on the whole history of the training", "anchors": ["src/neural_network/StraightforwardNeuralNetwork.cpp: evaluate, evaluateOnce, trainSync", "src/neural_network/NeuralNetwork.cpp: evaluateOnceForRegression, evaluateOnceForClassification", "src/data/Data.cpp: getTestingData, needToEvaluateOnTestingData"]}
{"id": "C59", "title": "The number of trainings counts the learning steps", "statement": "getNumberOfTraining() is 0 for a new network, grows by one for every learning step of a training and by nothing else; after n undisturbed epochs on plain data it has grown by n * floor(samples / batch size).", "quantifier": "every network, data set, batch size, training", "why_tests_cant": "every history", "anchors": ["src/neural_network/NeuralNetwork.cpp: trainOnce, getNumberOfTraining"]}
{"id": "C60", "title": "waitFor waits for what it is told", "statement": "waitFor(n_ep), called on a network that startTrainingAsync is training, returns, and not before n whole epochs of that training have been learned (or an output became NaN); waitFor(n_ms) does not return before n milliseconds; waitFor(Wait()) returns only if an output becomes NaN.", "quantifier": "every schedule of the two threads, program of API calls made before, criterion, moment at which a NaN or an exception occurs", "why_tests_cant": "the outcome depends on the interleaving of the two threads", "anchors": ["src/neural_network/StraightforwardNeuralNetwork.cpp: waitFor, trainSync, startTrainingAsync", "src/neural_network/Wait.cpp: isOver"]}
{"id": "C61", "title": "evaluate(data) looks and does not touch", "statement": "evaluate(data), called by the user on a network that is not training, with data of the format of the network, comes back; it changes no parameter, not the number of trainings, not the data set, and leaves the network ready to train; the figures it reports are those of the answers of this network on the test samples of the data. For feed-forward networks the figures depend on the parameters and the test samples only: evaluating twice, after other predictions, on a copy, or after shuffling the data gives the same accuracy, F1, MAE and RMSE. (Refuted for recurrent networks, whose memory is carried from one evaluation to the next; evaluate does not check the format of the data as train does; and compiled with verbosity it dereferences a null pointer.)", "quantifier": "all constructed networks, all lives (predictions, trainings, evaluations, saves), all data sets of the right format, plain, time series or sequences, all numbers", "why_tests_cant": "a test evaluates one network on one data set; that nothing but parameters and samples matters quantifies over histories", "anchors": ["src/neural_network/StraightforwardNeuralNetwork.cpp: evaluate, validData", "include/snn/neural_network/StraightforwardNeuralNetwork.hpp: evaluate(data)", "src/neural_network/StatisticAnalysis.cpp: startTesting, stopTesting"]}
{"id": "C62", "title": "A data set keeps the samples it was given", "statement": "Whatever has been done with a Data object - shuffled, unshuffled, read, used for training or evaluation by any networks any number of times - its test samples are those given at construction, in order, with their labels; whatever input and expected output are read at a training position belong together and are one of the given training samples; and unshuffle() restores every training sample to the position it was given at. (normalize is excluded: it changes the inputs on purpose.)", "quantifier": "all four constructors, all sample lists, all histories of operations, trainings and evaluations", "why_tests_cant": "a test makes one history; that no interleaving of shuffles and trainings loses, duplicates or mismatches a sample is a statement about all of them", "anchors": ["src/data/Data.cpp: shuffle, unshuffle, getTrainingData, getTrainingOutputs, getTestingData, getTestingLabel, getTestingOutputs"]}
{"id": "C63", "title": "summary() describes the network", "statement": "summary() never fails on a constructed network, whatever has been done with it; it shows the number of parameters, the number of trainings, and one paragraph per layer, in order, with the layer's name, the shape it takes, its neurons or filters and kernel size, its number of parameters, its activation, the shape it gives and its optimizers as described by the user, then the learning rate and momentum. (Refuted: the input and output shapes of Recurrence and GruLayer are exchanged; the name of a locally connected layer is not followed by a newline; after a training of n epochs it says n+1.)", "quantifier": "all architectures, all histories of predictions and training steps, all printings of floats", "why_tests_cant": "that the text agrees with the description for every layer kind, shape and history is a statement about all of them", "anchors": ["src/neural_network/StraightforwardNeuralNetwork.cpp: summary", "src/neural_network/layer/*.cpp: summary", "src/neural_network/optimizer/*.cpp: summary"]}
{"id": "C64", "title": "What a network announces does not change, and isValid() says whether its weights are in range", "statement": "Whatever predictions, trainings, evaluations and saves a constructed network has gone through, getNumberOfInputs, getNumberOfOutputs, getNumberOfParameters, the shapes and optimizers of its layers, the learning rate and the momentum are those it was built with; and isValid() returns 0 if every parameter is between -100000 and 10000, 303 otherwise, and no other code. (Refuted as a health check: parameters that have become NaN are not seen.)", "quantifier": "all architectures, all lives, all numbers", "why_tests_cant": "a test runs one life of one network", "anchors": ["src/neural_network/NeuralNetwork.cpp: isValid, getNumberOfInputs, getNumberOfOutputs, getNumberOfParameters", "src/neural_network/layer/neuron/Neuron.cpp: isValid", "include/snn/neural_network/layer/Layer.tpp: isValid"]}
{"id": "C65", "title": "The weighted clustering rate and the F1 score mean what they say", "statement": "After an evaluation of a classifier getWeightedClusteringRate() is the mean over the classes of the part of the class's test samples the network recognised (output above the separator), getF1Score() the mean over the classes of the F1 score (twice the hits over members plus claims); both are between 0 and 1, and 1 exactly when every class occurs and is found (claimed for exactly its members). In binary32, up to 2^24 samples and classes, both are still finite, between 0 and 1, and exactly 1 for a perfect test; for a regression both are always 0. (Refuted: agreement with the accuracy - a network that classifies every sample well may have F1 score 0 -, and a class absent from the test set counts for 0, so a perfect network gets less than 1.)", "quantifier": "all test sets, all outputs, all numbers of classes, all histories", "why_tests_cant": "the rounded sums and quotients must stay in range for every combination of counts", "anchors": ["src/neural_network/StatisticAnalysis.cpp: computeWeightedClusteringRate, computeF1Score, stopTesting", "include/snn/neural_network/StatisticAnalysis.hpp: getF1Score, getWeightedClusteringRate"]}
{"id": "C66", "title": "Training on a time series or on sequences respects time", "statement": "On a time series with r recurrences, train() makes one plan per epoch: each learning step on a sample comes directly after forward passes over its r predecessors in time order (for the first r samples: all of them), the network's memory is cleared exactly at the start of such a run, no sample is learned twice in an epoch, and any r+1 epochs in a row learn every sample. On sequences every epoch takes the sequences in the given order, each from start to end, learns every element with its own label and clears the memory exactly at the start of each sequence. Each visit is one trainOnce or one forward pass on exactly that sample; between visits the network is only asked for outputs or saved. All this whatever was done with the data before.", "quantifier": "all networks, series, numbers of recurrences, sequences, random generators, histories of the data, stopping points", "why_tests_cant": "the offset moves from epoch to epoch and blocks are shuffled: the runs must fit for every permutation, offset and length", "anchors": ["src/neural_network/StraightforwardNeuralNetwork.cpp: trainSync", "src/data/CompositeForTimeSeries.cpp: shuffle, isFirstTrainingDataOfTemporalSequence", "src/data/CompositeForTemporalData.cpp: shuffle, isFirstTrainingDataOfTemporalSequence, needToTrainOnTrainingData", "src/data/Data.cpp: shuffle, getTrainingData"]}
{"id": "C67", "title": "In networks mixing kinds of layers a training step follows the gradient", "statement": "For a network of fully connected, recurrent, locally connected, convolution and max pooling layers in any order, in any state of use, where the squared error is differentiable, one trainOnce moves the weight of every input of every neuron by minus the learning rate times the derivative of the squared error with respect to this weight; with momentum, the second of two steps in a row adds the momentum times the first move.", "quantifier": "all networks of these kinds in which the layer passes errors back exactly (C31), all weights, inputs, desired outputs, learning rates, momentums, histories", "why_tests_cant": "gradient checking tests a few weights of a few networks at one point and to a tolerance; the statement is exact and for every architecture", "anchors": ["src/neural_network/NeuralNetwork.cpp: trainOnce, backpropagationAlgorithm", "include/snn/neural_network/layer/Layer.tpp: backOutput, train", "src/neural_network/layer/neuron/RecurrentNeuron.cpp", "src/neural_network/layer/Convolution1D.cpp", "src/neural_network/layer/LocallyConnected2D.cpp", "src/neural_network/layer/MaxPooling2D.cpp", "src/neural_network/optimizer/StochasticGradientDescent.cpp"]}
{"id": "C68", "title": "All the weights of recurrent and gated recurrent layers learn", "statement": "Training moves every weight of a recurrent neuron (inputs, previous output, bias) and of the three gates of a gated recurrent unit against the derivative of the error. Refuted: the bias weights of recurrent and GRU layers keep forever the value drawn by the constructor, the correction meant for the bias goes to the weight of the previous output, the reset gate of a GRU never changes, and the update gate can move the wrong way.", "quantifier": "all networks containing a recurrent or GRU layer, all histories of predictions and trainings", "why_tests_cant": "a network with frozen biases or gates still trains, so accuracy tests pass; that a weight never moves is about every history", "anchors": ["src/neural_network/optimizer/StochasticGradientDescent.cpp: updateWeights (recurrent neuron)", "src/neural_network/layer/neuron/RecurrentNeuron.cpp", "src/neural_network/layer/neuron/GatedRecurrentUnit.cpp: backOutput, train"]}
{"id": "C69", "title": "With dropouts and error multipliers a training step follows the gradient of the training pass", "statement": "For a network of the kinds of C67 whose layers carry any dropouts and error multipliers, one trainOnce moves the weight of every input of every neuron by minus the learning rate times the product of the error multipliers of its layer and the following ones times the derivative of the squared error of the training pass, the outputs with exactly the neurons dropped that this pass drops; with momentum the second of two steps adds momentum times the first move. Refuted for Softmax, which passes errors back unchanged (a weight without any influence on the error moves), and for L1/L2 regularization, which shift the error by a constant (a weight at the minimum of the error grows with a positive input).", "quantifier": "all networks of these kinds, all optimizers lists of dropouts and multipliers, all random masks, states of use, inputs, desired outputs", "why_tests_cant": "dropout is random and the training pass cannot be observed without training; the statement fixes the very mask drawn and is exact for every architecture", "anchors": ["include/snn/neural_network/layer/Layer.tpp: outputForTraining, backOutput", "src/neural_network/optimizer/Dropout.cpp", "src/neural_network/optimizer/ErrorMultiplier.cpp", "src/neural_network/optimizer/Softmax.cpp", "src/neural_network/optimizer/L1Regularization.cpp", "src/neural_network/NeuralNetwork.cpp: backpropagationAlgorithm"]}
{"id": "C70", "title": "Predictions are finite numbers", "statement": "Whatever sequence of predictions, training-mode outputs and inspections a network has answered, with inputs of the declared size, every prediction is a vector of finite floats: neither infinite nor NaN. With weights up to 2^w, at most 2^k per neuron, biases up to 1 and inputs up to 2^e, the outputs are bounded by an explicit power of two as long as no sum can pass 2^125; layers with sigmoid, tanh or gaussian, and recurrent ones, bring the bound back to 1, Softmax too. A new network of L layers accepts inputs up to 2^e with e + 22 L <= 125. Refuted for recurrent layers with an unbounded activation function: with initial weights the code can draw, always the same input and temporalReset always set, the predictions grow and become infinite after 300 calls.", "quantifier": "all architectures, all weights and inputs within the bounds, all library functions expf and tanhf with the elementary bounds stated, all sequences of calls, in binary32", "why_tests_cant": "overflow depends on the size of every weight and sum; a test sees a few networks whose numbers are small", "anchors": ["src/neural_network/NeuralNetwork.cpp: output, outputForTraining", "src/neural_network/layer/neuron/SimpleNeuron.cpp", "src/neural_network/layer/neuron/RecurrentNeuron.cpp", "src/neural_network/layer/neuron/GatedRecurrentUnit.cpp", "src/neural_network/layer/neuron/Neuron.cpp: randomInitializeWeight", "src/neural_network/layer/neuron/activation_function"]}
{"id": "C71", "title": "A prediction in floats is within an explicit bound of the exact one", "statement": "Take a network of dense, convolution, locally connected and pooling layers with sigmoid, tanh, ReLU or identity, any dropout, and the same network computed with real numbers. If tanhf is within delta of tanh, the inputs are up to B and off by at most d, and each neuron has at most n weights whose absolute values add up to at most A, then every output is a finite float whose distance to the exact output is bounded by following the layers: the error is multiplied by A, plus 3 n (A B 2^-24 + 2^-150) for the weighted sum, plus delta + 3*2^-24 for the activation function, plus one rounding per dropout; pooling adds nothing. With L layers of sigmoid or tanh and inputs between -1 and 1 that is c (1 + A + ... + A^(L-1)). The error is not small next to the output: a new network can predict 0 where the exact prediction is 1.", "quantifier": "all such networks, weights and inputs within the bounds, all library functions tanhf with the stated accuracy, in binary32 against real arithmetic", "why_tests_cant": "rounding depends on every weight and input; a test compares a few predictions to a few decimals", "anchors": ["src/neural_network/NeuralNetwork.cpp: output", "src/neural_network/layer/neuron/SimpleNeuron.cpp: output", "src/neural_network/layer/Convolution1D.cpp", "src/neural_network/layer/LocallyConnected2D.cpp", "src/neural_network/layer/MaxPooling1D.cpp", "src/neural_network/layer/neuron/activation_function", "src/neural_network/optimizer/Dropout.cpp: applyAfterOutputForTesting"]}
{"id": "C72", "title": "Training again and again on one sample learns it", "statement": "Take a network with one fully connected layer of identity neurons, no momentum and no layer optimizer, and train it again and again on the same input x and label d. Write s for the sum of the squares of x. In exact arithmetic: if s > 0 and learningRate * (s + 2) < 1, the error of every output falls geometrically, so any accuracy is reached and kept. If learningRate * (s + 2) > 1, each output has at most one label for which its error stays bounded. An input of zeros is never learned: since the update of a bias weight replaces it, the prediction goes to 2 lr / (1 + 2 lr) of the label and not to the label. For the same reason a network that already predicts the label exactly is spoiled by one training on that sample: each output becomes wrong by the bias weight it had.", "quantifier": "all such networks with any weights, inputs, labels, learning rates, random draws and numbers of trainings, in real arithmetic", "why_tests_cant": "convergence is about every number of trainings; a test runs a few hundred on one starting point", "anchors": ["src/neural_network/NeuralNetwork.cpp: trainOnce, backpropagationAlgorithm", "src/neural_network/layer/neuron/SimpleNeuron.cpp: back, train", "src/neural_network/optimizer/StochasticGradientDescent.cpp: updateWeights"]}
{"id": "C73", "title": "Predicting while another thread trains the network", "statement": "computeOutput may be called while a training thread runs (nothing prevents it). Whatever the schedule, no call reads or writes out of range, every prediction has the size of the output, the architecture stays, each training is counted once, and the network can be used afterwards. One would also expect that a prediction does not disturb the training and is the answer the network gives at some moment. Both are false: a prediction made between the forward and the backward half of a training step makes the step learn the input of the prediction in place of its own, and a prediction that overlaps a training step can be an answer that neither the old nor the new network gives.", "quantifier": "all constructed networks after any use, all lists of trainings and predictions, all schedules of the two threads (at the grain of one call of a layer)", "why_tests_cant": "it is about every interleaving of two threads", "anchors": ["src/neural_network/StraightforwardNeuralNetwork.cpp: computeOutput, startTrainingAsync", "src/neural_network/NeuralNetwork.cpp: output, outputForTraining, backpropagationAlgorithm, trainOnce", "src/neural_network/layer/neuron/SimpleNeuron.cpp: output, train"]}
{"id": "C74", "title": "Predictions made between trainings do not change what is learned", "statement": "Calling computeOutput or reading the outputs of the layers between calls of trainOnce (with any inputs, any number of times, and any temporalReset) does not change the result of the training: the weights, the count of trainings and every later answer are those of the same trainings without the other calls. True of every feed-forward network as long as no predicted value is infinite, NaN or subnormal. False otherwise: one such prediction stops the training for good, and a recurrent network keeps its last prediction as memory even with temporalReset.", "quantifier": "all constructed feed-forward networks (dense, convolution, locally connected, pooling, with any layer optimizer), all sequences of calls with inputs of any size and content, any arithmetic", "why_tests_cant": "it is about every sequence of calls", "anchors": ["src/neural_network/NeuralNetwork.cpp: output, trainOnce, getLayerOutputs", "src/neural_network/layer/neuron/SimpleNeuron.cpp: output", "src/neural_network/layer/neuron/CircularData.cpp: pushBack", "src/neural_network/layer/MaxPooling1D.cpp: computeOutput", "src/neural_network/layer/neuron/RecurrentNeuron.cpp: output, reset"]}
{"id": "C75", "title": "How often a network is evaluated during train() does not change what it learns", "statement": "Two calls of train() from the same network, data, seeds and stopping rule, that differ only in evaluationFrequency (0 for never, 1 for every epoch, ...), perform the same training steps on the same samples in the same order, with the same weights after each step, and end with the same weights and networks that answer every later call alike. True of every feed-forward network, new or used, when the stopping rule looks only at epochs and time and no abnormal number comes out. False with a recurrent layer: the evaluation leaves its last prediction in the memory the training starts from.", "quantifier": "all constructed feed-forward networks after any uses, all data, batch sizes, evaluation frequencies, random draws, clocks and stopping rules of epochs and durations joined by || or &&", "why_tests_cant": "it compares two executions of any length for every frequency", "anchors": ["src/neural_network/StraightforwardNeuralNetwork.cpp: trainSync, evaluate, continueTraining", "src/neural_network/Wait.cpp: isOver, operator||, operator&&", "src/neural_network/layer/neuron/RecurrentNeuron.cpp: output, reset"]}
{"id": "C76", "title": "evaluate() may be called while startTrainingAsync trains the network", "statement": "A user who calls evaluate(data) from his own thread while the network is training gets no error, and the training goes on as without it: every sample is learned once per epoch, with its own labels. What is true under every schedule: an evaluation never changes a weight, the network counts exactly the steps that learned, and (one sample at a time) every step learns inputs and labels of the training set, never of the testing set. The rest is false, because the loops of the two functions share one member as their index: for every network and data some schedule reads outside of the data, some schedule learns the inputs of a sample with the labels of another, and some schedule learns the first sample twice in the same epoch.", "quantifier": "all networks, data sets, batch sizes, stopping rules, schedules of the two threads (between source lines) and numbers of calls of evaluate", "why_tests_cant": "it depends on the interleaving of two threads", "anchors": ["src/neural_network/StraightforwardNeuralNetwork.cpp: trainSync, evaluate", "include/snn/neural_network/StraightforwardNeuralNetwork.hpp: index, evaluate", "src/data/Data.cpp: getTrainingData, getTrainingOutputs, getTestingData"]}
{"id": "C77", "title": "Training with batches of b samples is mini-batch gradient descent", "statement": "With a batch size b above 1, each step should move every weight against the gradient of the mean error over the b samples of the batch. The library trains once on the mean of the inputs and the mean of the labels of the batch instead. What is true: when the b samples have the same inputs, this is gradient descent on the mean error of the batch. In general it is not: on a linear layer the step misses the gradient step by exactly 2 x learningRate x the covariance, over the batch, of the input and of the error of the prediction. Hence a whole training may teach nothing: with batches as large as a training set whose inputs have mean 0 in every coordinate (and momentum 0), train() never changes an input weight of the first layer of a fully connected network, and a linear network can only learn a constant - whatever the labels and the number of epochs.", "quantifier": "all fully connected networks, batches, training sets with centred inputs, numbers of epochs, shuffles", "why_tests_cant": "it is about derivatives and about every training, however long", "anchors": ["src/data/Data.cpp: getTrainingData, getTrainingOutputs", "src/data/ProblemComposite.cpp", "src/neural_network/StraightforwardNeuralNetwork.cpp: trainSync"]}
{"id": "C78", "title": "A training can be interrupted and resumed", "statement": "Training for n epochs and then, when the network is ready again, for m more epochs on the same data gives the same network, statistics and order of the data, and presents the same samples in the same order, as one training of n + m epochs, provided the random generators go on from where they were; with any layers, optimizers, momentum, data and batch size, without evaluations in between. This holds too when the network is saved after the n epochs, read back from the file in another program and trained there. With evaluations of whatever frequencies it holds for feed-forward networks, while with a recurrent layer the evaluation made at the start of the second training changes what is learned. A training stopped by stopTrainingAsync() in the middle of an epoch cannot be resumed so: the rest of the epoch is lost.", "quantifier": "all networks, data, batch sizes, numbers of epochs, random draws, evaluation frequencies, and all states in which a network can be trained", "why_tests_cant": "it compares whole executions, of any length, whose internal states (momentum, shuffled order, recurrent states) all matter", "anchors": ["src/neural_network/StraightforwardNeuralNetwork.cpp: train, trainSync, resetTrainingValues, continueTraining, saveAs, loadFrom", "src/data/Data.cpp: shuffle"]}
{"id": "C79", "title": "The results of an evaluation do not depend on the order of the test samples", "statement": "Evaluating a feed-forward network, after any life, on two data sets whose test samples are the same in different orders gives the same accuracies, F1 score, counters, best values and improvement flags, whatever the arithmetic; in real arithmetic the errors are the same too. In float32 the mean absolute error depends on the order; so does everything with a recurrent layer; and when a sample makes an output abnormal, whether results are reported at all depends on its place.", "quantifier": "all feed-forward networks in all the states their lives lead to, all data sets and all permutations of their test samples", "why_tests_cant": "there are factorially many orders, and the statement is about every network", "anchors": ["src/neural_network/StraightforwardNeuralNetwork.cpp: evaluate", "src/neural_network/StatisticAnalysis.cpp", "src/neural_network/NeuralNetwork.cpp: evaluateOnceForRegression, evaluateOnceForClassification, evaluateOnceForMultipleClassification"]}
{"id": "C80", "title": "What convolutions and poolings see: the same pattern gives the same values wherever it is", "statement": "In a network that begins with convolutions and max poolings, after any life, each value they compute is a function of its receptive field only, and the same function at every position: if the cells of one image around one position hold what the cells of another image around another position hold, the values there (read through getLayerOutputs, or as answers of the network) are equal bit for bit. The receptive field is 1, plus size-1 for each convolution, times the size for each pooling; moving an image by a multiple of the product of the pooling sizes moves the outputs. Locally connected layers do not have this property.", "quantifier": "all such networks with any parameters in every state their lives lead to, all pairs of images, all pairs of positions whose receptive fields lie inside", "why_tests_cant": "there is no bound on sizes, depth, images and trained weights; equality is bit for bit", "anchors": ["src/neural_network/layer/Convolution1D.cpp", "src/neural_network/layer/Convolution2D.cpp", "src/neural_network/layer/MaxPooling1D.cpp", "src/neural_network/layer/MaxPooling2D.cpp", "src/neural_network/NeuralNetwork.cpp: getLayerOutputs"]}
{"id": "C81", "title": "A network that is already right is left alone", "statement": "Training on samples the network predicts exactly should change nothing. Without momentum it moves no weight of the inputs of any neuron of any layer, but it sets every bias weight of the network to zero. So a network without bias that is right about its whole training set is left exactly as it is by train(), however long it lasts (same weights, same prediction for every input), while one with a bias in its linear last layer gives answers wrong by that bias, for every input, after one training on a sample it was right about. With momentum m each weight goes on by m times its last change, and each bias weight becomes m times what it was.", "quantifier": "all networks of fully connected layers of any depth, activations and weights without layer optimizers, all data sets, orders, stopping rules, evaluations and numbers of epochs; batches of one sample; real arithmetic", "why_tests_cant": "being left unchanged is about every epoch of every run and every network that happens to be right; tests train networks that are wrong", "anchors": ["src/neural_network/NeuralNetwork.cpp: trainOnce, calculateError, backpropagationAlgorithm", "src/neural_network/optimizer/StochasticGradientDescent.cpp: updateWeights", "src/neural_network/layer/neuron/SimpleNeuron.cpp: backOutput, train", "src/neural_network/StraightforwardNeuralNetwork.cpp: train"]}
{"id": "C82", "title": "A network file cut short is never taken for a network", "statement": "When a process dies while a network is being saved, what is left of the file is never loaded as another network: cut between two values, or inside any value but the last, loadFrom throws; cut inside the last one it gives the network saved, with another size of its last training set, which changes no prediction and no training. So at every moment of any history of saves, whatever can be loaded from a file is the network of the last save, the one that was being saved, or what was there before the first save. But a save writes over the file it replaces: at every save there are moments at which nothing can be loaded, however good the network that was there, and the automatic save always writes to the same file, so a process that dies while a better network is saved leaves nothing of the best so far. And nothing is checked when a file is read: a file with one value changed loads, and its first training is undefined.", "quantifier": "all networks (all layers, optimizers, statistics), all prefixes of the file between two values or inside one, all histories of trainings and saves to any files, all crash points; any arithmetic", "why_tests_cant": "a crash can happen after any byte of any file; tests save and load whole files", "anchors": ["src/neural_network/StraightforwardNeuralNetwork.cpp: saveSync, saveAs, loadFrom, evaluate", "include/snn/neural_network/StraightforwardNeuralNetwork.hpp: serialize, autoSaveFilePath", "include/snn/neural_network/NeuralNetwork.hpp: serialize"]}
{"id": "C83", "title": "Options of layers that have no effect change nothing", "statement": "A layer given ErrorMultiplier(1) or Dropout(0), any number of times and anywhere in its list of options, behaves as the layer without: the network described with such options in any of its layers is accepted or refused as the one without, and then gives the same predictions, the same intermediate outputs, the same weights and the same count of trainings after any calls, whatever the other options of its layers draw, as long as the draws are the same; and whatever is done with two StraightforwardNeuralNetworks so described (trainings with any stopping rule and any data, evaluations, predictions) shows the same weights, results of evaluations and order of the data. With real arithmetic L1Regularization(0) and L2Regularization(0) are without effect too.", "quantifier": "all architectures (all kinds of layers, of activations, with any options of their own), all places, all sequences of trainings, predictions and inspections, all draws; any arithmetic where x * 1 = x, binary32 in particular (reals for the regularizations)", "why_tests_cant": "tests try one option on one layer and look whether the network learns", "anchors": ["src/neural_network/optimizer/Dropout.cpp", "src/neural_network/optimizer/ErrorMultiplier.cpp", "src/neural_network/optimizer/L1Regularization.cpp", "src/neural_network/optimizer/L2Regularization.cpp", "src/neural_network/optimizer/LayerOptimizerFactory.cpp", "include/snn/neural_network/layer/Layer.tpp"]}
{"id": "C84", "title": "An error multiplier on the last layer is a learning rate", "statement": "With real arithmetic, ErrorMultiplier(c) put after the other options of the last layer of a network described with the learning rate r does what the learning rate c * r does without it (the factors of the regularizations of the layers before the last being multiplied by c in the one): after any calls the two networks give the same answers, the same intermediate outputs, the same weights and the same count of trainings, and two StraightforwardNeuralNetworks so described show the same predictions, weights, results of evaluations and order of the data, whatever the stopping rules. The momentum is not concerned. With floats the weights may differ by the roundings.", "quantifier": "all architectures (all kinds of layers, all activations, any options), all factors, rates and momentums accepted, all initial weights, all sequences of trainings, predictions and inspections, all draws of the options", "why_tests_cant": "tests train one network with one rate and look at the accuracy; the scaling goes through every kind of neuron, the filters, the recurrences and the momentum", "anchors": ["src/neural_network/optimizer/ErrorMultiplier.cpp", "src/neural_network/optimizer/StochasticGradientDescent.cpp", "include/snn/neural_network/layer/Layer.tpp", "src/neural_network/NeuralNetwork.cpp"]}
{"id": "C85", "title": "A layer whose errors are multiplied by 0 does not learn, nor do the layers before it", "statement": "With real arithmetic, in a network one of whose layers ends with ErrorMultiplier(0), no layer before it having a regularization, this layer and those before it never learn, whatever the layers after it are: after any trainings, predictions and inspections the weights of each of their neurons are those it was built with, except that the weight of the bias may have become 0; the same holds after each training of a StraightforwardNeuralNetwork, whatever the data, the stopping rules, the learning rate and the momentum. On the last layer it keeps the whole network. The predictions are not kept: the first training takes the bias away from dense neurons.", "quantifier": "all architectures (all kinds of layers, all activations, any options but regularizations before the layer), all rates and momentums accepted, all initial weights, all histories of trainings, predictions and inspections, all draws", "why_tests_cant": "tests train a few networks and never with a multiplier 0; that nothing leaks from the momentum, the recurrences or the dropped errors into the weights is about all histories", "anchors": ["src/neural_network/optimizer/ErrorMultiplier.cpp", "src/neural_network/optimizer/StochasticGradientDescent.cpp", "include/snn/neural_network/layer/Layer.tpp", "src/neural_network/NeuralNetwork.cpp"]}
