(* Model of summary(): StraightforwardNeuralNetwork.cpp 304-325 and what it calls. The text of a float (operator<< of a stream with its default
   format, six significant digits) is a parameter. endl is the newline character. *)
From Coq Require Import Ascii.
From Verif Require Import Base Num ActModel NeuronModel LayerModel FactoryModel NetModel StatModel ToolsModel TrainModel.
Local Open Scope string_scope.
Local Open Scope outcome_scope.
Local Open Scope string_scope.

Definition nl : string := String (ascii_of_nat 10) EmptyString.
Definition num (n : nat) : string := to_string (Z.of_nat n).
(* getName of the activation functions: Sigmoid.hpp 14, ImprovedSigmoid.hpp 14, Tanh.hpp 14, ReLU.hpp 14, GELU.hpp 14, Gaussian.hpp 14, Identity.hpp 14 *)
Definition act_name (a : activation) : string :=
  match a with a_sigmoid => "sigmoid" | a_iSigmoid => "iSigmoid" | a_tanh => "tanh" | a_ReLU => "ReLU" | a_GELU => "GELU" | a_gaussian => "gaussian" | a_identity => "identity" end.

Section S.
Context {N : Num}.
Variable show : F -> string.

(* Dropout.cpp 56-61, L1Regularization.cpp 32-37, L2Regularization.cpp 32-37, ErrorMultiplier.cpp 30-35, Softmax.cpp 65-70 *)
Definition opt_summary (o : LOpt) : string :=
  match o with
  | ODropout v _ _ => "Dropout(" ++ show v ++ ")" ++ nl
  | OL1 v => "L1Regularization(" ++ show v ++ ")" ++ nl
  | OL2 v => "L2Regularization(" ++ show v ++ ")" ++ nl
  | OMult v => "ErrorMultiplier(" ++ show v ++ ")" ++ nl
  | OSoftmax => "Softmax"
  end.
(* the end of every layer's summary, e.g. FullyConnected.cpp 33-40 *)
Fixpoint more_opts (os : list LOpt) : string :=
  match os with [] => "" | o :: t => "                              " ++ opt_summary o ++ nl ++ more_opts t end.
Definition opts_summary (os : list LOpt) : string :=
  match os with [] => "" | o :: t => "                Optimizers:   " ++ opt_summary o ++ nl ++ more_opts t end.
Definition rule : string := "------------------------------------------------------------" ++ nl.
(* this->neurons[0] *)
Definition first_act (ns : list Neuron) : outcome string := let* n := lget ns 0 in Ok (act_name (n_act n)).
(* [shape[0], shape[1]] and [shape[0], shape[1], shape[2]] *)
Definition dims2 (s : list nat) : outcome string := let* a := lget s 0 in let* b := lget s 1 in Ok ("[" ++ num a ++ ", " ++ num b ++ "]").
Definition dims3 (s : list nat) : outcome string := let* a := lget s 0 in let* b := lget s 1 in let* c := lget s 2 in Ok ("[" ++ num a ++ ", " ++ num b ++ ", " ++ num c ++ "]").
(* Convolution1D.cpp 64-84, Convolution2D.cpp 72-92 *)
Definition conv_summary (name : string) (shape : list nat -> outcome string) (kernel : string) (l : Layer) (f : Filter) (ns : list Neuron) : outcome string :=
  let* i := shape (f_shapeIn f) in let* a := first_act ns in let* o := shape (f_shapeOut f) in
  Ok (rule ++ " " ++ name ++ nl ++
      "                Input shape:  " ++ i ++ nl ++
      "                Filters:      " ++ num (f_filters f) ++ nl ++
      "                Kernel size:  " ++ kernel ++ nl ++
      "                Parameters:   " ++ num (layer_parameters l) ++ nl ++
      "                Activation:   " ++ a ++ nl ++
      "                Output shape: " ++ o ++ nl ++
      opts_summary (l_opts l)).
(* LocallyConnected1D.cpp 70-90, LocallyConnected2D.cpp 80-100: no endl after the name *)
Definition local_summary (name : string) (shape : list nat -> outcome string) (kernel : string) (l : Layer) (f : Filter) (ns : list Neuron) : outcome string :=
  let* i := shape (f_shapeIn f) in let* a := first_act ns in let* o := shape (f_shapeOut f) in
  Ok (rule ++ " " ++ name ++
      "                Input shape: " ++ i ++ nl ++
      "                Filters: " ++ num (f_filters f) ++ nl ++
      "                Kernel size: " ++ kernel ++ nl ++
      "                Parameters: " ++ num (layer_parameters l) ++ nl ++
      "                Activation: " ++ a ++ nl ++
      "                Output shape: " ++ o ++ nl ++
      opts_summary (l_opts l)).
(* MaxPooling1D.cpp 65-82, MaxPooling2D.cpp 75-92 *)
Definition pool_summary (name : string) (shape : list nat -> outcome string) (kernel : string) (l : Layer) (f : Filter) : outcome string :=
  let* i := shape (f_shapeIn f) in let* o := shape (f_shapeOut f) in
  Ok (rule ++ " " ++ name ++ nl ++
      "                Input shape:  " ++ i ++ nl ++
      "                Kernel size:  " ++ kernel ++ nl ++
      "                Output shape: " ++ o ++ nl ++
      opts_summary (l_opts l)).
Definition layer_summary (l : Layer) : outcome string :=
  match l_body l with
  (* FullyConnected.cpp 23-42 *)
  | BFull ns =>
    let* a := first_act ns in
    Ok (rule ++ " FullyConnected" ++ nl ++
        "                Input shape:  " ++ ("[" ++ num (l_in l) ++ "]") ++ nl ++
        "                Neurons:      " ++ num (getNumberOfNeurons l) ++ nl ++
        "                Parameters:   " ++ num (layer_parameters l) ++ nl ++
        "                Activation:   " ++ a ++ nl ++
        "                Output shape: " ++ ("[" ++ num (getNumberOfNeurons l) ++ "]") ++ nl ++
        opts_summary (l_opts l))
  (* Recurrence.cpp 23-42: the input shape is the number of neurons, the output shape the number of inputs *)
  | BRec ns =>
    let* a := first_act (map r_n ns) in
    Ok (rule ++ " Recurrence" ++ nl ++
        "                Input shape:  " ++ ("[" ++ num (getNumberOfNeurons l) ++ "]") ++ nl ++
        "                Neurons:      " ++ num (getNumberOfNeurons l) ++ nl ++
        "                Parameters:   " ++ num (layer_parameters l) ++ nl ++
        "                Activation:   " ++ a ++ nl ++
        "                Output shape: " ++ ("[" ++ num (l_in l) ++ "]") ++ nl ++
        opts_summary (l_opts l))
  (* GruLayer.cpp 23-41 *)
  | BGru ns =>
    Ok (rule ++ " GruLayer" ++ nl ++
        "                Input shape:  " ++ ("[" ++ num (getNumberOfNeurons l) ++ "]") ++ nl ++
        "                Neurons:      " ++ num (getNumberOfNeurons l) ++ nl ++
        "                Parameters:   " ++ num (layer_parameters l) ++ nl ++
        "                Output shape: " ++ ("[" ++ num (l_in l) ++ "]") ++ nl ++
        opts_summary (l_opts l))
  | BFilter Conv1D f ns => conv_summary "Convolution1D" dims2 (num (f_ksize f)) l f ns
  | BFilter Conv2D f ns => conv_summary "Convolution2D" dims3 (num (f_ksize f) ++ "x" ++ num (f_ksize f)) l f ns
  | BFilter Loc1D f ns => local_summary "LocallyConnected1D" dims2 (num (f_ksize f)) l f ns
  | BFilter Loc2D f ns => local_summary "LocallyConnected2D" dims3 (num (f_ksize f) ++ "x" ++ num (f_ksize f)) l f ns
  | BFilter Pool1D f _ => pool_summary "MaxPooling1D" dims2 (num (f_ksize f)) l f
  | BFilter Pool2D f _ => pool_summary "MaxPooling2D" dims3 (num (f_ksize f) ++ "x" ++ num (f_ksize f)) l f
  end.
Fixpoint layers_summary (ls : list Layer) : outcome string :=
  match ls with [] => Ok "" | l :: t => let* a := layer_summary l in let* b := layers_summary t in Ok (a ++ b) end.
(* StochasticGradientDescent.cpp 80-87 *)
Definition sgd_summary (o : SGD) : string :=
  " StochasticGradientDescent" ++ nl ++
  "                Learning rate: " ++ show (o_lr o) ++ nl ++
  "                Momentum:      " ++ show (o_m o) ++ nl.
Definition bar : string := "============================================================" ++ nl.
(* StraightforwardNeuralNetwork.cpp 304-325 *)
Definition summary (s : Snn) : outcome string :=
  let* ls := layers_summary (nn_layers (sn_net s)) in
  Ok (bar ++ "| SNN Model Summary                                        |" ++ nl ++ bar ++
      " Name:       " ++ sn_path s ++ nl ++
      " Parameters: " ++ num (net_numberOfParameters (sn_net s)) ++ nl ++
      " Epochs:     " ++ to_string (sn_epoch s) ++ nl ++
      " Trainnig:   " ++ to_string (nn_trainings (sn_net s)) ++ nl ++
      bar ++ "| Layers                                                   |" ++ nl ++ bar ++
      ls ++
      bar ++ "|  Optimizer                                               |" ++ nl ++ bar ++
      sgd_summary (nn_opt (sn_net s)) ++ bar).
End S.
