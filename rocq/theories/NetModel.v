(* Model of src/neural_network/NeuralNetwork.cpp: the network as a chain of layers and the training step. *)
From Verif Require Import Base Num ActModel NeuronModel LayerModel.

Section M.
Context {N : Num}.
Local Open Scope outcome_scope.

(* NeuralNetwork.hpp: outputNan, numberOfTraining, layers, optimizer (the statistics are in StatModel) *)
Record Net := mkNet { nn_layers : list Layer; nn_opt : SGD; nn_nan : bool; nn_trainings : Z }.

(* for (l = 0; l < layers.size(); ++l) outputs = layers[l]->f(outputs, temporalReset) *)
Fixpoint chain (f : nat -> Layer -> list F -> outcome (list F * Layer)) (l : nat) (ls : list Layer) (v : list F)
  : outcome (list F * list Layer) :=
  match ls with
  | [] => Ok (v, [])
  | a :: t => let* (v, a') := f l a v in let* (v, t') := chain f (S l) t v in Ok (v, a' :: t')
  end.
(* ranges::any_of(outputs, not FP_NORMAL and not FP_ZERO): NeuralNetwork.cpp 67, 80 *)
Definition anyAbnormal (v : list F) : bool := existsb (fun x => negb (fnormal x)) v.
(* NeuralNetwork.cpp 60-71: layers[0] is accessed without a test *)
Definition net_output (n : Net) (inputs : list F) (temporalReset : bool) : outcome (list F * Net) :=
  match nn_layers n with
  | [] => UB
  | _ => let* (out, ls) := chain (fun _ l v => layer_output l v temporalReset) 0 (nn_layers n) inputs in
         Ok (out, mkNet ls (nn_opt n) (nn_nan n || anyAbnormal out) (nn_trainings n))
  end.
(* NeuralNetwork.cpp 73-84; [rand l o i] is the i-th draw of optimizer o of layer l *)
Definition net_outputForTraining (rand : nat -> nat -> nat -> bool) (n : Net) (inputs : list F) (temporalReset : bool) : outcome (list F * Net) :=
  match nn_layers n with
  | [] => UB
  | _ => let* (out, ls) := chain (fun i l v => layer_outputForTraining (rand i) l v temporalReset) 0 (nn_layers n) inputs in
         Ok (out, mkNet ls (nn_opt n) (nn_nan n || anyAbnormal out) (nn_trainings n))
  end.
(* NeuralNetwork.cpp 100-109 *)
Definition calculateError (numberOfOutputs : nat) (outputs desired : list F) : outcome (list F) :=
  omap (fun n => let* d := lget desired n in let* o := lget outputs n in Ok (fmul (fofZ 2) (fsub d o))) (seq 0 numberOfOutputs).
(* for (l = layers.size()-1; l > 0; --l) errors = layers[l]->backOutput(errors); layers[0]->train(errors):
   NeuralNetwork.cpp 92-97 *)
Fixpoint chain_back (o : SGD) (ls : list Layer) (errors : list F) : outcome (list F * list Layer) :=
  match ls with
  | [] => Ok (errors, [])
  | a :: t => let* (e, t') := chain_back o t errors in
              let* (e, a') := layer_backOutput o a e in Ok (e, a' :: t')
  end.
(* NeuralNetwork.cpp 86-98 *)
Definition backpropagation (rand : nat -> nat -> nat -> bool) (n : Net) (inputs desired : list F) (temporalReset : bool) : outcome Net :=
  let* (out, n) := net_outputForTraining rand n inputs temporalReset in
  if nn_nan n then Ok n else
  match nn_layers n with
  | [] => UB
  | first :: rest =>
    let* errors := calculateError (getNumberOfNeurons (last (first :: rest) first)) out desired in
    let* (e, rest') := chain_back (nn_opt n) rest errors in
    let* first' := layer_train (nn_opt n) first e in
    Ok (mkNet (first' :: rest') (nn_opt n) (nn_nan n) (nn_trainings n))
  end.
(* NeuralNetwork.cpp 54-58 *)
Definition trainOnce (rand : nat -> nat -> nat -> bool) (n : Net) (inputs desired : list F) (temporalReset : bool) : outcome Net :=
  let* n := backpropagation rand n inputs desired temporalReset in
  Ok (mkNet (nn_layers n) (nn_opt n) (nn_nan n) (nn_trainings n + 1)).

(* NeuralNetwork.cpp 111-123: the outputs of every layer for an input *)
Fixpoint chain_outputs (ls : list Layer) (v : list F) : outcome (list (list F) * list Layer) :=
  match ls with
  | [] => Ok ([], [])
  | a :: t => let* (v, a') := layer_output a v true in
              let* (r, t') := chain_outputs t v in Ok (v :: r, a' :: t')
  end.
Definition getLayerOutputs (n : Net) (inputs : list F) : outcome (list (list F) * Net) :=
  match nn_layers n with
  | [] => UB
  | _ => let* (r, ls) := chain_outputs (nn_layers n) inputs in Ok (r, mkNet ls (nn_opt n) (nn_nan n) (nn_trainings n))
  end.
(* NeuralNetwork.cpp 135-166 *)
Definition net_numberOfInputs (n : Net) : outcome nat := let* l := lget (nn_layers n) 0 in Ok (l_in l).
Definition net_numberOfOutputs (n : Net) : outcome nat :=
  let* l := lgetZ (nn_layers n) (Z.of_nat (List.length (nn_layers n)) - 1) in Ok (getNumberOfNeurons l).
Definition net_numberOfParameters (n : Net) : nat := list_sum (map layer_parameters (nn_layers n)).
(* all the weights of the network *)
Definition net_weights (n : Net) : list (list (list F)) := map layer_weights (nn_layers n).
End M.
