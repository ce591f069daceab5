(* Model of src/neural_network/StraightforwardNeuralNetwork.cpp: computeOutput, computeCluster, train, trainSync, evaluate, stopping,
   saving to a file name; one thread (the interleavings of startTrainingAsync are in AsyncModel.v).
   Left out: the log messages (logInProgress, logAccuracy), which read the state and change nothing but the clock used for logging.
   The log messages are off, as in Tools.hpp 25 (verbose = none), except in evaluateVerbose. Integers that count samples or epochs are unbounded. *)
From Coq Require Import String.
From Verif Require Import Base Num NeuronModel LayerModel NetModel StatModel WaitModel DataModel FactoryModel.
Local Open Scope outcome_scope.

Section M.
Context {N : Num}.

(* StraightforwardNeuralNetwork.hpp 18-24, 47-48, the base class NeuralNetwork and its base StatisticAnalysis *)
Record Snn := mkSnn {
  sn_net : Net; sn_stats : Stats;
  sn_want : bool;     (* wantToStopTraining *)
  sn_idle : bool;     (* isIdle *)
  sn_index : nat; sn_epoch : Z; sn_ntrain : nat;  (* index, epoch, numberOfTrainingsBetweenTwoEvaluations *)
  sn_auto : bool; sn_path : string                (* autoSaveWhenBetter, autoSaveFilePath *)
}.
Definition with_net (s : Snn) (n : Net) : Snn := mkSnn n (sn_stats s) (sn_want s) (sn_idle s) (sn_index s) (sn_epoch s) (sn_ntrain s) (sn_auto s) (sn_path s).
Definition with_stats (s : Snn) (st : Stats) : Snn := mkSnn (sn_net s) st (sn_want s) (sn_idle s) (sn_index s) (sn_epoch s) (sn_ntrain s) (sn_auto s) (sn_path s).
Definition with_want (s : Snn) (b : bool) : Snn := mkSnn (sn_net s) (sn_stats s) b (sn_idle s) (sn_index s) (sn_epoch s) (sn_ntrain s) (sn_auto s) (sn_path s).
Definition with_idle (s : Snn) (b : bool) : Snn := mkSnn (sn_net s) (sn_stats s) (sn_want s) b (sn_index s) (sn_epoch s) (sn_ntrain s) (sn_auto s) (sn_path s).
Definition with_index (s : Snn) (i : nat) : Snn := mkSnn (sn_net s) (sn_stats s) (sn_want s) (sn_idle s) i (sn_epoch s) (sn_ntrain s) (sn_auto s) (sn_path s).
Definition with_epoch (s : Snn) (e : Z) : Snn := mkSnn (sn_net s) (sn_stats s) (sn_want s) (sn_idle s) (sn_index s) e (sn_ntrain s) (sn_auto s) (sn_path s).
Definition with_ntrain (s : Snn) (n : nat) : Snn := mkSnn (sn_net s) (sn_stats s) (sn_want s) (sn_idle s) (sn_index s) (sn_epoch s) n (sn_auto s) (sn_path s).
Definition with_path (s : Snn) (p : string) : Snn := mkSnn (sn_net s) (sn_stats s) (sn_want s) (sn_idle s) (sn_index s) (sn_epoch s) (sn_ntrain s) (sn_auto s) p.

(* StraightforwardNeuralNetwork.cpp 22-31, NeuralNetwork.cpp 13-18, default member values StraightforwardNeuralNetwork.hpp 20-24 and 53-54 *)
Definition newSnn (draws : nat -> nat -> nat -> nat -> F) (masks : nat -> nat -> nat -> bool) (ds : list LDesc) (lr m : F) : outcome Snn :=
  let* net := construct draws masks ds lr m in
  let* o := net_numberOfOutputs net in
  Ok (mkSnn net (initialStats o) false true 0 0 0 false "AutoSave.snn").

(* What happens, in order, with the state of the network after it. [Stepped i learned x y s] is a step at the position i on
   the inputs x, learning the outputs y if [learned]; [Saved p s] writes the state s to the file p. *)
Inductive event :=
| Shuffled
| Stepped (index : nat) (learned : bool) (x y : list F) (s : Snn)
| Evaluated (s : Snn)
| Saved (path : string) (s : Snn).

(* The surroundings of a training: the milliseconds elapsed at the k-th check, whether another thread has called stopTrainingAsync
   before the k-th check, the random draws of the k-th shuffle and of the k-th training output, the constant NAN *)
Record Env := mkEnv { e_clock : nat -> Z; e_stop : nat -> bool; e_rng : nat -> nat -> list nat; e_rand : nat -> nat -> nat -> nat -> bool; e_nan : F }.

(* the network, the data, the number of checks made so far and what has happened *)
Record Run := mkRun { r_snn : Snn; r_data : Data; r_checks : nat; r_log : list event }.
Definition upd (r : Run) (s : Snn) : Run := mkRun s (r_data r) (r_checks r) (r_log r).
Definition logs (r : Run) (e : event) : Run := mkRun (r_snn r) (r_data r) (r_checks r) (r_log r ++ [e]).

(* StraightforwardNeuralNetwork.cpp 46-49, 51-64 *)
Definition computeOutput (s : Snn) (inputs : list F) (temporalReset : bool) : outcome (list F * Snn) :=
  let* (o, n) := net_output (sn_net s) inputs temporalReset in Ok (o, with_net s n).
Definition computeCluster (s : Snn) (inputs : list F) (temporalReset : bool) : outcome (Z * Snn) :=
  let* (o, s) := computeOutput s inputs temporalReset in Ok (clusterOf o, s).

(* StraightforwardNeuralNetwork.cpp 195-200 *)
Definition resetTrainingValues (s : Snn) : Snn := with_idle (with_want (with_index s 0) false) true.
(* StraightforwardNeuralNetwork.cpp 202-213; a stop request of another thread sets wantToStopTraining before the check *)
Definition continueTraining (env : Env) (w : Wait) (r : Run) : bool * Run :=
  let s := if e_stop env (r_checks r) then with_want (r_snn r) true else r_snn r in
  (negb (sn_want s) && negb (isOver w (e_clock env (r_checks r)) (sn_epoch s) (st_rate (sn_stats s)) (st_mae (sn_stats s))) && negb (nn_nan (sn_net s)),
   mkRun s (r_data r) (S (r_checks r)) (r_log r)).
(* StraightforwardNeuralNetwork.cpp 286-292 *)
Definition saveSync (p : string) (r : Run) : Run := let s := with_path (r_snn r) p in logs (upd r s) (Saved p s).

(* StraightforwardNeuralNetwork.cpp 156-182, NeuralNetwork.cpp 32-52 *)
Definition evaluateOnce (s : Snn) (d : Data) : outcome Snn :=
  let i := sn_index s in
  match d_problem d with
  | classification =>
    let* x := getTestingData d i in let* label := getTestingLabel d i in let* sep := getSeparator d in let* fi := isFirstTesting d i in
    let* (o, n) := net_output (sn_net s) x fi in
    let* st := evaluateOnceForClassification (sn_stats s) o (Z.of_nat label) sep in Ok (with_stats (with_net s n) st)
  | multipleClassification =>
    let* x := getTestingData d i in let* y := getTestingOutputs d i in let* sep := getSeparator d in let* fi := isFirstTesting d i in
    let* (o, n) := net_output (sn_net s) x fi in
    let* st := evaluateOnceForMultipleClassification (sn_stats s) o y sep in Ok (with_stats (with_net s n) st)
  | regression =>
    let* x := getTestingData d i in let* y := getTestingOutputs d i in let* prec := getPrecision d in let* fi := isFirstTesting d i in
    let* (o, n) := net_output (sn_net s) x fi in
    let* st := evaluateOnceForRegression (sn_stats s) o y prec in Ok (with_stats (with_net s n) st)
  end.
(* one turn of the loop of evaluate, StraightforwardNeuralNetwork.cpp 130-142, when hasNan() is false *)
Definition evaluateTurn (s : Snn) (d : Data) : outcome Snn :=
  let* need := needToEvaluate d (sn_index s) in
  if need then evaluateOnce s d
  else let* x := getTestingData d (sn_index s) in let* fi := isFirstTesting d (sn_index s) in
       let* (_, n) := net_output (sn_net s) x fi in Ok (with_net s n).
(* the loop, for the indexes left; the boolean tells that the function returns at line 134 *)
Fixpoint evaluateLoop (nan : F) (rest : nat) (s : Snn) (d : Data) : outcome (bool * Snn) :=
  match rest with
  | O => Ok (false, s)
  | S rest =>
    if nn_nan (sn_net s) then Ok (true, resetTrainingValues (with_stats s (setResultsAsNan nan (sn_stats s))))
    else let* s := evaluateTurn s d in evaluateLoop nan rest (with_index s (S (sn_index s))) d
  end.
(* StraightforwardNeuralNetwork.cpp 125-154 *)
Definition evaluate (env : Env) (r : Run) : outcome Run :=
  let s := with_index (with_stats (r_snn r) (startTesting (sn_stats (r_snn r)))) 0 in
  let* (stopped, s) := evaluateLoop (e_nan env) (s_size (d_test (r_data r))) s (r_data r) in
  if stopped then Ok (logs (upd r s) (Evaluated s))
  else
    let s := with_stats s (stopTesting (sn_stats s)) in
    let r := logs (upd r s) (Evaluated s) in
    if sn_auto s && st_rateBetter (sn_stats s) then Ok (saveSync (sn_path s) r) else Ok r.

(* evaluate(data) called by the user, StraightforwardNeuralNetwork.hpp 62: the pointer is null; with verbose = none (Tools.hpp 25) the
   functions logInProgress and logAccuracy, which take the reference *wait, have an empty body *)
Definition evaluateData (env : Env) (s : Snn) (d : Data) : outcome Run := evaluate env (mkRun s d 0 []).
(* the same in a library compiled with verbose >= minimal: the null pointer is dereferenced by logInProgress (line 141) after the first
   sample, by logAccuracy (line 152) when there is none and nothing is saved *)
Definition evaluateVerbose (env : Env) (s : Snn) (d : Data) : outcome Run :=
  let s := with_index (with_stats s (startTesting (sn_stats s))) 0 in
  match s_size (d_test d) with
  | O => let s := with_stats s (stopTesting (sn_stats s)) in
         let r := mkRun s d 0 [Evaluated s] in
         if sn_auto s && st_rateBetter (sn_stats s) then Ok (saveSync (sn_path s) r) else UB
  | S _ => if nn_nan (sn_net s) then let s := resetTrainingValues (with_stats s (setResultsAsNan (e_nan env) (sn_stats s))) in Ok (mkRun s d 0 [Evaluated s])
           else let* _ := evaluateTurn s d in UB
  end.

(* Functions that may not terminate take a number of turns; None: not finished within that number. *)
Definition run := option (outcome Run).
Definition andThen (x : outcome Run) (f : Run -> run) : run :=
  match x with Ok r => f r | Throw m => Some (Throw m) | UB => Some UB end.
Definition thenRun (x : run) (f : Run -> run) : run := match x with Some x => andThen x f | None => None end.

(* one training step, StraightforwardNeuralNetwork.cpp 111-115 *)
Definition trainingTurn (env : Env) (b : nat) (r : Run) : outcome Run :=
  let s := r_snn r in let i := sn_index s in
  let* need := needToLearn (r_data r) i in
  if need then
    let* (x, d) := getTrainingData (r_data r) i b in
    let* (y, d) := getTrainingOutputs d i b in
    let* fi := isFirstTraining d i in
    let* n := trainOnce (e_rand env (r_checks r)) (sn_net s) x y fi in
    let s := with_net s n in Ok (mkRun s d (r_checks r) (r_log r ++ [Stepped i true x y s]))
  else
    let* (x, d) := getTrainingData (r_data r) i b in
    let* fi := isFirstTraining d i in
    let* (_, n) := net_outputForTraining (e_rand env (r_checks r)) (sn_net s) x fi in
    let s := with_net s n in Ok (mkRun s d (r_checks r) (r_log r ++ [Stepped i false x [] s])).
(* the loop over an epoch, StraightforwardNeuralNetwork.cpp 101-117; the boolean tells that trainSync returns at line 108 *)
Fixpoint epochLoop (fuel : nat) (env : Env) (w : Wait) (b : nat) (r : Run) : option (outcome (bool * Run)) :=
  match fuel with
  | O => None
  | S fuel =>
    if sn_index (r_snn r) + b <=? sn_ntrain (r_snn r) then
      let (go, r) := continueTraining env w r in
      if go then
        if nn_nan (sn_net (r_snn r)) then Some (Ok (true, upd r (resetTrainingValues (with_stats (r_snn r) (setResultsAsNan (e_nan env) (sn_stats (r_snn r)))))))
        else match trainingTurn env b r with
             | Ok r => epochLoop fuel env w b (upd r (with_index (r_snn r) (sn_index (r_snn r) + b)))
             | Throw m => Some (Throw m) | UB => Some UB
             end
      else Some (Ok (false, r))
    else Some (Ok (false, r))
  end.
(* StraightforwardNeuralNetwork.cpp 98-122 *)
Fixpoint trainingLoop (fuel : nat) (env : Env) (w : Wait) (b : nat) (f : Z) (r : Run) : run :=
  match fuel with
  | O => None
  | S fuel' =>
    let (go, r) := continueTraining env w r in
    if go then
      andThen (let* d := shuffle (e_rng env (r_checks r)) (r_data r) in Ok (mkRun (with_index (r_snn r) 0) d (r_checks r) (r_log r ++ [Shuffled]))) (fun r =>
      match epochLoop fuel env w b r with
      | Some (Ok (true, r)) => Some (Ok r)
      | Some (Ok (false, r)) =>
        andThen (if (0 <? f)%Z && (Z.rem (sn_epoch (r_snn r)) f =? 0)%Z then evaluate env r else Ok r) (fun r =>
        trainingLoop fuel' env w b f (upd r (with_epoch (r_snn r) (sn_epoch (r_snn r) + 1))))
      | Some (Throw m) => Some (Throw m) | Some UB => Some UB | None => None
      end)
    else Some (Ok (upd r (resetTrainingValues (r_snn r))))
  end.
(* StraightforwardNeuralNetwork.cpp 88-123 *)
Definition trainSync (fuel : nat) (env : Env) (w : Wait) (b : nat) (f : Z) (r : Run) : run :=
  let r := upd r (with_idle (with_want (with_ntrain (with_epoch (r_snn r) 0) (s_size (d_train (r_data r)))) false) false) in
  andThen (if (0 <? f)%Z then evaluate env r else Ok r) (fun r =>
  trainingLoop fuel env w b f (upd r (with_epoch (r_snn r) 1))).
(* StraightforwardNeuralNetwork.cpp 236-246 *)
Definition validData (s : Snn) (d : Data) (b : Z) : outcome unit :=
  let* o := net_numberOfOutputs (sn_net s) in
  let* i := net_numberOfInputs (sn_net s) in
  if negb (d_numberOfLabels d =? o) || negb (d_sizeOfData d =? i) then Throw "Data has not the same format as the neural network"
  else if negb (b =? 1)%Z && match d_nature d with nonTemporal => false | _ => true end then Throw "Non temporal data cannot have batch size"
  else if (b <? 1)%Z then Throw "Wrong batch size"
  else if (Z.of_nat (s_size (d_train d)) <? b)%Z then Throw "Batch size is too large" else Ok tt.
(* StraightforwardNeuralNetwork.cpp 79-86; stopTrainingAsync (184-193) sets wantToStopTraining, which trainSync resets; no thread to join *)
Definition train (fuel : nat) (env : Env) (w : Wait) (b : Z) (f : Z) (s : Snn) (d : Data) : run :=
  match validData s d b with
  | Throw m => Some (Throw m) | UB => Some UB
  | Ok _ => if negb (sn_idle s) then Some (Throw "Neural network is already training")
            else trainSync fuel env w (Z.to_nat b) f (mkRun (with_want s true) d 0 [])
  end.
(* StraightforwardNeuralNetwork.cpp 248-253 *)
Definition saveAs (p : string) (r : Run) : outcome Run :=
  if negb (sn_idle (r_snn r)) then Throw "Neural network cannot be saved during training, stop training before saving or use auto save" else Ok (saveSync p r).
End M.
