(* Model of evaluate(data) called by the user while the thread of startTrainingAsync trains the same network: both use the member
   index of the network, its statistics and its layers, with no lock (StraightforwardNeuralNetwork.cpp 88-154).
   One step of a thread is one line of its function (one expression of line 112-113 for the training): real threads interleave more finely, and
   then the behaviour is undefined in C++; what is refuted here is reachable there too, what is proved is about this grain. Memory is sequentially consistent.
   The training evaluates nothing by itself (evaluationFrequency = 0); the user's evaluate is called any number of times, on the data of the training. *)
From Verif Require Import Base Num NeuronModel LayerModel NetModel StatModel WaitModel DataModel TrainModel.
Local Open Scope outcome_scope.

Section M.
Context {N : Num}.
(* where the training thread is *)
Inductive tpc :=
| T_outer                          (* line 98: about to ask continueTraining *)
| T_cond                           (* lines 101-102: about to test the condition of the loop *)
| T_body                           (* lines 104-111: about to look for NaN and ask needToLearnOnTrainingData(index) *)
| T_data (learn : bool)            (* line 112 or 115: about to call getTrainingData(index) *)
| T_labels (x : list F)            (* line 113: about to call getTrainingOutputs(index) *)
| T_learn (x y : list F)           (* lines 112-113: about to call isFirstTrainingDataOfTemporalSequence(index) and trainOnce *)
| T_look (x : list F)              (* line 115: about to call outputForTraining *)
| T_inc                            (* line 102: about to do index += batchSize *)
| T_epoch                          (* lines 118-119: the epoch is over, about to do epoch++ *)
| T_done.                          (* line 123 *)
(* where the caller is *)
Inductive epc :=
| E_idle                           (* not in evaluate; a step calls it: startTesting and index = 0, lines 127-128 *)
| E_cond                           (* line 128: about to compare index with the size of the testing set *)
| E_turn                           (* lines 130-140: about to evaluate the sample index *)
| E_inc                            (* line 128: about to do index++ *)
| E_stop.                          (* lines 143-153 *)
Record Share := mkShare { sh_run : Run; sh_t : tpc; sh_e : epc }.

(* one step of the training thread *)
Definition tstep (env : Env) (w : Wait) (b : nat) (s : Share) : outcome Share :=
  let r := sh_run s in
  let go r pc := Ok (mkShare r pc (sh_e s)) in
  match sh_t s with
  | T_outer =>
    let (on, r) := continueTraining env w r in
    if on then
      let* d := shuffle (e_rng env (r_checks r)) (r_data r) in
      go (mkRun (with_index (r_snn r) 0) d (r_checks r) (r_log r ++ [Shuffled])) T_cond
    else go (upd r (resetTrainingValues (r_snn r))) T_done
  | T_cond =>
    if sn_index (r_snn r) + b <=? sn_ntrain (r_snn r) then
      let (on, r) := continueTraining env w r in go r (if on then T_body else T_epoch)
    else go r T_epoch
  | T_body =>
    if nn_nan (sn_net (r_snn r)) then go (upd r (resetTrainingValues (with_stats (r_snn r) (setResultsAsNan (e_nan env) (sn_stats (r_snn r)))))) T_done
    else let* need := needToLearn (r_data r) (sn_index (r_snn r)) in go r (T_data need)
  | T_data learn =>
    let* (x, d) := getTrainingData (r_data r) (sn_index (r_snn r)) b in
    go (mkRun (r_snn r) d (r_checks r) (r_log r)) (if learn : bool then T_labels x else T_look x)
  | T_labels x =>
    let* (y, d) := getTrainingOutputs (r_data r) (sn_index (r_snn r)) b in go (mkRun (r_snn r) d (r_checks r) (r_log r)) (T_learn x y)
  | T_learn x y =>
    let i := sn_index (r_snn r) in
    let* fi := isFirstTraining (r_data r) i in
    let* n := trainOnce (e_rand env (r_checks r)) (sn_net (r_snn r)) x y fi in
    let s := with_net (r_snn r) n in go (mkRun s (r_data r) (r_checks r) (r_log r ++ [Stepped i true x y s])) T_inc
  | T_look x =>
    let i := sn_index (r_snn r) in
    let* fi := isFirstTraining (r_data r) i in
    let* (_, n) := net_outputForTraining (e_rand env (r_checks r)) (sn_net (r_snn r)) x fi in
    let s := with_net (r_snn r) n in go (mkRun s (r_data r) (r_checks r) (r_log r ++ [Stepped i false x [] s])) T_inc
  | T_inc => go (upd r (with_index (r_snn r) (sn_index (r_snn r) + b))) T_cond
  | T_epoch => go (upd r (with_epoch (r_snn r) (sn_epoch (r_snn r) + 1))) T_outer
  | T_done => Ok s
  end.
(* one step of the caller *)
Definition estep (env : Env) (s : Share) : outcome Share :=
  let r := sh_run s in
  let go r pc := Ok (mkShare r (sh_t s) pc) in
  match sh_e s with
  | E_idle => go (upd r (with_index (with_stats (r_snn r) (startTesting (sn_stats (r_snn r)))) 0)) E_cond
  | E_cond => go r (if sn_index (r_snn r) <? s_size (d_test (r_data r)) then E_turn else E_stop)
  | E_turn =>
    if nn_nan (sn_net (r_snn r)) then
      let sn := resetTrainingValues (with_stats (r_snn r) (setResultsAsNan (e_nan env) (sn_stats (r_snn r)))) in go (logs (upd r sn) (Evaluated sn)) E_idle
    else let* sn := evaluateTurn (r_snn r) (r_data r) in go (upd r sn) E_inc
  | E_inc => go (upd r (with_index (r_snn r) (S (sn_index (r_snn r))))) E_cond
  | E_stop =>
    let sn := with_stats (r_snn r) (stopTesting (sn_stats (r_snn r))) in
    let r := logs (upd r sn) (Evaluated sn) in
    go (if sn_auto sn && st_rateBetter (sn_stats sn) then saveSync (sn_path sn) r else r) E_idle
  end.
(* a schedule says whose turn it is: true for the training thread *)
Definition runs (env : Env) (w : Wait) (b : nat) (sched : list bool) (s : Share) : outcome Share :=
  ofold (fun s who => if (who : bool) then tstep env w b s else estep env s) sched s.
(* the training thread enters its loop: lines 90-96 and epoch = 1 of line 98 *)
Definition entered (s : Snn) (d : Data) : Share :=
  mkShare (mkRun (with_epoch (with_idle (with_want (with_ntrain (with_epoch s 0) (s_size (d_train d))) false) false) 1) d 0 []) T_outer E_idle.
End M.
