(* Model of include/snn/neural_network/StatisticAnalysis.hpp and src/neural_network/StatisticAnalysis.cpp, and of
   StraightforwardNeuralNetwork::computeCluster.  `abs` is taken to be the float overload. *)
From Verif Require Import Base Num.
Local Open Scope outcome_scope.

Section St.
Context {N : Num}.

(* hpp 7-14; counters are floats *)
Record Cluster := mkCluster { c_tp : F; c_tn : F; c_fp : F; c_fn : F; c_err : F }.
Definition zeroCluster : Cluster := mkCluster fzero fzero fzero fzero fzero.

(* hpp 37-53 and 82-86 *)
Record Stats := mkStats {
  st_clusters : list Cluster; st_well : F; st_mis : F;
  st_rate : F; st_wrate : F; st_f1 : F; st_mae : F; st_rmse : F;
  st_rateMax : F; st_wrateMax : F; st_f1Max : F; st_maeMin : F; st_rmseMin : F;
  st_rateBetter : bool; st_wrateBetter : bool; st_f1Better : bool; st_maeBetter : bool; st_rmseBetter : bool }.

Definition with_counters (s : Stats) (cl : list Cluster) (w m : F) : Stats :=
  mkStats cl w m (st_rate s) (st_wrate s) (st_f1 s) (st_mae s) (st_rmse s)
    (st_rateMax s) (st_wrateMax s) (st_f1Max s) (st_maeMin s) (st_rmseMin s)
    (st_rateBetter s) (st_wrateBetter s) (st_f1Better s) (st_maeBetter s) (st_rmseBetter s).

(* cpp 33-45 *)
Definition startTesting (s : Stats) : Stats :=
  with_counters s (map (fun _ => zeroCluster) (st_clusters s)) fzero fzero.

(* hpp 37-53 default member values, cpp 7-11 initialize on the new object *)
Definition initialStats (numberOfCluster : nat) : Stats :=
  let m1 := fofZ (-1) in
  startTesting (mkStats (repeat zeroCluster numberOfCluster) fzero fzero m1 m1 m1 m1 m1 m1 m1 m1 m1 m1
                        false false false false false).

(* cpp 13-31; [nan] is the constant NAN of <cmath> *)
Definition setResultsAsNan (nan : F) (s : Stats) : Stats :=
  mkStats (map (fun _ => mkCluster nan nan nan nan nan) (st_clusters s)) nan nan nan nan nan nan nan
    (st_rateMax s) (st_wrateMax s) (st_f1Max s) (st_maeMin s) (st_rmseMin s)
    (st_rateBetter s) (st_wrateBetter s) (st_f1Better s) (st_maeBetter s) (st_rmseBetter s).

(* x++ on a float *)
Definition incr (x : F) : F := fadd x fone.
Definition addErr (c : Cluster) (e : F) : Cluster := mkCluster (c_tp c) (c_tn c) (c_fp c) (c_fn c) (fadd (c_err c) e).
Definition incTP (c : Cluster) := mkCluster (incr (c_tp c)) (c_tn c) (c_fp c) (c_fn c) (c_err c).
Definition incTN (c : Cluster) := mkCluster (c_tp c) (incr (c_tn c)) (c_fp c) (c_fn c) (c_err c).
Definition incFP (c : Cluster) := mkCluster (c_tp c) (c_tn c) (incr (c_fp c)) (c_fn c) (c_err c).
Definition incFN (c : Cluster) := mkCluster (c_tp c) (c_tn c) (c_fp c) (incr (c_fn c)) (c_err c).

(* cpp 89-108: one turn of the loop; the boolean is the new classifiedWell *)
Definition regCell (precision : F) (c : Cluster) (o d : F) (well : bool) : Cluster * bool :=
  let '(c', w) :=
    if fgtb o (fadd d precision) then (incFP c, false)
    else if fltb o (fsub d precision) then (incFN c, false)
    else if fgeb o d then (incTN c, well)
    else if fleb o d then (incTN c, well)
    else (c, well) in
  (addErr c' (fabs (fsub d o)), w).
(* cpp 123-142 *)
Definition multiCell (separator : F) (c : Cluster) (o d : F) (well : bool) : Cluster * bool :=
  let '(c', w) :=
    if fgtb o separator && fgtb d separator then (incTP c, well)
    else if fleb o separator && fleb d separator then (incTN c, well)
    else if fgtb o separator && fleb d separator then (incFP c, false)
    else if fleb o separator && fgtb d separator then (incFN c, false)
    else (c, well) in
  (addErr c' (fabs (fsub d o)), w).

(* the loop over clusters (cpp 87, 121); outputs[i] / desiredOutputs[i] past the end is UB *)
Fixpoint cells (f : Cluster -> F -> F -> bool -> Cluster * bool) (cl : list Cluster) (os ds : list F) (well : bool)
  : outcome (list Cluster * bool) :=
  match cl with
  | [] => Ok ([], well)
  | c :: cl' =>
    match os, ds with
    | o :: os', d :: ds' =>
      let '(c', w) := f c o d well in
      let* (r, w') := cells f cl' os' ds' w in Ok (c' :: r, w')
    | _, _ => UB
    end
  end.
(* cpp 110-113, 144-147, 189-192 *)
Definition countSample (s : Stats) (cl : list Cluster) (well : bool) : Stats :=
  if well then with_counters s cl (incr (st_well s)) (st_mis s)
  else with_counters s cl (st_well s) (incr (st_mis s)).

(* cpp 82-114 *)
Definition evaluateOnceForRegression (s : Stats) (os ds : list F) (precision : F) : outcome Stats :=
  let* (cl, w) := cells (regCell precision) (st_clusters s) os ds true in Ok (countSample s cl w).
(* cpp 116-148 *)
Definition evaluateOnceForMultipleClassification (s : Stats) (os ds : list F) (separator : F) : outcome Stats :=
  let* (cl, w) := cells (multiCell separator) (st_clusters s) os ds true in Ok (countSample s cl w).

(* cpp 157-161, and StraightforwardNeuralNetwork.cpp 57-61: one turn of the running maximum *)
Definition maxStep (m : F * Z) (o : F) (i : nat) : F * Z :=
  if fltb (fst m) o then (o, Z.of_nat i) else m.
(* cpp 162-187 *)
Definition classCell (classNumber : Z) (separator : F) (c : Cluster) (o : F) (i : nat) : Cluster :=
  if Z.eqb (Z.of_nat i) classNumber then
    let c' := addErr c (fabs (fsub fone o)) in if fgtb o separator then incTP c' else incFN c'
  else
    let c' := addErr c (fabs (fsub fzero o)) in if fgtb o separator then incFP c' else incTN c'.
(* cpp 155-188 *)
Fixpoint classCells (classNumber : Z) (separator : F) (cl : list Cluster) (os : list F) (i : nat) (m : F * Z)
  : outcome (list Cluster * (F * Z)) :=
  match cl with
  | [] => Ok ([], m)
  | c :: cl' =>
    match os with
    | o :: os' =>
      let* (r, m') := classCells classNumber separator cl' os' (S i) (maxStep m o i) in
      Ok (classCell classNumber separator c o i :: r, m')
    | [] => UB
    end
  end.
(* cpp 150-193 *)
Definition evaluateOnceForClassification (s : Stats) (os : list F) (classNumber : Z) (separator : F) : outcome Stats :=
  let* (cl, m) := classCells classNumber separator (st_clusters s) os 0 (fofZ (-2), (-1)%Z) in
  Ok (countSample s cl (Z.eqb (snd m) classNumber)).

(* StraightforwardNeuralNetwork.cpp 52-63, on the outputs of the network *)
Fixpoint argmaxFrom (os : list F) (i : nat) (m : F * Z) : F * Z :=
  match os with [] => m | o :: os' => argmaxFrom os' (S i) (maxStep m o i) end.
Definition clusterOf (os : list F) : Z := snd (argmaxFrom os 0 (fofZ (-2), (-1)%Z)).

(* cpp 195-245 *)
Definition computeGlobalClusteringRate (s : Stats) : F := fdiv (st_well s) (fadd (st_well s) (st_mis s)).
Definition computeWeightedClusteringRate (s : Stats) : F :=
  fdiv (fold_left (fun r c => if fgtb (c_tp c) fzero then fadd r (fdiv (c_tp c) (fadd (c_tp c) (c_fn c))) else r)
                  (st_clusters s) fzero) (fofnat (length (st_clusters s))).
Definition computeF1Score (s : Stats) : F :=
  fdiv (fmul (fofZ 2) (fold_left (fun r c => if fgtb (c_tp c) fzero
                     then let p := fdiv (c_tp c) (fadd (c_tp c) (c_fp c)) in
                          let q := fdiv (c_tp c) (fadd (c_tp c) (c_fn c)) in
                          fadd r (fdiv (fmul p q) (fadd p q)) else r) (st_clusters s) fzero))
       (fofnat (length (st_clusters s))).
Definition computeMeanAbsoluteError (s : Stats) : F :=
  fdiv (fold_left (fun r c => fadd r (c_err c)) (st_clusters s) fzero) (fadd (st_well s) (st_mis s)).
Definition computeRootMeanSquaredError (s : Stats) : F :=
  fsqrt (fdiv (fold_left (fun r c => fadd r (fmul (c_err c) (c_err c))) (st_clusters s) fzero)
              (fadd (st_well s) (st_mis s))).

(* cpp 47-80.  f1ScoreMax is never assigned (line 65 assigns f1Score, overwritten at line 77); line 71 reads the
   already updated meanAbsoluteErrorMin and line 73 stores the absolute error *)
Definition stopTesting (s : Stats) : Stats :=
  let rate := computeGlobalClusteringRate s in
  let wrate := computeWeightedClusteringRate s in
  let f1 := computeF1Score s in
  let mae := computeMeanAbsoluteError s in
  let rmse := computeRootMeanSquaredError s in
  let rateB := fgtb rate (st_rateMax s) in
  let wrateB := fgtb wrate (st_wrateMax s) in
  let f1B := fgtb f1 (st_f1Max s) in
  let maeB := fltb mae (st_maeMin s) || fltb (st_maeMin s) fzero in
  let maeMin := if maeB then mae else st_maeMin s in
  let rmseB := fltb rmse (st_rmseMin s) || fltb maeMin fzero in
  mkStats (st_clusters s) (st_well s) (st_mis s) rate wrate f1 mae rmse
    (if rateB then rate else st_rateMax s) (if wrateB then wrate else st_wrateMax s) (st_f1Max s)
    maeMin (if rmseB then mae else st_rmseMin s)
    rateB wrateB f1B maeB rmseB.
End St.
