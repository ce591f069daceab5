(* Model of src/neural_network/layer/neuron/{CircularData,Neuron,SimpleNeuron,RecurrentNeuron,GatedRecurrentUnit}.cpp
   and src/neural_network/optimizer/StochasticGradientDescent.cpp.
   Simplifications: `assert`s are ignored (NDEBUG build); `#pragma omp simd` loops are taken in index order;
   the shared optimizer object is passed as an argument (learning rate, momentum) instead of being a pointer in
   each neuron; numberOfInputs and batchSize (int) are natural numbers (the factory model rejects negative ones);
   loops without aliasing that write v[w] for w = 0..n-1 are written as [omap] over the indices. *)
From Verif Require Import Base Num ActModel.

Section M.
Context {N : Num}.
Local Open Scope outcome_scope.

(* ---------------- CircularData ---------------- *)
(* CircularData.hpp 18-20 *)
Record Circ := mkCirc { q_data : list (list F); q_push : nat; q_get : nat }.
(* CircularData.cpp 8-14 *)
Definition circ_init (queueSize dataSize : nat) : Circ := mkCirc (repeat (repeat fzero dataSize) queueSize) 0 0.
(* CircularData.cpp 16-22: the returned pointer is always copied at once by the callers *)
Definition getBack (c : Circ) : outcome (list F * Circ) :=
  let i := if List.length (q_data c) <=? q_get c then 0 else q_get c in
  let* v := lget (q_data c) i in
  Ok (v, mkCirc (q_data c) (q_push c) (S i)).
(* CircularData.cpp 24-30 *)
Definition pushBack (c : Circ) (v : list F) : outcome Circ :=
  let i := if List.length (q_data c) <=? q_push c then 0 else q_push c in
  let* d := lset (q_data c) i v in
  Ok (mkCirc d (S i) (q_get c)).

(* ---------------- the optimizer ---------------- *)
(* StochasticGradientDescent.hpp: learningRate, momentum *)
Record SGD := mkSGD { o_lr : F; o_m : F }.
(* StochasticGradientDescent.cpp 71-78 *)
Definition sgd_isValid (o : SGD) : Z :=
  if fleb (o_lr o) fzero || fgeb (o_lr o) fone then 103%Z
  else if fltb (o_m o) fzero || fgtb (o_m o) fone then 104%Z else 0%Z.

(* ---------------- Neuron ---------------- *)
(* Neuron.hpp 20-38 (outputFunction is determined by activationFunction) *)
Record Neuron := mkNeuron {
  n_in : nat; n_batch : nat; n_w : list F; n_bias : F;
  n_prev : Circ; n_last : Circ; n_err : list F; n_sum : F; n_act : activation
}.
(* Neuron.cpp 8-26: the initial weights are random draws, here an argument (the last one is made positive) *)
Definition neuron_init (numberOfInputs batchSize numberOfWeights : nat) (bias : F) (a : activation)
           (draws : nat -> F) : outcome Neuron :=
  match numberOfWeights with
  | O => UB
  | S m => Ok (mkNeuron numberOfInputs batchSize (map draws (seq 0 m) ++ [fabs (draws m)]) bias
                        (circ_init batchSize numberOfWeights) (circ_init batchSize numberOfInputs)
                        (repeat fzero numberOfInputs) fzero a)
  end.
Definition set_w (n : Neuron) w := mkNeuron (n_in n) (n_batch n) w (n_bias n) (n_prev n) (n_last n) (n_err n) (n_sum n) (n_act n).
Definition set_sum (n : Neuron) s l := mkNeuron (n_in n) (n_batch n) (n_w n) (n_bias n) (n_prev n) l (n_err n) s (n_act n).
Definition set_err (n : Neuron) e := mkNeuron (n_in n) (n_batch n) (n_w n) (n_bias n) (n_prev n) (n_last n) e (n_sum n) (n_act n).
Definition set_wpl (n : Neuron) w p l := mkNeuron (n_in n) (n_batch n) w (n_bias n) p l (n_err n) (n_sum n) (n_act n).

(* Neuron.cpp 34-49 *)
Definition neuron_isValid (n : Neuron) : Z :=
  let bad x := fltb x (fofZ (-100000)) || fgtb x (fofZ 10000) in
  if bad (n_bias n) then 301%Z
  else if (List.length (n_w n) =? 0) || (1000000 <? Z.of_nat (List.length (n_w n)))%Z then 302%Z
  else if existsb bad (n_w n) then 303%Z else 0%Z.
(* Neuron.cpp 56-61 *)
Definition setWeights (n : Neuron) (w : list F) : outcome Neuron :=
  if List.length (n_w n) =? List.length w then Ok (set_w n w) else Throw "The size of weights does not match.".

(* the loop tmp += inputs[w] * weights[w]: SimpleNeuron.cpp 16-23, RecurrentNeuron.cpp 27-33 *)
Definition weighted (inputs weights : list F) : outcome F :=
  ofold (fun tmp w => let* x := lget inputs w in let* a := lget weights w in Ok (fadd tmp (fmul x a)))
        (seq 0 (List.length inputs)) fzero.

(* SimpleNeuron.cpp 13-26 *)
Definition simple_output (n : Neuron) (inputs : list F) : outcome (F * Neuron) :=
  let* last := pushBack (n_last n) inputs in
  let* tmp := weighted inputs (n_w n) in
  let* wb := lget (n_w n) (List.length inputs) in
  let s := fadd tmp (fmul wb (n_bias n)) in
  Ok (act (n_act n) s, set_sum n s last).

(* StochasticGradientDescent.cpp 20-39 *)
Definition sgd_simple (o : SGD) (n : Neuron) (error : F) : outcome Neuron :=
  let lr := fdiv (o_lr o) (fofnat (n_batch n)) in
  let* (lastInputs, last) := getBack (n_last n) in
  let* (previous, prev) := getBack (n_prev n) in
  let lr_error := fmul lr error in
  let* deltas := omap (fun w => let* x := lget lastInputs w in let* p := lget previous w in
                                Ok (fadd (fmul lr_error x) (fmul (o_m o) p))) (seq 0 (n_in n)) in
  let* neww := omap (fun w => let* a := lget (n_w n) w in let* d := lget deltas w in Ok (fadd a d)) (seq 0 (n_in n)) in
  let* pb := lget previous (n_in n) in
  let db := fadd (fmul (fmul lr error) (n_bias n)) (fmul (o_m o) pb) in
  let* _ := lget (n_w n) (n_in n) in                    (* line 37 writes weights[w] *)
  let weights := neww ++ db :: skipn (S (n_in n)) (n_w n) in   (* line 37: assigned, not added *)
  let deltaWeights := deltas ++ db :: repeat fzero (List.length (n_w n) - S (n_in n)) in
  let* prev' := pushBack prev deltaWeights in
  Ok (set_wpl n weights prev' last).

(* SimpleNeuron.cpp 28-39; the loop ranges over errors.size() *)
Definition simple_backOutput (o : SGD) (n : Neuron) (error : F) : outcome (list F * Neuron) :=
  let error := fmul error (actd (n_act n) (n_sum n)) in
  let* errs := omap (fun w => let* a := lget (n_w n) w in Ok (fmul error a)) (seq 0 (List.length (n_err n))) in
  let* n' := sgd_simple o (set_err n errs) error in
  Ok (errs, n').
(* SimpleNeuron.cpp 41-45 *)
Definition simple_train (o : SGD) (n : Neuron) (error : F) : outcome Neuron :=
  sgd_simple o n (fmul error (actd (n_act n) (n_sum n))).

(* ---------------- RecurrentNeuron ---------------- *)
(* RecurrentNeuron.hpp 19-24 *)
Record RNeuron := mkRNeuron { r_n : Neuron; r_lastOut : F; r_prevOut : F; r_recErr : F; r_prevSum : F }.
Definition rneuron_init numberOfInputs batchSize numberOfWeights bias a draws : outcome RNeuron :=
  let* n := neuron_init numberOfInputs batchSize numberOfWeights bias a draws in
  Ok (mkRNeuron n fzero fzero fzero fzero).
(* RecurrentNeuron.cpp 61-67 *)
Definition rec_reset (r : RNeuron) : RNeuron := mkRNeuron (r_n r) (r_lastOut r) fzero fzero fzero.
(* RecurrentNeuron.cpp 17-41 *)
Definition rec_output (r : RNeuron) (inputs : list F) (temporalReset : bool) : outcome (F * RNeuron) :=
  let r := if temporalReset then rec_reset r else r in
  let n := r_n r in
  let* last := pushBack (n_last n) inputs in
  let previousSum := n_sum n in
  let previousOutput := r_lastOut r in
  let* tmp := weighted inputs (n_w n) in
  let* wr := lget (n_w n) (List.length inputs) in
  let* wb := lget (n_w n) (S (List.length inputs)) in
  let s := fadd (fadd tmp (fmul previousOutput wr)) (fmul (n_bias n) wb) in
  let output := act (n_act n) s in
  Ok (output, mkRNeuron (set_sum n s last) output previousOutput (r_recErr r) previousSum).

(* StochasticGradientDescent.cpp 44-69 *)
Definition sgd_recurrent (o : SGD) (r : RNeuron) (error : F) : outcome RNeuron :=
  let n := r_n r in
  let lr := fdiv (o_lr o) (fofnat (n_batch n)) in
  let* (lastInputs, last) := getBack (n_last n) in
  let* (previous, prev) := getBack (n_prev n) in
  let* deltas := omap (fun w => let* x := lget lastInputs w in let* p := lget previous w in
                                Ok (fadd (fmul (fmul lr error) x) (fmul (o_m o) p))) (seq 0 (n_in n)) in
  let* neww := omap (fun w => let* a := lget (n_w n) w in let* d := lget deltas w in Ok (fadd a d)) (seq 0 (n_in n)) in
  let* pb := lget previous (n_in n) in
  let* wr := lget (n_w n) (n_in n) in
  let d1 := fadd (fmul (fmul lr error) (n_bias n)) (fmul (o_m o) pb) in      (* line 59 *)
  let wr1 := fadd wr d1 in                                                   (* line 60 *)
  let recErr := fadd error (fmul (fmul (r_recErr r) (actd (n_act n) (r_prevSum r))) wr1) in  (* line 61 *)
  let d2 := fadd (fmul (fmul lr recErr) (r_prevOut r)) (fmul (o_m o) pb) in  (* line 63: same w *)
  let wr2 := fadd wr1 d2 in                                                  (* line 64 *)
  let weights := neww ++ wr2 :: skipn (S (n_in n)) (n_w n) in
  let deltaWeights := deltas ++ d2 :: repeat fzero (List.length (n_w n) - S (n_in n)) in
  let* prev' := pushBack prev deltaWeights in
  Ok (mkRNeuron (set_wpl n weights prev' last) (r_lastOut r) (r_prevOut r) recErr (r_prevSum r)).

(* RecurrentNeuron.cpp 43-53: the loop ranges over numberOfInputs and writes into errors *)
Definition rec_backOutput (o : SGD) (r : RNeuron) (error : F) : outcome (list F * RNeuron) :=
  let n := r_n r in
  let error := fmul error (actd (n_act n) (n_sum n)) in
  let* e := omap (fun w => let* a := lget (n_w n) w in let* _ := lget (n_err n) w in Ok (fmul error a)) (seq 0 (n_in n)) in
  let errs := e ++ skipn (n_in n) (n_err n) in
  let* r' := sgd_recurrent o (mkRNeuron (set_err n errs) (r_lastOut r) (r_prevOut r) (r_recErr r) (r_prevSum r)) error in
  Ok (errs, r').
(* RecurrentNeuron.cpp 55-59 *)
Definition rec_train (o : SGD) (r : RNeuron) (error : F) : outcome RNeuron :=
  sgd_recurrent o r (fmul error (actd (n_act (r_n r)) (n_sum (r_n r)))).
(* RecurrentNeuron.cpp 69-74 *)
Definition rec_isValid (r : RNeuron) : Z :=
  if List.length (n_w (r_n r)) =? n_in (r_n r) + 2 then neuron_isValid (r_n r) else 304%Z.

(* ---------------- GatedRecurrentUnit ---------------- *)
(* GatedRecurrentUnit.hpp: fields *)
Record GNeuron := mkGNeuron {
  g_in : nat; g_err : list F; g_prevOut : F; g_recErr : F; g_updOut : F; g_outOut : F;
  g_reset : RNeuron; g_update : RNeuron; g_output : RNeuron
}.
(* GatedRecurrentUnit.cpp 8-14; the scalar members have no initialiser except where GatedRecurrentUnit.hpp gives 0 *)
Definition gru_init numberOfInputs batchSize numberOfWeights bias (draws : nat -> nat -> F) : outcome GNeuron :=
  let* a := rneuron_init numberOfInputs batchSize numberOfWeights bias a_sigmoid (draws 0) in
  let* b := rneuron_init numberOfInputs batchSize numberOfWeights bias a_sigmoid (draws 1) in
  let* c := rneuron_init numberOfInputs batchSize numberOfWeights bias a_tanh (draws 2) in
  Ok (mkGNeuron numberOfInputs [] fzero fzero fzero fzero a b c).
(* GatedRecurrentUnit.cpp 87-93 *)
Definition gru_reset (g : GNeuron) : GNeuron :=
  mkGNeuron (g_in g) (g_err g) fzero fzero fzero (g_outOut g) (g_reset g) (g_update g) (g_output g).
Definition set_lastOut (r : RNeuron) v := mkRNeuron (r_n r) v (r_prevOut r) (r_recErr r) (r_prevSum r).
(* GatedRecurrentUnit.cpp 16-32 *)
Definition gru_output (g : GNeuron) (inputs : list F) (temporalReset : bool) : outcome (F * GNeuron) :=
  let g := if temporalReset then gru_reset g else g in
  let* (resetOut, rg) := rec_output (g_reset g) inputs temporalReset in
  let* (u, ug) := rec_output (g_update g) inputs temporalReset in
  let og := set_lastOut (g_output g) (fmul (r_lastOut (g_output g)) resetOut) in
  let* (oo, og) := rec_output og inputs temporalReset in
  let output := fadd (fmul (fsub fone u) (g_prevOut g)) (fmul u oo) in
  Ok (output, mkGNeuron (g_in g) (g_err g) (g_prevOut g) (g_recErr g) u oo
                        (set_lastOut rg output) (set_lastOut ug output) (set_lastOut og output)).
(* the common part of GatedRecurrentUnit.cpp 34-45 and 52-63 *)
Definition gru_gates (o : SGD) (g : GNeuron) (error : F) : outcome (list F * list F * list F * GNeuron) :=
  let d3 := error in
  let d8 := fmul d3 (g_updOut g) in
  let d7 := fmul d3 (g_outOut g) in
  let d9 := fadd d7 d8 in
  let* (e1, og) := rec_backOutput o (g_output g) d8 in
  let* (e2, ug) := rec_backOutput o (g_update g) d9 in
  let* d13 := lgetZ e1 (Z.of_nat (List.length e1) - 1) in     (* errors.back() *)
  let d16 := fmul d13 (g_prevOut g) in
  let* (e3, rg) := rec_backOutput o (g_reset g) d16 in
  Ok (e1, e2, e3, mkGNeuron (g_in g) e1 (g_prevOut g) (g_recErr g) (g_updOut g) (g_outOut g) rg ug og).
(* std::ranges::transform(a, b, a.begin(), plus): the tail of a longer [a] is left as it is *)
Definition addTo (a b : list F) : list F := zipwith fadd a b ++ skipn (List.length b) a.
(* GatedRecurrentUnit.cpp 34-50 *)
Definition gru_backOutput (o : SGD) (g : GNeuron) (error : F) : outcome (list F * GNeuron) :=
  let* (e1, e2, e3, g') := gru_gates o g error in
  let errs := addTo (addTo e1 e2) e3 in
  Ok (errs, mkGNeuron (g_in g') errs (g_prevOut g') (g_recErr g') (g_updOut g') (g_outOut g')
                      (g_reset g') (g_update g') (g_output g')).
(* GatedRecurrentUnit.cpp 52-64 *)
Definition gru_train (o : SGD) (g : GNeuron) (error : F) : outcome GNeuron :=
  let* (_, _, _, g') := gru_gates o g error in Ok g'.
(* GatedRecurrentUnit.cpp 66-73 *)
Definition gru_weights (g : GNeuron) : list F := n_w (r_n (g_reset g)) ++ n_w (r_n (g_update g)) ++ n_w (r_n (g_output g)).
(* GatedRecurrentUnit.cpp 95-107 *)
Definition gru_isValid (g : GNeuron) : Z :=
  let a := rec_isValid (g_reset g) in if negb (a =? 0)%Z then a else
  let b := rec_isValid (g_update g) in if negb (b =? 0)%Z then b else
  let c := rec_isValid (g_output g) in if negb (c =? 0)%Z then c else 0%Z.
End M.
