(* Model of include/snn/neural_network/layer/{Layer,SimpleLayer}.tpp, src/neural_network/layer/{FullyConnected,
   Recurrence,GruLayer,FilterLayer,Convolution1D,Convolution2D,LocallyConnected1D,LocallyConnected2D,MaxPooling1D,
   MaxPooling2D}.cpp and src/neural_network/optimizer/{Dropout,L1Regularization,L2Regularization,ErrorMultiplier,
   Softmax}.cpp (everything but printing).
   Simplifications: a random mask bit is read from an oracle argument; the back-pointer a layer optimizer has to its
   layer is passed as an argument; a loop that runs the neurons in order and stores each result is written [each]. *)
From Verif Require Import Base Num ActModel NeuronModel.

(* for (n = 0; n < l.size(); ++n) r[n] = f(n, l[n]) where f also updates the element *)
Fixpoint each_from {A B} (f : nat -> A -> outcome (B * A)) (i : nat) (l : list A) : outcome (list B * list A) :=
  match l with
  | [] => Ok ([], [])
  | a :: t => bind (f i a) (fun ba => bind (each_from f (S i) t) (fun r => Ok (fst ba :: fst r, snd ba :: snd r)))
  end.
Definition each {A B} (f : nat -> A -> outcome (B * A)) (l : list A) := each_from f 0 l.

Section M.
Context {N : Num}.
Local Open Scope outcome_scope.

(* ---------------- layer optimizers ---------------- *)
(* Dropout.hpp, L1Regularization.hpp, L2Regularization.hpp, ErrorMultiplier.hpp, Softmax.hpp: data members *)
Inductive LOpt :=
| ODropout (value reverseValue : F) (presence : list bool)
| OL1 (value : F) | OL2 (value : F) | OMult (factor : F) | OSoftmax.

Definition b2f (b : bool) : F := if b then fone else fzero.
(* ranges::transform(v, mask, v.begin(), multiplies<float>()): stops at the shorter, keeps the tail of v *)
Definition mulMask (v : list F) (mask : list bool) : list F :=
  zipwith (fun x b => fmul x (b2f b)) v mask ++ skipn (List.length mask) v.
(* Softmax.cpp 28-46 *)
Definition computeSoftmax (outputs : list F) : outcome (list F) :=
  match outputs with
  | [] => UB                                        (* ranges::max of an empty range *)
  | x :: t =>
    let mx := fold_left fmax t x in
    let shifted := map (fun v => fsub v mx) outputs in
    let sumExp := fold_left (fun s v => fadd s (fexp v)) shifted fzero in
    Ok (map (fun v => let r := fdiv (fexp v) sumExp in if fnormal r then r else fzero) shifted)
  end.
(* applyAfterOutputForTraining: Dropout.cpp 37-44, Softmax.cpp 48-52; the three others do nothing (their headers) *)
Definition opt_training (rand : nat -> bool) (temporalReset : bool) (o : LOpt) (outputs : list F) : outcome (list F * LOpt) :=
  match o with
  | ODropout v r mask =>
    let mask := if temporalReset then map rand (seq 0 (List.length mask)) else mask in
    Ok (mulMask outputs mask, ODropout v r mask)
  | OSoftmax => let* out := computeSoftmax outputs in Ok (out, OSoftmax)
  | _ => Ok (outputs, o)
  end.
(* applyAfterOutputForTesting: Dropout.cpp 46-49, Softmax.cpp 54-58 *)
Definition opt_testing (o : LOpt) (outputs : list F) : outcome (list F) :=
  match o with
  | ODropout v r mask => Ok (map (fun x => fmul x r) outputs)
  | OSoftmax => computeSoftmax outputs
  | _ => Ok outputs
  end.
(* Layer.tpp 82-102: [ws] are the weights of the neurons of the layer *)
Definition averageOfAbs (ws : list (list F)) : F :=
  fdiv (fold_left (fun s w => fadd s (fabs w)) (List.concat ws) fzero) (fofnat (List.length ws)).
Definition averageOfSquare (ws : list (list F)) : F :=
  fdiv (fold_left (fun s w => fadd s (fmul w w)) (List.concat ws) fzero) (fofnat (List.length ws)).
(* applyBeforeBackpropagation: Dropout.cpp 51-54, L1Regularization.cpp 26-30, L2Regularization.cpp 26-30,
   ErrorMultiplier.cpp 24-27, Softmax.cpp 60-63 *)
Definition opt_back (ws : list (list F)) (o : LOpt) (errors : list F) : list F :=
  match o with
  | ODropout v r mask => mulMask errors mask
  | OL1 v => map (fun e => fadd e (fmul (averageOfAbs ws) v)) errors
  | OL2 v => map (fun e => fadd e (fmul (averageOfSquare ws) v)) errors
  | OMult f => map (fun e => fmul e f) errors
  | OSoftmax => errors
  end.
(* the loops of Layer.tpp 28-29, 37-38, 45-46 *)
Fixpoint opts_training (rand : nat -> nat -> bool) (reset : bool) (i : nat) (os : list LOpt) (out : list F) : outcome (list F * list LOpt) :=
  match os with
  | [] => Ok (out, [])
  | o :: t => let* (out, o') := opt_training (rand i) reset o out in
              let* (out, t') := opts_training rand reset (S i) t out in Ok (out, o' :: t')
  end.
Definition opts_testing (os : list LOpt) (out : list F) : outcome (list F) := ofold (fun v o => opt_testing o v) os out.
Definition opts_back (ws : list (list F)) (os : list LOpt) (errors : list F) : list F :=
  fold_left (fun e o => opt_back ws o e) os errors.

(* ---------------- layers ---------------- *)
Inductive fkind := Conv1D | Conv2D | Loc1D | Loc2D | Pool1D | Pool2D.
Definition fkind_eqb (a b : fkind) : bool :=
  match a, b with
  | Conv1D, Conv1D | Conv2D, Conv2D | Loc1D, Loc1D | Loc2D, Loc2D | Pool1D, Pool1D | Pool2D, Pool2D => true
  | _, _ => false
  end.
(* FilterLayer.hpp 18-29, MaxPooling1D.hpp 18-19 *)
Record Filter := mkFilter {
  f_filters : nat; f_kernels : nat; f_kpf : nat; f_npf : nat; f_ksize : nat; f_nin : nat;
  f_shapeIn : list nat; f_shapeOut : list nat; f_index : list (list Z);
  f_outputs : nat; f_maxIndex : list Z
}.
Definition set_maxIndex (f : Filter) m := mkFilter (f_filters f) (f_kernels f) (f_kpf f) (f_npf f) (f_ksize f) (f_nin f)
  (f_shapeIn f) (f_shapeOut f) (f_index f) (f_outputs f) m.
Inductive Body :=
| BFull (ns : list Neuron) | BRec (ns : list RNeuron) | BGru (ns : list GNeuron)
| BFilter (k : fkind) (f : Filter) (ns : list Neuron).
(* Layer.hpp: numberOfInputs, neurons, optimizers *)
Record Layer := mkLayer { l_in : nat; l_body : Body; l_opts : list LOpt }.

(* getWeights of every neuron *)
Definition body_weights (b : Body) : list (list F) :=
  match b with
  | BFull ns => map n_w ns
  | BRec ns => map (fun r => n_w (r_n r)) ns
  | BGru ns => map gru_weights ns
  | BFilter _ _ ns => map n_w ns
  end.
Definition layer_weights (l : Layer) := body_weights (l_body l).
(* Layer.tpp 110-114 *)
Definition getNumberOfNeurons (l : Layer) : nat := List.length (layer_weights l).
(* Layer.tpp 116-125 *)
Definition layer_parameters (l : Layer) : nat := list_sum (map (@List.length F) (layer_weights l)).
(* SimpleLayer.tpp 45-49, FilterLayer.cpp 26-29 *)
Definition getShapeOfOutput (l : Layer) : list nat :=
  match l_body l with BFilter _ f _ => f_shapeOut f | _ => [getNumberOfNeurons l] end.
Definition getShapeOfInput (l : Layer) : list nat :=
  match l_body l with BFilter _ f _ => f_shapeIn f | _ => [l_in l] end.

(* vector<float> outputs(size); the first entries are then written in order *)
Definition fill (size : nat) (written : list F) : outcome (list F) :=
  if List.length written <=? size then Ok (written ++ repeat fzero (size - List.length written)) else UB.
(* the window of the input a kernel reads: Convolution1D.cpp 93-97, Convolution2D.cpp 101-105 *)
Definition convWindow (f : Filter) (inputs : list F) (row : list Z) : outcome (list F) :=
  omap (fun i => let* idx := lget row i in lgetZ inputs idx) (seq 0 (f_nin f)).
(* LocallyConnected1D.cpp 99-106, LocallyConnected2D.cpp 109-116 *)
Definition locWindow (f : Filter) (inputs : list F) (row : list Z) : outcome (list F) :=
  omap (fun i => let* idx := lget row i in if (0 <=? idx)%Z then lgetZ inputs idx else Ok fzero) (seq 0 (f_nin f)).
(* Convolution1D.cpp 87-104, Convolution2D.cpp 95-112 *)
Definition conv_output (f : Filter) (ns : list Neuron) (inputs : list F) : outcome (list F * list Neuron) :=
  let* (outs, ns') := ofold (fun s row =>
      let* win := convWindow f inputs row in
      let* (o, ns') := each (fun _ n => simple_output n win) (snd s) in
      Ok (fst s ++ o, ns')) (f_index f) ([], ns) in
  let* outs := fill (f_kernels f) outs in
  Ok (outs, ns').
(* LocallyConnected1D.cpp 93-113, LocallyConnected2D.cpp 103-123: o = k * numberOfFilters + n runs through the neurons,
   hence neuron o reads window o / numberOfFilters *)
Definition loc_output (f : Filter) (ns : list Neuron) (inputs : list F) : outcome (list F * list Neuron) :=
  let total := List.length (f_index f) * f_filters f in
  if List.length ns <? total then UB else
  let* wins := omap (locWindow f inputs) (f_index f) in
  let* (outs, ns') := each (fun o n => let* win := lget wins (o / f_filters f) in simple_output n win) (firstn total ns) in
  let* outs := fill (f_kernels f) outs in
  Ok (outs, ns' ++ skipn total ns).
(* MaxPooling1D.cpp 90-97, MaxPooling2D.cpp 100-107 *)
Definition maxIndexOf (f : Filter) (inputs : list F) (row : list Z) : outcome Z :=
  ofold (fun best i =>
    let* idx := lget row i in
    if (0 <=? idx)%Z then
      if (best =? -1)%Z then Ok idx
      else let* a := lgetZ inputs idx in let* b := lgetZ inputs best in Ok (if fgeb a b then idx else best)
    else Ok best) (seq 0 (f_nin f)) (-1)%Z.
(* MaxPooling1D.cpp 85-101, MaxPooling2D.cpp 95-111 *)
Definition pool_output (f : Filter) (inputs : list F) : outcome (list F * Filter) :=
  if List.length (f_maxIndex f) <? List.length (f_index f) then UB else
  let* best := omap (maxIndexOf f inputs) (f_index f) in
  let* outs := omap (fun b => lgetZ inputs b) best in
  let* outs := fill (f_kernels f) outs in
  Ok (outs, set_maxIndex f (best ++ skipn (List.length best) (f_maxIndex f))).

(* computeOutput: SimpleLayer.tpp 8-17, Recurrence.cpp / GruLayer.cpp (SimpleLayer.cpp 6-33), and the filter layers *)
Definition body_output (b : Body) (inputs : list F) (temporalReset : bool) : outcome (list F * Body) :=
  match b with
  | BFull ns => let* (o, ns) := each (fun _ n => simple_output n inputs) ns in Ok (o, BFull ns)
  | BRec ns => let* (o, ns) := each (fun _ n => rec_output n inputs temporalReset) ns in Ok (o, BRec ns)
  | BGru ns => let* (o, ns) := each (fun _ n => gru_output n inputs temporalReset) ns in Ok (o, BGru ns)
  | BFilter k f ns =>
    match k with
    | Conv1D | Conv2D => let* (o, ns) := conv_output f ns inputs in Ok (o, BFilter k f ns)
    | Loc1D | Loc2D => let* (o, ns) := loc_output f ns inputs in Ok (o, BFilter k f ns)
    | Pool1D | Pool2D => let* (o, f) := pool_output f inputs in Ok (o, BFilter k f ns)
    end
  end.
(* Layer.tpp 24-31 *)
Definition layer_output (l : Layer) (inputs : list F) (temporalReset : bool) : outcome (list F * Layer) :=
  let* (out, b) := body_output (l_body l) inputs temporalReset in
  let* out := opts_testing (l_opts l) out in
  Ok (out, mkLayer (l_in l) b (l_opts l)).
(* Layer.tpp 33-40 *)
Definition layer_outputForTraining (rand : nat -> nat -> bool) (l : Layer) (inputs : list F) (temporalReset : bool) : outcome (list F * Layer) :=
  let* (out, b) := body_output (l_body l) inputs temporalReset in
  let* (out, os) := opts_training rand temporalReset 0 (l_opts l) out in
  Ok (out, mkLayer (l_in l) b os).

(* errors[e] += error[e] for e < errors.size(): SimpleLayer.tpp 26-27 *)
Definition addErrors (errors error : list F) : outcome (list F) :=
  omap (fun e => let* a := lget errors e in let* b := lget error e in Ok (fadd a b)) (seq 0 (List.length errors)).
(* for e < error.size(): errors[kernelIndexes[k][e]] += error[e] (with or without the index >= 0 test):
   Convolution1D.cpp 115-119, Convolution2D.cpp 123-127, LocallyConnected1D.cpp 122-127, LocallyConnected2D.cpp 133-138 *)
Definition scatter (test : bool) (row : list Z) (errors error : list F) : outcome (list F) :=
  ofold (fun errs e =>
    let* idx := lget row e in
    let* v := lget error e in
    if test && negb (0 <=? idx)%Z then Ok errs
    else let* a := lgetZ errs idx in lsetZ errs idx (fadd a v)) (seq 0 (List.length error)) errors.
(* Convolution1D.cpp 107-124, Convolution2D.cpp 115-132 *)
Definition conv_back (o : SGD) (nin : nat) (f : Filter) (ns : list Neuron) (inputErrors : list F) : outcome (list F * list Neuron) :=
  let* (errs, _, ns') := ofold (fun s row =>
      let '(errs, i, ns) := s in
      let* (es, ns') := each (fun n neuron => let* e := lget inputErrors (i + n) in simple_backOutput o neuron e) ns in
      let* errs := ofold (scatter false row) es errs in
      Ok (errs, i + List.length ns, ns')) (f_index f) (repeat fzero nin, 0, ns) in
  Ok (errs, ns').
(* LocallyConnected1D.cpp 116-130 (row n % numberOfKernelsPerFilter), LocallyConnected2D.cpp 126-141 (row n / numberOfFilters) *)
Definition loc_back (two : bool) (o : SGD) (nin : nat) (f : Filter) (ns : list Neuron) (inputErrors : list F) : outcome (list F * list Neuron) :=
  let* (es, ns') := each (fun n neuron =>
      let* e := lget inputErrors n in
      let* (err, neuron) := simple_backOutput o neuron e in
      let divisor := if two then f_filters f else f_kpf f in
      if divisor =? 0 then UB else
      let* row := (if List.length err =? 0 then Ok [] else lget (f_index f) (if two then n / f_filters f else n mod f_kpf f)) in
      Ok ((row, err), neuron)) ns in
  let* errs := ofold (fun errs re => scatter true (fst re) errs (snd re)) es (repeat fzero nin) in
  Ok (errs, ns').
(* MaxPooling1D.cpp 104-112, MaxPooling2D.cpp 114-122 *)
Definition pool_back (nin : nat) (f : Filter) (inputErrors : list F) : outcome (list F) :=
  ofold (fun errs e => let* idx := lget (f_maxIndex f) e in let* v := lget inputErrors e in lsetZ errs idx v)
        (seq 0 (List.length inputErrors)) (repeat fzero nin).

(* computeBackOutput: SimpleLayer.tpp 19-30 and the filter layers *)
Definition body_back (o : SGD) (nin : nat) (b : Body) (inputErrors : list F) : outcome (list F * Body) :=
  match b with
  | BFull ns =>
    let* (es, ns) := each (fun n neuron => let* e := lget inputErrors n in simple_backOutput o neuron e) ns in
    let* errs := ofold addErrors es (repeat fzero nin) in Ok (errs, BFull ns)
  | BRec ns =>
    let* (es, ns) := each (fun n neuron => let* e := lget inputErrors n in rec_backOutput o neuron e) ns in
    let* errs := ofold addErrors es (repeat fzero nin) in Ok (errs, BRec ns)
  | BGru ns =>
    let* (es, ns) := each (fun n neuron => let* e := lget inputErrors n in gru_backOutput o neuron e) ns in
    let* errs := ofold addErrors es (repeat fzero nin) in Ok (errs, BGru ns)
  | BFilter k f ns =>
    match k with
    | Conv1D | Conv2D => let* (e, ns) := conv_back o nin f ns inputErrors in Ok (e, BFilter k f ns)
    | Loc1D => let* (e, ns) := loc_back false o nin f ns inputErrors in Ok (e, BFilter k f ns)
    | Loc2D => let* (e, ns) := loc_back true o nin f ns inputErrors in Ok (e, BFilter k f ns)
    | Pool1D | Pool2D => let* e := pool_back nin f inputErrors in Ok (e, b)
    end
  end.
(* Layer.tpp 42-49 *)
Definition layer_backOutput (o : SGD) (l : Layer) (inputErrors : list F) : outcome (list F * Layer) :=
  let errs := opts_back (layer_weights l) (l_opts l) inputErrors in
  let* (e, b) := body_back o (l_in l) (l_body l) errs in
  Ok (e, mkLayer (l_in l) b (l_opts l)).

Definition trained {A} (f : A -> F -> outcome A) (inputErrors : list F) (n : nat) (neuron : A) : outcome (unit * A) :=
  let* e := lget inputErrors n in let* a := f neuron e in Ok (tt, a).
(* computeTrain: SimpleLayer.tpp 32-37, Convolution1D.cpp 127-131 (n < numberOfFilters, which is the number of neurons),
   Convolution2D.cpp 135-139, LocallyConnected1D.cpp 133-137, LocallyConnected2D.cpp 144-148, MaxPooling1D.hpp 23 *)
Definition body_train (o : SGD) (b : Body) (inputErrors : list F) : outcome Body :=
  match b with
  | BFull ns => let* (_, ns) := each (trained (simple_train o) inputErrors) ns in Ok (BFull ns)
  | BRec ns => let* (_, ns) := each (trained (rec_train o) inputErrors) ns in Ok (BRec ns)
  | BGru ns => let* (_, ns) := each (trained (gru_train o) inputErrors) ns in Ok (BGru ns)
  | BFilter k f ns =>
    match k with
    | Conv1D | Conv2D | Loc1D | Loc2D => let* (_, ns) := each (trained (simple_train o) inputErrors) ns in Ok (BFilter k f ns)
    | Pool1D | Pool2D => Ok b
    end
  end.
(* Layer.tpp 51-57 *)
Definition layer_train (o : SGD) (l : Layer) (inputErrors : list F) : outcome Layer :=
  let errs := opts_back (layer_weights l) (l_opts l) inputErrors in
  let* b := body_train o (l_body l) errs in
  Ok (mkLayer (l_in l) b (l_opts l)).
End M.
