(* Model of src/neural_network/layer/LayerFactory.cpp, the constructors and buildKernelIndexes of the filter layers,
   the isValid chain, and the constructors NeuralNetwork.cpp 13-18 and StraightforwardNeuralNetwork.cpp 24-33.
   Sizes given by the user are C++ ints: integers here, with [int32] marking an overflow as undefined behaviour.
   Simplifications: resizing a vector to a negative size is an exception; random initial weights are read from an
   oracle [draws layer neuron gate weight] and the initial dropout masks from [masks layer optimizer i]; the statistics
   part of the constructor is in StatModel. *)
From Verif Require Import Base Num ActModel NeuronModel LayerModel NetModel.

Section M.
Context {N : Num}.
Local Open Scope outcome_scope.

(* LayerType.hpp *)
Inductive ltype := t_input | t_full | t_rec | t_gru | t_pool | t_local | t_conv.
(* LayerOptimizerModel.hpp, LayerOptimizerFactory.cpp 17-66 *)
Inductive odesc := d_dropout (v : F) | d_l1 (v : F) | d_l2 (v : F) | d_mult (v : F) | d_softmax.
(* LayerModel.hpp: the fields the user sets through the functions of LayerFactory.hpp 11-190 *)
Record LDesc := mkDesc { d_type : ltype; d_neurons : Z; d_filters : Z; d_ksize : Z; d_shape : list Z;
                         d_act : activation; d_bias : F; d_opts : list odesc }.
(* LayerFactory.hpp 13-37, 39-62, 64-87, 89-112, 114-137, 139-163, 165-190 *)
Definition Input (shape : list Z) := mkDesc t_input 0 0 0 shape a_identity fzero [].
Definition FullyConnected (n : Z) (a : activation) (os : list odesc) := mkDesc t_full n (-1) (-1) [] a fone os.
Definition Recurrence (n : Z) (a : activation) (os : list odesc) := mkDesc t_rec n (-1) (-1) [] a fone os.
Definition GruLayer (n : Z) (os : list odesc) := mkDesc t_gru n (-1) (-1) [] a_tanh fone os.
Definition MaxPooling (k : Z) := mkDesc t_pool 0 1 k [] a_identity fzero [].
Definition LocallyConnected (f k : Z) (a : activation) (os : list odesc) := mkDesc t_local (-1) f k [] a (flit 1 1000) os.
Definition Convolution (f k : Z) (a : activation) (os : list odesc) := mkDesc t_conv 1 f k [] a (flit 1 1000) os.

(* a result of int arithmetic *)
Definition int32 (z : Z) : outcome Z := if (z <? -2147483648)%Z || (2147483647 <? z)%Z then UB else Ok z.
Definition imul (a b : Z) : outcome Z := int32 (a * b).
(* vector(size) or resize(size) *)
Definition size (z : Z) : outcome nat := if (z <? 0)%Z then Throw "vector" else Ok (Z.to_nat z).
(* LayerFactory.cpp 17-24 *)
Definition product (shape : list Z) : outcome Z := ofold imul shape 1%Z.
(* ceiling of a division as in lines 29-31: x / k + (x % k == 0 ? 0 : 1); the division by zero is undefined *)
Definition cdiv (x k : Z) : outcome Z :=
  if (k =? 0)%Z then UB else Ok (Z.quot x k + (if Z.rem x k =? 0 then 0 else 1))%Z.

(* ---------------- kernel index tables ---------------- *)
Local Open Scope nat_scope.
Definition cells (n : nat) (f : nat -> list Z) : list Z := flat_map f (seq 0 n).
(* Convolution1D.cpp 20-41 *)
Definition conv1D_index (C kSize K : nat) : list (list Z) :=
  map (fun k => cells kSize (fun x => map (fun c => Z.of_nat ((k + x) * C + c)) (seq 0 C))) (seq 0 K).
(* Convolution2D.cpp 23-51 *)
Definition conv2D_index (C maxX kSize outX K : nat) : list (list Z) :=
  map (fun k => let posX := k mod outX in let posY := k / outX in
    cells kSize (fun y => cells kSize (fun x => map (fun c => Z.of_nat (((posY + y) * maxX + posX + x) * C + c)) (seq 0 C)))) (seq 0 K).
Definition orNone (b : bool) (i : nat) : Z := if b then Z.of_nat i else (-1)%Z.
(* LocallyConnected1D.cpp 23-47 *)
Definition loc1D_index (C kSize inputs K : nat) : list (list Z) :=
  map (fun k => cells kSize (fun x => map (fun c => let i := (k * kSize + x) * C + c in orNone (i <? inputs) i) (seq 0 C))) (seq 0 K).
(* LocallyConnected2D.cpp 24-57 *)
Definition loc2D_index (C maxX kSize outX outY inputs K : nat) : list (list Z) :=
  map (fun k => let posX := k mod outX in let posY := k / outY in
    cells kSize (fun y => cells kSize (fun x => map (fun c =>
      let inputIndexY := (posY * kSize + y) * maxX * C in
      let inputIndexX := (posX * kSize + x) * C in
      let i := inputIndexY + inputIndexX + c in
      orNone ((inputIndexX + c <? maxX * C) && (i <? inputs)) i) (seq 0 C)))) (seq 0 K).
(* MaxPooling1D.cpp 26-49 *)
Definition pool1D_index (C kSize inputs K : nat) : list (list Z) :=
  map (fun k => let posX := k / C in let c := k mod C in
    map (fun x => let i := (posX * kSize + x) * C + c in orNone (i <? inputs) i) (seq 0 kSize)) (seq 0 K).
(* MaxPooling2D.cpp 28-59 *)
Definition pool2D_index (C maxX kSize outX outY inputs K : nat) : list (list Z) :=
  map (fun k => let posX := (k / C) mod outX in let posY := (k / C) / outY in let c := k mod C in
    cells kSize (fun y => map (fun x =>
      let inputIndexY := (posY * kSize + y) * maxX * C in
      let inputIndexX := (posX * kSize + x) * C in
      let i := inputIndexY + inputIndexX + c in
      orNone ((inputIndexX + c <? maxX * C) && (i <? inputs)) i) (seq 0 kSize))) (seq 0 K).

(* ---------------- construction ---------------- *)
(* LayerOptimizerFactory.cpp 59-88, Dropout.cpp 8-18 *)
Definition build_opt (masks : nat -> bool) (neurons : nat) (o : odesc) : LOpt :=
  match o with
  | d_dropout v => ODropout v (fsub fone v) (map masks (seq 0 neurons))
  | d_l1 v => OL1 v | d_l2 v => OL2 v | d_mult v => OMult v | d_softmax => OSoftmax
  end.
Definition build_opts (masks : nat -> nat -> bool) (neurons : nat) (os : list odesc) : list LOpt :=
  map (fun p => build_opt (masks (fst p)) neurons (snd p)) (combine (seq 0 (List.length os)) os).
(* Layer.tpp 1-11: the neurons *)
Definition build_neurons {A} (mk : nat -> outcome A) (n : nat) : outcome (list A) := omap mk (seq 0 n).

(* LayerFactory.cpp 82-250 with the constructors FilterLayer.cpp 9-18, Convolution1D.cpp 9-18, Convolution2D.cpp 9-21,
   LocallyConnected1D.cpp 9-21, LocallyConnected2D.cpp 9-22, MaxPooling1D.cpp 10-24, MaxPooling2D.cpp 10-26 *)
Section build.
Variable draws : nat -> nat -> nat -> F.        (* neuron, gate, weight *)
Variable masks : nat -> nat -> bool.            (* layer optimizer, neuron *)

Definition mk_full (nin batch nw : nat) (d : LDesc) (n : nat) := neuron_init nin batch nw (d_bias d) (d_act d) (draws n 0).
Definition finish (nin : nat) (d : LDesc) (b : Body) : Layer :=
  mkLayer nin b (build_opts masks (List.length (body_weights b)) (d_opts d)).
(* the neurons of a filter layer: numberOfNeurons neurons of numberOfInputs inputs *)
Definition filter_neurons (d : LDesc) (neurons nin batch : Z) : outcome (list Neuron) :=
  let* m := size neurons in
  let* nin := size nin in
  let* batch := size batch in
  build_neurons (mk_full nin batch (nin + 1) d) m.

Definition build_conv1D (d : LDesc) (inputs C X : Z) : outcome Layer :=
  let k := d_ksize d in let f := d_filters d in
  if (X <? k)%Z then Throw "Convolution kernel is too big." else
  let outX := (X - (k - 1))%Z in
  let* kernels := imul f outX in
  if (f =? 0)%Z then UB else
  let kpf := Z.quot kernels f in
  let* nin := imul k C in
  let* ns := filter_neurons d f nin kpf in
  let* nkpf := size kpf in let* nnin := size nin in
  let* nker := size kernels in let* ni := size inputs in
  Ok (finish ni d (BFilter Conv1D
    (mkFilter (Z.to_nat f) nker nkpf 1 (Z.to_nat k) nnin [Z.to_nat C; Z.to_nat X] [Z.to_nat f; Z.to_nat outX]
              (conv1D_index (Z.to_nat C) (Z.to_nat k) nkpf) 0 []) ns)).
Definition build_conv2D (d : LDesc) (inputs C X Y : Z) : outcome Layer :=
  let k := d_ksize d in let f := d_filters d in
  if (X <? k)%Z || (Y <? k)%Z then Throw "Convolution kernel is too big." else
  let outX := (X - (k - 1))%Z in let outY := (Y - (k - 1))%Z in
  let* fx := imul f outX in let* kernels := imul fx outY in
  if (f =? 0)%Z then UB else
  let kpf := Z.quot kernels f in
  let* kk := imul k k in let* nin := imul kk C in
  let* ns := filter_neurons d f nin kpf in
  let* nkpf := size kpf in let* nnin := size nin in
  let* nker := size kernels in let* ni := size inputs in
  Ok (finish ni d (BFilter Conv2D
    (mkFilter (Z.to_nat f) nker nkpf 1 (Z.to_nat k) nnin [Z.to_nat C; Z.to_nat X; Z.to_nat Y] [Z.to_nat f; Z.to_nat outX; Z.to_nat outY]
              (if (k <? 0)%Z then repeat (repeat 0%Z nnin) nkpf      (* kernelIndexes[k].resize(kSize * kSize * C), and the loops do nothing *)
               else conv2D_index (Z.to_nat C) (Z.to_nat X) (Z.to_nat k) (Z.to_nat outX) nkpf) 0 []) ns)).
Definition build_loc1D (d : LDesc) (inputs C X : Z) : outcome Layer :=
  let k := d_ksize d in let f := d_filters d in
  if (X <? k)%Z then Throw "Kernel of locally connected layer is too big." else
  let* outX := cdiv X k in
  let* kernels := imul f outX in
  if (f =? 0)%Z then UB else
  let kpf := Z.quot kernels f in
  let* nin := imul k C in
  let* ns := filter_neurons d kernels nin 1 in
  let* nkpf := size kpf in let* nnin := size nin in
  let* nker := size kernels in let* ni := size inputs in
  Ok (finish ni d (BFilter Loc1D
    (mkFilter (Z.to_nat f) nker nkpf nkpf (Z.to_nat k) nnin [Z.to_nat C; Z.to_nat X] [Z.to_nat f; Z.to_nat outX]
              (loc1D_index (Z.to_nat C) (Z.to_nat k) ni nkpf) 0 []) ns)).
Definition build_loc2D (d : LDesc) (inputs C X Y : Z) : outcome Layer :=
  let k := d_ksize d in let f := d_filters d in
  if (X <? k)%Z || (Y <? k)%Z then Throw "Kernel of locally connected layer is too big." else
  let* outX := cdiv X k in let* outY := cdiv Y k in
  let* fx := imul f outX in let* kernels := imul fx outY in
  if (f =? 0)%Z then UB else
  let kpf := Z.quot kernels f in
  let* kk := imul k k in let* nin := imul kk C in
  let* ns := filter_neurons d kernels nin 1 in
  let* nkpf := size kpf in let* nnin := size nin in
  let* nker := size kernels in let* ni := size inputs in
  Ok (finish ni d (BFilter Loc2D
    (mkFilter (Z.to_nat f) nker nkpf nkpf (Z.to_nat k) nnin [Z.to_nat C; Z.to_nat X; Z.to_nat Y] [Z.to_nat f; Z.to_nat outX; Z.to_nat outY]
              (loc2D_index (Z.to_nat C) (Z.to_nat X) (Z.to_nat k) (Z.to_nat outX) (Z.to_nat outY) ni nkpf) 0 []) ns)).
(* A negative kernel size of a 2-D locally connected or pooling layer gives, in the code, a shape with two negative dimensions: the model, whose shapes
   have no negative dimension, does not represent it. *)
(* maxValueIndexes.resize(n) gives zeros; numberOfKernelsPerFilter stays -1 (0 here) and is never used *)
Definition build_pool1D (d : LDesc) (inputs C X : Z) : outcome Layer :=
  let k := d_ksize d in
  if (X <? k)%Z then Throw "Kernel of max pooling layer is too big." else
  let* outX := cdiv X k in
  let* nout := size outX in
  let* nk := if nout =? 0 then Ok (Z.to_nat k) else size k in      (* kernelIndexes[k].resize(kernelSize): only when there is an output *)
  let* ni := size inputs in
  Ok (finish ni d (BFilter Pool1D
    (mkFilter (Z.to_nat C) nout 0 0 nk nk [Z.to_nat C; Z.to_nat X] [Z.to_nat C; nout]
              (pool1D_index (Z.to_nat C) nk ni nout) nout (repeat 0%Z nout)) [])).
Definition build_pool2D (d : LDesc) (inputs C X Y : Z) : outcome Layer :=
  let k := d_ksize d in
  if (X <? k)%Z || (Y <? k)%Z then Throw "Kernel of max pooling layer is too big." else
  let* outX := cdiv X k in let* outY := cdiv Y k in
  let* cx := imul C outX in let* out := imul cx outY in
  let* kk := imul k k in
  let* nout := size out in let* nin := size kk in let* nk := size k in let* ni := size inputs in
  Ok (finish ni d (BFilter Pool2D
    (mkFilter (Z.to_nat C) nout 0 0 nk nin [Z.to_nat C; Z.to_nat X; Z.to_nat Y] [Z.to_nat C; Z.to_nat outX; Z.to_nat outY]
              (pool2D_index (Z.to_nat C) (Z.to_nat X) nk (Z.to_nat outX) (Z.to_nat outY) ni nout) nout (repeat 0%Z nout)) [])).

(* shapes of one dimension become {1, n} for the filter layers (lines 120-123, 158-161, 200-203) *)
Definition dims {A} (shape : list Z) (one : Z -> Z -> outcome A) (two : Z -> Z -> Z -> outcome A) : outcome A :=
  match shape with
  | [x] => one 1%Z x
  | [c; x] => one c x
  | [c; x; y] => two c x y
  | _ => Throw "Input with 3 dimensions or higher is not managed."
  end.
Definition build_layer (d : LDesc) (shape : list Z) : outcome Layer :=
  let* inputs := product shape in
  match shape with [] => Throw "Input of layer has size of 0." | _ =>
  if (1000000 <? inputs)%Z then Throw "Layer is too big." else
  match d_type d with
  | t_full =>
    if (inputs <=? 0)%Z then Throw "Input of layer has size of 0." else
    let* n := size (d_neurons d) in let* ni := size inputs in
    let* ns := build_neurons (mk_full ni 1 (ni + 1) d) n in
    Ok (finish ni d (BFull ns))
  | t_rec =>
    let* n := size (d_neurons d) in let* ni := size inputs in
    let* ns := build_neurons (fun i => rneuron_init ni 1 (ni + 2) (d_bias d) (d_act d) (draws i 0)) n in
    Ok (finish ni d (BRec ns))
  | t_gru =>
    let* n := size (d_neurons d) in let* ni := size inputs in
    let* ns := build_neurons (fun i => gru_init ni 1 (ni + 2) (d_bias d) (draws i)) n in
    Ok (finish ni d (BGru ns))
  | t_pool => dims shape (build_pool1D d inputs) (build_pool2D d inputs)
  | t_local => dims shape (build_loc1D d inputs) (build_loc2D d inputs)
  | t_conv => dims shape (build_conv1D d inputs) (build_conv2D d inputs)
  | t_input => Throw "Input LayerModel should be in first position."
  end end.
End build.

(* LayerFactory.cpp 271-276 *)
Fixpoint build_rest (draws : nat -> nat -> nat -> nat -> F) (masks : nat -> nat -> nat -> bool) (l : nat) (ds : list LDesc) (shape : list Z)
  : outcome (list Layer) :=
  match ds with
  | [] => Ok []
  | d :: t => let* a := build_layer (draws l) (masks l) d shape in
              let* r := build_rest draws masks (S l) t (map Z.of_nat (getShapeOfOutput a)) in Ok (a :: r)
  end.
(* LayerFactory.cpp 252-277 *)
Definition build_all (draws : nat -> nat -> nat -> nat -> F) (masks : nat -> nat -> nat -> bool) (ds : list LDesc) : outcome (list Layer) :=
  if (1000 <? Z.of_nat (List.length ds))%Z then Throw "Too much layers." else
  match ds with
  | [] => Throw "First LayerModel must be a Input type LayerModel."
  | d0 :: rest =>
    match d_type d0 with
    | t_input =>
      match rest with
      | [] => Throw "Neural Network must have at least 1 layer."
      | _ => let* n := product (d_shape d0) in
             if (2073600 <? n)%Z then Throw "Layer is too big." else
             build_rest draws masks 0 rest (d_shape d0)
      end
    | _ => Throw "First LayerModel must be a Input type LayerModel."
    end
  end.

(* ---------------- isValid ---------------- *)
Definition firstError (l : list Z) : Z := match List.find (fun e => negb (e =? 0)%Z) l with Some e => e | None => 0%Z end.
(* Layer.tpp 59-74 with the neuron's own check *)
Definition neurons_isValid (errs : list Z) : Z :=
  if (Z.of_nat (List.length errs) <? 1)%Z || (1000000 <? Z.of_nat (List.length errs))%Z then 201%Z else firstError errs.
(* SimpleLayer.tpp 51-68, FilterLayer.cpp 36-48, Convolution1D.cpp 54-62 (and the three like it), MaxPooling1D.cpp 57-63 *)
Definition layer_isValid (l : Layer) : Z :=
  match l_body l with
  | BFull ns => if existsb (fun n => negb (n_in n =? l_in l)) ns then 203%Z else neurons_isValid (map neuron_isValid ns)
  | BRec ns => if existsb (fun n => negb (n_in (r_n n) =? l_in l)) ns then 203%Z else neurons_isValid (map rec_isValid ns)
  | BGru ns => if existsb (fun n => negb (g_in n =? l_in l)) ns then 203%Z else neurons_isValid (map gru_isValid ns)
  | BFilter k f ns =>
    match k with
    | Pool1D | Pool2D => if negb (List.length (f_maxIndex f) =? f_outputs f) && negb (f_kernels f =? f_outputs f) then 204%Z else 0%Z
    | _ => if existsb (fun n => negb (n_in n =? f_nin f)) ns then 203%Z
           else if negb (fold_left Nat.mul (f_shapeOut f) 1 =? f_kernels f) then 202%Z
           else neurons_isValid (map neuron_isValid ns)
    end
  end.
(* NeuralNetwork.cpp 168-190 *)
Definition net_isValid (n : Net) : outcome Z :=
  let* l0 := lget (nn_layers n) 0 in
  if (l_in l0 <? 1) || (2073600 <? Z.of_nat (l_in l0))%Z then Ok 101%Z
  else if (List.length (nn_layers n) <? 1) || (1000 <? Z.of_nat (List.length (nn_layers n)))%Z then Ok 102%Z
  else let e := sgd_isValid (nn_opt n) in
  if negb (e =? 0)%Z then Ok e else Ok (firstError (map layer_isValid (nn_layers n))).
(* NeuralNetwork.cpp 13-18, StraightforwardNeuralNetwork.cpp 24-33 *)
Definition construct (draws : nat -> nat -> nat -> nat -> F) (masks : nat -> nat -> nat -> bool) (ds : list LDesc) (lr m : F) : outcome Net :=
  let* ls := build_all draws masks ds in
  let net := mkNet ls (mkSGD lr m) false 0 in
  let* e := net_isValid net in
  if (e =? 0)%Z then Ok net else Throw "Wrong parameter in the creation of neural networks".
End M.
