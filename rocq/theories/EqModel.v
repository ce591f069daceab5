(* Model of operator== on networks: StraightforwardNeuralNetwork.cpp 327-337, NeuralNetwork.cpp 192-205, Layer.tpp 127-151,
   SimpleLayer.tpp 70-74, FilterLayer.cpp 48-68, Convolution{1D.cpp 132-135,2D.cpp 141-153}, LocallyConnected{1D.cpp 141-144,2D.cpp 151-163},
   MaxPooling{1D.cpp 115-129,2D.cpp 125-139}, Neuron.cpp 83-96, RecurrentNeuron.cpp 76-83, GatedRecurrentUnit.cpp 121-131, CircularData.cpp 32-37,
   LayerOptimizer.cpp 13-17 and its subclasses, StochasticGradientDescent.cpp 89-102.
   operator!= is the negation everywhere. The statistics are not compared (NeuralNetwork::operator== does not call the one of
   StatisticAnalysis). Activation functions are compared through a pointer into a static table: equal exactly when the kinds are. *)
From Coq Require Import String.
From Verif Require Import Base Num ActModel NeuronModel LayerModel NetModel StatModel TrainModel.
Local Open Scope outcome_scope.

(* operator== of std::vector: same size and equal elements *)
Fixpoint vec_eqb {A} (eqb : A -> A -> bool) (a b : list A) : bool :=
  match a, b with [], [] => true | x :: a, y :: b => eqb x y && vec_eqb eqb a b | _, _ => false end.
(* a && b, where b is only computed when a is true *)
Definition oand (a : outcome bool) (b : outcome bool) : outcome bool := bind a (fun x => if x then b else Ok false).

Section M.
Context {N : Num}.
Definition act_eqb (a b : activation) : bool :=
  match a, b with
  | a_sigmoid, a_sigmoid | a_iSigmoid, a_iSigmoid | a_tanh, a_tanh | a_ReLU, a_ReLU | a_GELU, a_GELU | a_gaussian, a_gaussian | a_identity, a_identity => true
  | _, _ => false
  end.
(* StochasticGradientDescent.cpp 89-102 *)
Definition sgd_eqb (a b : SGD) : bool := feqb (o_lr a) (o_lr b) && feqb (o_m a) (o_m b).
(* CircularData.cpp 32-37 *)
Definition circ_eqb (a b : Circ) : bool := vec_eqb (vec_eqb feqb) (q_data a) (q_data b) && (q_get a =? q_get b) && (q_push a =? q_push b).
(* Neuron.cpp 83-96 *)
Definition neuron_eqb (oa ob : SGD) (a b : Neuron) : bool :=
  (n_in a =? n_in b) && vec_eqb feqb (n_w a) (n_w b) && feqb (n_bias a) (n_bias b) && circ_eqb (n_prev a) (n_prev b) && circ_eqb (n_last a) (n_last b)
  && vec_eqb feqb (n_err a) (n_err b) && feqb (n_sum a) (n_sum b) && act_eqb (n_act a) (n_act b) && sgd_eqb oa ob.
(* RecurrentNeuron.cpp 76-83 *)
Definition rneuron_eqb (oa ob : SGD) (a b : RNeuron) : bool :=
  neuron_eqb oa ob (r_n a) (r_n b) && feqb (r_lastOut a) (r_lastOut b) && feqb (r_prevOut a) (r_prevOut b) && feqb (r_recErr a) (r_recErr b) && feqb (r_prevSum a) (r_prevSum b).
(* GatedRecurrentUnit.cpp 121-131 *)
Definition gneuron_eqb (oa ob : SGD) (a b : GNeuron) : bool :=
  (g_in a =? g_in b) && feqb (g_prevOut a) (g_prevOut b) && feqb (g_recErr a) (g_recErr b) && feqb (g_updOut a) (g_updOut b) && feqb (g_outOut a) (g_outOut b)
  && rneuron_eqb oa ob (g_reset a) (g_reset b) && rneuron_eqb oa ob (g_update a) (g_update b) && rneuron_eqb oa ob (g_output a) (g_output b).
(* Dropout.cpp 63-76, L1Regularization.cpp 39-51, L2Regularization.cpp 39-51, ErrorMultiplier.cpp 37-49, Softmax.cpp 72-83 *)
Definition lopt_eqb (a b : LOpt) : bool :=
  match a, b with
  | ODropout v r _, ODropout v' r' _ => feqb v v' && feqb r r'
  | OL1 v, OL1 v' | OL2 v, OL2 v' | OMult v, OMult v' => feqb v v'
  | OSoftmax, OSoftmax => true
  | _, _ => false
  end.
(* Layer.tpp 139-144: the loop runs over the optimizers of the left-hand side only *)
Fixpoint lopts_eqb (a b : list LOpt) : outcome bool :=
  match a, b with
  | [], _ => Ok true
  | _ :: _, [] => UB
  | x :: a, y :: b => if lopt_eqb x y then lopts_eqb a b else Ok false
  end.
(* FilterLayer.cpp 54-62 *)
Definition filter_eqb (f g : Filter) : bool :=
  (f_filters f =? f_filters g) && (f_kernels f =? f_kernels g) && (f_kpf f =? f_kpf g) && (f_npf f =? f_npf g) && (f_ksize f =? f_ksize g) && (f_nin f =? f_nin g)
  && vec_eqb Nat.eqb (f_shapeIn f) (f_shapeIn g) && vec_eqb Nat.eqb (f_shapeOut f) (f_shapeOut g) && vec_eqb (vec_eqb Z.eqb) (f_index f) (f_index g).
(* MaxPooling1D.cpp 115-129, MaxPooling2D.cpp 125-139 *)
Definition pool_eqb (f g : Filter) : bool := (f_ksize f =? f_ksize g) && vec_eqb Nat.eqb (f_shapeIn f) (f_shapeIn g).
(* the dynamic types are compared first in each case *)
Definition layer_eqb (oa ob : SGD) (a b : Layer) : outcome bool :=
  match l_body a, l_body b with
  | BFull x, BFull y => oand (Ok ((l_in a =? l_in b) && vec_eqb (neuron_eqb oa ob) x y)) (lopts_eqb (l_opts a) (l_opts b))
  | BRec x, BRec y => oand (Ok ((l_in a =? l_in b) && vec_eqb (rneuron_eqb oa ob) x y)) (lopts_eqb (l_opts a) (l_opts b))
  | BGru x, BGru y => oand (Ok ((l_in a =? l_in b) && vec_eqb (gneuron_eqb oa ob) x y)) (lopts_eqb (l_opts a) (l_opts b))
  | BFilter k f x, BFilter k' g y =>
    if negb (fkind_eqb k k') then Ok false else
    match k with
    | Pool1D | Pool2D => Ok (pool_eqb f g)
    | _ => oand (oand (Ok ((l_in a =? l_in b) && vec_eqb (neuron_eqb oa ob) x y)) (lopts_eqb (l_opts a) (l_opts b))) (Ok (filter_eqb f g))
    end
  | _, _ => Ok false
  end.
(* NeuralNetwork.cpp 196-203 *)
Fixpoint layers_eqb (oa ob : SGD) (a b : list Layer) : outcome bool :=
  match a, b with
  | [], _ => Ok true
  | _ :: _, [] => UB
  | x :: a, y :: b => oand (layer_eqb oa ob x y) (layers_eqb oa ob a b)
  end.
Definition net_eqb (a b : Net) : outcome bool :=
  oand (Ok (sgd_eqb (nn_opt a) (nn_opt b) && (List.length (nn_layers a) =? List.length (nn_layers b)))) (layers_eqb (nn_opt a) (nn_opt b) (nn_layers a) (nn_layers b)).
(* StraightforwardNeuralNetwork.cpp 327-337 *)
Definition snn_eqb (a b : Snn) : outcome bool :=
  oand (net_eqb (sn_net a) (sn_net b))
       (Ok ((String.eqb (sn_path a) (sn_path b)) && Bool.eqb (sn_auto a) (sn_auto b) && Bool.eqb (sn_want a) (sn_want b) && (sn_index a =? sn_index b)
            && Bool.eqb (sn_idle a) (sn_idle b) && (sn_epoch a =? sn_epoch b)%Z && (sn_ntrain a =? sn_ntrain b))).
End M.
