(* Vocabulary for C72: training again and again on one sample. *)
From Coq Require Import Reals.
From Verif Require Import Base Num ActModel NeuronModel LayerModel NetModel NetSpec StatReal.
Local Open Scope R_scope.

(* n calls of trainOnce(x, d), whatever temporalReset and the random draws are *)
Inductive repeated (x d : list R) : nat -> @Net RNum -> @Net RNum -> Prop :=
| repeated_0 net : repeated x d 0 net net
| repeated_S n net rand reset net1 net2 : @trainOnce RNum rand net x d reset = Ok net1 -> repeated x d n net1 net2 -> repeated x d (S n) net net2.
(* one fully connected layer of identity neurons with the bias 1 that FullyConnected sets, without layer optimizer, momentum 0 *)
Definition linear_network (inputs outputs : nat) (net : @Net RNum) : Prop :=
  dense_network inputs net /\ @nn_nan RNum net = false /\ o_m (@nn_opt RNum net) = 0 /\
  exists l ns, @nn_layers RNum net = [l] /\ @l_body RNum l = BFull ns /\ List.length ns = outputs /\ Forall (fun n => @n_act RNum n = a_identity /\ @n_bias RNum n = 1) ns.
Definition squares (x : list R) : R := Rsum (map (fun v => v * v) x).
(* the prediction for x *)
Definition predicts (net : @Net RNum) (x o : list R) : Prop := exists net', @net_output RNum net x true = Ok (o, net').
