(* Vocabulary for statements about networks: addressing a neuron or a weight, changing one weight, the squared error. *)
From Coq Require Import Reals.
From Verif Require Import Base Num ActModel NeuronModel LayerModel NetModel.

Section S.
Context {N : Num}.
(* neuron number n of layer number l, when this layer is made of plain neurons *)
Definition neuron_at (net : Net) (l n : nat) : option Neuron :=
  match nth_error (nn_layers net) l with
  | Some lay => match l_body lay with BFull ns => nth_error ns n | BFilter _ _ ns => nth_error ns n | _ => None end
  | None => None
  end.
Definition weight_at (net : Net) (l n w : nat) : option F :=
  match neuron_at net l n with Some neuron => nth_error (n_w neuron) w | None => None end.
(* the same network with one weight of a fully connected layer set to t (as getNeuron + setWeights would) *)
Definition set_weight_layer (lay : Layer) (n w : nat) (t : F) : Layer :=
  match l_body lay with
  | BFull ns => match nth_error ns n with
                | Some neuron => mkLayer (l_in lay) (BFull (replace ns n (set_w neuron (replace (n_w neuron) w t)))) (l_opts lay)
                | None => lay
                end
  | _ => lay
  end.
Definition set_weight (net : Net) (l n w : nat) (t : F) : Net :=
  match nth_error (nn_layers net) l with
  | Some lay => mkNet (replace (nn_layers net) l (set_weight_layer lay n w t)) (nn_opt net) (nn_nan net) (nn_trainings net)
  | None => net
  end.

(* A neuron as the library keeps it: one weight per input and [extra] more, queues with one row per position. *)
Definition queue_shape (c : Circ) (rows cols : nat) : Prop :=
  0 < rows /\ List.length (q_data c) = rows /\ Forall (fun r => List.length r = cols) (q_data c) /\ q_push c <= rows /\ q_get c <= rows.
Definition neuron_shape (extra : nat) (n : Neuron) : Prop :=
  List.length (n_w n) = n_in n + extra /\ queue_shape (n_prev n) (n_batch n) (n_in n + extra) /\
  queue_shape (n_last n) (n_batch n) (n_in n) /\ List.length (n_err n) = n_in n.
(* a network of fully connected layers without layer optimizers, each taking what the previous one gives *)
Fixpoint dense_layers (inputs : nat) (ls : list Layer) : Prop :=
  match ls with
  | [] => True
  | l :: t => l_in l = inputs /\ l_opts l = [] /\
      (exists ns, l_body l = BFull ns /\ Forall (fun n => neuron_shape 1 n /\ n_in n = inputs /\ n_batch n = 1) ns) /\
      dense_layers (getNumberOfNeurons l) t
  end.
(* predictions made one after the other lead from a network to another *)
Inductive predictions (inputs : nat) : Net -> Net -> Prop :=
| no_prediction net : predictions inputs net net
| one_prediction net x reset o net1 net2 : List.length x = inputs ->
    net_output net x reset = Ok (o, net1) -> predictions inputs net1 net2 -> predictions inputs net net2.
Definition dense_network (inputs : nat) (net : Net) : Prop := nn_layers net <> [] /\ dense_layers inputs (nn_layers net).
End S.

(* sum over the outputs of (desired - output)^2 *)
Fixpoint sum_of_squares (desired outputs : list R) : R :=
  match outputs, desired with
  | o :: ot, d :: dt => ((d - o) ^ 2 + sum_of_squares dt ot)%R
  | _, _ => 0%R
  end.
Definition squared_error (net : @Net RNum) (x desired : list R) : R :=
  match @net_output RNum net x false with Ok (o, _) => sum_of_squares desired o | _ => 0%R end.

(* The error is differentiable where the network is used: no neuron uses the activation whose derivative is wrong (C36),
   no ReLU sits exactly on its corner.  The sums are those the neurons hold after computing the output for x. *)
Definition differentiable_at (net : @Net RNum) (x : list R) : Prop :=
  forall o net1, @net_output RNum net x false = Ok (o, net1) ->
  forall l n neuron, @neuron_at RNum net1 l n = Some neuron ->
  n_act neuron <> a_iSigmoid /\ (n_act neuron = a_ReLU -> n_sum neuron <> 0%R).
