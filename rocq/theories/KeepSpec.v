(* Vocabulary for C81: a network that is already right. *)
From Coq Require Import Reals.
From Verif Require Import Base Num ActModel NeuronModel LayerModel NetModel NetSpec LearnSpec.
Local Open Scope R_scope.

(* weight w of neuron n of layer l is its bias weight: the last of its weights *)
Definition bias_weight (net : @Net RNum) (l n w : nat) : Prop := exists neuron, @neuron_at RNum net l n = Some neuron /\ List.length (n_w neuron) = S w.
(* every bias weight of the network is zero; of the layers before layer l *)
Definition biases_zero_before (last : nat) (net : @Net RNum) : Prop := forall l n w v, (l < last)%nat -> bias_weight net l n w -> @weight_at RNum net l n w = Some v -> v = 0.
Definition biases_zero (net : @Net RNum) : Prop := forall last, biases_zero_before last net.
(* the network predicts every label exactly *)
Definition right_about (net : @Net RNum) (samples : list (list R * list R)) : Prop := forall x d, In (x, d) samples -> predicts net x d.
(* the two networks have the same weights *)
Definition same_weights (a b : @Net RNum) : Prop := forall l n w, @weight_at RNum a l n w = @weight_at RNum b l n w.
