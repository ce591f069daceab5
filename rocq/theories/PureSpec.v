(* Vocabulary for C19 and C21: feed-forward networks, looking at a network without training it. *)
From Verif Require Import Base Num ActModel NeuronModel LayerModel NetModel FactoryModel FactorySpec.
Local Open Scope nat_scope.

Section S.
Context {N : Num}.
Definition feed_forward (d : LDesc) : Prop := match d_type d with t_rec | t_gru => False | _ => True end.
(* outputs computed one after the other, for prediction, for training or layer by layer, without any training step *)
Inductive looks (inputs : nat) : Net -> Net -> Prop :=
| looks_none net : looks inputs net net
| looks_predict net x reset o net1 net2 : List.length x = inputs -> net_output net x reset = Ok (o, net1) -> looks inputs net1 net2 -> looks inputs net net2
| looks_forTraining net rand x reset o net1 net2 : List.length x = inputs -> net_outputForTraining rand net x reset = Ok (o, net1) -> looks inputs net1 net2 -> looks inputs net net2
| looks_inspect net x o net1 net2 : List.length x = inputs -> getLayerOutputs net x = Ok (o, net1) -> looks inputs net1 net2 -> looks inputs net net2.
(* anything a user can do with a network, with vectors of any size and content *)
Inductive later : Net -> Net -> Prop :=
| later_none net : later net net
| later_predict net x reset o net1 net2 : net_output net x reset = Ok (o, net1) -> later net1 net2 -> later net net2
| later_forTraining net rand x reset o net1 net2 : net_outputForTraining rand net x reset = Ok (o, net1) -> later net1 net2 -> later net net2
| later_inspect net x o net1 net2 : getLayerOutputs net x = Ok (o, net1) -> later net1 net2 -> later net net2
| later_train net rand x d reset net1 net2 : trainOnce rand net x d reset = Ok net1 -> later net1 net2 -> later net net2.
(* x is neither zero nor a normal number: infinite, NaN or subnormal *)
Definition abnormal (x : F) : Prop := fnormal x = false.
End S.
