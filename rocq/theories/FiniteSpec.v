(* Vocabulary for C70: predictions are finite numbers, in binary32. *)
From Coq Require Import Reals Floats.SpecFloat.
From Flocq Require Import Core.Core IEEE754.BinarySingleNaN.
From Verif Require Import Base Num ActModel NeuronModel LayerModel NetModel FactoryModel Float32 SoftSpec.
Local Open Scope R_scope.

(* x is a finite float of magnitude at most b *)
Definition within (b : R) (x : f32) : Prop := exists r, fin32 x r /\ Rabs r <= b.
Notation two_to e := (bpow radix2 e).
(* what is asked of the library functions: tanhf of a finite float is between -1 and 1; expf of a finite float is either +infinity or a finite float that is not
   negative; below 0 it is between 0 and 1, expf 0 = 1 and expf never decreases (sound_exp); expf of -infinity is between 0 and 1. Nothing is asked about accuracy. *)
Record good_math (expf tanhf : f32 -> f32) : Prop := {
  math_tanh : forall x r, fin32 x r -> exists t, fin32 (tanhf x) t /\ -1 <= t <= 1;
  math_exp : forall x r, fin32 x r -> expf x = S754_infinity false \/ exists e, fin32 (expf x) e /\ 0 <= e;
  math_sound : sound_exp expf;
  math_inf : exists e, fin32 (expf (S754_infinity true)) e /\ 0 <= e <= 1
}.
(* the activation functions whose values stay between -1 and 1 *)
Definition bounded_act (a : activation) : bool := match a with a_sigmoid | a_tanh | a_gaussian => true | _ => false end.

Section Q.
Context (expf tanhf : f32 -> f32).
Notation N := (Num32 expf tanhf).
Variables (w k : Z).
(* weights up to 2^w, at most 2^k of them, a bias up to 1 *)
Definition quiet_neuron (n : @Neuron N) : Prop :=
  Forall (within (two_to w)) (@n_w N n) /\ (Z.of_nat (@List.length f32 (@n_w N n)) <= 2 ^ k)%Z /\ within 1 (@n_bias N n).
(* a recurrent neuron remembers its last output: its activation function must be bounded *)
Definition quiet_rec (r : @RNeuron N) : Prop :=
  quiet_neuron (@r_n N r) /\ bounded_act (@n_act N (@r_n N r)) = true /\ within 1 (@r_lastOut N r).
Definition quiet_gru (g : @GNeuron N) : Prop :=
  quiet_rec (@g_reset N g) /\ quiet_rec (@g_update N g) /\ quiet_rec (@g_output N g) /\ fin32 (@g_prevOut N g) 0.
Definition quiet_body (b : @Body N) : Prop :=
  match b with
  | BFull ns => Forall quiet_neuron ns
  | BRec ns => Forall quiet_rec ns
  | BGru ns => Forall quiet_gru ns
  | BFilter _ _ ns => Forall quiet_neuron ns
  end.
(* how many values the layer gives *)
Definition outputs_of (b : @Body N) : nat :=
  match b with BFull ns => List.length ns | BRec ns => List.length ns | BGru ns => List.length ns | BFilter _ f _ => f_kernels f end.
(* a dropout keeps a part between 0 and 1 of the values *)
Definition quiet_opt (o : @LOpt N) : Prop := match o with ODropout _ r _ => within 1 r | _ => True end.
Definition quiet_layer (l : @Layer N) : Prop :=
  quiet_body (@l_body N l) /\ Forall quiet_opt (@l_opts N l) /\ (In (@OSoftmax N) (@l_opts N l) -> (Z.of_nat (outputs_of (@l_body N l)) <= 2 ^ 24)%Z).
(* the inputs of layer l are up to 2^e: its outputs are up to 2^(next e l) *)
Definition next (e : Z) (l : @Layer N) : Z :=
  match @l_body N l with
  | BRec _ | BGru _ => 0
  | BFilter Pool1D _ _ | BFilter Pool2D _ _ => e
  | BFull ns | BFilter _ _ ns => if forallb (fun n => bounded_act (@n_act N n)) ns then 0 else e + (w + k)
  end%Z.
Fixpoint reach (e : Z) (ls : list (@Layer N)) : Z := match ls with [] => e | l :: t => reach (next e l) t end.
(* no sum can overflow *)
Fixpoint tame (e : Z) (ls : list (@Layer N)) : Prop :=
  match ls with [] => True | l :: t => (e + (w + k) <= 125)%Z /\ tame (next e l) t end.
(* predictions, outputs for training and inspections, with vectors of the declared size and values up to 2^e *)
Inductive watched (inputs : nat) (e : Z) : @Net N -> @Net N -> Prop :=
| watched_none net : watched inputs e net net
| watched_predict net x reset o net1 net2 : List.length x = inputs -> Forall (within (two_to e)) x -> @net_output N net x reset = Ok (o, net1) -> watched inputs e net1 net2 -> watched inputs e net net2
| watched_forTraining net rand x reset o net1 net2 : List.length x = inputs -> Forall (within (two_to e)) x -> @net_outputForTraining N rand net x reset = Ok (o, net1) -> watched inputs e net1 net2 -> watched inputs e net net2
| watched_inspect net x o net1 net2 : List.length x = inputs -> Forall (within (two_to e)) x -> @getLayerOutputs N net x = Ok (o, net1) -> watched inputs e net1 net2 -> watched inputs e net net2.
(* a description with a bias up to 1 (every function of LayerFactory.hpp sets 0, 0.001 or 1), dropout rates between 0 and 1, and a bounded activation function if the layer is recurrent *)
Definition calm_description (d : @LDesc N) : Prop :=
  within 1 (@d_bias N d) /\ (forall v, In (@d_dropout N v) (@d_opts N d) -> exists r, fin32 v r /\ 0 <= r <= 1) /\ (@d_type N d = t_rec -> bounded_act (@d_act N d) = true).
End Q.
