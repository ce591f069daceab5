(* Vocabulary for C31: the transpose of the linear part of a layer, in exact arithmetic. *)
From Coq Require Import Reals.
From Verif Require Import Base Num ActModel FilterSpec LOptSpec.
Local Open Scope R_scope.

(* a1*b1 + a2*b2 + ... *)
Definition inner (a b : list R) : R := Rsum (map (fun p => fst p * snd p) (combine a b)).
(* w1*x1 + w2*x2 + ... over the inputs, the bias weight left out: the linear part of a neuron *)
Definition linear_part (w x : list R) : R := inner w x.
(* error times the derivative of the activation at w.x + w_bias * bias, where x are the inputs the neuron read *)
Definition neuron_error (a : activation) (bias : R) (w x : list R) (error : R) : R :=
  error * @actd RNum a (linear_part w x + nth (List.length x) w 0 * bias).
(* [transposes cells neurons weights reads delta r]: [r] is the transpose of the layer applied to the errors of its neurons: for every
   vector [u] of the size of the input, <r, u> is the sum over the neurons of their error times their linear part at [u].
   Neuron j has weights [nth j weights] and reads [reads j u]. *)
Definition transposes (cells neurons : nat) (weights : list (list R)) (reads : nat -> list R -> list R) (delta : nat -> R) (r : list R) : Prop :=
  List.length r = cells /\
  forall u, List.length u = cells -> inner r u = Rsum (map (fun j => delta j * linear_part (nth j weights []) (reads j u)) (seq 0 neurons)).
