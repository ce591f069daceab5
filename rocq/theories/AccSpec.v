(* Vocabulary for C71: how far a prediction computed in binary32 is from the exact one. *)
From Coq Require Import Reals.
From Flocq Require Import Core.Core.
From Verif Require Import Base Num ActModel NeuronModel LayerModel NetModel Float32 StatReal FiniteSpec.
Local Open Scope R_scope.

(* x is a finite float at most d away from the real number r *)
Definition near (d : R) (x : f32) (r : R) : Prop := exists v, fin32 x v /\ Rabs (v - r) <= d.
(* half a unit in the last place of 1, and half the smallest positive float *)
Definition u24 : R := bpow radix2 (-24).
Definition tiny : R := bpow radix2 (-150).
(* tanhf is at most delta away from the hyperbolic tangent, and between -1 and 1 *)
Definition accurate (delta : R) (tanhf : f32 -> f32) : Prop := forall x v, fin32 x v -> exists t, fin32 (tanhf x) t /\ -1 <= t <= 1 /\ Rabs (t - tanh v) <= delta.
(* the activation functions covered; the two whose values stay between -1 and 1 *)
Definition plain_act (a : activation) : bool := match a with a_sigmoid | a_tanh | a_ReLU | a_identity => true | _ => false end.
Definition flat_act (a : activation) : bool := match a with a_sigmoid | a_tanh => true | _ => false end.

Section S.
Context (expf tanhf : f32 -> f32).
Notation N := (Num32 expf tanhf).
(* the same parameters, as floats and as real numbers *)
Definition twin_neuron (n : @Neuron N) (m : @Neuron RNum) : Prop :=
  @n_act N n = @n_act RNum m /\ plain_act (@n_act N n) = true /\ Forall2 fin32 (@n_w N n) (@n_w RNum m) /\ fin32 (@n_bias N n) (@n_bias RNum m).
Definition twin_opt (o : @LOpt N) (p : @LOpt RNum) : Prop :=
  match o, p with
  | ODropout _ r _, ODropout _ q _ => fin32 r q /\ Rabs q <= 1
  | OL1 _, OL1 _ | OL2 _, OL2 _ | OMult _, OMult _ => True
  | _, _ => False
  end.
Definition twin_body (b : @Body N) (c : @Body RNum) : Prop :=
  match b, c with
  | BFull ns, BFull ms => Forall2 twin_neuron ns ms
  | BFilter k f ns, BFilter k' f' ms => k = k' /\ f_filters f = f_filters f' /\ f_kernels f = f_kernels f' /\ f_nin f = f_nin f' /\ f_index f = f_index f' /\ Forall2 twin_neuron ns ms
  | _, _ => False
  end.
Definition twin_layer (l : @Layer N) (m : @Layer RNum) : Prop := twin_body (@l_body N l) (@l_body RNum m) /\ Forall2 twin_opt (@l_opts N l) (@l_opts RNum m).
End S.

(* the neurons of a layer, computed with real numbers *)
Definition layer_neurons (m : @Layer RNum) : list (@Neuron RNum) :=
  match @l_body RNum m with BFull ns => ns | BFilter _ _ ns => ns | _ => [] end.
(* at most n weights per neuron, whose absolute values add up to at most A; a bias up to 1 *)
Definition limited (n : nat) (A : R) (m : @Layer RNum) : Prop :=
  Forall (fun q => (List.length (@n_w RNum q) <= n)%nat /\ Rsum (map Rabs (@n_w RNum q)) <= A /\ Rabs (@n_bias RNum q) <= 1) (layer_neurons m).
Definition dropouts (m : @Layer RNum) : nat := List.length (filter (fun o => match o with ODropout _ _ _ => true | _ => false end) (@l_opts RNum m)).
Definition pooling (m : @Layer RNum) : bool := match @l_body RNum m with BFilter Pool1D _ _ | BFilter Pool2D _ _ => true | _ => false end.
Definition flat_layer (m : @Layer RNum) : bool := negb (pooling m) && forallb (fun q => flat_act (@n_act RNum q)) (layer_neurons m).
(* rounding in a sum of n products of absolute values adding up to T *)
Definition sum_error (n : nat) (T : R) : R := 3 * INR n * (T * u24 + tiny).
(* inputs up to B and off by d: the outputs are up to next_size and off by next_error *)
Definition next_size (n : nat) (A B : R) (m : @Layer RNum) : R :=
  if flat_layer m then 1 else if pooling m then B else Rmax 1 (A * B + sum_error n (A * B)).
Definition next_error (delta : R) (n : nat) (A B d : R) (m : @Layer RNum) : R :=
  (if pooling m then d else A * d + sum_error n (A * B) + (delta + 3 * u24)) + INR (dropouts m) * (next_size n A B m * u24 + tiny).
(* the same for a chain of layers, with the bounds (n, A) of each *)
Fixpoint final_error (delta : R) (bounds : list (nat * R)) (ms : list (@Layer RNum)) (B d : R) : R :=
  match bounds, ms with
  | (n, A) :: bs, m :: t => final_error delta bs t (next_size n A B m) (next_error delta n A B d m)
  | _, _ => d
  end.
(* the bounds hold and nothing can overflow *)
Fixpoint bounded_net (bounds : list (nat * R)) (ms : list (@Layer RNum)) (B : R) : Prop :=
  match bounds, ms with
  | (n, A) :: bs, m :: t => (Z.of_nat n <= 2 ^ 22)%Z /\ 0 <= A /\ limited n A m /\ A * B <= bpow radix2 120 /\ B <= bpow radix2 120 /\ bounded_net bs t (next_size n A B m)
  | [], [] => True
  | _, _ => False
  end.
