(* Vocabulary for C67: networks mixing several kinds of layers, one weight changed, where the error has a derivative. *)
From Coq Require Import Reals.
From Verif Require Import Base Num ActModel NeuronModel LayerModel NetModel FactoryModel FactorySpec FilterSpec.
Local Open Scope nat_scope.

Section S.
Context {N : Num}.
(* neuron number n of a layer (of a GRU layer: none) *)
Definition unit_at (l : Layer) (n : nat) : option Neuron :=
  match l_body l with
  | BFull ns => nth_error ns n
  | BRec rs => option_map r_n (nth_error rs n)
  | BGru _ => None
  | BFilter _ _ ns => nth_error ns n
  end.
Definition net_unit (net : Net) (l n : nat) : option Neuron :=
  match nth_error (nn_layers net) l with Some lay => unit_at lay n | None => None end.
(* the same layer with weight w of neuron n set to t, as setWeights on this neuron would *)
Definition changed (n : Neuron) (w : nat) (t : F) : Neuron := set_w n (replace (n_w n) w t).
Definition changed_rec (r : RNeuron) (w : nat) (t : F) : RNeuron :=
  mkRNeuron (changed (r_n r) w t) (r_lastOut r) (r_prevOut r) (r_recErr r) (r_prevSum r).
Definition modify {A} (l : list A) (n : nat) (f : A -> A) : list A :=
  match nth_error l n with Some a => replace l n (f a) | None => l end.
Definition change_weight (l : Layer) (n w : nat) (t : F) : Layer :=
  mkLayer (l_in l)
    match l_body l with
    | BFull ns => BFull (modify ns n (fun u => changed u w t))
    | BRec rs => BRec (modify rs n (fun r => changed_rec r w t))
    | BGru gs => BGru gs
    | BFilter k f ns => BFilter k f (modify ns n (fun u => changed u w t))
    end (l_opts l).
Definition with_weight_at (net : Net) (l n w : nat) (t : F) : Net :=
  mkNet (modify (nn_layers net) l (fun lay => change_weight lay n w t)) (nn_opt net) (nn_nan net) (nn_trainings net).

(* The kinds of layers, with the shape of their input, whose training follows the gradient (the others are refuted in C31
   and C68): no layer optimizers; fully connected; recurrent; 2-D locally connected; 1-D locally connected with one filter
   or one tile; convolutions with one position; 1-D maximum with one channel, 2-D maximum with as many tiles both ways. *)
Inductive gradient_kind (d : LDesc) : list nat -> Prop :=
| gk_full s : d_opts d = [] -> d_type d = t_full -> gradient_kind d s
| gk_rec s : d_opts d = [] -> d_type d = t_rec -> gradient_kind d s
| gk_local2 C X Y : d_opts d = [] -> d_type d = t_local -> gradient_kind d [C; X; Y]
| gk_local1 s C X k : d_opts d = [] -> d_type d = t_local -> (s = [C; X] \/ s = [X] /\ C = 1) -> d_ksize d = Z.of_nat k -> (d_filters d = 1%Z \/ covering X k = 1) -> gradient_kind d s
| gk_conv1 s C X : d_opts d = [] -> d_type d = t_conv -> (s = [C; X] \/ s = [X] /\ C = 1) -> d_ksize d = Z.of_nat X -> gradient_kind d s
| gk_conv2 C X : d_opts d = [] -> d_type d = t_conv -> d_ksize d = Z.of_nat X -> gradient_kind d [C; X; X]
| gk_pool1 s X : d_opts d = [] -> d_type d = t_pool -> (s = [1; X] \/ s = [X]) -> gradient_kind d s
| gk_pool2 C X Y k : d_opts d = [] -> d_type d = t_pool -> d_ksize d = Z.of_nat k -> covering X k = covering Y k -> gradient_kind d [C; X; Y].
Fixpoint gradient_kinds (ds : list LDesc) (s : list nat) (ls : list Layer) : Prop :=
  match ds, ls with
  | d :: dt, l :: lt => gradient_kind d s /\ gradient_kinds dt (getShapeOfOutput l) lt
  | _, _ => True
  end.
End S.

(* one cell is greater than all the others *)
Definition single_greatest (v : list R) (cell : nat -> Prop) : Prop :=
  exists i, cell i /\ forall i', cell i' -> i' <> i -> (nth i' v 0 < nth i v 0)%R.
Definition no_ties (d : @LDesc RNum) (s : list nat) (v : list R) : Prop :=
  d_type d = t_pool -> forall k, d_ksize d = Z.of_nat k ->
  (forall X p, (s = [1; X] \/ s = [X]) -> p < covering X k -> single_greatest v (in_tile1 X k p)) /\
  (forall C X Y px py c, s = [C; X; Y] -> px < covering X k -> py < covering Y k -> c < C -> single_greatest v (in_tile2 C X Y k px py c)).
(* The derivative exists where the network is used: the activation is not the one whose derivative is wrong (C36), no ReLU sits
   on its corner (the sums are those the neurons hold after the output for [v]), no tile of a maximum holds its greatest value twice. *)
Definition smooth_unit (n : @Neuron RNum) : Prop := n_act n <> a_iSigmoid /\ (n_act n = a_ReLU -> n_sum n <> 0%R).
Fixpoint differentiable (ds : list (@LDesc RNum)) (s : list nat) (ls : list (@Layer RNum)) (v : list R) : Prop :=
  match ds, ls with
  | d :: dt, l :: lt => no_ties d s v /\
      forall o l1, @layer_output RNum l v false = Ok (o, l1) ->
      (forall n u, @unit_at RNum l1 n = Some u -> smooth_unit u) /\ differentiable dt (getShapeOfOutput l) lt o
  | _, _ => True
  end.
