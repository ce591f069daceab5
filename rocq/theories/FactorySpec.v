(* Vocabulary for statements about constructed networks. *)
From Verif Require Import Base Num ActModel NeuronModel LayerModel NetModel FactoryModel.
Local Open Scope nat_scope.

(* number of values an array of this shape holds *)
Definition cell_count (shape : list nat) : nat := fold_left Nat.mul shape 1.

Section S.
Context {N : Num}.
(* the Input layer has positive dimensions, no kernel size is negative *)
Definition sane_kernel (d : LDesc) : Prop := match d_type d with t_pool | t_local | t_conv => (0 <= d_ksize d)%Z | _ => True end.
Definition sane_descriptions (ds : list LDesc) : Prop :=
  match ds with [] => True | d0 :: rest => Forall (fun z => 0 < z)%Z (d_shape d0) /\ Forall sane_kernel rest end.
(* poolings the library handles: one channel in 1-D, output not wider than high in 2-D (see the refutations) *)
Definition supported_pooling (l : Layer) : Prop :=
  match l_body l with
  | BFilter Pool1D f _ => nth 0 (f_shapeIn f) 0 = 1
  | BFilter Pool2D f _ => nth 1 (f_shapeOut f) 0 <= nth 2 (f_shapeOut f) 0
  | _ => True
  end.
(* the last layer gives one output per neuron, or it is a pooling (no neurons), or it is the only layer:
   everything but a final convolution with several positions *)
Definition trainable (net : Net) : Prop :=
  match nn_layers net with
  | [] | [_] => True
  | a :: t => let l := last t a in getNumberOfNeurons l = cell_count (getShapeOfOutput l) \/ getNumberOfNeurons l = 0
  end.
(* any sequence of predictions, layer inspections and training steps with inputs and labels of the declared sizes *)
Inductive uses (inputs : nat) : Net -> Net -> Prop :=
| uses_none net : uses inputs net net
| uses_predict net x reset o net1 net2 : List.length x = inputs -> net_output net x reset = Ok (o, net1) ->
    uses inputs net1 net2 -> uses inputs net net2
| uses_forTraining net rand x reset o net1 net2 : List.length x = inputs -> net_outputForTraining rand net x reset = Ok (o, net1) ->
    uses inputs net1 net2 -> uses inputs net net2
| uses_inspect net x o net1 net2 : List.length x = inputs -> getLayerOutputs net x = Ok (o, net1) ->
    uses inputs net1 net2 -> uses inputs net net2
| uses_train net rand x d reset net1 net2 : List.length x = inputs -> net_numberOfOutputs net = Ok (List.length d) -> trainable net ->
    trainOnce rand net x d reset = Ok net1 -> uses inputs net1 net2 -> uses inputs net net2.
(* every layer takes as many values as the previous one announces *)
Fixpoint sizes_chain (inputs : nat) (ls : list Layer) : Prop :=
  match ls with [] => True | l :: t => l_in l = inputs /\ sizes_chain (cell_count (getShapeOfOutput l)) t end.
End S.

(* ---------- what a description should give, independently of the code ---------- *)
(* number of windows of k cells needed to cover x cells *)
Definition covering (x k : nat) : nat := (x + k - 1) / k.
(* channels, and sizes of the other dimensions; a flat input has one channel *)
Definition channels (s : list nat) : nat := match s with [_] => 1 | c :: _ => c | [] => 0 end.
Definition extents (s : list nat) : list nat := match s with [x] => [x] | _ :: e => e | [] => [] end.
Section S2.
Context {N : Num}.
Definition expected_shape (d : LDesc) (s : list nat) : list nat :=
  let k := Z.to_nat (d_ksize d) in let f := Z.to_nat (d_filters d) in
  match d_type d with
  | t_conv => f :: map (fun x => x - k + 1) (extents s)
  | t_local => f :: map (fun x => covering x k) (extents s)
  | t_pool => channels s :: map (fun x => covering x k) (extents s)
  | _ => [Z.to_nat (d_neurons d)]
  end.
Definition expected_parameters (d : LDesc) (s : list nat) : nat :=
  let n := Z.to_nat (d_neurons d) in let k := Z.to_nat (d_ksize d) in let f := Z.to_nat (d_filters d) in
  let volume := k ^ List.length (extents s) * channels s in
  match d_type d with
  | t_full => n * (cell_count s + 1)
  | t_rec => n * (cell_count s + 2)
  | t_gru => 3 * (n * (cell_count s + 2))
  | t_conv => f * (volume + 1)
  | t_local => f * cell_count (map (fun x => covering x k) (extents s)) * (volume + 1)
  | t_pool | t_input => 0
  end.
Fixpoint expected_total (ds : list LDesc) (s : list nat) : nat :=
  match ds with [] => 0 | d :: t => expected_parameters d s + expected_total t (expected_shape d s) end.
Fixpoint expected_shapes (ds : list LDesc) (s : list nat) : list (list nat) :=
  match ds with [] => [] | d :: t => expected_shape d s :: expected_shapes t (expected_shape d s) end.

(* the reasons to reject a list of descriptions the API documents *)
Inductive wrong : list LDesc -> Prop :=
| no_description : wrong []
| no_input_first d t : d_type d <> t_input -> wrong (d :: t)
| only_input d : wrong [d]
| too_many ds : (1000 < Z.of_nat (List.length ds))%Z -> wrong ds
| input_too_big d t : (2073600 < fold_left Z.mul (d_shape d) 1)%Z -> wrong (d :: t)
| no_dimension d t : d_shape d = [] -> wrong (d :: t)
| second_input d t e : In e t -> d_type e = t_input -> wrong (d :: t)
| empty_layer d t e : In e t -> (d_type e = t_full \/ d_type e = t_rec \/ d_type e = t_gru) -> (d_neurons e <= 0)%Z -> wrong (d :: t)
| no_filter d t e : In e t -> (d_type e = t_local \/ d_type e = t_conv) -> d_filters e = 0%Z -> wrong (d :: t)
| many_dimensions d e t : 4 <= List.length (d_shape d) -> (d_type e = t_pool \/ d_type e = t_local \/ d_type e = t_conv) -> wrong (d :: e :: t)
| big_kernel1 d e t x : d_shape d = [x] -> (d_type e = t_pool \/ d_type e = t_local \/ d_type e = t_conv) -> (x < d_ksize e)%Z -> wrong (d :: e :: t)
| big_kernel2 d e t c x : d_shape d = [c; x] -> (d_type e = t_pool \/ d_type e = t_local \/ d_type e = t_conv) -> (x < d_ksize e)%Z -> wrong (d :: e :: t)
| big_kernel3 d e t c x y : d_shape d = [c; x; y] -> (d_type e = t_pool \/ d_type e = t_local \/ d_type e = t_conv) ->
    (x < d_ksize e \/ y < d_ksize e)%Z -> wrong (d :: e :: t).
End S2.
