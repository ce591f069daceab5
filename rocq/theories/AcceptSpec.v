(* The lists of layers the constructor of a network must accept (C26). Sizes are those of the documentation: at most 1000 descriptions, 1000000 values
   between two layers, 1000000 neurons per layer and 1000000 weights per neuron; the numbers of cells are C++ ints. *)
From Verif Require Import Base Num ActModel NeuronModel LayerModel NetModel FactoryModel FactorySpec.
Local Open Scope nat_scope.

Section S.
Context {N : Num}.
Definition million : Z := 1000000.
(* a layer d on an input of shape s *)
Definition right_layer (d : LDesc) (s : list nat) : Prop :=
  let k := Z.to_nat (d_ksize d) in
  let weights := k ^ List.length (extents s) * channels s + 1 in      (* of a filter: its window, and the bias *)
  let outputs := Z.of_nat (cell_count (expected_shape d s)) in
  let fits := List.length s <= 3 /\ Forall (fun x => k <= x) (extents s) in
  s <> [] /\ (Z.of_nat (cell_count s) <= million)%Z /\
  match d_type d with
  | t_input => False
  | t_full => (1 <= d_neurons d <= million)%Z /\ (Z.of_nat (cell_count s) + 1 <= million)%Z
  | t_rec | t_gru => (1 <= d_neurons d <= million)%Z /\ (Z.of_nat (cell_count s) + 2 <= million)%Z
  | t_pool => fits /\ 1 <= k
  | t_local => fits /\ 1 <= k /\ (1 <= d_filters d)%Z /\ (outputs <= million)%Z /\ (Z.of_nat weights <= million)%Z
  | t_conv => fits /\ (1 <= d_filters d <= million)%Z /\ (outputs <= 2147483647)%Z /\ (Z.of_nat weights <= million)%Z
  end.
Fixpoint right_layers (ds : list LDesc) (s : list nat) : Prop :=
  match ds with [] => True | d :: t => right_layer d s /\ right_layers t (expected_shape d s) end.
Definition right_architecture (ds : list LDesc) : Prop :=
  match ds with
  | d0 :: rest => d_type d0 = t_input /\ rest <> [] /\ (Z.of_nat (List.length ds) <= 1000)%Z /\ right_layers rest (map Z.to_nat (d_shape d0))
  | [] => False
  end.
(* a learning rate and a momentum in range, as floats compare *)
Definition right_optimizer (lr m : F) : Prop := fleb lr fzero = false /\ fgeb lr fone = false /\ fltb m fzero = false /\ fgtb m fone = false.
(* a number the library takes as weight or bias *)
Definition in_range (x : F) : Prop := fltb x (fofZ (-100000)) = false /\ fgtb x (fofZ 10000) = false.
End S.
