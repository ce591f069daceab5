(* Vocabulary for C68: one weight of one neuron, as getWeights() of this neuron returns it; a weight set to a value. *)
From Coq Require Import Reals.
From Verif Require Import Base Num ActModel NeuronModel LayerModel NetModel NetSpec MixSpec.
Local Open Scope nat_scope.

Section S.
Context {N : Num}.
(* weight w of neuron n of layer l. A recurrent neuron of i inputs has i + 2 weights: those of its inputs, of its previous output, of its bias.
   A GRU neuron has three times as many: those of its reset gate, of its update gate, of its output gate, each with this arrangement. *)
Definition weight_of (net : Net) (l n w : nat) : option F :=
  match nth_error (net_weights net) l with
  | Some ws => match nth_error ws n with Some v => nth_error v w | None => None end
  | None => None
  end.
(* the network with weight w of neuron n of the GRU layer l set to t *)
Definition changed_gru (g : GNeuron) (w : nat) (t : F) : GNeuron :=
  let k := List.length (n_w (r_n (g_reset g))) in
  let k' := k + List.length (n_w (r_n (g_update g))) in
  let gates :=
    if w <? k then (changed_rec (g_reset g) w t, g_update g, g_output g)
    else if w <? k' then (g_reset g, changed_rec (g_update g) (w - k) t, g_output g)
    else (g_reset g, g_update g, changed_rec (g_output g) (w - k') t) in
  mkGNeuron (g_in g) (g_err g) (g_prevOut g) (g_recErr g) (g_updOut g) (g_outOut g) (fst (fst gates)) (snd (fst gates)) (snd gates).
Definition with_gate_weight (net : Net) (l n w : nat) (t : F) : Net :=
  mkNet (modify (nn_layers net) l (fun lay => mkLayer (l_in lay) match l_body lay with BGru gs => BGru (modify gs n (fun g => changed_gru g w t)) | b => b end (l_opts lay)))
    (nn_opt net) (nn_nan net) (nn_trainings net).
End S.
