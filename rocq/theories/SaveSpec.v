(* What saving and loading is about, independently of the archive: the numbers a network holds, and the network read back. *)
From Verif Require Import Base Num ActModel NeuronModel LayerModel NetModel StatModel WaitModel DataModel TrainModel SaveModel.
Local Open Scope outcome_scope.

Section S.
Context {N : Num}.
(* ---------------- all the numbers held by a network ---------------- *)
Definition circ_numbers (c : Circ) : list F := List.concat (q_data c).
Definition neuron_numbers (n : Neuron) : list F := n_w n ++ [n_bias n] ++ circ_numbers (n_prev n) ++ circ_numbers (n_last n) ++ n_err n ++ [n_sum n].
Definition rneuron_numbers (r : RNeuron) : list F := neuron_numbers (r_n r) ++ [r_lastOut r; r_prevOut r; r_recErr r; r_prevSum r].
Definition gneuron_numbers (g : GNeuron) : list F :=
  [g_prevOut g; g_recErr g; g_updOut g; g_outOut g] ++ rneuron_numbers (g_reset g) ++ rneuron_numbers (g_update g) ++ rneuron_numbers (g_output g).
Definition lopt_numbers (o : LOpt) : list F := match o with ODropout v r _ => [v; r] | OL1 v | OL2 v | OMult v => [v] | OSoftmax => [] end.
Definition body_numbers (b : Body) : list F :=
  match b with
  | BFull ns => flat_map neuron_numbers ns | BRec ns => flat_map rneuron_numbers ns | BGru ns => flat_map gneuron_numbers ns
  | BFilter _ _ ns => flat_map neuron_numbers ns
  end.
Definition layer_numbers (l : Layer) : list F := body_numbers (l_body l) ++ flat_map lopt_numbers (l_opts l).
Definition sgd_numbers (o : SGD) : list F := [o_lr o; o_m o].
Definition net_numbers (n : Net) : list F := flat_map layer_numbers (nn_layers n) ++ sgd_numbers (nn_opt n).
Definition stats_numbers (s : Stats) : list F :=
  flat_map (fun c => [c_tp c; c_tn c; c_fp c; c_fn c]) (st_clusters s) ++
  [st_well s; st_mis s; st_rate s; st_wrate s; st_f1 s; st_mae s; st_rmse s; st_rateMax s; st_wrateMax s; st_f1Max s; st_maeMin s; st_rmseMin s].
Definition snn_numbers (s : Snn) : list F := stats_numbers (sn_stats s) ++ net_numbers (sn_net s).
Definition all_finite (l : list F) : Prop := Forall (fun x => ffinite x = true) l.

(* ---------------- what is not read back ---------------- *)
(* the member errors of a GRU neuron (rewritten before each use), totalError of the counters (reset before each evaluation), the flag
   outputNan, and the members of a max pooling in the layers that are not max poolings (which only exist in the model) *)
Definition bare_gru (g : GNeuron) : GNeuron := mkGNeuron (g_in g) [] (g_prevOut g) (g_recErr g) (g_updOut g) (g_outOut g) (g_reset g) (g_update g) (g_output g).
Definition bare_filter (k : fkind) (f : Filter) : Filter :=
  match k with
  | Pool1D | Pool2D => f
  | _ => mkFilter (f_filters f) (f_kernels f) (f_kpf f) (f_npf f) (f_ksize f) (f_nin f) (f_shapeIn f) (f_shapeOut f) (f_index f) 0 []
  end.
Definition bare_body (b : Body) : Body :=
  match b with BGru ns => BGru (map bare_gru ns) | BFilter k f ns => BFilter k (bare_filter k f) ns | _ => b end.
Definition bare_layer (l : Layer) : Layer := mkLayer (l_in l) (bare_body (l_body l)) (l_opts l).
Definition bare_net (n : Net) : Net := mkNet (map bare_layer (nn_layers n)) (nn_opt n) (nn_nan n) (nn_trainings n).
Definition bare_cluster (c : Cluster) : Cluster := mkCluster (c_tp c) (c_tn c) (c_fp c) (c_fn c) fzero.
Definition bare_stats (s : Stats) : Stats := with_counters s (map bare_cluster (st_clusters s)) (st_well s) (st_mis s).
Definition bare (s : Snn) : Snn := with_stats (with_net s (bare_net (sn_net s))) (bare_stats (sn_stats s)).
Definition no_nan (s : Snn) : Snn := with_net s (mkNet (nn_layers (sn_net s)) (nn_opt (sn_net s)) false (nn_trainings (sn_net s))).

(* ---------------- what a user can see of a network from now on ---------------- *)
(* predictions, and trainings (with some bound on the turns of their loops) *)
Inductive action := Predict (x : list F) (reset : bool) | Train (fuel : nat) (env : Env) (w : Wait) (batch freq : Z) (d : Data).
(* the outputs; after a training: all the weights, the five results of the last evaluation, whether they improved, the order of the data,
   the inputs and labels presented; or that the training does not end within the bound *)
Inductive seen := Outputs (o : list F) | Trained (weights : list (list (list F))) (results : list F) (better : list bool) (d : Data) (presented : list (nat * list F * list F)) | Unfinished.
Definition results (s : Stats) : list F := [st_rate s; st_wrate s; st_f1 s; st_mae s; st_rmse s].
Definition improved (s : Stats) : list bool := [st_rateBetter s; st_wrateBetter s; st_f1Better s; st_maeBetter s; st_rmseBetter s].
Definition presented (log : list event) : list (nat * list F * list F) := flat_map (fun e => match e with Stepped i _ x y _ => [(i, x, y)] | _ => [] end) log.
Fixpoint lives (s : Snn) (l : list action) : outcome (list seen) :=
  match l with
  | [] => Ok []
  | Predict x reset :: l => let* (o, s) := computeOutput s x reset in let* t := lives s l in Ok (Outputs o :: t)
  | Train fuel env w b f d :: l =>
    match train fuel env w b f s d with
    | None => Ok [Unfinished]
    | Some (Throw m) => Throw m
    | Some UB => UB
    | Some (Ok r) => let st := sn_stats (r_snn r) in
      let* t := lives (r_snn r) l in Ok (Trained (net_weights (sn_net (r_snn r))) (results st) (improved st) (r_data r) (presented (r_log r)) :: t)
    end
  end.
End S.
