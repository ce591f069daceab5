(* What a training on a time series or on sequences should do, told as plans of visits: which sample is shown, whether the memory of the network is
   cleared before, whether the sample is learned. *)
From Verif Require Import Base Num NeuronModel LayerModel NetModel StatModel DataModel DataSpec TrainModel FactoryModel FactorySpec PureSpec.
Local Open Scope nat_scope.

Record visit := mkVisit { v_sample : nat; v_reset : bool; v_learn : bool }.

(* one epoch over a time series of n samples with r recurrences: every sample learned comes at the end of a run of visits to its r predecessors, in
   time order and without gap, with the memory cleared exactly at the start of the run (for the first r samples: of all its predecessors, at the start of
   the epoch); no sample is learned twice *)
Definition series_plan (r n : nat) (plan : list visit) : Prop :=
  List.length plan = n /\ Forall (fun v => v_sample v < n) plan /\
  (forall i v, nth_error plan i = Some v -> v_learn v = true ->
     exists j, j <= i /\ j <= v_sample v /\
       (forall t, t <= j -> exists u, nth_error plan (i - t) = Some u /\ v_sample u = v_sample v - t /\ v_reset u = (t =? j)) /\
       (j = r \/ (i < r /\ j = i /\ v_sample v = i))) /\
  (forall i i' v v', nth_error plan i = Some v -> nth_error plan i' = Some v' -> v_learn v = true -> v_learn v' = true -> v_sample v = v_sample v' -> i = i').
Definition learned_in (s : nat) (plan : list visit) : Prop := exists i v, nth_error plan i = Some v /\ v_sample v = s /\ v_learn v = true.
(* successive epochs: each follows such a plan, and any r+1 epochs in a row learn every sample *)
Definition series_plans (r n : nat) (plans : list (list visit)) : Prop :=
  Forall (series_plan r n) plans /\
  (forall a s, a + r + 1 <= List.length plans -> s < n -> exists j plan, a <= j <= a + r /\ nth_error plans j = Some plan /\ learned_in s plan).

(* sequences: always the same plan, the sequences one after the other, each from its start to its end; everything is learned, the memory is cleared at the
   start of each sequence *)
Definition starts {A} (seqs : list (list A)) (i : nat) : bool := existsb (fun s => position_of seqs s 0 =? i) (seq 0 (List.length seqs)).
Definition sequence_plan {A} (seqs : list (list A)) : list visit := map (fun i => mkVisit i (starts seqs i) true) (seq 0 (List.length (concat seqs))).

Section S.
Context {N : Num}.
(* [carries_out k ins labels good net log plans n net']: in [log] a network starts as [net] and ends as [net'], one plan for each epoch begun, n visits made
   in the last epoch. A visit to a sample is exactly one trainOnce with its label if it is to be learned, else one forward pass; otherwise the network is
   only asked for outputs. *)
Inductive carries_out (k : nat) (ins labels : list (list F)) (good : list (list visit) -> Prop) (net : Net) : list event -> list (list visit) -> nat -> Net -> Prop :=
| co_start : carries_out k ins labels good net [] [] 0 net
| co_epoch log plans n net' plan : carries_out k ins labels good net log plans n net' -> good (plans ++ [plan]) -> carries_out k ins labels good net (log ++ [Shuffled]) (plans ++ [plan]) 0 net'
| co_learn log plans plan n net' v x y rand s : carries_out k ins labels good net log (plans ++ [plan]) n net' -> nth_error plan n = Some v -> v_learn v = true ->
    nth_error ins (v_sample v) = Some x -> nth_error labels (v_sample v) = Some y -> trainOnce rand net' x y (v_reset v) = Ok (sn_net s) ->
    carries_out k ins labels good net (log ++ [Stepped n true x y s]) (plans ++ [plan]) (S n) (sn_net s)
| co_watch log plans plan n net' v x rand o s : carries_out k ins labels good net log (plans ++ [plan]) n net' -> nth_error plan n = Some v -> v_learn v = false ->
    nth_error ins (v_sample v) = Some x -> net_outputForTraining rand net' x (v_reset v) = Ok (o, sn_net s) ->
    carries_out k ins labels good net (log ++ [Stepped n false x [] s]) (plans ++ [plan]) (S n) (sn_net s)
| co_evaluate log plans n net' s : carries_out k ins labels good net log plans n net' -> looks k net' (sn_net s) -> carries_out k ins labels good net (log ++ [Evaluated s]) plans n (sn_net s)
| co_save log plans n net' p s : carries_out k ins labels good net log plans n net' -> sn_net s = net' -> carries_out k ins labels good net (log ++ [Saved p s]) plans n net'.
End S.
