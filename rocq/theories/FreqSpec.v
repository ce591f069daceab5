(* Vocabulary for C75: how often a network is evaluated during its training. *)
From Verif Require Import Base Num NeuronModel LayerModel NetModel StatModel WaitModel DataModel TrainModel.
Local Open Scope outcome_scope.

Section S.
Context {N : Num}.
(* a stopping rule that looks neither at the accuracy nor at the mean absolute error *)
Definition ignores_results (w : Wait) : Prop := forall elapsed epochs acc mae acc' mae', isOver w elapsed epochs acc mae = isOver w elapsed epochs acc' mae'.
(* the stopping rules a user writes with epochs and durations: 3_ep, 100_ms, 2_s, 1_min, and || and && between them *)
Inductive clocked : Wait -> Prop :=
| ck_ep n : clocked (lit_ep n)
| ck_ms n : clocked (lit_ms n)
| ck_s n w : lit_s n = Ok w -> clocked w
| ck_min n w : lit_min n = Ok w -> clocked w
| ck_or a b w : clocked a -> clocked b -> wait_or a b = Ok w -> clocked w
| ck_and a b w : clocked a -> clocked b -> wait_and a b = Ok w -> clocked w.
(* the steps of the training in order: position, whether it learns, inputs, labels, all the weights after it *)
Definition steps (log : list event) : list (nat * bool * list F * list F * list (list (list F))) :=
  flat_map (fun e => match e with Stepped i l x y s => [(i, l, x, y, net_weights (sn_net s))] | _ => [] end) log.
End S.
