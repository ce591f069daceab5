(* Vocabulary for C74: what predictions made between trainings change. *)
From Verif Require Import Base Num ActModel NeuronModel LayerModel NetModel.
Local Open Scope outcome_scope.

Section S.
Context {N : Num}.
(* a call on a network: trainOnce(x, d, reset) with the random draws of its dropouts, computeOutput(x, reset), getLayerOutputs(x) *)
Inductive call :=
| Training (rand : nat -> nat -> nat -> bool) (x d : list F) (reset : bool)
| Prediction (x : list F) (reset : bool)
| Inspection (x : list F).
(* what the call returns *)
Inductive answer := Trained | Predicted (o : list F) | Inspected (o : list (list F)).
Definition perform (net : Net) (c : call) : outcome (answer * Net) :=
  match c with
  | Training rand x d reset => let* net' := trainOnce rand net x d reset in Ok (Trained, net')
  | Prediction x reset => let* (o, net') := net_output net x reset in Ok (Predicted o, net')
  | Inspection x => let* (o, net') := getLayerOutputs net x in Ok (Inspected o, net')
  end.
Fixpoint perform_all (net : Net) (cs : list call) : outcome (list answer * Net) :=
  match cs with
  | [] => Ok ([], net)
  | c :: t => let* (a, net') := perform net c in let* (r, net'') := perform_all net' t in Ok (a :: r, net'')
  end.
(* the trainings among the calls, in their order *)
Definition trainings (cs : list call) : list call := filter (fun c => match c with Training _ _ _ _ => true | _ => false end) cs.
(* no predicted value is infinite, NaN or subnormal *)
Definition normal_answers (l : list answer) : Prop := forall o v, In (Predicted o) l -> In v o -> fnormal v = true.
(* whatever is called on the one and on the other, they fail together, or answer the same and end with the same weights and count of trainings *)
Definition indistinguishable (n1 n2 : Net) : Prop := forall cs,
  match perform_all n1 cs, perform_all n2 cs with
  | Ok (a1, m1), Ok (a2, m2) => a1 = a2 /\ net_weights m1 = net_weights m2 /\ nn_trainings m1 = nn_trainings m2
  | Throw e1, Throw e2 => e1 = e2
  | UB, UB => True
  | _, _ => False
  end.
End S.
