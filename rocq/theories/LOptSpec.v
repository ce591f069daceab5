(* Vocabulary for statements about layer optimizers. *)
From Coq Require Import Reals.
From Verif Require Import Base Num ActModel NeuronModel LayerModel FactoryModel FactorySpec FilterSpec.
Local Open Scope nat_scope.

Section S.
Context {N : Num}.
(* the values a mask keeps: each value times 1 or times 0 *)
Definition kept (mask : list bool) (v : list F) : list F :=
  map (fun p : F * bool => fmul (fst p) (if snd p then fone else fzero)) (combine v mask).
(* what the layer computes before its optimizers are applied: the layer without them *)
Definition bare (l : Layer) : Layer := mkLayer (l_in l) (l_body l) [].
(* the layer trains through this mask: training outputs and errors are those of the bare layer, masked *)
Definition trains_through (mask : list bool) (l : Layer) : Prop :=
  (forall rand x, List.length x = l_in l -> exists raw b l1,
     layer_output (bare l) x false = Ok (raw, b) /\ List.length raw = List.length mask /\ layer_outputForTraining rand l x false = Ok (kept mask raw, l1)) /\
  (forall opt e, List.length e = List.length mask -> exists r b l1,
     layer_backOutput opt (bare l) (kept mask e) = Ok (r, b) /\ layer_backOutput opt l e = Ok (r, l1) /\ layer_weights l1 = layer_weights b) /\
  (forall opt e, List.length e = List.length mask -> exists b l1,
     layer_train opt (bare l) (kept mask e) = Ok b /\ layer_train opt l e = Ok l1 /\ layer_weights l1 = layer_weights b).
(* the operations of [works], except training outputs that start a sequence *)
Inductive works_inside : Layer -> Layer -> Prop :=
| inside_none l : works_inside l l
| inside_output l x reset o l1 l2 : List.length x = l_in l -> layer_output l x reset = Ok (o, l1) -> works_inside l1 l2 -> works_inside l l2
| inside_training l rand x o l1 l2 : List.length x = l_in l -> layer_outputForTraining rand l x false = Ok (o, l1) -> works_inside l1 l2 -> works_inside l l2
| inside_back l opt e r l1 l2 : List.length e = cell_count (getShapeOfOutput l) -> layer_backOutput opt l e = Ok (r, l1) -> works_inside l1 l2 -> works_inside l l2
| inside_train l opt e l1 l2 : getNumberOfNeurons l <= List.length e -> layer_train opt l e = Ok l1 -> works_inside l1 l2 -> works_inside l l2.
End S.

(* the sum of the numbers of a list *)
Fixpoint Rsum (l : list R) : R := match l with [] => 0%R | x :: t => (x + Rsum t)%R end.
(* what a layer regulariser should do to each error, given the weights of the layer *)
Definition corrected (o : @odesc RNum) (weights : list (list R)) (error : R) : R :=
  match o with
  | d_l1 v => (error + v * Rsum (map Rabs (concat weights)) / INR (List.length weights))%R
  | d_l2 v => (error + v * Rsum (map (fun w => w ^ 2) (concat weights)) / INR (List.length weights))%R
  | d_mult c => (error * c)%R
  | _ => error
  end.
