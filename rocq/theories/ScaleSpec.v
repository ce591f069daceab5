(* Vocabulary for C69: layer optimizers that scale (dropout, error multiplier), the error of the training pass, where it has a derivative. *)
From Coq Require Import Reals.
From Verif Require Import Base Num ActModel NeuronModel LayerModel NetModel NetSpec FactoryModel FactorySpec FilterSpec MixSpec.
Local Open Scope nat_scope.

Section S.
Context {N : Num}.
(* the same description without its layer optimizers *)
Definition without_opts (d : LDesc) : LDesc := mkDesc (d_type d) (d_neurons d) (d_filters d) (d_ksize d) (d_shape d) (d_act d) (d_bias d) [].
(* Dropout and ErrorMultiplier; not L1Regularization, L2Regularization and Softmax *)
Definition scaling (o : odesc) : Prop := match o with d_dropout _ | d_mult _ => True | _ => False end.
(* layers of the kinds of C67 with any number of dropouts and error multipliers each *)
Fixpoint scaled_kinds (ds : list LDesc) (s : list nat) (ls : list Layer) : Prop :=
  match ds, ls with
  | d :: dt, l :: lt => gradient_kind (without_opts d) s /\ Forall scaling (d_opts d) /\ scaled_kinds dt (getShapeOfOutput l) lt
  | _, _ => True
  end.
End S.

(* the product of the error multipliers of the layers described *)
Definition factor (o : @odesc RNum) : R := match o with d_mult f => f | _ => 1%R end.
Definition layer_multiplier (d : @LDesc RNum) : R := fold_right (fun o m => (factor o * m)%R) 1%R (d_opts d).
Definition multiplier (ds : list (@LDesc RNum)) : R := fold_right (fun d m => (layer_multiplier d * m)%R) 1%R ds.
(* the squared error of the outputs of the training pass: with the neurons dropped that this pass drops *)
Definition training_error (rand : nat -> nat -> nat -> bool) (net : @Net RNum) (x desired : list R) (reset : bool) : R :=
  match @net_outputForTraining RNum rand net x reset with Ok (o, _) => sum_of_squares desired o | _ => 0%R end.
(* [differentiable] of C67, on the values of the training pass *)
Fixpoint differentiable_training (rand : nat -> nat -> nat -> bool) (reset : bool) (i : nat) (ds : list (@LDesc RNum)) (s : list nat) (ls : list (@Layer RNum)) (v : list R) : Prop :=
  match ds, ls with
  | d :: dt, l :: lt => no_ties d s v /\
      forall o l1, @layer_outputForTraining RNum (rand i) l v reset = Ok (o, l1) ->
      (forall n u, @unit_at RNum l1 n = Some u -> smooth_unit u) /\ differentiable_training rand reset (S i) dt (getShapeOfOutput l) lt o
  | _, _ => True
  end.
