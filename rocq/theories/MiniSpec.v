(* Vocabulary for C77: mini-batch gradient descent. *)
From Coq Require Import Reals.
From Verif Require Import Base Num ActModel NeuronModel LayerModel NetModel NetSpec StatReal.
Local Open Scope R_scope.

(* the mean over the samples (inputs, desired outputs) of a batch of the squared errors of a network *)
Definition batch_error (net : @Net RNum) (samples : list (list R * list R)) : R :=
  Rsum (map (fun s => squared_error net (fst s) (snd s)) samples) / INR (List.length samples).
(* the outputs of a network *)
Definition prediction (net : @Net RNum) (x : list R) : list R := match @net_output RNum net x false with Ok (o, _) => o | _ => [] end.
(* mean and covariance of two quantities measured on the samples of a batch *)
Definition average {A} (f : A -> R) (l : list A) : R := Rsum (map f l) / INR (List.length l).
Definition covariance {A} (f g : A -> R) (l : list A) : R := average (fun s => (f s - average f l) * (g s - average g l)) l.
