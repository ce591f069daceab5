(* What it is for a file to hold the latest network saved. *)
From Coq Require Import String.
From Verif Require Import Base Num NeuronModel LayerModel NetModel StatModel TrainModel SaveModel SaveSpec.

Section S.
Context {N : Num}.
(* the last network saved to the file [path] among the [n] first events of a log *)
Definition latest (path : string) (log : list event) (n : nat) (s : Snn) : Prop :=
  exists k, k < n /\ nth_error log k = Some (Saved path s) /\ forall j t, k < j < n -> nth_error log j <> Some (Saved path t).
Definition never_saved (path : string) (log : list event) (n : nat) : Prop := forall j t, j < n -> nth_error log j <> Some (Saved path t).
(* two networks that differ at most in the size of the last training set (which every training sets again) *)
Definition but_the_size (a b : Snn) : Prop := exists k, a = with_ntrain b k.
End S.
