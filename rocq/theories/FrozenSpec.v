(* Vocabulary for C85: what is left of the weights of a neuron whose errors are multiplied by 0. *)
From Coq Require Import List.
From Verif Require Import Base Num.
Import ListNotations.
Section S.
Context {N : Num}.
(* all the weights as they were, or all but the last one (the weight of the bias), which is 0 *)
Definition unlearned (w w' : list F) : Prop := w' = w \/ w' = removelast w ++ [fofZ 0].
End S.
