(* Vocabulary for C78: a training interrupted after some epochs and resumed. *)
From Verif Require Import Base Num NeuronModel LayerModel NetModel StatModel WaitModel DataModel TrainModel.

Section S.
Context {N : Num}.
(* The surroundings of a training that comes after [c] checks of another one: the random generators go on from where they were (the draws
   are those the other training would have made), the clock starts again, and the constant NAN may be another one *)
Definition goes_on (c : nat) (env env2 : Env) : Prop := forall k, e_rng env2 k = e_rng env (c + k) /\ e_rand env2 k = e_rand env (c + k).
(* the member epoch is not compared: it counts the epochs of the last training, and the next training resets it *)
Definition same_but_epoch (s s' : Snn) : Prop := s = with_epoch s' (sn_epoch s).
End S.
