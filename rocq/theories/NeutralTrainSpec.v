(* Vocabulary for C83: trainings of networks with options without effect. *)
From Verif Require Import Base Num FactoryModel TrainModel SaveSpec NeutralSpec.

Section S.
Context {N : Num}.
(* the same prediction; the same training: same clock, same requests to stop, same shuffles of the data, same draws of the options that
   were there *)
Definition same_action (pl : nat -> nat * nat) (a a' : action) : Prop :=
  match a, a' with
  | Predict x t, Predict x' t' => x' = x /\ t' = t
  | Train fuel env w b f d, Train fuel' env' w' b' f' d' => fuel' = fuel /\ w' = w /\ b' = b /\ f' = f /\ d' = d /\
      e_clock env' = e_clock env /\ e_stop env' = e_stop env /\ e_rng env' = e_rng env /\ e_nan env' = e_nan env /\ forall k, same_draws pl (e_rand env k) (e_rand env' k)
  | _, _ => False
  end.
(* both constructions fail in the same way, or whatever is done with the two networks shows the same: predictions, weights, statistics *)
Definition same_users (p p' : outcome Snn) (pl : nat -> nat * nat) : Prop :=
  match p, p' with
  | Ok s, Ok s' => forall acts acts', Forall2 (same_action pl) acts acts' -> lives s acts = lives s' acts'
  | Throw a, Throw b => b = a | UB, UB => True | _, _ => False
  end.
End S.
