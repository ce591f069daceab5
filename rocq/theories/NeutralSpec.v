(* Vocabulary for C83: options of layers that have no effect, put into the layers of a network. *)
From Verif Require Import Base Num ActModel NeuronModel LayerModel NetModel FactoryModel LookSpec.

Section S.
Context {N : Num}.
(* ErrorMultiplier(1); Dropout(p) with 1 - p = 1 (its draws are never below 0: with p = 0 no output is ever dropped) *)
Definition one_option (o : odesc) : Prop := match o with d_mult f => f = fone | d_dropout p => fsub fone p = fone | _ => False end.
(* L1Regularization(0), L2Regularization(0) *)
Definition zero_option (o : odesc) : Prop := match o with d_l1 v | d_l2 v => v = fzero | _ => False end.
(* the description of a layer with options put into its list at a place; of all the layers after the input *)
Definition addition := nat -> nat * list odesc.
Definition with_options (m : nat * list odesc) (d : LDesc) : LDesc :=
  mkDesc (d_type d) (d_neurons d) (d_filters d) (d_ksize d) (d_shape d) (d_act d) (d_bias d) (firstn (fst m) (d_opts d) ++ snd m ++ skipn (fst m) (d_opts d)).
Fixpoint with_more (ms : addition) (i : nat) (ds : list LDesc) : list LDesc := match ds with [] => [] | d :: t => with_options (ms i) d :: with_more ms (S i) t end.
Definition places (ms : addition) (ds : list LDesc) : Prop := forall i d, nth_error ds i = Some d -> fst (ms i) <= List.length (d_opts d).
Definition counts (ms : addition) : nat -> nat * nat := fun i => (fst (ms i), List.length (snd (ms i))).
(* the draws of the options that were there are the same, those of the options added drop nothing: for each layer, the place of the options
   added and how many *)
Definition same_draws (pl : nat -> nat * nat) (r r' : nat -> nat -> nat -> bool) : Prop := forall l o i,
  (o < fst (pl l) -> r' l o i = r l o i) /\ (fst (pl l) <= o -> r' l (o + snd (pl l)) i = r l o i) /\
  (fst (pl l) <= o < fst (pl l) + snd (pl l) -> r' l o i = true).
Definition same_call (pl : nat -> nat * nat) (c c' : call) : Prop :=
  match c, c' with
  | Training r x d t, Training r' x' d' t' => x' = x /\ d' = d /\ t' = t /\ same_draws pl r r'
  | Prediction x t, Prediction x' t' => x' = x /\ t' = t
  | Inspection x, Inspection x' => x' = x
  | _, _ => False
  end.
(* the one fails as the other does, or both answer the same and end with the same weights and count of trainings *)
Definition same_end (p p' : outcome (list answer * Net)) : Prop :=
  match p, p' with
  | Ok (a, n), Ok (a', n') => a' = a /\ net_weights n' = net_weights n /\ nn_trainings n' = nn_trainings n /\ nn_nan n' = nn_nan n
  | Throw m, Throw m' => m' = m
  | UB, UB => True
  | _, _ => False
  end.
(* both constructions fail in the same way, or the two networks then have the same life, whatever is asked of them *)
Definition same_lives (p p' : outcome Net) (pl : nat -> nat * nat) : Prop :=
  match p, p' with
  | Ok n, Ok n' => forall cs cs', Forall2 (same_call pl) cs cs' -> same_end (perform_all n cs) (perform_all n' cs')
  | Throw a, Throw b => b = a | UB, UB => True | _, _ => False
  end.
End S.
