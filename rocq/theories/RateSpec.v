(* Vocabulary for C84: an error multiplier on the last layer and the learning rate. *)
From Verif Require Import Base Num FactoryModel NeutralSpec.
Section S.
Context {N : Num}.
(* the description of a layer with the factors of its L1Regularization and L2Regularization multiplied by [c] *)
Definition regularized (c : F) (d : LDesc) : LDesc :=
  mkDesc (d_type d) (d_neurons d) (d_filters d) (d_ksize d) (d_shape d) (d_act d) (d_bias d)
    (map (fun o => match o with d_l1 v => d_l1 (fmul c v) | d_l2 v => d_l2 (fmul c v) | _ => o end) (d_opts d)).
Definition no_regularization (d : LDesc) : Prop := forall o, In o (d_opts d) -> match o with d_l1 _ | d_l2 _ => False | _ => True end.
(* the description of a layer with one more option, the last of its list *)
Definition with_last_option (o : odesc) (d : LDesc) : LDesc :=
  mkDesc (d_type d) (d_neurons d) (d_filters d) (d_ksize d) (d_shape d) (d_act d) (d_bias d) (d_opts d ++ [o]).
(* one option put after the [k] options of the layer number [l] *)
Definition one_more (l k : nat) : nat -> nat * nat := fun i => if Nat.eqb i l then (k, 1) else (0, 0).
End S.
