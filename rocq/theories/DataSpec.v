(* Independent vocabulary for the Data properties. *)
From Coq Require Import Permutation.
From Verif Require Import Base Num DataModel.
Local Open Scope nat_scope.

(* A random generator used by std::ranges::shuffle: for a vector of n elements it yields some
   rearrangement of the n positions.  Nothing else is assumed about it. *)
Definition fair_rng (rng : nat -> list nat) : Prop := forall n, Permutation (rng n) (seq 0 n).
Definition fair_op (o : order_op) : Prop :=
  match o with OpShuffle rng => fair_rng rng | OpUnshuffle => True end.

Section S.
Context {N : Num}.

(* What a user sees at training position i: the input row and the label row. *)
Definition exposes (d : Data) (i : nat) (x y : list F) : Prop :=
  (exists d1, getTrainingData d i 1 = Ok (x, d1)) /\ (exists d2, getTrainingOutputs d i 1 = Ok (y, d2)).

(* The component-wise mean of rows, summed from the first to the last, divided by their number. *)
Definition mean_of (rows : list (list F)) (m : list F) : Prop :=
  match rows with
  | [] => False
  | r0 :: rest =>
      List.length m = List.length r0 /\
      forall k, k < List.length r0 ->
        nth_error m k = Some (fdiv (fold_left fadd (map (fun r => nth k r fzero) rest) (nth k r0 fzero))
                                   (fofnat (List.length rows)))
  end.

(* position of element k of sequence s once all sequences are laid end to end *)
Definition position_of {A} (seqs : list (list A)) (s k : nat) : nat :=
  List.length (concat (firstn s seqs)) + k.

(* classification labels have at least two classes in the first row (the only row the code checks) *)
Definition label_ok (p : problem) (trLab : list (list F)) : Prop :=
  p = classification -> forall l, nth_error trLab 0 = Some l -> 2 <= List.length l.

(* all rows have w values *)
Definition rect (w : nat) (rows : list (list F)) : Prop := Forall (fun r => List.length r = w) rows.
(* value at row i, column j *)
Definition cell (rows : list (list F)) (i j : nat) : F := nth j (nth i rows []) fzero.
End S.

Definition constant_column (rows : list (list (@F RNum))) (j : nat) : Prop :=
  forall i i', i < List.length rows -> i' < List.length rows -> @cell RNum rows i j = @cell RNum rows i' j.
