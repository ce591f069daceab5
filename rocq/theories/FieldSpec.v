(* Vocabulary: what a stack of convolutions and max poolings sees. *)
From Verif Require Import Base Num ActModel NeuronModel LayerModel FactoryModel FactorySpec FilterSpec.
Local Open Scope nat_scope.

Section S.
Context {N : Num}.
(* no softmax, which mixes the outputs of a layer *)
Definition separate (d : LDesc) : Prop := ~ In d_softmax (d_opts d).
(* [stack2 ds C X Y f oX oY r t]: on C channels of X x Y cells the layers [ds], all convolutions or max poolings (with as many tiles
   in both directions), end with f values at each of oX x oY positions; the values at a position are computed from a square of r x r
   cells, its receptive field, and moving by one position moves that square by t cells. *)
Inductive stack2 : list LDesc -> nat -> nat -> nat -> nat -> nat -> nat -> nat -> nat -> Prop :=
| stack2_none C X Y : stack2 [] C X Y C X Y 1 1
| stack2_conv d ds C X Y f k f' oX oY r t : d_type d = t_conv -> d_filters d = Z.of_nat f -> d_ksize d = Z.of_nat k -> separate d ->
    stack2 ds f (X - k + 1) (Y - k + 1) f' oX oY r t -> stack2 (d :: ds) C X Y f' oX oY (r + (k - 1)) t
| stack2_pool d ds C X Y k f' oX oY r t : d_type d = t_pool -> d_ksize d = Z.of_nat k -> separate d -> covering X k = covering Y k ->
    stack2 ds C (covering X k) (covering Y k) f' oX oY r t -> stack2 (d :: ds) C X Y f' oX oY (k * r) (k * t).
(* the same in one dimension; max pooling with one channel *)
Inductive stack1 : list LDesc -> nat -> nat -> nat -> nat -> nat -> nat -> Prop :=
| stack1_none C X : stack1 [] C X C X 1 1
| stack1_conv d ds C X f k f' oX r t : d_type d = t_conv -> d_filters d = Z.of_nat f -> d_ksize d = Z.of_nat k -> separate d ->
    stack1 ds f (X - k + 1) f' oX r t -> stack1 (d :: ds) C X f' oX (r + (k - 1)) t
| stack1_pool d ds X k f' oX r t : d_type d = t_pool -> d_ksize d = Z.of_nat k -> separate d ->
    stack1 ds 1 (covering X k) f' oX r t -> stack1 (d :: ds) 1 X f' oX (k * r) (k * t).
(* the r (r x r) cells of all channels of v from position p on hold what those of v' from position q on hold *)
Definition same_patch1 (C r : nat) (v : list F) (p : nat) (v' : list F) (q : nat) : Prop :=
  forall dx c, dx < r -> c < C -> nth (cell1 C (p + dx) c) v fzero = nth (cell1 C (q + dx) c) v' fzero.
Definition same_patch2 (C X r : nat) (v : list F) (px py : nat) (v' : list F) (qx qy : nat) : Prop :=
  forall dx dy c, dx < r -> dy < r -> c < C -> nth (cell2 C X (px + dx) (py + dy) c) v fzero = nth (cell2 C X (qx + dx) (qy + dy) c) v' fzero.
End S.
