(* Vocabulary for statements about layers: what a neuron, a window and a tile are; the histories of a layer. *)
From Verif Require Import Base Num ActModel NeuronModel LayerModel FactoryModel FactorySpec.
Local Open Scope nat_scope.

Section S.
Context {N : Num}.
(* x1*w1 + x2*w2 + ... added in this order from zero *)
Definition weighted_sum (xs ws : list F) : F := fold_left (fun s p => fadd s (fmul (fst p) (snd p))) (combine xs ws) fzero.
(* a neuron with weights [w] (one per input and one for the bias) on inputs [xs] *)
Definition fires (a : activation) (bias : F) (w xs : list F) : F :=
  act a (fadd (weighted_sum xs w) (fmul (nth (List.length xs) w fzero) bias)).
(* arrays are flat, the channel varies fastest, then x, then y *)
Definition cell1 (C x c : nat) : nat := x * C + c.
Definition cell2 (C X x y c : nat) : nat := (y * X + x) * C + c.
(* the k cells (k x k cells) of all channels starting at a position *)
Definition window1 (C k : nat) (v : list F) (px : nat) : list F :=
  flat_map (fun dx => map (fun c => nth (cell1 C (px + dx) c) v fzero) (seq 0 C)) (seq 0 k).
Definition window2 (C X k : nat) (v : list F) (px py : nat) : list F :=
  flat_map (fun dy => flat_map (fun dx => map (fun c => nth (cell2 C X (px + dx) (py + dy) c) v fzero) (seq 0 C)) (seq 0 k)) (seq 0 k).
(* tile number p of a division of the array in tiles of k cells (k x k cells); cells outside the array count as zero *)
Definition tile1 (C X k : nat) (v : list F) (p : nat) : list F :=
  flat_map (fun dx => map (fun c => if p * k + dx <? X then nth (cell1 C (p * k + dx) c) v fzero else fzero) (seq 0 C)) (seq 0 k).
Definition tile2 (C X Y k : nat) (v : list F) (px py : nat) : list F :=
  flat_map (fun dy => flat_map (fun dx => map (fun c =>
    if (px * k + dx <? X) && (py * k + dy <? Y) then nth (cell2 C X (px * k + dx) (py * k + dy) c) v fzero else fzero) (seq 0 C)) (seq 0 k)) (seq 0 k).

(* the operations a network performs on a layer, with vectors of the announced sizes *)
Inductive works : Layer -> Layer -> Prop :=
| works_none l : works l l
| works_output l x reset o l1 l2 : List.length x = l_in l -> layer_output l x reset = Ok (o, l1) -> works l1 l2 -> works l l2
| works_training l rand x reset o l1 l2 : List.length x = l_in l -> layer_outputForTraining rand l x reset = Ok (o, l1) -> works l1 l2 -> works l l2
| works_back l opt e r l1 l2 : List.length e = cell_count (getShapeOfOutput l) -> layer_backOutput opt l e = Ok (r, l1) -> works l1 l2 -> works l l2
| works_train l opt e l1 l2 : getNumberOfNeurons l <= List.length e -> layer_train opt l e = Ok l1 -> works l1 l2 -> works l l2
| works_pool l opt e r l1 l2 : getNumberOfNeurons l = 0 -> List.length e <= cell_count (getShapeOfOutput l) -> layer_backOutput opt l e = Ok (r, l1) -> works l1 l2 -> works l l2.
(* a layer made from a description for an array of shape [s], in any later state *)
Definition layer_of (d : LDesc) (s : list nat) (l : Layer) : Prop :=
  exists draws masks l0, build_layer draws masks d (map Z.of_nat s) = Ok l0 /\ layer_isValid l0 = 0%Z /\ works l0 l.
(* the layers of a network in any later state *)
Fixpoint layers_of (ds : list LDesc) (s : list nat) (ls : list Layer) : Prop :=
  match ds, ls with
  | [], [] => True
  | d :: dt, l :: lt => layer_of d s l /\ layers_of dt (getShapeOfOutput l) lt
  | _, _ => False
  end.
End S.

(* ---------- pooling ---------- *)
Section Pool.
Context {N : Num}.
(* o is one of the values of v in the given cells and none of them is greater *)
Definition maximum_of (v : list F) (cell : nat -> Prop) (o : F) : Prop :=
  (exists i, cell i /\ nth i v fzero = o) /\ forall i, cell i -> fltb o (nth i v fzero) = false.
(* the cells of the array in tile p (tile (px, py) of channel c) *)
Definition in_tile1 (X k p i : nat) : Prop := i < X /\ exists dx, dx < k /\ i = p * k + dx.
Definition in_tile2 (C X Y k px py c i : nat) : Prop :=
  exists dx dy, dx < k /\ dy < k /\ px * k + dx < X /\ py * k + dy < Y /\ i = cell2 C X (px * k + dx) (py * k + dy) c.
End Pool.
