(* Vocabulary for C20 and C52: the step of a recurrent neuron and of a gated recurrent unit, and what a recurrent layer should remember. *)
From Verif Require Import Base Num ActModel NeuronModel LayerModel FactoryModel FactorySpec FilterSpec.
Local Open Scope nat_scope.

Section S.
Context {N : Num}.
(* f(w.x + previous * wr + bias * wb), where wr and wb are the last two weights *)
Definition recurrent_step (a : activation) (bias : F) (w x : list F) (previous : F) : F :=
  act a (fadd (fadd (weighted_sum x w) (fmul previous (nth (List.length x) w fzero))) (fmul bias (nth (S (List.length x)) w fzero))).
(* the three gates of a gated recurrent unit; its weights are those of the reset gate, the update gate and the output gate *)
Definition gate (i : nat) (w x : list F) : list F := firstn (List.length x + 2) (skipn (i * (List.length x + 2)) w).
Definition reset_gate (bias : F) (w x : list F) (previous : F) : F := recurrent_step a_sigmoid bias (gate 0 w x) x previous.
Definition update_gate (bias : F) (w x : list F) (previous : F) : F := recurrent_step a_sigmoid bias (gate 1 w x) x previous.
Definition candidate (bias : F) (w x : list F) (previous : F) : F :=
  recurrent_step a_tanh bias (gate 2 w x) x (fmul previous (reset_gate bias w x previous)).
(* update * candidate + (1 - update) * state *)
Definition gated_step (bias : F) (w x : list F) (previous state : F) : F :=
  let u := update_gate bias w x previous in
  fadd (fmul (fsub fone u) state) (fmul u (candidate bias w x previous)).
(* [remembers l0 prev l]: layer l0, after some outputs and training steps, is now l and its last outputs were prev (zeros at first) *)
Inductive remembers (l0 : Layer) : list F -> Layer -> Prop :=
| rem_new : remembers l0 (repeat fzero (getNumberOfNeurons l0)) l0
| rem_output prev l x reset o l' : remembers l0 prev l -> List.length x = l_in l -> layer_output l x reset = Ok (o, l') -> remembers l0 o l'
| rem_training prev l rand x reset o l' : remembers l0 prev l -> List.length x = l_in l -> layer_outputForTraining rand l x reset = Ok (o, l') -> remembers l0 o l'
| rem_back prev l opt e r l' : remembers l0 prev l -> List.length e = cell_count (getShapeOfOutput l) -> layer_backOutput opt l e = Ok (r, l') -> remembers l0 prev l'
| rem_train prev l opt e l' : remembers l0 prev l -> getNumberOfNeurons l <= List.length e -> layer_train opt l e = Ok l' -> remembers l0 prev l'.
(* a layer just built from a description for an array of shape [s], and accepted *)
Definition fresh_layer (d : LDesc) (s : list nat) (l0 : Layer) : Prop :=
  exists draws masks, build_layer draws masks d (map Z.of_nat s) = Ok l0 /\ layer_isValid l0 = 0%Z.
End S.
