(* Concrete layers over binary32, used to show that the hypotheses of the layer theorems are met. *)
From Coq Require Import SpecFloat.
From Verif Require Import Base Num Witness ActModel NeuronModel LayerModel FactoryModel FactorySpec FilterSpec.
Local Open Scope nat_scope.

Definition some_draws : nat -> nat -> nat -> @F N32 := fun _ _ w => if Nat.even w then b32 1 else b32 (-1).
(* the description builds on this shape, is valid, and gives outputs for the vector v *)
Definition accepted (d : @LDesc N32) (s : list nat) (v : list (@F N32)) : bool :=
  run_check (@build_layer N32 some_draws (fun _ _ => true) d (map Z.of_nat s)) (fun l =>
    Z.eqb (layer_isValid l) 0 && run_check (layer_output l v false) (fun _ => true)).
Lemma accepted_layer d s v : accepted d s v = true -> List.length v = cell_count s ->
  exists l o l1, @build_layer N32 some_draws (fun _ _ => true) d (map Z.of_nat s) = Ok l /\ layer_isValid l = 0%Z /\ @layer_output N32 l v false = Ok (o, l1).
Proof.
  unfold accepted. intros H Hv. apply run_check_ex in H as (l & E & H). apply andb_prop in H as [H1 H]. apply run_check_ex in H as ([o l1] & E2 & _).
  apply Z.eqb_eq in H1. exists l, o, l1. auto.
Qed.
(* a layer that has already worked once *)
Lemma accepted_layer_of d s v : accepted d s v = true -> (forall l, @build_layer N32 some_draws (fun _ _ => true) d (map Z.of_nat s) = Ok l -> List.length v = l_in l) ->
  List.length v = cell_count s -> exists l, @layer_of N32 d s l.
Proof.
  intros H Hl Hv. apply accepted_layer in H as (l & o & l1 & E & V & E1); [|exact Hv]. exists l1. exists some_draws, (fun _ _ => true), l. split; [exact E|]. split; [exact V|].
  eapply works_output; [apply Hl; exact E|exact E1|apply works_none].
Qed.
Lemma accepted_input d s v : accepted d s v = true -> run_check (@build_layer N32 some_draws (fun _ _ => true) d (map Z.of_nat s)) (fun l => Nat.eqb (List.length v) (l_in l)) = true ->
  List.length v = cell_count s -> exists l, @layer_of N32 d s l.
Proof.
  intros H H2 Hv. eapply accepted_layer_of; [exact H| |exact Hv]. intros l E. rewrite E in H2. cbn in H2. now apply Nat.eqb_eq in H2.
Qed.
Ltac layer_example d s v := apply (accepted_input d s v); vm_compute; reflexivity.
Definition vec (n : nat) : list (@F N32) := map (fun i => b32 (Z.of_nat i - 2)) (seq 0 n).
Definition conv_example := @Convolution N32 2 2 a_ReLU [].
Definition local_example := @LocallyConnected N32 2 2 a_ReLU [].
Example conv1D_example : exists l, @layer_of N32 conv_example [2; 4] l. Proof. layer_example conv_example [2; 4] (vec 8). Qed.
Example conv1D_flat_example : exists l, @layer_of N32 conv_example [4] l. Proof. layer_example conv_example [4] (vec 4). Qed.
Example conv2D_example : exists l, @layer_of N32 conv_example [2; 3; 4] l. Proof. layer_example conv_example [2; 3; 4] (vec 24). Qed.
Example local1D_example : exists l, @layer_of N32 local_example [2; 5] l. Proof. layer_example local_example [2; 5] (vec 10). Qed.
Example local2D_example : exists l, @layer_of N32 local_example [2; 3; 4] l. Proof. layer_example local_example [2; 3; 4] (vec 24). Qed.
Example local2D_rectangular_example : exists l, @layer_of N32 local_example [1; 4; 2] l. Proof. layer_example local_example [1; 4; 2] (vec 8). Qed.
Example pool1D_example : exists l, @layer_of N32 (@MaxPooling N32 2) [5] l. Proof. layer_example (@MaxPooling N32 2) [5] (vec 5). Qed.
Example pool2D_example : exists l, @layer_of N32 (@MaxPooling N32 2) [2; 3; 4] l. Proof. layer_example (@MaxPooling N32 2) [2; 3; 4] (vec 24). Qed.
