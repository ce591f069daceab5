(* C70: networks for which isValid() returns 0. *)
From Coq Require Import Reals Lra Lia Floats.SpecFloat.
From Flocq Require Import Core.Core IEEE754.BinarySingleNaN.
From Verif Require Import Base Num NumOrder ActModel NeuronModel LayerModel NetModel FactoryModel BuildProofs Float32 F1Spec F1Float SoftSpec SoftProps ActFloatProps FiniteSpec FiniteProofs FiniteLayers FiniteNet Witness FiniteProps.
Local Open Scope R_scope.
Local Open Scope outcome_scope.
#[local] Existing Instance Float32.Hprec32. #[local] Existing Instance Float32.Hmax32.

Section V.
Variables expf tanhf : f32 -> f32.
Notation N := (Num32 expf tanhf).
Hypothesis HM : good_math expf tanhf.
(* a layer without memory: dense, convolution, locally connected, or pooling; no weight is NaN, the biases are up to 1 (the library never changes a bias) *)
Definition plain_layer (l : @Layer N) : Prop :=
  match @l_body N l with
  | BFull ns => Forall (fun n => Forall number (@n_w N n) /\ within 1 (@n_bias N n)) ns
  | BFilter (Pool1D | Pool2D) _ ns => ns = []
  | BFilter _ _ ns => Forall (fun n => Forall number (@n_w N n) /\ within 1 (@n_bias N n)) ns
  | _ => False
  end.
Lemma weight_range (x : f32) : number x -> (@fltb N x (@fofZ N (-100000)) || @fgtb N x (@fofZ N 10000))%bool = false -> within (two_to 17) x.
Proof.
  intros (b & <- & Hn) H. apply Bool.orb_false_iff in H as (H1 & H2). destruct b as [s|s| |s m e Hb]; try discriminate Hn.
  - exists 0. split; [|rewrite Rabs_R0; apply bpow_ge_0]. exists (B754_zero s). repeat split.
  - destruct s; [vm_compute in H1; discriminate H1|vm_compute in H2; discriminate H2].
  - set (b := B754_finite s m e Hb) in *. assert (Fb : fin32 (B2SF b) (B2R b)) by (exists b; repeat split).
    assert (F1 : fin32 (@fofZ N (-100000)) (-100000)) by (apply (fin32_fofZ expf tanhf (-100000)); lia). assert (F2 : fin32 (@fofZ N 10000) 10000) by (apply (fin32_fofZ expf tanhf 10000); lia).
    assert (E1 := fin32_lt expf tanhf _ _ _ _ Fb F1). assert (E2 := fin32_lt expf tanhf _ _ _ _ F2 Fb). unfold fgtb in H2.
    assert (L1 : Rlt_bool (B2R b) (-100000) = false) by (exact (eq_trans (eq_sym E1) H1)). assert (L2 : Rlt_bool 10000 (B2R b) = false) by (exact (eq_trans (eq_sym E2) H2)).
    exists (B2R b). split; [exact Fb|]. destruct (Rlt_bool_spec (B2R b) (-100000)) as [|G1]; [discriminate|]. destruct (Rlt_bool_spec 10000 (B2R b)) as [|G2]; [discriminate|].
    change (two_to 17) with (IZR 131072). apply Rabs_le. lra.
Qed.
Lemma valid_quiet (n : @Neuron N) : @neuron_isValid N n = 0%Z -> Forall number (@n_w N n) -> within 1 (@n_bias N n) -> quiet_neuron expf tanhf 17 20 n.
Proof.
  intros HV Hw Hb. split; [|split; [now apply valid_length|exact Hb]]. unfold neuron_isValid in HV. destruct (_ || _)%bool in HV; [discriminate|]. destruct (_ || _)%bool in HV; [discriminate|].
  match type of HV with (if ?c then _ else _) = _ => destruct c eqn:E; [discriminate|] end. clear HV. change (@F N) with f32 in *. induction Hw as [|x l Hx _ IH]; constructor.
  - cbn [existsb] in E. apply Bool.orb_false_iff in E as (E & _). now apply weight_range.
  - apply IH. cbn [existsb] in E. now apply Bool.orb_false_iff in E as (_ & E).
Qed.
Lemma layer_quiet (l : @Layer N) : @layer_isValid N l = 0%Z -> plain_layer l -> quiet_body expf tanhf 17 20 (@l_body N l).
Proof.
  assert (G : forall ns : list (@Neuron N), neurons_isValid (map (@neuron_isValid N) ns) = 0%Z -> Forall (fun n => Forall number (@n_w N n) /\ within 1 (@n_bias N n)) ns -> Forall (quiet_neuron expf tanhf 17 20) ns).
  { intros ns H1 H2. apply valid_each in H1. rewrite Forall_forall in *. intros n Hn. destruct (H2 n Hn). apply valid_quiet; auto. }
  unfold layer_isValid, plain_layer. destruct (@l_body N l) as [ns|ns|ns|kd f ns]; intros H P; try contradiction.
  - destruct (existsb _ _) in H; [discriminate|]. now apply G.
  - destruct kd; try (subst ns; constructor); (destruct (existsb _ _) in H; [discriminate|]; destruct (negb _) in H; [discriminate|]); now apply G.
Qed.
Notation ok_opts l := (Forall (quiet_opt expf tanhf) (@l_opts N l) /\ few_classes expf tanhf l).
Lemma net_quiet (net : @Net N) : @net_isValid N net = Ok 0%Z -> Forall plain_layer (@nn_layers N net) -> Forall (fun l => ok_opts l) (@nn_layers N net) -> Forall (quiet_layer expf tanhf 17 20) (@nn_layers N net).
Proof.
  intros H HP HO. unfold net_isValid in H. apply bind_Ok_inv in H as (l0 & _ & H). destruct (_ || _)%bool in H; [discriminate|]. destruct (_ || _)%bool in H; [discriminate|]. destruct (Z.eqb_spec (@sgd_isValid N (@nn_opt N net)) 0) as [E0|E0]; cbn [negb] in H; [|apply Ok_inj in H; congruence].
  apply Ok_inj in H. apply firstError_zero in H. apply Forall_map in H. rewrite Forall_forall in *. intros l Hl. destruct (HO l Hl) as (O1 & O2). split; [apply layer_quiet; auto|]. split; [exact O1|exact O2].
Qed.
(* isValid() returned 0, no weight is NaN and the network has no recurrent layer: it does not matter how it was built, trained or loaded. The outputs are finite whatever it is then asked, as
   long as no sum can pass 2^125 (tame): a layer whose activation function is not bounded costs a factor 2^37, at most 1000000 weights of at most 100000. *)
Theorem C70_valid_network_finite (inputs : nat) (e : Z) (net net' : @Net N) : @net_isValid N net = Ok 0%Z -> Forall plain_layer (@nn_layers N net) -> Forall (fun l => ok_opts l) (@nn_layers N net) ->
  (0 <= e)%Z -> tame expf tanhf 17 20 e (@nn_layers N net) -> watched expf tanhf inputs e net net' ->
  forall x reset o net'', Forall (within (two_to e)) x -> @net_output N net' x reset = Ok (o, net'') -> Forall (within (two_to (reach expf tanhf 17 20 e (@nn_layers N net)))) o.
Proof.
  intros HV HP HO He Ht HW. apply (C70_predictions_finite expf tanhf HM 17 20 ltac:(lia) ltac:(lia) inputs e net net' He); auto. now apply net_quiet.
Qed.
(* every neuron has sigmoid, tanh or gaussian: any depth, inputs up to 2^88, and the outputs are no larger than the inputs or 1 *)
Definition bounded_layer (l : @Layer N) : Prop := match @l_body N l with BFull ns | BFilter _ _ ns => Forall (fun n => bounded_act (@n_act N n) = true) ns | _ => False end.
Lemma bounded_tame : forall ls e, (0 <= e <= 88)%Z -> Forall bounded_layer ls -> tame expf tanhf 17 20 e ls /\ (reach expf tanhf 17 20 e ls <= e)%Z.
Proof.
  induction ls as [|l ls IH]; intros e He H; [split; [exact I|cbn; lia]|]. cbn [tame reach]. assert (B := Forall_inv H). assert (Hn : (0 <= next expf tanhf 17 20 e l <= e)%Z).
  { unfold bounded_layer in B. unfold next. destruct (@l_body N l) as [ns|ns|ns|[] f ns]; try contradiction; try lia; (assert (forallb (fun n => bounded_act (@n_act N n)) ns = true) as -> by (apply forallb_forall; rewrite Forall_forall in B; exact B)); lia. }
  destruct (IH _ (conj (proj1 Hn) (Z.le_trans _ _ _ (proj2 Hn) (proj2 He))) (Forall_inv_tail H)) as (T & R1). split; [split; [lia|exact T]|lia].
Qed.
Theorem C70_valid_bounded_finite (inputs : nat) (e : Z) (net net' : @Net N) : @net_isValid N net = Ok 0%Z -> Forall plain_layer (@nn_layers N net) -> Forall bounded_layer (@nn_layers N net) -> Forall (fun l => ok_opts l) (@nn_layers N net) ->
  (0 <= e <= 88)%Z -> watched expf tanhf inputs e net net' ->
  forall x reset o net'', Forall (within (two_to e)) x -> @net_output N net' x reset = Ok (o, net'') -> Forall (within (two_to e)) o.
Proof.
  intros HV HP HB HO He HW x reset o net'' Hx E. destruct (bounded_tame _ _ He HB) as (T & R1). assert (G := C70_valid_network_finite inputs e net net' HV HP HO ltac:(lia) T HW x reset o net'' Hx E).
  eapply Forall_impl; [|exact G]. intros y Hy. eapply within_le; [exact Hy|]. apply bpow_le. exact R1.
Qed.
End V.
Print Assumptions C70_valid_network_finite.
Print Assumptions C70_valid_bounded_finite.

(* a network with the largest weights isValid() accepts, a dropout and a softmax *)
Definition big_neuron (a : activation) : @Neuron NC := @mkNeuron NC 2 1 [f32_of_Z 10000; f32_of_Z (-100000); f32_of_Z 3] (f32_of_Z 1) (circ_init 1 3) (circ_init 1 2) (repeat (f32_of_Z 0) 2) (f32_of_Z 0) a.
Definition big_net : @Net NC := @mkNet NC [@mkLayer NC 2 (BFull [big_neuron a_tanh; big_neuron a_sigmoid]) [@ODropout NC (f32_of_Z 0) (f32_of_Z 1) [true; true]]; @mkLayer NC 2 (BFull [big_neuron a_identity; big_neuron a_ReLU]) [@OSoftmax NC]] (@mkSGD NC (@flit NC 1 100) (@fzero NC)) false 5.
Example C70_valid_hypotheses_met : @net_isValid NC big_net = Ok 0%Z /\ Forall (plain_layer coarse flat) (@nn_layers NC big_net) /\ Forall (fun l => Forall (quiet_opt coarse flat) (@l_opts NC l) /\ few_classes coarse flat l) (@nn_layers NC big_net) /\
  tame coarse flat 17 20 50 (@nn_layers NC big_net) /\ exists o net', @net_output NC big_net [f32_of_Z 7; f32_of_Z (-7)] true = Ok (o, net').
Proof.
  assert (W1 : within 1 (f32_of_Z 1)) by (exists 1; split; [apply (fin32_of_Z 1); lia|rewrite Rabs_R1; lra]).
  assert (Fn : forall z, (Z.abs z <= 2 ^ 24)%Z -> number (f32_of_Z z)). { intros z Hz. destruct (fin32_of_Z z Hz) as (b & E & Fb & _). exists b. split; [exact E|]. now destruct b. }
  assert (HN : forall a, Forall number (@n_w NC (big_neuron a)) /\ within 1 (@n_bias NC (big_neuron a))). { intros a. split; [|exact W1]. constructor; [apply Fn; lia|]. constructor; [apply Fn; lia|]. constructor; [apply Fn; lia|constructor]. }
  split; [vm_compute; reflexivity|]. split. { constructor; [|constructor; [|constructor]]; (constructor; [apply HN|constructor; [apply HN|constructor]]). }
  split. { constructor; [|constructor; [|constructor]]; split. - constructor; [exact W1|constructor]. - intros [H|[]]; discriminate H. - constructor; [exact I|constructor]. - intros _. cbn. lia. }
  split; [cbn; lia|]. assert (H : run_check (@net_output NC big_net [f32_of_Z 7; f32_of_Z (-7)] true) (fun _ => true) = true) by (vm_compute; reflexivity). apply run_check_ex in H as ([o net'] & E & _). exists o, net'. exact E.
Qed.
