(* C71: how far a prediction computed with floats is from the prediction computed with real numbers. *)
From Coq Require Import Reals Lra Lia Floats.SpecFloat.
From Flocq Require Import Core.Core IEEE754.BinarySingleNaN.
From Verif Require Import Base Num NumOrder ActModel ActProofs NeuronModel LayerModel NetModel FactoryModel Float32 StatReal F1Spec F1Float SoftProps FiniteSpec FiniteProofs FiniteLayers Witness FiniteProps MixProps ScaleProps AccSpec AccProofs AccLayers AccNet.
Local Open Scope R_scope.
Local Open Scope outcome_scope.

Lemma SF2R_value x v : fin32 x v -> SF2R radix2 x = v.
Proof. intros (b & <- & _ & <-). apply SF2R_B2SF. Qed.
(* [net] computes in binary32 and [exact] with real numbers; both have the same layers, weights, biases and dropout factors (twin_layer: dense, convolution, locally connected and pooling layers;
   sigmoid, tanh, ReLU and identity; no softmax). tanhf is within delta of tanh. The inputs are finite, up to B >= 1, and at most d away from the exact ones. bounds gives for each layer the
   number of weights of a neuron and the sum of their absolute values (bounded_net). Then every output is a finite number at most final_error away from the exact output; final_error follows
   the layers: it is multiplied by the sum A of the absolute weights, plus 3 n (A B 2^-24 + 2^-150) for the sums, delta + 3 * 2^-24 for the activation function and one rounding per dropout. *)
Theorem C71_prediction_accuracy (expf tanhf : f32 -> f32) delta : accurate delta tanhf ->
  forall (net net' : @Net (Num32 expf tanhf)) (exact exact' : @Net RNum) bounds B d reset x X o O, 1 <= B -> 0 <= d ->
  Forall2 (twin_layer expf tanhf) (@nn_layers (Num32 expf tanhf) net) (@nn_layers RNum exact) -> bounded_net bounds (@nn_layers RNum exact) B ->
  Forall2 (near d) x X -> Forall (within B) x ->
  @net_output (Num32 expf tanhf) net x reset = Ok (o, net') -> @net_output RNum exact X reset = Ok (O, exact') ->
  Forall2 (near (final_error delta bounds (@nn_layers RNum exact) B d)) o O.
Proof.
  intros HA net net' exact exact' bounds B d reset x X o O HB Hd Ht Hb Hx Hw H1 H2. unfold net_output in H1, H2.
  assert (Hc : Forall2 (close B d) x X). { clear -Hx Hw. induction Hx as [|y Y x X (v & V1 & V2) _ IH]; constructor; [|exact (IH (Forall_inv_tail Hw))]. destruct (Forall_inv Hw) as (u & U1 & U2). assert (u = v) as -> by (rewrite <- (SF2R_value _ _ U1); exact (SF2R_value _ _ V1)). exists v. auto. }
  destruct (@nn_layers (Num32 expf tanhf) net) as [|l ls] eqn:E1; [discriminate|]. destruct (@nn_layers RNum exact) as [|m ms] eqn:E2; [discriminate|].
  apply bind_Ok_inv in H1 as ([o1 l1] & F1 & H1). apply bind_Ok_inv in H2 as ([O1 m1] & F2 & H2). apply pair_inj in H1 as (-> & _). apply pair_inj in H2 as (-> & _).
  exact (chain_close expf tanhf delta HA reset bounds _ _ B d _ _ _ _ _ _ _ HB Hd Ht Hb Hc F1 F2).
Qed.
Print Assumptions C71_prediction_accuracy.

(* Layers of sigmoid and tanh neurons without dropout, at most n weights each whose absolute values add up to at most A, inputs between -1 and 1 and exact: with L layers the outputs are off by
   at most c (1 + A + ... + A^(L-1)), c = 3 n (A 2^-24 + 2^-150) + delta + 3 * 2^-24. *)
Definition geometric (A : R) (L : nat) : R := Rsum (map (fun i => A ^ i) (seq 0 L)).
Lemma geometric_S A L : geometric A (S L) = 1 + A * geometric A L.
Proof.
  unfold geometric. cbn [seq map]. change (Rsum (A ^ 0 :: map (fun i => A ^ i) (seq 1 L))) with (A ^ 0 + Rsum (map (fun i => A ^ i) (seq 1 L))). cbn [pow]. f_equal. rewrite <- seq_shift, map_map. induction (seq 0 L) as [|k l IH]; [cbn; ring|].
  change (A ^ S k + Rsum (map (fun i => A ^ S i) l) = A * (A ^ k + Rsum (map (fun i => A ^ i) l))). rewrite IH. cbn [pow]. ring.
Qed.
Lemma geometric_last A L : geometric A (S L) = geometric A L + A ^ L.
Proof. induction L as [|L IH]; [unfold geometric; cbn; ring|]. rewrite (geometric_S A (S L)). rewrite IH at 1. rewrite (geometric_S A L). cbn [pow]. ring. Qed.
Definition step_error (delta : R) (n : nat) (A : R) : R := sum_error n A + (delta + 3 * u24).
Lemma flat_final delta n A : forall ms d, Forall (fun m => flat_layer m = true /\ dropouts m = 0%nat) ms -> final_error delta (repeat (n, A) (List.length ms)) ms 1 d = A ^ List.length ms * d + step_error delta n A * geometric A (List.length ms).
Proof.
  induction ms as [|m ms IH]; intros d H; cbn [List.length repeat final_error]; [unfold geometric; cbn; ring|]. destruct (Forall_inv H) as (Hf & Hd). assert (Hs : next_size n A 1 m = 1) by (unfold next_size; now rewrite Hf).
  assert (He : next_error delta n A 1 d m = A * d + step_error delta n A). { unfold next_error. rewrite Hs, Hd. assert (pooling m = false) as ->. { unfold flat_layer in Hf. destruct (pooling m); [discriminate|reflexivity]. } rewrite Rmult_1_r. unfold step_error. change (INR 0) with 0. ring. }
  rewrite Hs, He, (IH _ (Forall_inv_tail H)), geometric_last. cbn [pow]. ring.
Qed.
Theorem C71_flat_networks (expf tanhf : f32 -> f32) delta : accurate delta tanhf ->
  forall (net net' : @Net (Num32 expf tanhf)) (exact exact' : @Net RNum) n A reset x X o O, (Z.of_nat n <= 2 ^ 22)%Z -> 0 <= A <= bpow radix2 120 ->
  Forall2 (twin_layer expf tanhf) (@nn_layers (Num32 expf tanhf) net) (@nn_layers RNum exact) -> Forall (fun m => flat_layer m = true /\ dropouts m = 0%nat /\ limited n A m) (@nn_layers RNum exact) ->
  Forall2 fin32 x X -> Forall (fun r => -1 <= r <= 1) X ->
  @net_output (Num32 expf tanhf) net x reset = Ok (o, net') -> @net_output RNum exact X reset = Ok (O, exact') ->
  Forall2 (near (step_error delta n A * geometric A (List.length (@nn_layers RNum exact)))) o O.
Proof.
  intros HA net net' exact exact' n A reset x X o O Hn HAb Ht Hl Hx HX H1 H2.
  assert (Hb : bounded_net (repeat (n, A) (List.length (@nn_layers RNum exact))) (@nn_layers RNum exact) 1).
  { clear -Hl Hn HAb. induction Hl as [|m ms (F1 & F2 & F3) _ IH]; [exact I|]. cbn [List.length repeat bounded_net]. split; [exact Hn|]. split; [lra|]. split; [exact F3|]. rewrite Rmult_1_r. split; [lra|]. split; [apply (bpow_le radix2 0 120); lia|]. assert (next_size n A 1 m = 1) as -> by (unfold next_size; now rewrite F1). exact IH. }
  assert (Hx1 : Forall2 (near 0) x X) by (clear -Hx; induction Hx as [|y v x X Hy _ IH]; constructor; auto; exists v; rewrite Rminus_diag_eq, Rabs_R0 by reflexivity; split; [exact Hy|lra]).
  assert (Hw : Forall (within 1) x). { clear -Hx HX. induction Hx as [|y v x X Hy _ IH]; constructor; [|exact (IH (Forall_inv_tail HX))]. exists v. split; [exact Hy|]. apply Rabs_le. exact (Forall_inv HX). }
  assert (G := C71_prediction_accuracy expf tanhf delta HA net net' exact exact' _ 1 0 reset x X o O (Rle_refl 1) (Rle_refl 0) Ht Hb Hx1 Hw H1 H2).
  rewrite flat_final in G; [|clear -Hl; induction Hl as [|m ms (F1 & F2 & _) _ IH]; constructor; auto]. rewrite Rmult_0_r, Rplus_0_l in G. exact G.
Qed.
Print Assumptions C71_flat_networks.

(* ---------- a correctly rounded tanhf ---------- *)
Definition nearest (t : R) : f32 := SpecFloat.binary_normalize 24 128 (ZnearestE (scaled_mantissa radix2 (SpecFloat.fexp 24 128) t)) (cexp radix2 (SpecFloat.fexp 24 128) t) false.
Definition best_tanhf (x : f32) : f32 := nearest (tanh (SF2R radix2 x)).
#[local] Existing Instance Float32.Hprec32. #[local] Existing Instance Float32.Hmax32.
Lemma nearest_value t : Rabs (rnd t) < bpow radix2 128 -> fin32 (nearest t) (rnd t).
Proof.
  intros H. unfold nearest. rewrite binary_normalize_equiv32. set (m := ZnearestE _). set (e := cexp _ _ _).
  assert (E : F2R (Float radix2 m e) = rnd t) by reflexivity. pose proof (binary_normalize_correct 24 128 _ _ mode_NE m e false) as C. rewrite E in C.
  assert (Ei : rnd (rnd t) = rnd t) by (apply round_generic; [typeclasses eauto|]; apply generic_format_round; typeclasses eauto).
  change (if Rlt_bool (Rabs (rnd (rnd t))) (bpow radix2 128) then B2R (binary_normalize 24 128 _ _ mode_NE m e false) = rnd (rnd t) /\ is_finite (binary_normalize 24 128 _ _ mode_NE m e false) = true /\ Bsign (binary_normalize 24 128 _ _ mode_NE m e false) = match Rcompare (rnd t) 0 with Eq => false | Lt => true | Gt => false end else B2SF (binary_normalize 24 128 _ _ mode_NE m e false) = binary_overflow 24 128 mode_NE (Rlt_bool (rnd t) 0)) in C.
  rewrite Ei, (Rlt_bool_true _ _ H) in C. destruct C as (C1 & C2 & _). eexists. split; [reflexivity|]. split; [exact C2|exact C1].
Qed.
Lemma best_accurate : accurate (2 * u24) best_tanhf.
Proof.
  intros x v H. unfold best_tanhf. rewrite (SF2R_value _ _ H). assert (B := tanh_bound v). assert (Bm : Rabs (rnd (tanh v)) <= 1) by (apply rnd_bound; [apply (int_format 1); lia|apply Rabs_le; lra]).
  exists (rnd (tanh v)). split; [apply nearest_value; eapply Rle_lt_trans; [exact Bm|]; apply (bpow_lt radix2 0 128); lia|]. split; [apply Rabs_le_inv in Bm; lra|]. assert (R1 := rnd_rel (tanh v)). assert (U := u24_pos). assert (T := tiny_u24).
  assert (Rabs (tanh v) <= 1) by (apply Rabs_le; lra). assert (Rabs (tanh v) * u24 <= u24) by nra. lra.
Qed.

(* ---------- the hypotheses are met ---------- *)
(* tanh with a dropout of rate 1/2, then the identity; weights 1, -1, 1 and 1, -1: the floats are within 1/10000 of the real numbers *)
Notation NB := (Num32 coarse best_tanhf).
Definition one := f32_of_Z 1.
Definition less := f32_of_Z (-1).
Definition half := @fdiv NB one (f32_of_Z 2).
Definition af_layers : list (@Layer NB) :=
  [@mkLayer NB 2 (BFull [@mkNeuron NB 2 1 [one; less; one] one (circ_init 1 3) (circ_init 1 2) (repeat (f32_of_Z 0) 2) (f32_of_Z 0) a_tanh]) [@ODropout NB half half [true]];
   @mkLayer NB 1 (BFull [@mkNeuron NB 1 1 [one; less] one (circ_init 1 2) (circ_init 1 1) (repeat (f32_of_Z 0) 1) (f32_of_Z 0) a_identity]) []].
Definition ar_layers : list (@Layer RNum) :=
  [@mkLayer RNum 2 (BFull [@mkNeuron RNum 2 1 [1; -1; 1] 1 (circ_init 1 3) (circ_init 1 2) (repeat 0 2) 0 a_tanh]) [@ODropout RNum (/ 2) (/ 2) [true]];
   @mkLayer RNum 1 (BFull [@mkNeuron RNum 1 1 [1; -1] 1 (circ_init 1 2) (circ_init 1 1) (repeat 0 1) 0 a_identity]) []].
Definition af_net : @Net NB := @mkNet NB af_layers (@mkSGD NB half half) false 0.
Definition ar_net : @Net RNum := @mkNet RNum ar_layers (@mkSGD RNum (/ 2) (/ 2)) false 0.
Lemma half_value : fin32 half (/ 2).
Proof.
  assert (Rh : rnd (1 / 2) = / 2). { replace (1 / 2) with (bpow radix2 (-1)) by (cbn; lra). transitivity (bpow radix2 (-1)); [|cbn; lra]. apply round_generic; [typeclasses eauto|]. apply fmt_bpow. lia. }
  rewrite <- Rh. apply fin32_div; [apply (fin32_of_Z 1); lia|apply (fin32_of_Z 2); lia|lra|]. rewrite Rh. rewrite Rabs_pos_eq by lra. apply Rlt_trans with 1; [lra|]. apply (bpow_lt radix2 0 128). lia.
Qed.
Lemma af_twin : Forall2 (twin_layer coarse best_tanhf) af_layers ar_layers.
Proof.
  assert (F1 : fin32 one 1) by (apply (fin32_of_Z 1); lia). assert (F2 : fin32 less (-1)) by (apply (fin32_of_Z (-1)); lia).
  constructor; [|constructor; [|constructor]]; split; cbn [l_body l_opts twin_body]; try (constructor; [|constructor]); try (split; [reflexivity|]; split; [reflexivity|]; split; [|exact F1]; cbn [n_w]).
  - constructor; [exact F1|]. constructor; [exact F2|]. constructor; [exact F1|constructor].
  - split; [exact half_value|]. rewrite Rabs_pos_eq; lra.
  - constructor; [exact F1|]. constructor; [exact F2|constructor].
  - constructor.
Qed.
Lemma ar_bounded : bounded_net [(3%nat, 3); (2%nat, 2)] ar_layers 4.
Proof.
  assert (P120 : 16 <= bpow radix2 120) by (apply (bpow_le radix2 4 120); lia). assert (A1 : Rabs (-1) = 1) by (rewrite Rabs_left; lra).
  cbn [bounded_net ar_layers]. split; [lia|]. split; [lra|]. split. { constructor; [|constructor]. cbn [n_w n_bias List.length map]. split; [lia|]. split; [cbn; rewrite A1, Rabs_R1; lra|rewrite Rabs_R1; lra]. }
  split; [lra|]. split; [lra|]. split; [lia|]. split; [lra|]. split. { constructor; [|constructor]. cbn [n_w n_bias List.length map]. split; [lia|]. split; [cbn; rewrite A1, Rabs_R1; lra|rewrite Rabs_R1; lra]. }
  unfold next_size, flat_layer, pooling. cbn [l_body layer_neurons forallb n_act flat_act negb andb]. split; [lra|]. split; [lra|exact I].
Qed.
Lemma ar_error : final_error (2 * u24) [(3%nat, 3); (2%nat, 2)] ar_layers 4 0 <= / 10000.
Proof.
  cbn [final_error ar_layers]. unfold next_error, next_size, flat_layer, pooling, dropouts, sum_error. cbn [l_body l_opts layer_neurons forallb n_act flat_act negb andb filter List.length INR].
  assert (U : u24 <= / 16000000) by (unfold u24; cbn; lra). assert (U0 := u24_pos). assert (T := tiny_u24). assert (T0 := tiny_pos). lra.
Qed.
Example C71_hypotheses_met : accurate (2 * u24) best_tanhf /\ Forall2 (twin_layer coarse best_tanhf) af_layers ar_layers /\ bounded_net [(3%nat, 3); (2%nat, 2)] ar_layers 4 /\
  exists o net' O exact', @net_output NB af_net [f32_of_Z 3; f32_of_Z (-4)] true = Ok (o, net') /\ @net_output RNum ar_net [3; -4] true = Ok (O, exact') /\ Forall2 (near (/ 10000)) o O.
Proof.
  split; [exact best_accurate|]. split; [exact af_twin|]. split; [exact ar_bounded|].
  assert (E1 : exists o net', @net_output NB af_net [f32_of_Z 3; f32_of_Z (-4)] true = Ok (o, net')) by (do 2 eexists; reflexivity).
  assert (E2 : exists O exact', @net_output RNum ar_net [3; -4] true = Ok (O, exact')) by (do 2 eexists; reflexivity).
  destruct E1 as (o & net' & E1), E2 as (O & exact' & E2). exists o, net', O, exact'. split; [exact E1|]. split; [exact E2|].
  assert (G := C71_prediction_accuracy coarse best_tanhf _ best_accurate af_net net' ar_net exact' [(3%nat, 3); (2%nat, 2)] 4 0 true [f32_of_Z 3; f32_of_Z (-4)] [3; -4] o O ltac:(lra) (Rle_refl 0) af_twin ar_bounded).
  assert (F3 : fin32 (f32_of_Z 3) 3) by (apply (fin32_of_Z 3); lia). assert (F4 : fin32 (f32_of_Z (-4)) (-4)) by (apply (fin32_of_Z (-4)); lia).
  assert (Hn : forall x v, fin32 x v -> near 0 x v) by (intros x v H; exists v; rewrite Rminus_diag_eq, Rabs_R0 by reflexivity; split; [exact H|lra]).
  assert (Fi : forall (P Q : f32 -> R -> Prop) l m, (forall a b, P a b -> Q a b) -> Forall2 P l m -> Forall2 Q l m) by (intros P Q l m Hpq; induction 1; constructor; auto).
  eapply Fi; [|apply G; [| |exact E1|exact E2]].
  - intros x r (v & V1 & V2). exists v. split; [exact V1|]. eapply Rle_trans; [exact V2|exact ar_error].
  - constructor; [now apply Hn|]. constructor; [now apply Hn|constructor].
  - constructor; [exists 3; split; [exact F3|rewrite Rabs_pos_eq; lra]|]. constructor; [exists (-4); split; [exact F4|rewrite Rabs_left; lra]|constructor].
Qed.

(* ---------- the error is not small next to the output ---------- *)
(* A new network of one identity neuron with weights 1, 1, -1 and 0 (drawn within 2.4 / sqrt 4 = 1.2), on the inputs 2^24, 1 and 2^24: the exact prediction is 1 and the library's is 0. *)
Definition cancel : list (@LDesc NB) := [@Input NB [3%Z]; @FullyConnected NB 1 a_identity []].
Definition cancel_draws (l i g j : nat) : f32 := match j with 0%nat | 1%nat => one | 2%nat => less | _ => f32_of_Z 0 end.
Definition cancel_net : @Net NB := @mkNet NB [@mkLayer NB 3 (BFull [@mkNeuron NB 3 1 [one; one; less; f32_of_Z 0] one (circ_init 1 4) (circ_init 1 3) (repeat (f32_of_Z 0) 3) (f32_of_Z 0) a_identity]) []] (@mkSGD NB half (f32_of_Z 0)) false 0.
Definition cancel_exact : @Net RNum := @mkNet RNum [@mkLayer RNum 3 (BFull [@mkNeuron RNum 3 1 [1; 1; -1; 0] 1 (circ_init 1 4) (circ_init 1 3) (repeat 0 3) 0 a_identity]) []] (@mkSGD RNum (/ 2) 0) false 0.
Theorem C71_cancellation_refuted : (forall l i g j, within (12 / 10) (cancel_draws l i g j)) /\ @construct NB cancel_draws (fun _ _ _ => true) cancel half (f32_of_Z 0) = Ok cancel_net /\
  Forall2 (twin_layer coarse best_tanhf) (@nn_layers NB cancel_net) (@nn_layers RNum cancel_exact) /\ exists o net' O exact',
  @net_output NB cancel_net [f32_of_Z (2 ^ 24); f32_of_Z 1; f32_of_Z (2 ^ 24)] true = Ok ([o], net') /\ @net_output RNum cancel_exact [IZR (2 ^ 24); 1; IZR (2 ^ 24)] true = Ok ([O], exact') /\ fin32 o 0 /\ O = 1.
Proof.
  assert (F1 : fin32 one 1) by (apply (fin32_of_Z 1); lia). assert (F2 : fin32 less (-1)) by (apply (fin32_of_Z (-1)); lia). assert (F0 : fin32 (f32_of_Z 0) 0) by (apply (fin32_of_Z 0); lia).
  split. { intros l i g [|[|[|j]]]; cbn [cancel_draws]; eexists; (split; [first [exact F1|exact F2|exact F0]|]); [rewrite Rabs_R1|rewrite Rabs_R1|rewrite Rabs_left by lra|rewrite Rabs_R0]; lra. }
  split; [reflexivity|]. split.
  { constructor; [|constructor]. split; [|constructor]. constructor; [|constructor]. split; [reflexivity|]. split; [reflexivity|]. split; [|exact F1]. constructor; [exact F1|]. constructor; [exact F1|]. constructor; [exact F2|]. constructor; [exact F0|constructor]. }
  exists (f32_of_Z 0). do 3 eexists. split; [reflexivity|]. split; [reflexivity|]. split; [exact F0|]. change (@fadd RNum (@fadd RNum (@fadd RNum (@fadd RNum (0 / 1) (IZR (2 ^ 24) * 1)) (1 * 1)) (IZR (2 ^ 24) * -1)) (0 * 1) = 1). cbn [fadd RNum]. lra.
Qed.
Print Assumptions C71_cancellation_refuted.
