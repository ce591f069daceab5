(* C22, C23, C24: what a training step does to the weights of a network of fully connected layers, over the reals. *)
From Coq Require Import Reals Lra.
From Verif Require Import Base Num NumOrder ActModel NeuronModel LayerModel NetModel NetSpec NeuronProofs LayerProofs GradProofs DenseProofs.
Local Open Scope R_scope.

Lemma weight_at_intro (net : @Net RNum) l n w neuron : @neuron_at RNum net l n = Some neuron -> (w < List.length (n_w neuron))%nat ->
  @weight_at RNum net l n w = Some (@nth R w (n_w neuron) 0).
Proof. intros H Hw. unfold weight_at. rewrite H. now apply (nth_error_nth' (n_w neuron) 0). Qed.

Lemma last_lgetZ {A} (ls : list A) : forall l d, lgetZ ls (Z.of_nat (List.length ls) - 1) = Ok l -> l = last ls d.
Proof.
  intros l d Hl. unfold lgetZ in Hl. destruct (_ <? _)%Z eqn:Ez in Hl; [discriminate|]. apply lget_Ok in Hl.
  destruct ls as [|a t]; [destruct (Z.to_nat _) in Hl; discriminate|].
  replace (Z.to_nat (Z.of_nat (List.length (a :: t)) - 1)) with (List.length t) in Hl by (cbn [List.length]; lia).
  clear Ez. revert a Hl. induction t as [|b t IH]; intros a Hl; cbn in Hl; [now injection Hl as ->|]. exact (IH b Hl).
Qed.
Lemma dense_neuron (net : @Net RNum) k l n neuron : dense_network k net -> @neuron_at RNum net l n = Some neuron ->
  List.length (n_w neuron) = (n_in neuron + 1)%nat.
Proof.
  intros [_ H] Hn. destruct (dense_dchain _ _ H) as (nss & D). rewrite (neuron_at_dense _ _ _ _ _ D) in Hn.
  revert Hn D. generalize (nn_layers net) as ls. clear H. revert k l; induction nss as [|ns nt IH]; intros k [|l] ls Hn D; cbn in Hn; try discriminate; destruct ls as [|a t]; try contradiction.
  - destruct D as (-> & Hf & _). rewrite Forall_forall in Hf. destruct (Hf neuron (nth_error_In _ _ Hn)) as ((W & _) & _). exact W.
  - destruct D as (_ & _ & D). eapply IH; eauto.
Qed.

(* ---- the step is total, keeps the shape, and every neuron keeps its place ---- *)
Lemma step_total rand (net : @Net RNum) k x d reset :
  dense_network k net -> nn_nan net = false -> List.length x = k -> @net_numberOfOutputs RNum net = Ok (List.length d) ->
  exists net', @trainOnce RNum rand net x d reset = Ok net' /\ dense_network k net' /\ nn_nan net' = false /\ nn_opt net' = nn_opt net /\
    (exists o net1, @net_output RNum net x false = Ok (o, net1) /\ List.length o = List.length d) /\
    forall l n neuron, @neuron_at RNum net l n = Some neuron -> exists neuron', @neuron_at RNum net' l n = Some neuron'.
Proof.
  intros [Hne Hd] Hnan Hx Ho. destruct (dense_dchain _ _ Hd) as (nss & D).
  assert (Hlen : List.length (net_val nss x) = List.length d).
  { unfold net_numberOfOutputs in Ho. apply bind_Ok_inv in Ho as (l & Hl & E). injection E as E.
    destruct (nn_layers net) as [|a t] eqn:El; [congruence|]. change (@F RNum) with R in *. rewrite (last_neurons _ _ _ _ D x Hx).
    rewrite <- E. f_equal. symmetry. apply (last_lgetZ (a :: t)). exact Hl. }
  destruct (trainOnce_dense rand net k nss x d reset Hne D Hnan Hx ltac:(lia)) as (net' & nss' & E & D' & U & Hn' & Ho').
  exists net'. split; [exact E|]. split.
  { split; [|eapply dchain_dense; eauto]. destruct (nn_layers net'); [|discriminate]. destruct nss' as [|? ?]; [|contradiction].
    destruct nss; [|contradiction]. destruct (nn_layers net); [congruence|contradiction]. }
  split; [auto|]. split; [auto|]. split.
  { destruct (net_output_dense net k nss x false Hne D Hx) as (ls & E1 & _). eauto. }
  intros l n neuron Hn. rewrite (neuron_at_dense _ _ _ _ _ D) in Hn. destruct (nth_error nss l) as [ns|] eqn:El; [|discriminate].
  destruct (upd_net_nth _ _ _ _ _ _ _ U El) as (ns' & El' & [L _]). rewrite (neuron_at_dense _ _ _ _ _ D'), El'.
  destruct (nth_error ns' n) eqn:En'; eauto. exfalso. apply nth_error_None in En'.
  assert (n < List.length ns)%nat by (apply nth_error_Some; congruence). lia.
Qed.

(* ================= C22 =================
   One training step, momentum 0: every input weight moves by exactly -learningRate times the derivative of the squared
   error with respect to this weight, all derivatives taken at the weights before the step. *)
Theorem C22_step_is_gradient_descent : forall rand (net : @Net RNum) inputs x d reset,
  dense_network inputs net -> nn_nan net = false -> o_m (nn_opt net) = 0 ->
  List.length x = inputs -> @net_numberOfOutputs RNum net = Ok (List.length d) -> differentiable_at net x ->
  exists net', @trainOnce RNum rand net x d reset = Ok net' /\ dense_network inputs net' /\ nn_nan net' = false /\ nn_opt net' = nn_opt net /\
  forall l n neuron w, @neuron_at RNum net l n = Some neuron -> (w < n_in neuron)%nat ->
  exists old new g, @weight_at RNum net l n w = Some old /\ @weight_at RNum net' l n w = Some new /\
    derivable_pt_lim (fun t => squared_error (@set_weight RNum net l n w t) x d) old g /\
    new = old - o_lr (nn_opt net) * g.
Proof.
  intros rand net k x d reset Hd Hnan Hm Hx Ho Hdiff.
  destruct (step_total rand net k x d reset Hd Hnan Hx Ho) as (net' & E & Hd' & Hn' & Ho' & (o1 & net1 & E1 & L1) & Hex).
  exists net'. repeat (split; [assumption|]). intros l n neuron w Hn Hw. destruct (Hex l n neuron Hn) as (neuron' & Hn2).
  destruct (step_gradient rand net net' net1 k x d reset o1 l n neuron neuron' Hd Hnan Hx E1) as (e & z & U & Hz & G); auto; try lia.
  { intros. now apply (Hdiff o1 net1 E1 l0 n0). }
  pose proof (dense_neuron _ _ _ _ _ Hd Hn) as Hl. pose proof (dense_neuron _ _ _ _ _ Hd' Hn2) as Hl'. pose proof (proj1 U) as Hi.
  specialize (G w ltac:(lia)). destruct U as (_ & _ & _ & _ & U & _). specialize (U w Hw).
  eexists _, _, _. split; [apply (weight_at_intro net l n w neuron Hn); lia|].
  split; [apply (weight_at_intro net' l n w neuron' Hn2); lia|]. split; [exact G|].
  change (@F RNum) with R in *. rewrite U, Hm. unfold coef. destruct (Nat.eqb_spec w (n_in neuron)); [lia|]. ring.
Qed.
Print Assumptions C22_step_is_gradient_descent.

(* ================= C23 =================
   Refuted: the bias weight (the last weight of a neuron) is replaced by -learningRate times the derivative, its old value
   is lost, for every network, every input and every desired output. *)
Theorem C23_bias_weight_is_overwritten_refuted : forall rand (net : @Net RNum) inputs x d reset,
  dense_network inputs net -> nn_nan net = false -> o_m (nn_opt net) = 0 ->
  List.length x = inputs -> @net_numberOfOutputs RNum net = Ok (List.length d) -> differentiable_at net x ->
  exists net', @trainOnce RNum rand net x d reset = Ok net' /\
  forall l n neuron, @neuron_at RNum net l n = Some neuron ->
  exists old new g, @weight_at RNum net l n (n_in neuron) = Some old /\ @weight_at RNum net' l n (n_in neuron) = Some new /\
    derivable_pt_lim (fun t => squared_error (@set_weight RNum net l n (n_in neuron) t) x d) old g /\
    new = - (o_lr (nn_opt net) * g) /\
    (new = old - o_lr (nn_opt net) * g <-> old = 0).
Proof.
  intros rand net k x d reset Hd Hnan Hm Hx Ho Hdiff.
  destruct (step_total rand net k x d reset Hd Hnan Hx Ho) as (net' & E & Hd' & Hn' & Ho' & (o1 & net1 & E1 & L1) & Hex).
  exists net'. repeat (split; [assumption|]). intros l n neuron Hn. destruct (Hex l n neuron Hn) as (neuron' & Hn2).
  destruct (step_gradient rand net net' net1 k x d reset o1 l n neuron neuron' Hd Hnan Hx E1) as (e & z & U & Hz & G); auto; try lia.
  { intros. now apply (Hdiff o1 net1 E1 l0 n0). }
  pose proof (dense_neuron _ _ _ _ _ Hd Hn) as Hl. pose proof (dense_neuron _ _ _ _ _ Hd' Hn2) as Hl'. pose proof (proj1 U) as Hi.
  specialize (G (n_in neuron) ltac:(lia)). destruct U as (_ & _ & _ & _ & _ & U & _).
  eexists _, _, _. split; [apply (weight_at_intro net l n (n_in neuron) neuron Hn); lia|].
  split; [apply (weight_at_intro net' l n (n_in neuron) neuron' Hn2); lia|]. split; [exact G|].
  change (@F RNum) with R in *. rewrite U, Hm. unfold coef. rewrite Nat.eqb_refl. split; [ring|]. split; intros; nra.
Qed.
Print Assumptions C23_bias_weight_is_overwritten_refuted.

(* ================= C24 =================
   Two training steps with any predictions in between: the second moves every input weight by -learningRate times the
   derivative plus momentum times what the first moved it. *)
Lemma predictions_keep k (net net' : @Net RNum) : @predictions RNum k net net' -> dense_network k net ->
  dense_network k net' /\ nn_opt net' = nn_opt net /\ nn_nan net' = nn_nan net /\ @net_numberOfOutputs RNum net' = @net_numberOfOutputs RNum net /\
  forall l n neuron, @neuron_at RNum net l n = Some neuron -> exists neuron', @neuron_at RNum net' l n = Some neuron' /\
    n_w neuron' = n_w neuron /\ n_in neuron' = n_in neuron /\ prow neuron' = prow neuron.
Proof.
  induction 1 as [net|net x reset o net1 net2 Hx E _ IH]; intros Hd; [repeat (split; [auto|]); eauto 10|].
  pose proof Hd as [Hne Hd0]. destruct (dense_dchain _ _ Hd0) as (nss & D).
  destruct (net_output_dense net k nss x reset Hne D Hx) as (ls & E1 & D1). rewrite E1 in E. injection E as _ <-.
  destruct IH as (A & B & C & Hno & G).
  { split; [|eapply dchain_dense; eauto]. cbn. destruct ls; [|discriminate]. destruct nss; [|contradiction]. destruct (nn_layers net); [congruence|contradiction]. }
  split; [exact A|]. split; [exact B|]. split; [exact C|]. split.
  { rewrite Hno. unfold net_numberOfOutputs. cbn [nn_layers].
    assert (Q : forall nss z k ls ls', dchain k ls nss -> dchain k ls' (fed_nss nss z) -> map (@getNumberOfNeurons RNum) ls' = map (@getNumberOfNeurons RNum) ls).
    { clear. induction nss as [|ns nt IH]; intros z k [|a t] [|a' t'] H H'; cbn in H, H'; try contradiction; [reflexivity|].
      destruct H as (-> & _ & Ht). destruct H' as (-> & _ & Ht'). rewrite map_length in Ht'. cbn [map].
      f_equal; [unfold getNumberOfNeurons, layer_weights; cbn; now rewrite !map_length|]. eapply IH; eauto. }
    specialize (Q _ _ _ _ _ D D1). assert (Hl : List.length ls = List.length (nn_layers net)) by (now rewrite <- (map_length (@getNumberOfNeurons RNum) ls), Q, map_length).
    rewrite Hl. unfold lgetZ. destruct (_ <? _)%Z; [reflexivity|]. unfold lget.
    set (i := Z.to_nat _). assert (Hi : nth_error (map (@getNumberOfNeurons RNum) ls) i = nth_error (map (@getNumberOfNeurons RNum) (nn_layers net)) i) by (now rewrite Q).
    rewrite !nth_error_map in Hi. destruct (nth_error ls i), (nth_error (nn_layers net) i); cbn in *; congruence. }
  intros l n neuron Hn. rewrite (neuron_at_dense _ _ _ _ _ D) in Hn. destruct (nth_error nss l) as [ns|] eqn:El; [|discriminate].
  destruct (nth_fed nss x l ns n neuron El Hn) as (fs & Ef & En).
  destruct (G l n (fed (net_val (firstn l nss) x) neuron)) as (neuron' & P1 & P2 & P3 & P4).
  { rewrite (neuron_at_dense _ k (fed_nss nss x)) by exact D1. rewrite Ef. exact En. }
  exists neuron'. repeat split; auto.
Qed.

Theorem C24_momentum_network : forall rand (net0 : @Net RNum) inputs x0 d0 reset0 x1 d1 reset1,
  dense_network inputs net0 -> nn_nan net0 = false ->
  List.length x0 = inputs -> List.length x1 = inputs ->
  @net_numberOfOutputs RNum net0 = Ok (List.length d0) -> List.length d1 = List.length d0 ->
  exists net1, @trainOnce RNum rand net0 x0 d0 reset0 = Ok net1 /\
  forall net1', @predictions RNum inputs net1 net1' -> differentiable_at net1' x1 ->
  exists net2, @trainOnce RNum rand net1' x1 d1 reset1 = Ok net2 /\
  forall l n neuron w, @neuron_at RNum net0 l n = Some neuron -> (w < n_in neuron)%nat ->
  exists w0 w1 w2 g, @weight_at RNum net0 l n w = Some w0 /\ @weight_at RNum net1 l n w = Some w1 /\
    @weight_at RNum net1' l n w = Some w1 /\ @weight_at RNum net2 l n w = Some w2 /\
    derivable_pt_lim (fun t => squared_error (@set_weight RNum net1' l n w t) x1 d1) w1 g /\
    w2 = w1 - o_lr (nn_opt net0) * g + o_m (nn_opt net0) * (w1 - w0).
Proof.
  intros rand net0 k x0 d0 reset0 x1 d1 reset1 Hd Hnan Hx0 Hx1 Ho Hd1.
  destruct (step_total rand net0 k x0 d0 reset0 Hd Hnan Hx0 Ho) as (net1 & E & Hd' & Hn' & Ho' & _ & Hex).
  exists net1. split; [exact E|]. intros net1' P Hdiff.
  destruct (predictions_keep _ _ _ P Hd') as (Hdp & Hop & Hnp & Hno & G).
  assert (Hno1 : @net_numberOfOutputs RNum net1' = Ok (List.length d1)).
  { rewrite Hno, Hd1, <- Ho. clear -E Hd Hnan Hx0 Ho. destruct Hd as [Hne Hd]. destruct (dense_dchain _ _ Hd) as (nss & D).
    assert (Hlen : List.length (net_val nss x0) = List.length d0).
    { unfold net_numberOfOutputs in Ho. apply bind_Ok_inv in Ho as (l & Hl & Eo). injection Eo as Eo.
      destruct (nn_layers net0) as [|a t] eqn:El; [congruence|]. change (@F RNum) with R in *. rewrite (last_neurons _ _ _ _ D x0 Hx0).
      rewrite <- Eo. f_equal. symmetry. apply (last_lgetZ (a :: t)). exact Hl. }
    destruct (trainOnce_dense rand net0 k nss x0 d0 reset0 Hne D Hnan Hx0 ltac:(lia)) as (n' & nss' & E' & D' & U & _). rewrite E in E'. injection E' as <-.
    assert (Q : forall nss d z k ls ls' nss', dchain k ls nss -> dchain k ls' nss' -> upd_net (nn_opt net0) d nss z nss' -> map (@getNumberOfNeurons RNum) ls' = map (@getNumberOfNeurons RNum) ls).
    { clear. induction nss as [|ns nt IH]; intros d z k [|a t] [|a' t'] [|ns' nt'] H H' U; cbn in H, H'; try contradiction; [reflexivity|].
      destruct U as [[L _] U]. destruct H as (-> & _ & Ht). destruct H' as (-> & _ & Ht'). rewrite L in Ht'. cbn [map].
      f_equal; [unfold getNumberOfNeurons, layer_weights; cbn; now rewrite !map_length|]. eapply IH; eauto. }
    specialize (Q _ _ _ _ _ _ _ D D' U). unfold net_numberOfOutputs.
    assert (Hl : List.length (nn_layers net1) = List.length (nn_layers net0)) by (now rewrite <- (map_length (@getNumberOfNeurons RNum) (nn_layers net1)), Q, map_length).
    rewrite Hl. unfold lgetZ. destruct (_ <? _)%Z; [reflexivity|]. unfold lget.
    set (i := Z.to_nat _). assert (Hi : nth_error (map (@getNumberOfNeurons RNum) (nn_layers net1)) i = nth_error (map (@getNumberOfNeurons RNum) (nn_layers net0)) i) by (now rewrite Q).
    rewrite !nth_error_map in Hi. destruct (nth_error (nn_layers net1) i), (nth_error (nn_layers net0) i); cbn in *; congruence. }
  destruct (step_total rand net1' k x1 d1 reset1 Hdp ltac:(congruence) Hx1 Hno1) as (net2 & E2 & Hd2 & _ & _ & (o2 & net2' & Eo2 & L2) & Hex2).
  exists net2. split; [exact E2|]. intros l n neuron w Hn Hw.
  destruct (Hex l n neuron Hn) as (neuron1 & Hn1). destruct (G l n neuron1 Hn1) as (neuron1' & Hn1' & Hw1 & Hi1 & Hp1).
  destruct (Hex2 l n neuron1' Hn1') as (neuron2 & Hn2).
  (* first step *)
  assert (U1 : exists e z, upd (nn_opt net0) e z neuron neuron1).
  { destruct Hd as [Hne Hd]. destruct (dense_dchain _ _ Hd) as (nss & D).
    destruct (trainOnce_dense rand net0 k nss x0 d0 reset0 Hne D Hnan Hx0) as (n' & nss' & E' & D' & U & _).
    { assert (Hlen : List.length (net_val nss x0) = List.length d0); [|lia].
      unfold net_numberOfOutputs in Ho. apply bind_Ok_inv in Ho as (l0 & Hl & Eo). injection Eo as Eo.
      destruct (nn_layers net0) as [|a t] eqn:El; [congruence|]. change (@F RNum) with R in *. rewrite (last_neurons _ _ _ _ D x0 Hx0).
      rewrite <- Eo. f_equal. symmetry. apply (last_lgetZ (a :: t)). exact Hl. }
    rewrite E in E'. injection E' as <-. rewrite (neuron_at_dense _ _ _ _ _ D) in Hn. rewrite (neuron_at_dense _ _ _ _ _ D') in Hn1.
    destruct (nth_error nss l) as [ns|] eqn:El; [|discriminate]. destruct (upd_net_nth _ _ _ _ _ _ _ U El) as (ns' & El' & [L UL]). rewrite El' in Hn1.
    assert (Hlt : (n < List.length ns)%nat) by (apply nth_error_Some; congruence). specialize (UL n Hlt).
    rewrite (nth_error_nth _ _ n0 Hn), (nth_error_nth _ _ n0 Hn1) in UL. eauto. }
  destruct U1 as (e1 & z1 & U1).
  destruct (step_gradient rand net1' net2 net2' k x1 d1 reset1 o2 l n neuron1' neuron2 Hdp ltac:(congruence) Hx1 Eo2) as (e & z & U & Hz & Gr); auto; try lia.
  { intros. now apply (Hdiff o2 net2' Eo2 l0 n0). }
  pose proof (dense_neuron _ _ _ _ _ Hd Hn) as Hl0. pose proof (dense_neuron _ _ _ _ _ Hd' Hn1) as Hl1. pose proof (dense_neuron _ _ _ _ _ Hd2 Hn2) as Hl2.
  destruct U1 as (Hin1 & _ & _ & _ & _ & _ & UP & _). pose proof (proj1 U) as Hin2. destruct U as (_ & _ & _ & _ & UW & _).
  specialize (UP w Hw). specialize (UW w ltac:(lia)). specialize (Gr w ltac:(lia)). rewrite Hw1 in Gr.
  eexists _, _, _, _. split; [apply (weight_at_intro net0 l n w neuron Hn); lia|].
  split; [apply (weight_at_intro net1 l n w neuron1 Hn1); lia|].
  split. { rewrite <- Hw1. apply (weight_at_intro net1' l n w neuron1' Hn1'). rewrite Hw1. lia. }
  split; [apply (weight_at_intro net2 l n w neuron2 Hn2); lia|]. split; [exact Gr|].
  change (@F RNum) with R in *. rewrite UW, Hw1, Hp1, UP, Hop, Ho'. unfold coef. destruct (Nat.eqb_spec w (n_in neuron1')); [lia|]. ring.
Qed.
Print Assumptions C24_momentum_network.

(* The first step of a freshly built network (previous updates all zero) is a plain gradient step whatever the momentum. *)
Theorem C24_first_step : forall rand (net : @Net RNum) inputs x d reset,
  dense_network inputs net -> nn_nan net = false ->
  (forall l n neuron, @neuron_at RNum net l n = Some neuron -> n_prev neuron = @circ_init RNum 1 (n_in neuron + 1)) ->
  List.length x = inputs -> @net_numberOfOutputs RNum net = Ok (List.length d) -> differentiable_at net x ->
  exists net', @trainOnce RNum rand net x d reset = Ok net' /\
  forall l n neuron w, @neuron_at RNum net l n = Some neuron -> (w < n_in neuron)%nat ->
  exists old new g, @weight_at RNum net l n w = Some old /\ @weight_at RNum net' l n w = Some new /\
    derivable_pt_lim (fun t => squared_error (@set_weight RNum net l n w t) x d) old g /\
    new = old - o_lr (nn_opt net) * g.
Proof.
  intros rand net k x d reset Hd Hnan Hfresh Hx Ho Hdiff.
  destruct (step_total rand net k x d reset Hd Hnan Hx Ho) as (net' & E & Hd' & Hn' & Ho' & (o1 & net1 & E1 & L1) & Hex).
  exists net'. repeat (split; [assumption|]). intros l n neuron w Hn Hw. destruct (Hex l n neuron Hn) as (neuron' & Hn2).
  destruct (step_gradient rand net net' net1 k x d reset o1 l n neuron neuron' Hd Hnan Hx E1) as (e & z & U & Hz & G); auto; try lia.
  { intros. now apply (Hdiff o1 net1 E1 l0 n0). }
  pose proof (dense_neuron _ _ _ _ _ Hd Hn) as Hl. pose proof (dense_neuron _ _ _ _ _ Hd' Hn2) as Hl'. pose proof (proj1 U) as Hi.
  specialize (G w ltac:(lia)). destruct U as (_ & _ & _ & _ & U & _). specialize (U w Hw).
  eexists _, _, _. split; [apply (weight_at_intro net l n w neuron Hn); lia|].
  split; [apply (weight_at_intro net' l n w neuron' Hn2); lia|]. split; [exact G|].
  assert (Hp : @nth R w (prow neuron) 0 = 0).
  { unfold prow. rewrite (Hfresh l n neuron Hn). cbn [circ_init q_data repeat nth]. rewrite fzero_R. apply nth_repeat. }
  change (@F RNum) with R in *. rewrite U, Hp. unfold coef. destruct (Nat.eqb_spec w (n_in neuron)); [lia|]. ring.
Qed.
Print Assumptions C24_first_step.

(* ---- a network meeting the hypotheses: 2 inputs, a layer with a ReLU and a sigmoid neuron, one tanh output ---- *)
Definition ex_neuron (a : activation) (ws : list R) : @Neuron RNum :=
  @mkNeuron RNum (List.length ws - 1) 1 ws 1 (@circ_init RNum 1 (List.length ws)) (@circ_init RNum 1 (List.length ws - 1))
           (repeat (@fzero RNum) (List.length ws - 1)) (@fzero RNum) a.
Definition ex_net (m : R) : @Net RNum :=
  @mkNet RNum [@mkLayer RNum 2 (BFull [ex_neuron a_ReLU [1; 2; 3]; ex_neuron a_sigmoid [-1; 1/2; 1/4]]) [];
               @mkLayer RNum 2 (BFull [ex_neuron a_tanh [1; -2; 1/2]]) []]
         (@mkSGD RNum (1/10) m) false 0%Z.
Example ex_net_dense m : dense_network 2 (ex_net m).
Proof.
  split; [discriminate|]. cbn [ex_net nn_layers dense_layers l_in l_opts l_body].
  repeat split; try (eexists; split; [reflexivity|]); repeat constructor; cbn; repeat constructor; lia.
Qed.
Example ex_net_differentiable m : differentiable_at (ex_net m) [1; 1].
Proof.
  intros o net1 E l n neuron Hn.
  destruct (net_output_dense (ex_net m) 2 [[ex_neuron a_ReLU [1; 2; 3]; ex_neuron a_sigmoid [-1; 1/2; 1/4]]; [ex_neuron a_tanh [1; -2; 1/2]]] [1;1] false) as (ls & E1 & D); [discriminate| | reflexivity|].
  { cbn [dchain ex_net nn_layers]. repeat (split; [reflexivity|]). repeat split; repeat constructor; cbn; repeat constructor; lia. }
  rewrite E1 in E. injection E as _ <-. erewrite neuron_at_dense in Hn by exact D.
  destruct l as [|[|l]]; [| |destruct l; discriminate]; destruct n as [|[|n]]; cbn in Hn; try (destruct n; discriminate); try discriminate;
    injection Hn as <-; cbn [n_act fed set_sum ex_neuron n_sum]; split; try discriminate.
  intros _. unfold neuron_sum. cbn. lra.
Qed.
Example C22_hypotheses_met : dense_network 2 (ex_net 0) /\ nn_nan (ex_net 0) = false /\ o_m (nn_opt (ex_net 0)) = 0 /\
  @net_numberOfOutputs RNum (ex_net 0) = Ok (List.length [1]) /\ differentiable_at (ex_net 0) [1; 1].
Proof. split; [apply ex_net_dense|]. split; [reflexivity|]. split; [reflexivity|]. split; [reflexivity|]. apply ex_net_differentiable. Qed.
Example C24_hypotheses_met : dense_network 2 (ex_net (1/2)) /\ nn_nan (ex_net (1/2)) = false /\
  @net_numberOfOutputs RNum (ex_net (1/2)) = Ok (List.length [1]).
Proof. split; [apply ex_net_dense|]. split; reflexivity. Qed.
(* C24's inner hypothesis: after the first step the error is differentiable; networks without ReLU meet it everywhere *)
Lemma smooth_networks_differentiable (net : @Net RNum) k x : dense_network k net -> List.length x = k ->
  (forall l n neuron, @neuron_at RNum net l n = Some neuron -> n_act neuron <> a_iSigmoid /\ n_act neuron <> a_ReLU) -> differentiable_at net x.
Proof.
  intros [Hne Hd] Hx H o net1 E l n neuron Hn. destruct (dense_dchain _ _ Hd) as (nss & D).
  destruct (net_output_dense net k nss x false Hne D Hx) as (ls & E1 & D1). rewrite E1 in E. injection E as _ <-.
  erewrite neuron_at_dense in Hn by exact D1.
  assert (G : exists neu, @neuron_at RNum net l n = Some neu /\ n_act neuron = n_act neu).
  { rewrite (neuron_at_dense _ _ _ _ _ D). clear -Hn. revert x l Hn. induction nss as [|a t IH]; intros x [|l] Hn; cbn in Hn; try discriminate.
    - rewrite nth_error_map in Hn. cbn. destruct (nth_error a n); [|discriminate]. injection Hn as <-. eauto.
    - apply (IH _ _ Hn). }
  destruct G as (neu & Hneu & ->). destruct (H l n neu Hneu) as [A B]. split; [auto|]. intros; contradiction.
Qed.
(* C23: a zero error does change the bias weight: output tanh(0) = 0 is exactly the desired output, the weight 1/2 becomes 0 *)
Definition ex_zero : @Net RNum := @mkNet RNum [@mkLayer RNum 1 (BFull [ex_neuron a_tanh [-1/2; 1/2]]) []] (@mkSGD RNum (1/10) 0) false 0%Z.
Example C23_zero_error_changes_the_bias : exists net',
  squared_error ex_zero [1] [0] = 0 /\ @trainOnce RNum (fun _ _ _ => true) ex_zero [1] [0] false = Ok net' /\
  @weight_at RNum ex_zero 0 0 1 = Some (1/2) /\ @weight_at RNum net' 0 0 1 = Some 0.
Proof.
  assert (Ht : tanh 0 = 0) by (unfold tanh, sinh; rewrite Ropp_0; unfold Rdiv; ring).
  assert (Hs : 0 / 1 + 1 * (-1 / 2) + 1 / 2 * 1 = 0) by lra.
  eexists. split.
  { unfold squared_error. cbn. rewrite !Hs, Ht. ring. }
  split; [cbn; reflexivity|]. split; [reflexivity|]. cbn. f_equal. rewrite ?Hs, ?Ht. field.
Qed.
