(* C67: a training step follows the gradient in networks that mix kinds of layers, after any history. *)
From Coq Require Import Reals Lra.
From Verif Require Import Base Num NumOrder ActModel ActProofs NeuronModel LayerModel NetModel NetSpec NeuronProofs LayerProofs SafeProofs GradProofs DenseProofs SafeLayers FactoryModel FactorySpec FactoryProofs SafeNet BuildProofs FilterSpec FilterProofs HistProofs FilterProps FactoryProps LOptSpec BackSpec BackProps PureProps SummaryProps MixSpec MixProofs MixLayers MixKinds MixRec MixFilter MixPool MixBuilt.
Local Open Scope nat_scope.

(* ---------- a changed weight keeps the sizes ---------- *)
Lemma modify_Forall {A} (P : A -> Prop) l n f : Forall P l -> (forall a, P a -> P (f a)) -> Forall P (modify l n f).
Proof.
  intros H Hf. unfold modify. destruct (nth_error l n) as [a|] eqn:E; [|exact H]. assert (Pa : P a) by (rewrite Forall_forall in H; eapply H, nth_error_In, E).
  apply Forall_of_nth. intros i b. rewrite nth_error_replace. destruct (i =? n); [destruct (n <? List.length l); [|discriminate]; injection 1 as <-; auto|]. intros Hb. rewrite Forall_forall in H. eapply H, nth_error_In, Hb.
Qed.
Lemma changed_keeps e (n : RNeu) w t : wf_neuron e n -> wf_neuron e (@changed RNum n w t) /\ n_in (@changed RNum n w t) = n_in n.
Proof.
  intros H. split; [|reflexivity]. destruct H as (A & B). split; [|exact B]. unfold changed. cbn [set_w n_w n_in]. rewrite replace_length. exact A.
Qed.
Lemma change_wf k (l : RLay) m n w t : wf_layer k l m -> wf_layer k (@change_weight RNum l n w t) m.
Proof.
  intros (A & B & C & D & E). unfold change_weight.
  assert (Hp : forall j ns, Forall (wf_plain j) ns -> Forall (wf_plain j) (modify ns n (fun u => @changed RNum u w t))).
  { intros j ns H. apply modify_Forall; [exact H|]. intros a [Ha1 Ha2]. destruct (changed_keeps 1 a w t Ha1). split; [auto|]. congruence. }
  split; [exact A|]. split; [exact B|]. split; [exact C|]. cbn [l_body].
  unfold getShapeOfOutput, getNumberOfNeurons, layer_weights in *. destruct (l_body l) as [ns|rs|gs|kd f ns]; cbn [l_body body_weights wf_body] in *; rewrite ?map_length, ?modify_length in *.
  - split; [|exact E]. destruct D as [D1 D2]. split; [exact D1|]. now apply Hp.
  - split; [|exact E]. destruct D as [D1 D2]. split; [exact D1|]. apply modify_Forall; [exact D2|]. intros a [Ha1 Ha2]. destruct (changed_keeps 2 (r_n a) w t Ha1). split; [auto|]. cbn [changed_rec r_n]. congruence.
  - auto.
  - split; [|exact E]. destruct D as [D1 D2]. split; [exact D1|]. destruct kd; cbn [wf_filter] in *; rewrite ?modify_length.
    1,2: destruct D2 as (Q1 & Q2 & Q3); split; [exact Q1|]; split; [exact Q2|]; now apply Hp.
    1,2: destruct D2 as (Q1 & Q2 & Q3 & Q4 & Q5 & Q6); repeat (split; [assumption|]); now apply Hp.
    1,2: destruct D2 as (Q1 & Q2 & Q3 & Q4 & Q5 & ->); repeat (split; [assumption|]); destruct n; reflexivity.
Qed.
Lemma change_chain ls : forall k m l n w t, wf_chain k ls m -> wf_chain k (modify ls l (fun y => @change_weight RNum y n w t)) m.
Proof.
  induction ls as [|a t0 IH]; intros k m l n w t W. { destruct l; exact W. }
  destruct W as (h & W & Wt). destruct l as [|l]; [rewrite modify_0|rewrite modify_S]; (exists h; split; [|auto]); [now apply change_wf|exact W].
Qed.
Lemma error_of (net : @Net RNum) k m x d l n w t : wf_net k m net -> List.length x = k -> m <= List.length d ->
  squared_error (@with_weight_at RNum net l n w t) x d = err_of d (modify (nn_layers net) l (fun y => @change_weight RNum y n w t)) x.
Proof.
  intros [Hne W] Hx Hm. apply (change_chain _ _ _ l n w t) in W. unfold squared_error, net_output, with_weight_at, err_of. cbn [nn_layers nn_opt nn_nan nn_trainings].
  destruct (chain_wf (fun _ l v => @layer_output RNum l v false) (fun i => test_layer_wf false) _ 0 k m x W Hx) as (o & ls' & E & L & _ & _).
  destruct (modify (nn_layers net) l (fun y => @change_weight RNum y n w t)) as [|a b] eqn:Em.
  { exfalso. apply Hne. apply length_zero_iff_nil. rewrite <- (modify_length (nn_layers net) l (fun y => @change_weight RNum y n w t)), Em. reflexivity. }
  change (@F RNum) with R in *. rewrite E. cbn [bind]. apply sqerr_spec. rl.
Qed.

(* ---------- exact arithmetic has no NaN ---------- *)
Lemma uses_nan k (n n' : @Net RNum) : uses k n n' -> nn_nan n' = nn_nan n.
Proof.
  induction 1 as [net|net x reset o net1 net2 Hx E U IH|net rand x reset o net1 net2 Hx E U IH|net x o net1 net2 Hx E U IH|net rand x d reset net1 net2 Hx Hd HT E U IH]; [reflexivity| | | |]; rewrite IH.
  - apply net_output_w in E as (_ & _ & E & _). now rewrite E, anyAbnormal_R, Bool.orb_false_r.
  - apply net_training_w in E as (_ & _ & E & _). now rewrite E, anyAbnormal_R, Bool.orb_false_r.
  - unfold getLayerOutputs in E. destruct (nn_layers net); [discriminate|]. apply bind_Ok_inv in E as ((r & ls) & _ & E). injection E as _ <-. reflexivity.
  - unfold trainOnce, backpropagation in E. apply bind_Ok_inv in E as (n1 & E & Q). injection Q as <-. cbn [nn_nan]. apply bind_Ok_inv in E as ((o & n2) & E1 & E).
    apply net_training_w in E1 as (_ & _ & E1 & _). rewrite anyAbnormal_R, Bool.orb_false_r in E1. rewrite <- E1. destruct (nn_nan n2) eqn:En; [now injection E as <-|]. destruct (nn_layers n2) as [|a t]; [discriminate|].
    apply bind_Ok_inv in E as (? & _ & E). apply bind_Ok_inv in E as ((? & ?) & _ & E). apply bind_Ok_inv in E as (? & _ & E). injection E as <-. reflexivity.
Qed.

(* ---------- the whole network ---------- *)
Lemma kinds_chain o ds : forall s (ls : list RLay) z, @layers_of RNum ds s ls -> @gradient_kinds RNum ds s ls -> Forall (fun x => 0 < x) s -> Forall sane_kernel ds -> List.length z = cell_count s ->
  differentiable ds s ls z -> gchain o ls z.
Proof.
  induction ds as [|d dt IH]; intros s [|l lt] z HL HK Hs Hsane Hz HD; cbn [layers_of gradient_kinds differentiable gchain] in *; try contradiction; auto.
  destruct HL as [HL HLt], HK as [HK HKt], HD as [HT HD]. inversion Hsane as [|? ? S1 S2].
  destruct (kind_good o d s l z HL HK Hs S1 Hz HT) as (val & L & HG & Hp & _). { intros out l1 E. apply (HD out l1 E). }
  exists val, (cell_count (getShapeOfOutput l)), L. split; [exact HG|]. destruct HG as (G1 & _). destruct (G1 z eq_refl) as (Lv & l' & E). apply (IH (getShapeOfOutput l)); auto. apply (HD _ _ E).
Qed.
Lemma kind_neurons (d : @LDesc RNum) s (l : RLay) : @layer_of RNum d s l -> @gradient_kind RNum d s -> Forall (fun x => 0 < x) s -> sane_kernel d -> d_type d <> t_pool ->
  getNumberOfNeurons l = cell_count (getShapeOfOutput l).
Proof.
  intros HL HK Hs Hk Ht. destruct (layer_of_wf d s l HL Hs Hk (kind_supported d s HK Hs)) as (draws & masks & l0 & B & _ & _ & SL & _). destruct (same_layer_shape _ _ SL) as [-> ->]. clear SL.
  unfold getNumberOfNeurons, getShapeOfOutput, getNumberOfNeurons, layer_weights. destruct B; try congruence; cbn [finish l_body body_weights f_shapeOut]; rewrite map_length; unfold cell_count; cbn [fold_left]; try lia.
  - apply build_neurons_inv in H6 as [L _]. lia.
  - apply build_neurons_inv in H7 as [L _]. lia.
  - apply build_neurons_inv in H5 as [L _]. assert (ks = x); [|subst ks; lia].
    destruct HK as [?|?|?|?|s0 C0 X0 _ _ Hsh Hk0|C0 X0 _ _ Hk0|?|?]; try congruence; [|destruct H0 as [H0|[H0 _]]; discriminate].
    assert (E1 : x = X0) by (destruct H0 as [H0|[H0 ?]], Hsh as [Q|[Q ?]]; rewrite H0 in Q; try discriminate; injection Q; intros; subst; auto). subst X0. lia.
  - apply build_neurons_inv in H6 as [L _]. assert (ks = x /\ ks = y) as [-> ->]; [|lia].
    destruct HK as [?|?|?|?|s0 C0 X0 _ _ Hsh Hk0|C0 X0 _ _ Hk0|?|?]; try congruence; [subst s0; destruct Hsh as [Q|[Q _]]; discriminate|]. injection H0 as <- <- <-. lia.
Qed.
Lemma kinds_last ds : forall s (ls : list RLay) a, @layers_of RNum ds s ls -> @gradient_kinds RNum ds s ls -> Forall (fun x => 0 < x) s -> Forall sane_kernel ds ->
  Forall supported_pooling ls -> ds <> [] -> d_type (last ds (Input [])) <> t_pool -> getNumberOfNeurons (last ls a) = cell_count (getShapeOfOutput (last ls a)).
Proof.
  induction ds as [|d dt IH]; intros s ls a HL HK Hs Hsane HP Hne Hp; [congruence|]. destruct ls as [|l lt]; cbn [layers_of gradient_kinds] in HL, HK; [contradiction|].
  destruct HL as [HL HLt], HK as [HK HKt]. inversion Hsane as [|? ? S1 S2]. inversion HP as [|? ? P1 P2].
  destruct dt as [|d2 dt]. { destruct lt; [|contradiction]. cbn [last] in *. eapply kind_neurons; eauto. }
  destruct lt as [|l2 lt]; [contradiction|]. change (last (l :: l2 :: lt) a) with (last (l2 :: lt) a).
  eapply (IH (getShapeOfOutput l)); eauto; [|discriminate].
  destruct (layer_of_wf d s l HL Hs S1 (kind_supported d s HK Hs)) as (draws & masks & l9 & B & _ & W & SL & _). destruct (same_layer_shape _ _ SL) as [-> _].
  assert (G : forall t a, fold_left Nat.mul t a <> 0 -> a <> 0 /\ Forall (fun x => 0 < x) t).
  { clear. induction t as [|x t IHt]; intros a0 Ha; cbn in Ha; [auto|]. apply IHt in Ha as [Ha Ht]. split; [lia|]. constructor; [lia|exact Ht]. }
  apply (G _ 1). assert (0 < cell_count (getShapeOfOutput l9)) by apply W. unfold cell_count in *. lia.
Qed.

(* ================= C67 =================
   The network: any accepted architecture over exact numbers whose layers are of the kinds listed in [gradient_kind] and whose last layer is not a
   maximum, after any history [uses] of outputs and training steps; a point x where the error has a derivative. *)
Section C67.
Variables (draws : nat -> nat -> nat -> nat -> R) (masks : nat -> nat -> nat -> bool) (shape : list nat) (rest : list (@LDesc RNum)) (lr mom : R) (net0 : @Net RNum).
Hypothesis Hnet : @construct RNum draws masks (Input (map Z.of_nat shape) :: rest) lr mom = Ok net0.
Hypothesis Hshape : Forall (fun n => 0 < n) shape.
Hypothesis Hsane : Forall sane_kernel rest.
Hypothesis Hpool : Forall supported_pooling (nn_layers net0).
Hypothesis Hlast : d_type (last rest (Input [])) <> t_pool.

Lemma mixed_all rand net x d reset : uses (cell_count shape) net0 net -> @gradient_kinds RNum rest shape (nn_layers net) -> List.length x = cell_count shape ->
  @net_numberOfOutputs RNum net = Ok (List.length d) -> differentiable rest shape (nn_layers net) x ->
  exists net', @trainOnce RNum rand net x d reset = Ok net' /\ uses (cell_count shape) net0 net' /\
  forall l n u w, @net_unit RNum net l n = Some u -> w < n_in u -> w < List.length (n_w u) /\
  exists u' g, @net_unit RNum net' l n = Some u' /\ n_in u' = n_in u /\ List.length (n_w u') = List.length (n_w u) /\
    derivable_pt_lim (fun t => squared_error (@with_weight_at RNum net l n w t) x d) (nth w (n_w u) 0%R) g /\
    @nth R w (n_w u') 0%R = (nth w (n_w u) 0 + (- (lr * g) + mom * nth w (prow u) 0))%R /\
    @nth R w (prow u') 0%R = (nth w (n_w u') 0 - nth w (n_w u) 0)%R.
Proof.
  intros U HK Hx Hd HD. pose proof (network_layers _ _ _ _ _ _ _ _ Hnet Hshape Hsane Hpool U) as HL.
  assert (Hs : sane_descriptions (Input (map Z.of_nat shape) :: rest)).
  { split; [|exact Hsane]. cbn [d_shape Input]. clear -Hshape. induction Hshape; cbn; constructor; auto; lia. }
  destruct (construct_wf _ _ _ _ _ _ Hnet Hs Hpool) as (k & m & W0 & Hp).
  assert (Ek : k = cell_count shape).
  { cbn [hd d_shape Input] in Hp. unfold product in Hp. apply product_inv in Hp. change 1%Z with (Z.of_nat 1) in Hp. rewrite fold_mul_nat in Hp. apply Nat2Z.inj in Hp. exact Hp. }
  subst k. destruct (uses_wf _ _ _ _ W0 U) as [W SF].
  assert (HP' : Forall supported_pooling (nn_layers net)).
  { clear -SF Hpool. induction SF as [|a b t t' (_ & SK & _) _ IH]; constructor; inversion Hpool as [|? ? P1 P2]; [|auto]. unfold supported_pooling in *.
    destruct (l_body a), (l_body b); try exact I; try (destruct SK as [_ SK]; contradiction). destruct SK as (_ & -> & ->). destruct f; exact P1. }
  assert (Hne : rest <> []). { intros ->. destruct W as [Wn _]. destruct (nn_layers net); [congruence|exact HL]. }
  destruct (nn_layers net) as [|l0 t0] eqn:El; [destruct W as [Wn _]; congruence|].
  pose proof (kinds_last rest shape (l0 :: t0) l0 HL HK Hshape Hsane HP' Hne Hlast) as HN.
  assert (Hlw : exists k', wf_layer k' (last (l0 :: t0) l0) m). { destruct W as [_ W]. rewrite El in W. destruct (wf_chain_last _ _ _ _ W) as (k' & Wl). exists k'. rewrite last_cons. exact Wl. }
  destruct Hlw as (k' & Hlw). assert (Em : m = cell_count (getShapeOfOutput (last (l0 :: t0) l0))) by apply Hlw.
  assert (Edl : List.length d = m).
  { unfold net_numberOfOutputs in Hd. rewrite El in Hd. rewrite (lget_last l0 t0) in Hd. cbn [bind] in Hd. injection Hd as Hd. change (@F RNum) with R in *. rewrite <- Hd, Em, <- HN. now rewrite last_cons. }
  pose proof (construct_inv _ _ _ _ _ _ Hnet) as (d0 & r & _ & _ & _ & _ & _ & E0).
  assert (Eo : nn_opt net = @mkSGD RNum lr mom) by (rewrite (uses_opt _ _ _ U), E0; reflexivity). assert (En : nn_nan net = false) by (rewrite (uses_nan _ _ _ U), E0; reflexivity).
  destruct (mixed_step rand net x d reset l0 t0 El En) as (net' & E & _ & _ & HS).
  - eapply kinds_chain; eauto.
  - intros o ls Ec. destruct W as [_ W]. rewrite El in W. destruct (chain_wf (fun _ l v => @layer_output RNum l v false) (fun i => test_layer_wf false) _ 0 _ m x W Hx) as (o' & ls' & E' & L & _ & _).
    change (@F RNum) with R in *. rewrite E' in Ec. injection Ec as <- _. rl.
  - exists net'. split; [exact E|]. split.
    { eapply uses_trans; [exact U|]. eapply uses_train; eauto; [|apply uses_none]. unfold trainable. rewrite El. destruct t0 as [|b t0]; [exact I|]. left. rewrite last_cons in HN. exact HN. }
    intros l n u w Hu Hw. unfold net_unit in Hu. rewrite El in Hu. destruct (nth_error (l0 :: t0) l) as [lay|] eqn:Ea; [|discriminate]. rewrite El in HS.
    destruct (HS l lay n u w Ea Hu Hw) as (Lw & lay' & u' & G & Ha' & Hu' & L1 & L2 & HG & H1 & H2). split; [exact Lw|]. exists u', G. split. { unfold net_unit. now rewrite Ha'. }
    split; [exact L2|]. split; [exact L1|]. rewrite Eo in H1. cbn [o_lr o_m] in H1. split; [|split; [exact H1|exact H2]].
    eapply derivable_pt_lim_ext; [|exact HG]. intros t. symmetry. rewrite <- El. eapply error_of; [exact W|exact Hx|rl].
Qed.
End C67.

(* Without momentum: every weight of every neuron (the bias and recurrent weights: C23, C68) moves by minus the learning rate times the derivative of the
   squared error with respect to it. *)
Theorem C67_step_is_gradient_descent : forall draws masks shape (rest : list (@LDesc RNum)) (lr : R) (net0 net : @Net RNum) rand x d reset,
  @construct RNum draws masks (Input (map Z.of_nat shape) :: rest) lr 0%R = Ok net0 ->
  Forall (fun n => 0 < n) shape -> Forall sane_kernel rest -> Forall supported_pooling (nn_layers net0) -> d_type (last rest (Input [])) <> t_pool ->
  uses (cell_count shape) net0 net -> @gradient_kinds RNum rest shape (nn_layers net) -> List.length x = cell_count shape -> @net_numberOfOutputs RNum net = Ok (List.length d) ->
  differentiable rest shape (nn_layers net) x ->
  exists net', @trainOnce RNum rand net x d reset = Ok net' /\
  forall l n u w, @net_unit RNum net l n = Some u -> w < n_in u ->
  exists u' old new g, @net_unit RNum net' l n = Some u' /\ nth_error (n_w u) w = Some old /\ nth_error (n_w u') w = Some new /\
    derivable_pt_lim (fun t => squared_error (@with_weight_at RNum net l n w t) x d) old g /\ new = (old - lr * g)%R.
Proof.
  intros draws masks shape rest lr net0 net rand x d reset Hnet Hs Hsane Hp Hlast U HK Hx Hd HD. change (@F RNum) with R in *.
  destruct (mixed_all draws masks shape rest lr 0%R net0 Hnet Hs Hsane Hp Hlast rand net x d reset U HK Hx Hd HD) as (net' & E & _ & H). exists net'. split; [exact E|].
  intros l n u w Hu Hw. destruct (H l n u w Hu Hw) as (Lw & u' & g & Hu' & _ & L & HG & H1 & _). exists u', (nth w (n_w u) 0%R), (nth w (n_w u') 0%R), g.
  split; [exact Hu'|]. split; [apply nth_error_nth'; exact Lw|]. split; [apply nth_error_nth'; rl|]. split; [exact HG|]. eapply eq_trans; [exact H1|]. ring.
Qed.
Print Assumptions C67_step_is_gradient_descent.

(* With momentum: the second of two steps in a row adds momentum times the move of the first one. *)
Theorem C67_momentum_step : forall draws masks shape (rest : list (@LDesc RNum)) (lr mom : R) (net0 net net1 : @Net RNum) rand x d reset rand1 x1 d1 reset1,
  @construct RNum draws masks (Input (map Z.of_nat shape) :: rest) lr mom = Ok net0 ->
  Forall (fun n => 0 < n) shape -> Forall sane_kernel rest -> Forall supported_pooling (nn_layers net0) -> d_type (last rest (Input [])) <> t_pool ->
  uses (cell_count shape) net0 net -> @gradient_kinds RNum rest shape (nn_layers net) -> List.length x = cell_count shape -> @net_numberOfOutputs RNum net = Ok (List.length d) ->
  differentiable rest shape (nn_layers net) x -> @trainOnce RNum rand net x d reset = Ok net1 ->
  @gradient_kinds RNum rest shape (nn_layers net1) -> List.length x1 = cell_count shape -> @net_numberOfOutputs RNum net1 = Ok (List.length d1) -> differentiable rest shape (nn_layers net1) x1 ->
  exists net2, @trainOnce RNum rand1 net1 x1 d1 reset1 = Ok net2 /\
  forall l n u w, @net_unit RNum net l n = Some u -> w < n_in u ->
  exists u1 u2 w0 w1 w2 g, @net_unit RNum net1 l n = Some u1 /\ @net_unit RNum net2 l n = Some u2 /\
    nth_error (n_w u) w = Some w0 /\ nth_error (n_w u1) w = Some w1 /\ nth_error (n_w u2) w = Some w2 /\
    derivable_pt_lim (fun t => squared_error (@with_weight_at RNum net1 l n w t) x1 d1) w1 g /\ (w2 - w1 = - (lr * g) + mom * (w1 - w0))%R.
Proof.
  intros draws masks shape rest lr mom net0 net net1 rand x d reset rand1 x1 d1 reset1 Hnet Hs Hsane Hp Hlast U HK Hx Hd HD E1 HK1 Hx1 Hd1 HD1. change (@F RNum) with R in *.
  destruct (mixed_all draws masks shape rest lr mom net0 Hnet Hs Hsane Hp Hlast rand net x d reset U HK Hx Hd HD) as (net' & E & U1 & H). rewrite E1 in E. injection E as <-.
  destruct (mixed_all draws masks shape rest lr mom net0 Hnet Hs Hsane Hp Hlast rand1 net1 x1 d1 reset1 U1 HK1 Hx1 Hd1 HD1) as (net2 & E2 & _ & H'). exists net2. split; [exact E2|].
  intros l n u w Hu Hw. destruct (H l n u w Hu Hw) as (Lw & u1 & g & Hu1 & Ln & L & _ & _ & HP). destruct (H' l n u1 w Hu1) as (Lw1 & u2 & g2 & Hu2 & _ & L2 & HG & H1 & _); [rl|].
  exists u1, u2, (nth w (n_w u) 0%R), (nth w (n_w u1) 0%R), (nth w (n_w u2) 0%R), g2. split; [exact Hu1|]. split; [exact Hu2|].
  split; [apply nth_error_nth'; exact Lw|]. split; [apply nth_error_nth'; exact Lw1|]. split; [apply nth_error_nth'; rl|]. split; [exact HG|]. rewrite HP in H1. change (@F RNum) with R in *. rewrite H1. ring.
Qed.
Print Assumptions C67_momentum_step.

(* ---------- the hypotheses are met ---------- *)
Lemma valid_some (n : @Neuron RNum) (b : R) : (-1 <= b <= 1)%R -> n_bias n = b -> n_w n <> [] -> (List.length (n_w n) < 1000)%nat -> Forall (fun w => w = 1)%R (n_w n) -> neuron_isValid n = 0%Z.
Proof.
  intros Hr Hb Hw HL HF. unfold neuron_isValid. rewrite Hb. unfold fgtb. rewrite !RNum_fofZ. cbn [fltb RNum]. unfold Rltb.
  destruct (Rlt_dec b (-100000)); [lra|]. destruct (Rlt_dec 10000 b); [lra|]. cbn [orb]. destruct (n_w n) as [|w t] eqn:E; [congruence|]. rewrite <- E in *.
  destruct (Nat.eqb_spec (List.length (n_w n)) 0) as [H0|_]; [rewrite E in H0; discriminate|]. destruct (Z.ltb_spec 1000000 (Z.of_nat (List.length (n_w n)))); [lia|]. cbn [orb].
  replace (existsb _ (n_w n)) with false; [reflexivity|]. symmetry. apply Bool.not_true_is_false. intros H1. apply existsb_exists in H1 as (x & Hx & H1). rewrite Forall_forall in HF. rewrite (HF x Hx) in H1.
  destruct (Rlt_dec 1 (-100000)); [lra|]. destruct (Rlt_dec 10000 1); [lra|]. discriminate.
Qed.
(* 4 inputs, maximum over pairs, one filter over both, one recurrent neuron, one sigmoid; every weight drawn as 1 *)
Definition mix_rest : list (@LDesc RNum) := [@MaxPooling RNum 2; @Convolution RNum 1 2 a_identity []; @Recurrence RNum 1 a_tanh []; @FullyConnected RNum 1 a_sigmoid []].
Definition mix_conv : RNeu := @mkNeuron RNum 2 1 [1; 1; Rabs 1]%R (1 / 1000)%R (circ_init 1 3) (circ_init 1 2) (repeat fzero 2) fzero a_identity.
Definition mix_rec : RNeu := @mkNeuron RNum 1 1 [1; 1; Rabs 1]%R fone (circ_init 1 3) (circ_init 1 1) (repeat fzero 1) fzero a_tanh.
Definition mix_out : RNeu := @mkNeuron RNum 1 1 [1; Rabs 1]%R fone (circ_init 1 2) (circ_init 1 1) (repeat fzero 1) fzero a_sigmoid.
Definition mix_layers : list RLay :=
  [@mkLayer RNum 4 (BFilter Pool1D (mkFilter 1 2 0 0 2 2 [1; 4] [1; 2] [[0%Z; 1%Z]; [2%Z; 3%Z]] 2 [0%Z; 0%Z]) []) [];
   @mkLayer RNum 2 (BFilter Conv1D (mkFilter 1 1 1 1 2 2 [1; 2] [1; 1] [[0%Z; 1%Z]] 0 []) [mix_conv]) [];
   @mkLayer RNum 1 (BRec [@mkRNeuron RNum mix_rec fzero fzero fzero fzero]) [];
   @mkLayer RNum 1 (BFull [mix_out]) []].
Definition mix_net (lr mom : R) : @Net RNum := @mkNet RNum mix_layers (@mkSGD RNum lr mom) false 0.
Lemma ones_valid (n : @Neuron RNum) b : n_bias n = b -> (-1 <= b <= 1)%R -> (n_w n = [1; 1; Rabs 1]%R \/ n_w n = [1; Rabs 1]%R) -> neuron_isValid n = 0%Z.
Proof.
  intros Hb Hr Hw. rewrite Rabs_R1 in Hw. apply (valid_some n b Hr Hb); destruct Hw as [-> | ->]; cbn [List.length]; try discriminate; try lia; repeat constructor.
Qed.
Lemma mix_built (lr mom : R) : (0 < lr < 1)%R -> (0 <= mom < 1)%R -> @construct RNum (fun _ _ _ _ => 1%R) (fun _ _ _ => true) (Input (map Z.of_nat [4]) :: mix_rest) lr mom = Ok (mix_net lr mom).
Proof.
  intros Hl Hm. unfold construct. replace (@build_all RNum (fun _ _ _ _ => 1%R) (fun _ _ _ => true) (Input (map Z.of_nat [4]) :: mix_rest)) with (Ok mix_layers) by reflexivity. cbn [bind].
  assert (V1 : neuron_isValid mix_conv = 0%Z) by (apply (ones_valid mix_conv (1 / 1000)%R eq_refl); [lra|auto]).
  assert (H3 : (-1 <= @fone RNum <= 1)%R) by (replace (@fone RNum) with (1 / 1)%R by reflexivity; lra).
  assert (V2 : neuron_isValid mix_rec = 0%Z) by (apply (ones_valid mix_rec (@fone RNum) eq_refl H3); auto).
  assert (V3 : neuron_isValid mix_out = 0%Z) by (apply (ones_valid mix_out (@fone RNum) eq_refl H3); auto).
  assert (E : @net_isValid RNum (@mkNet RNum mix_layers (@mkSGD RNum lr mom) false 0) = (if negb (sgd_isValid (@mkSGD RNum lr mom) =? 0)%Z then Ok (sgd_isValid (@mkSGD RNum lr mom)) else Ok (firstError [0%Z; neurons_isValid [neuron_isValid mix_conv]; neurons_isValid [neuron_isValid mix_rec]; neurons_isValid [neuron_isValid mix_out]]))) by reflexivity.
  assert (V4 : sgd_isValid (@mkSGD RNum lr mom) = 0%Z). { unfold sgd_isValid, fgeb, fleb, fgtb, fltb. cbn. unfold Rleb, Rltb. destruct (Rle_dec lr (0 / 1)); [lra|]. destruct (Rle_dec (1 / 1) lr); [lra|]. destruct (Rlt_dec mom (0 / 1)); [lra|]. destruct (Rlt_dec (1 / 1) mom); [lra|]. reflexivity. }
  change (@F RNum) with R in *. rewrite E, V1, V2, V3, V4. reflexivity.
Qed.
(* any state of a layer whose activations are smooth everywhere *)
Lemma acts_smooth (l : RLay) (v : list R) (o : list R) l1 : @layer_output RNum l v false = Ok (o, l1) -> Forall (fun p => fst p <> a_iSigmoid /\ fst p <> a_ReLU) (settings (l_body l)) ->
  forall n u, @unit_at RNum l1 n = Some u -> smooth_unit u.
Proof.
  intros E H n u Hu. unfold layer_output in E. apply bind_Ok_inv in E as ([a b] & Eb & E). apply bind_Ok_inv in E as (? & _ & E). injection E as _ <-. apply body_output_set in Eb. rewrite <- Eb in H.
  assert (G : In (nset u) (settings b)).
  { unfold unit_at in Hu. cbn [l_body] in Hu. destruct b as [ns|rs|gs|kd f ns]; cbn [settings].
    - apply in_map. now apply nth_error_In in Hu.
    - destruct (nth_error rs n) as [r|] eqn:En; [|discriminate]. injection Hu as <-. apply (in_map (fun r => nset (r_n r))). now apply nth_error_In in En.
    - discriminate.
    - apply in_map. now apply nth_error_In in Hu. }
  rewrite Forall_forall in H. destruct (H _ G) as [A B]. split; [exact A|]. intros C. contradiction.
Qed.
Example C67_hypotheses_met : forall lr mom : R, (0 < lr < 1)%R -> (0 <= mom < 1)%R -> let net := mix_net lr mom in
  @construct RNum (fun _ _ _ _ => 1%R) (fun _ _ _ => true) (Input (map Z.of_nat [4]) :: mix_rest) lr mom = Ok net /\
  Forall (fun n => 0 < n) [4] /\ Forall sane_kernel mix_rest /\ Forall supported_pooling (nn_layers net) /\ d_type (last mix_rest (Input [])) <> t_pool /\
  uses (cell_count [4]) net net /\ @gradient_kinds RNum mix_rest [4] (nn_layers net) /\ List.length [1; 2; 3; 4]%R = cell_count [4] /\ @net_numberOfOutputs RNum net = Ok (List.length [1%R]) /\
  differentiable mix_rest [4] (nn_layers net) [1; 2; 3; 4]%R /\ exists u, @net_unit RNum net 1 0 = Some u /\ 0 < n_in u.
Proof.
  intros lr mom Hl Hm net. split; [now apply mix_built|]. split; [repeat constructor|]. split; [repeat constructor; unfold sane_kernel; cbn; lia|]. split; [repeat constructor|]. split; [discriminate|].
  split; [apply uses_none|]. split.
  { cbn [gradient_kinds mix_rest net mix_net mix_layers nn_layers getShapeOfOutput l_body f_shapeOut]. split; [apply (gk_pool1 _ _ 4); auto|]. split; [apply (gk_conv1 _ _ 1 2); auto|]. split; [apply gk_rec; auto|]. split; [apply gk_full; auto|exact I]. }
  split; [reflexivity|]. split; [reflexivity|]. split; [|eexists; split; [reflexivity|cbn; lia]].
  cbn [differentiable mix_rest net mix_net mix_layers nn_layers getShapeOfOutput l_body f_shapeOut]. split.
  { intros _ k Hk. cbn [d_ksize MaxPooling] in Hk. assert (k = 2) by lia. subst k. split.
    - intros X p Hs Hp. destruct Hs as [Hs|Hs]; [discriminate|]. injection Hs as <-. assert (p < 2) by exact Hp. exists (2 * p + 1). split; [split; [lia|]; exists 1; lia|].
      intros i (_ & dx & Hdx & ->) Hne. assert (dx = 0) by lia. subst dx. destruct p as [|[|p]]; [..|lia]; cbn [nth Nat.mul Nat.add]; lra.
    - intros; discriminate. }
  intros o1 l1 E1. split; [eapply acts_smooth; [exact E1|constructor]|]. split; [discriminate|].
  intros o2 l2 E2. split; [eapply acts_smooth; [exact E2|repeat constructor; discriminate]|]. split; [discriminate|].
  intros o3 l3 E3. split; [eapply acts_smooth; [exact E3|repeat constructor; discriminate]|]. split; [discriminate|].
  intros o4 l4 E4. split; [eapply acts_smooth; [exact E4|repeat constructor; discriminate]|exact I].
Qed.
