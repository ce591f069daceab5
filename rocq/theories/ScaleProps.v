(* C69: training with dropouts and error multipliers follows the gradient of the training pass. *)
From Coq Require Import Reals Lra.
From Coquelicot Require Import Coquelicot.
From Verif Require Import Base Num NumOrder ActModel ActProofs NeuronModel LayerModel NetModel NetSpec NeuronProofs LayerProofs SafeProofs GradProofs DenseProofs SafeLayers FactoryModel FactorySpec FactoryProofs SafeNet BuildProofs FilterSpec FilterProofs HistProofs FilterProps FactoryProps LOptSpec LOptProps BackSpec BackProps PureProps SummaryProps RecTrainSpec MixSpec MixProofs MixLayers MixKinds MixRec MixFilter MixPool MixBuilt MixProps ScaleSpec ScaleProofs ScaleChain.
Local Open Scope nat_scope.

Lemma opts_scaling (ds : list (@odesc RNum)) masks n (os : list (@LOpt RNum)) : Forall scaling ds -> forall i, Forall2 same_opt (map (fun p => build_opt (masks (fst p)) n (snd p)) (combine (seq i (List.length ds)) ds)) os ->
  Forall scaling_opt os /\ pm os = fold_right (fun o m => (factor o * m)%R) 1%R ds.
Proof.
  intros H. revert os. induction H as [|d t Hd _ IH]; intros os i HF; cbn [List.length seq combine map fold_right] in *; inversion HF as [|a b ta tb Hab Htt]; subst; [split; [constructor|reflexivity]|].
  destruct (IH _ _ Htt) as [I1 I2]. destruct d; cbn [scaling] in Hd; try contradiction; cbn [build_opt snd same_opt] in Hab.
  - destruct b; try discriminate. cbn [pm factor]. split; [constructor; [exact I|exact I1]|]. rewrite I2. lra.
  - subst b. cbn [pm factor]. split; [constructor; [exact I|exact I1]|]. rewrite I2. reflexivity.
Qed.
Lemma kind_no_gru (d : @LDesc RNum) s (l : RLay) : @layer_of RNum d s l -> @gradient_kind RNum d s -> Forall (fun x => 0 < x) s -> sane_kernel d -> no_gru (l_body l).
Proof.
  intros HL HK Hs Hk. destruct (layer_of_wf d s l HL Hs Hk (kind_supported d s HK Hs)) as (draws & masks & l0 & B & _ & _ & (_ & SK & _) & _).
  assert (T : d_type d <> t_gru) by (destruct HK; congruence). destruct B; try congruence; cbn [finish l_body] in SK; destruct (l_body l); try exact I; destruct SK as [_ SK]; contradiction.
Qed.
Lemma scaled_layer o rand reset (d : @LDesc RNum) s (l : RLay) z : @layer_of RNum d s l -> @gradient_kind RNum (without_opts d) s -> Forall scaling (d_opts d) -> Forall (fun x => 0 < x) s -> sane_kernel d -> List.length z = cell_count s ->
  no_ties d s z -> (forall v l1, @layer_outputForTraining RNum rand l z reset = Ok (v, l1) -> forall n u, @unit_at RNum l1 n = Some u -> smooth_unit u) ->
  (exists val L, tgood o rand reset (layer_multiplier d) l z val (cell_count (getShapeOfOutput l)) L) /\ Forall (fun x => 0 < x) (getShapeOfOutput l).
Proof.
  intros HL HK HS Hs Hk Hz HT HO. pose proof (bare_of d s l HL) as HB. assert (Hg : no_gru (l_body l)) by exact (kind_no_gru (without_opts d) s (bare l) HB HK Hs Hk).
  assert (HP : forall draws masks l0, @built RNum draws masks d s l0 -> supported_pooling l0).
  { intros draws masks l0 B. assert (Q := kind_supported (without_opts d) s HK Hs draws masks (bare l0)). apply Q. clear -B. destruct B; try (econstructor; eassumption). }
  destruct (opts_state d s l HL Hs Hk HP) as (masks & HF). destruct (opts_scaling _ _ _ _ HS 0 HF) as [S1 S2].
  assert (OS : out_smooth (bare l) z).
  { intros v l1 E n u Hu. destruct (bare_reset rand l z reset v l1 Hg E) as (l2 & E2 & HU). destruct (training_of_bare rand l z reset v l2 S1 E2) as (E3 & Eb). apply (HO _ _ E3 n u). rewrite <- Hu, <- HU. rewrite Eb at 2. reflexivity. }
  destruct (kind_good o (without_opts d) s (bare l) z HB HK Hs Hk Hz HT OS) as (val & L & G & Hso & _). split; [|exact Hso].
  assert (T := tgood_of o rand reset l z val _ L Hg S1 G). cbv zeta in T. rewrite S2 in T. eauto.
Qed.
Lemma scaled_chain o rand reset ds : forall i s (ls : list RLay) z, @layers_of RNum ds s ls -> @scaled_kinds RNum ds s ls -> Forall (fun x => 0 < x) s -> Forall sane_kernel ds -> List.length z = cell_count s ->
  differentiable_training rand reset i ds s ls z -> tgchain rand reset o i ls (map layer_multiplier ds) z.
Proof.
  induction ds as [|d dt IH]; intros i s [|l lt] z HL HK Hs Hsane Hz HD; cbn [layers_of scaled_kinds differentiable_training tgchain map] in *; try contradiction; auto.
  destruct HL as [HL HLt], HK as (HK & HS & HKt), HD as [HT HD]. inversion Hsane as [|? ? S1 S2].
  destruct (scaled_layer o (rand i) reset d s l z HL HK HS Hs S1 Hz HT) as ((val & L & G) & Hso). { intros v l1 E. apply (HD v l1 E). }
  exists val, (cell_count (getShapeOfOutput l)), L. split; [exact G|]. destruct G as (G1 & _). destruct (G1 z eq_refl) as (Lv & l' & E). apply (IH (S i) (getShapeOfOutput l)); auto. apply (HD _ _ E).
Qed.
Lemma bare_layers (ds : list (@LDesc RNum)) : forall s ls, @layers_of RNum ds s ls -> @scaled_kinds RNum ds s ls -> @layers_of RNum (map without_opts ds) s (map bare ls) /\ @gradient_kinds RNum (map without_opts ds) s (map bare ls).
Proof.
  induction ds as [|d dt IH]; intros s [|l lt] HL HK; cbn [layers_of scaled_kinds gradient_kinds map] in *; try contradiction; auto. destruct HL as [HL HLt], HK as (HK & _ & HKt). destruct (IH _ _ HLt HKt) as [A B].
  split; (split; [|assumption]); [exact (bare_of d s l HL)|exact HK].
Qed.
Lemma last_map {A B} (f : A -> B) (l : list A) a : last (map f l) (f a) = f (last l a).
Proof. induction l as [|x [|y t] IH]; [reflexivity|reflexivity|]. exact IH. Qed.
Lemma training_error_of rand reset (net : @Net RNum) k m x d l n w t : wf_net k m net -> List.length x = k -> m <= List.length d ->
  training_error rand (@with_weight_at RNum net l n w t) x d reset = terr rand reset 0 d (modify (nn_layers net) l (fun y => @change_weight RNum y n w t)) x.
Proof.
  intros [Hne W] Hx Hm. apply (change_chain _ _ _ l n w t) in W. unfold training_error, net_outputForTraining, with_weight_at, terr. cbn [nn_layers nn_opt nn_nan nn_trainings].
  destruct (chain_wf (fun i l v => @layer_outputForTraining RNum (rand i) l v reset) (fun i => training_layer_wf (rand i) reset) _ 0 k m x W Hx) as (o & ls' & E & L & _ & _).
  destruct (modify (nn_layers net) l (fun y => @change_weight RNum y n w t)) as [|a b] eqn:Em.
  { exfalso. apply Hne. apply length_zero_iff_nil. rewrite <- (modify_length (nn_layers net) l (fun y => @change_weight RNum y n w t)), Em. reflexivity. }
  change (@F RNum) with R in *. rewrite E. cbn [bind]. apply sqerr_spec. rl.
Qed.

Lemma scaled_all : forall draws masks shape (rest : list (@LDesc RNum)) (lr mom : R) (net0 : @Net RNum),
  @construct RNum draws masks (Input (map Z.of_nat shape) :: rest) lr mom = Ok net0 ->
  Forall (fun n => 0 < n) shape -> Forall sane_kernel rest -> Forall supported_pooling (nn_layers net0) -> d_type (last rest (Input [])) <> t_pool -> forall rand (net : @Net RNum) x d reset,
  uses (cell_count shape) net0 net -> @scaled_kinds RNum rest shape (nn_layers net) -> List.length x = cell_count shape -> @net_numberOfOutputs RNum net = Ok (List.length d) ->
  differentiable_training rand reset 0 rest shape (nn_layers net) x ->
  exists net', @trainOnce RNum rand net x d reset = Ok net' /\ uses (cell_count shape) net0 net' /\
  forall l n u w, @net_unit RNum net l n = Some u -> w < n_in u -> w < List.length (n_w u) /\
  exists u' g, @net_unit RNum net' l n = Some u' /\ n_in u' = n_in u /\ List.length (n_w u') = List.length (n_w u) /\
    derivable_pt_lim (fun t => training_error rand (@with_weight_at RNum net l n w t) x d reset) (nth w (n_w u) 0%R) g /\
    @nth R w (n_w u') 0%R = (nth w (n_w u) 0 + (- (lr * (multiplier (skipn l rest) * g)) + mom * nth w (prow u) 0))%R /\
    @nth R w (prow u') 0%R = (nth w (n_w u') 0 - nth w (n_w u) 0)%R.
Proof.
  intros draws masks shape rest lr mom net0 Hnet Hshape Hsane Hpool Hlast rand net x d reset U HK Hx Hd HD. change (@F RNum) with R in *.
  pose proof (network_layers _ _ _ _ _ _ _ _ Hnet Hshape Hsane Hpool U) as HL.
  assert (Hs : sane_descriptions (Input (map Z.of_nat shape) :: rest)).
  { split; [|exact Hsane]. cbn [d_shape Input]. clear -Hshape. induction Hshape; cbn; constructor; auto; lia. }
  destruct (construct_wf _ _ _ _ _ _ Hnet Hs Hpool) as (k & m & W0 & Hp).
  assert (Ek : k = cell_count shape).
  { cbn [hd d_shape Input] in Hp. unfold product in Hp. apply product_inv in Hp. change 1%Z with (Z.of_nat 1) in Hp. rewrite fold_mul_nat in Hp. apply Nat2Z.inj in Hp. exact Hp. }
  subst k. destruct (uses_wf _ _ _ _ W0 U) as [W SF].
  assert (HP' : Forall supported_pooling (map bare (nn_layers net))).
  { clear -SF Hpool. induction SF as [|a b t t' (_ & SK & _) _ IH]; constructor; inversion Hpool as [|? ? P1 P2]; [|auto]. unfold supported_pooling in *. cbn [bare l_body].
    destruct (l_body a), (l_body b); try exact I; try (destruct SK as [_ SK]; contradiction). destruct SK as (_ & -> & ->). destruct f; exact P1. }
  assert (Hne : rest <> []). { intros ->. destruct W as [Wn _]. destruct (nn_layers net); [congruence|exact HL]. }
  destruct (bare_layers _ _ _ HL HK) as [HLb HKb].
  destruct (nn_layers net) as [|l0 t0] eqn:El; [destruct W as [Wn _]; congruence|].
  assert (HN : getNumberOfNeurons (last (l0 :: t0) l0) = cell_count (getShapeOfOutput (last (l0 :: t0) l0))).
  { assert (Q := kinds_last (map without_opts rest) shape (map bare (l0 :: t0)) (bare l0) HLb HKb Hshape). rewrite (last_map bare) in Q. apply Q; auto.
    - apply Forall_map. exact Hsane.
    - destruct rest; [congruence|discriminate].
    - change (Input []) with (@without_opts RNum (Input [])). rewrite (last_map without_opts). exact Hlast. }
  assert (Hlw : exists k', wf_layer k' (last (l0 :: t0) l0) m). { destruct W as [_ W]. rewrite El in W. destruct (wf_chain_last _ _ _ _ W) as (k' & Wl). exists k'. rewrite last_cons. exact Wl. }
  destruct Hlw as (k' & Hlw). assert (Em : m = cell_count (getShapeOfOutput (last (l0 :: t0) l0))) by apply Hlw.
  assert (Edl : List.length d = m).
  { unfold net_numberOfOutputs in Hd. rewrite El in Hd. rewrite (lget_last l0 t0) in Hd. cbn [bind] in Hd. injection Hd as Hd. rewrite <- Hd, Em, <- HN. now rewrite last_cons. }
  pose proof (construct_inv _ _ _ _ _ _ Hnet) as (d0 & r & _ & _ & _ & _ & _ & E0).
  assert (Eo : nn_opt net = @mkSGD RNum lr mom) by (rewrite (uses_opt _ _ _ U), E0; reflexivity). assert (En : nn_nan net = false) by (rewrite (uses_nan _ _ _ U), E0; reflexivity).
  destruct (tmixed_step rand reset _ net x d l0 t0 (map layer_multiplier rest) Eo El En) as (net' & E & HS).
  - eapply scaled_chain; eauto.
  - intros o ls Ec. destruct W as [_ W]. rewrite El in W. destruct (chain_wf (fun i l v => @layer_outputForTraining RNum (rand i) l v reset) (fun i => training_layer_wf (rand i) reset) _ 0 _ m x W Hx) as (o' & ls' & E' & L & _ & _).
    change (@F RNum) with R in *. rewrite E' in Ec. injection Ec as <- _. rl.
  - exists net'. split; [exact E|]. split.
    { eapply uses_trans; [exact U|]. eapply uses_train; eauto; [|apply uses_none]. unfold trainable. rewrite El. destruct t0 as [|b t0]; [exact I|]. left. rewrite last_cons in HN. exact HN. }
    intros l n u w Hu Hw. unfold net_unit in Hu. rewrite El in Hu. destruct (nth_error (l0 :: t0) l) as [lay|] eqn:Ea; [|discriminate]. rewrite El in HS.
    destruct (HS l lay n u w Ea Hu Hw) as (Lw & lay' & u' & G & Ha' & Hu' & L1 & L2 & HG & H1 & H2). split; [exact Lw|]. exists u', G. split. { unfold net_unit. now rewrite Ha'. }
    split; [exact L2|]. split; [exact L1|]. split; [|split].
    + eapply derivable_pt_lim_ext; [|exact HG]. intros t. symmetry. rewrite <- El. eapply training_error_of; [exact W|exact Hx|rl].
    + assert (Q : prodR (skipn l (map layer_multiplier rest)) = multiplier (skipn l rest)). { clear. rewrite skipn_map. generalize (skipn l rest). intros t. induction t as [|a t IH]; [reflexivity|]. cbn [map multiplier fold_right prodR]. unfold prodR, multiplier in *. rewrite IH. reflexivity. }
      eapply eq_trans; [exact H1|]. cbn [o_lr o_m]. rewrite Q. reflexivity.
    + exact H2.
Qed.

(* Without momentum: the weight of every input of every neuron of layer l moves by minus the learning rate times the product of the error multipliers of this
   layer and of the next ones times the derivative of the squared error of the training pass: the outputs with the neurons dropped that this very pass drops. *)
Theorem C69_scaled_step : forall draws masks shape (rest : list (@LDesc RNum)) (lr : R) (net0 net : @Net RNum) rand x d reset,
  @construct RNum draws masks (Input (map Z.of_nat shape) :: rest) lr 0%R = Ok net0 ->
  Forall (fun n => 0 < n) shape -> Forall sane_kernel rest -> Forall supported_pooling (nn_layers net0) -> d_type (last rest (Input [])) <> t_pool ->
  uses (cell_count shape) net0 net -> @scaled_kinds RNum rest shape (nn_layers net) -> List.length x = cell_count shape -> @net_numberOfOutputs RNum net = Ok (List.length d) ->
  differentiable_training rand reset 0 rest shape (nn_layers net) x ->
  exists net', @trainOnce RNum rand net x d reset = Ok net' /\
  forall l n u w, @net_unit RNum net l n = Some u -> w < n_in u ->
  exists u' old new g, @net_unit RNum net' l n = Some u' /\ nth_error (n_w u) w = Some old /\ nth_error (n_w u') w = Some new /\
    derivable_pt_lim (fun t => training_error rand (@with_weight_at RNum net l n w t) x d reset) old g /\ new = (old - lr * (multiplier (skipn l rest) * g))%R.
Proof.
  intros draws masks shape rest lr net0 net rand x d reset Hnet Hs Hsane Hp Hlast U HK Hx Hd HD. change (@F RNum) with R in *.
  destruct (scaled_all draws masks shape rest lr 0%R net0 Hnet Hs Hsane Hp Hlast rand net x d reset U HK Hx Hd HD) as (net' & E & _ & H). exists net'. split; [exact E|].
  intros l n u w Hu Hw. destruct (H l n u w Hu Hw) as (Lw & u' & g & Hu' & _ & L & HG & H1 & _). exists u', (nth w (n_w u) 0%R), (nth w (n_w u') 0%R), g.
  split; [exact Hu'|]. split; [apply nth_error_nth'; exact Lw|]. split; [apply nth_error_nth'; rl|]. split; [exact HG|]. eapply eq_trans; [exact H1|]. ring.
Qed.
Print Assumptions C69_scaled_step.

(* With momentum: the second of two steps in a row adds momentum times the move of the first one. *)
Theorem C69_scaled_momentum_step : forall draws masks shape (rest : list (@LDesc RNum)) (lr mom : R) (net0 net net1 : @Net RNum) rand x d reset rand1 x1 d1 reset1,
  @construct RNum draws masks (Input (map Z.of_nat shape) :: rest) lr mom = Ok net0 ->
  Forall (fun n => 0 < n) shape -> Forall sane_kernel rest -> Forall supported_pooling (nn_layers net0) -> d_type (last rest (Input [])) <> t_pool ->
  uses (cell_count shape) net0 net -> @scaled_kinds RNum rest shape (nn_layers net) -> List.length x = cell_count shape -> @net_numberOfOutputs RNum net = Ok (List.length d) ->
  differentiable_training rand reset 0 rest shape (nn_layers net) x -> @trainOnce RNum rand net x d reset = Ok net1 ->
  @scaled_kinds RNum rest shape (nn_layers net1) -> List.length x1 = cell_count shape -> @net_numberOfOutputs RNum net1 = Ok (List.length d1) -> differentiable_training rand1 reset1 0 rest shape (nn_layers net1) x1 ->
  exists net2, @trainOnce RNum rand1 net1 x1 d1 reset1 = Ok net2 /\
  forall l n u w, @net_unit RNum net l n = Some u -> w < n_in u ->
  exists u1 u2 w0 w1 w2 g, @net_unit RNum net1 l n = Some u1 /\ @net_unit RNum net2 l n = Some u2 /\
    nth_error (n_w u) w = Some w0 /\ nth_error (n_w u1) w = Some w1 /\ nth_error (n_w u2) w = Some w2 /\
    derivable_pt_lim (fun t => training_error rand1 (@with_weight_at RNum net1 l n w t) x1 d1 reset1) w1 g /\ (w2 - w1 = - (lr * (multiplier (skipn l rest) * g)) + mom * (w1 - w0))%R.
Proof.
  intros draws masks shape rest lr mom net0 net net1 rand x d reset rand1 x1 d1 reset1 Hnet Hs Hsane Hp Hlast U HK Hx Hd HD E1 HK1 Hx1 Hd1 HD1. change (@F RNum) with R in *.
  destruct (scaled_all draws masks shape rest lr mom net0 Hnet Hs Hsane Hp Hlast rand net x d reset U HK Hx Hd HD) as (net' & E & U1 & H). rewrite E1 in E. injection E as <-.
  destruct (scaled_all draws masks shape rest lr mom net0 Hnet Hs Hsane Hp Hlast rand1 net1 x1 d1 reset1 U1 HK1 Hx1 Hd1 HD1) as (net2 & E2 & _ & H'). exists net2. split; [exact E2|].
  intros l n u w Hu Hw. destruct (H l n u w Hu Hw) as (Lw & u1 & g & Hu1 & Ln & L & _ & _ & HP). destruct (H' l n u1 w Hu1) as (Lw1 & u2 & g2 & Hu2 & _ & L2 & HG & H1 & _); [rl|].
  exists u1, u2, (nth w (n_w u) 0%R), (nth w (n_w u1) 0%R), (nth w (n_w u2) 0%R), g2. split; [exact Hu1|]. split; [exact Hu2|].
  split; [apply nth_error_nth'; exact Lw|]. split; [apply nth_error_nth'; exact Lw1|]. split; [apply nth_error_nth'; rl|]. split; [exact HG|]. rewrite HP in H1. change (@F RNum) with R in *. rewrite H1. ring.
Qed.
Print Assumptions C69_scaled_momentum_step.

(* Layers of the example, and of the counterexamples below: one neuron, or two layers of one neuron, every weight drawn as 1. *)
Definition s1_neuron (a : activation) : @Neuron RNum := @mkNeuron RNum 1 1 [1; Rabs 1]%R fone (circ_init 1 2) (circ_init 1 1) (repeat fzero 1) fzero a.
Definition s1_layer (a : activation) (os : list (@LOpt RNum)) : @Layer RNum := @mkLayer RNum 1 (BFull [s1_neuron a]) os.
Definition s1_rest (a : activation) (o : @odesc RNum) : list (@LDesc RNum) := [@FullyConnected RNum 1 a [o]].
Definition s1_net (a : activation) (o : @odesc RNum) (lr mom : R) : @Net RNum := @mkNet RNum [s1_layer a [@build_opt RNum (fun _ => true) 1 o]] (@mkSGD RNum lr mom) false 0.
Lemma s1_valid a : neuron_isValid (s1_neuron a) = 0%Z.
Proof.
  assert (H3 : (-1 <= @fone RNum <= 1)%R) by (replace (@fone RNum) with (1 / 1)%R by reflexivity; lra). apply (ones_valid (s1_neuron a) (@fone RNum) eq_refl H3). auto.
Qed.
Lemma s_fine (lr mom : R) : (0 < lr < 1)%R -> (0 <= mom < 1)%R -> sgd_isValid (@mkSGD RNum lr mom) = 0%Z.
Proof.
  intros Hl Hm. unfold sgd_isValid, fgeb, fleb, fgtb, fltb. cbn. unfold Rleb, Rltb. destruct (Rle_dec lr (0 / 1)); [lra|]. destruct (Rle_dec (1 / 1) lr); [lra|]. destruct (Rlt_dec mom (0 / 1)); [lra|]. destruct (Rlt_dec (1 / 1) mom); [lra|]. reflexivity.
Qed.
Lemma s1_built a o (lr mom : R) : (0 < lr < 1)%R -> (0 <= mom < 1)%R -> @construct RNum (fun _ _ _ _ => 1%R) (fun _ _ _ => true) (Input (map Z.of_nat [1]) :: s1_rest a o) lr mom = Ok (s1_net a o lr mom).
Proof.
  intros Hl Hm. unfold construct. replace (@build_all RNum (fun _ _ _ _ => 1%R) (fun _ _ _ => true) (Input (map Z.of_nat [1]) :: s1_rest a o)) with (Ok [s1_layer a [@build_opt RNum (fun _ => true) 1 o]]) by reflexivity. cbn [bind].
  assert (E : @net_isValid RNum (s1_net a o lr mom) = (if negb (sgd_isValid (@mkSGD RNum lr mom) =? 0)%Z then Ok (sgd_isValid (@mkSGD RNum lr mom)) else Ok (firstError [neurons_isValid [neuron_isValid (s1_neuron a)]]))) by reflexivity.
  unfold s1_net in *. change (@F RNum) with R in *. rewrite E, s1_valid, (s_fine lr mom Hl Hm). reflexivity.
Qed.
(* two layers: tanh with a dropout of rate 1/2 and an error multiplier 3, then sigmoid *)
Definition s2_rest : list (@LDesc RNum) := [@FullyConnected RNum 1 a_tanh [@d_dropout RNum (1 / 2)%R; @d_mult RNum 3%R]; @FullyConnected RNum 1 a_sigmoid [@d_mult RNum (1 / 4)%R]].
Definition s2_layers : list (@Layer RNum) := [s1_layer a_tanh (map (@build_opt RNum (fun _ => true) 1) [@d_dropout RNum (1 / 2)%R; @d_mult RNum 3%R]); s1_layer a_sigmoid [@OMult RNum (1 / 4)%R]].
Definition s2_net (lr : R) : @Net RNum := @mkNet RNum s2_layers (@mkSGD RNum lr 0%R) false 0.
Lemma s2_built (lr : R) : (0 < lr < 1)%R -> @construct RNum (fun _ _ _ _ => 1%R) (fun _ _ _ => true) (Input (map Z.of_nat [1]) :: s2_rest) lr 0%R = Ok (s2_net lr).
Proof.
  intros Hl. assert (Hm : (0 <= 0 < 1)%R) by lra. unfold construct. replace (@build_all RNum (fun _ _ _ _ => 1%R) (fun _ _ _ => true) (Input (map Z.of_nat [1]) :: s2_rest)) with (Ok s2_layers) by reflexivity. cbn [bind].
  assert (E : @net_isValid RNum (s2_net lr) = (if negb (sgd_isValid (@mkSGD RNum lr 0%R) =? 0)%Z then Ok (sgd_isValid (@mkSGD RNum lr 0%R)) else Ok (firstError [neurons_isValid [neuron_isValid (s1_neuron a_tanh)]; neurons_isValid [neuron_isValid (s1_neuron a_sigmoid)]]))) by reflexivity.
  unfold s2_net in *. change (@F RNum) with R in *. rewrite E, !s1_valid, (s_fine lr 0%R Hl Hm). reflexivity.
Qed.
Lemma train_smooth (rand : nat -> nat -> bool) (l : RLay) (v : list R) reset (o : list R) l1 : @layer_outputForTraining RNum rand l v reset = Ok (o, l1) -> Forall (fun p => fst p <> a_iSigmoid /\ fst p <> a_ReLU) (settings (l_body l)) ->
  forall n u, @unit_at RNum l1 n = Some u -> smooth_unit u.
Proof.
  intros E H n u Hu. unfold layer_outputForTraining in E. apply bind_Ok_inv in E as ([a b] & Eb & E). apply bind_Ok_inv in E as ([? ?] & _ & E). injection E as _ <-. apply body_output_set in Eb. rewrite <- Eb in H.
  assert (G : In (nset u) (settings b)).
  { unfold unit_at in Hu. cbn [l_body] in Hu. destruct b as [ns|rs|gs|kd f ns]; cbn [settings].
    - apply in_map. now apply nth_error_In in Hu.
    - destruct (nth_error rs n) as [r|] eqn:En; [|discriminate]. injection Hu as <-. apply (in_map (fun r => nset (r_n r))). now apply nth_error_In in En.
    - discriminate.
    - apply in_map. now apply nth_error_In in Hu. }
  rewrite Forall_forall in H. destruct (H _ G) as [A B]. split; [exact A|]. intros C. contradiction.
Qed.
Example C69_hypotheses_met : forall (lr : R) rand reset, (0 < lr < 1)%R -> let net := s2_net lr in
  @construct RNum (fun _ _ _ _ => 1%R) (fun _ _ _ => true) (Input (map Z.of_nat [1]) :: s2_rest) lr 0%R = Ok net /\
  Forall (fun n => 0 < n) [1] /\ Forall sane_kernel s2_rest /\ Forall supported_pooling (nn_layers net) /\ d_type (last s2_rest (Input [])) <> t_pool /\
  uses (cell_count [1]) net net /\ @scaled_kinds RNum s2_rest [1] (nn_layers net) /\ List.length [5%R] = cell_count [1] /\ @net_numberOfOutputs RNum net = Ok (List.length [1%R]) /\
  differentiable_training rand reset 0 s2_rest [1] (nn_layers net) [5%R] /\ (exists u, @net_unit RNum net 0 0 = Some u /\ 0 < n_in u) /\ multiplier s2_rest = (3 / 4)%R.
Proof.
  intros lr rand reset Hl net. split; [now apply s2_built|]. split; [repeat constructor|]. split; [repeat constructor; unfold sane_kernel; cbn; lia|]. split; [repeat constructor|]. split; [discriminate|].
  split; [apply uses_none|]. split.
  { cbn [scaled_kinds s2_rest net s2_net s2_layers nn_layers getShapeOfOutput l_body s1_layer]. split; [apply gk_full; reflexivity|]. split; [repeat constructor|]. split; [apply gk_full; reflexivity|]. split; [repeat constructor|exact I]. }
  split; [reflexivity|]. split; [reflexivity|]. split; [|split; [eexists; split; [reflexivity|cbn; lia]|cbv -[IZR Rplus Rmult Rdiv Rinv]; field]].
  cbn [differentiable_training s2_rest net s2_net s2_layers nn_layers]. split; [discriminate|].
  intros o1 l1 E1. split; [eapply train_smooth; [exact E1|repeat constructor; discriminate]|]. split; [discriminate|].
  intros o2 l2 E2. split; [eapply train_smooth; [exact E2|repeat constructor; discriminate]|exact I].
Qed.

Lemma softmax_one (x y : R) : (exp x / (0 / 1 + exp x) = 1)%R.
Proof. assert (H := exp_pos x). field. lra. Qed.
Ltac soft := change (@F RNum) with R; rewrite ?softmax_one, ?Rabs_R1 by exact 0%R; try field.
(* Softmax passes the errors back unchanged. One output: softmax always answers 1, so no weight has any influence on the error, yet training moves the weight. *)
Theorem C69_softmax_refuted : forall (lr mom : R) rand reset, (0 < lr < 1)%R -> (0 <= mom < 1)%R ->
  exists net net' : @Net RNum, @construct RNum (fun _ _ _ _ => 1%R) (fun _ _ _ => true) [Input [1%Z]; @FullyConnected RNum 1 a_identity [d_softmax]] lr mom = Ok net /\ @trainOnce RNum rand net [1%R] [0%R] reset = Ok net' /\
  derivable_pt_lim (fun t => training_error rand (@with_weight_at RNum net 0 0 0 t) [1%R] [0%R] reset) 1%R 0%R /\
  @weight_of RNum net 0 0 0 = Some 1%R /\ @weight_of RNum net' 0 0 0 = Some (1 - 2 * lr)%R.
Proof.
  intros lr mom rand reset Hl Hm. exists (s1_net a_identity d_softmax lr mom).
  assert (E : exists net', @trainOnce RNum rand (s1_net a_identity d_softmax lr mom) [1%R] [0%R] reset = Ok net' /\ exists b, @weight_of RNum net' 0 0 0 = Some b /\ (b = 1 - 2 * lr)%R).
  { destruct reset; eexists; (split; [cbv -[IZR Rplus Rmult Rdiv Rabs Rminus Ropp Rltb exp]; reflexivity|]). all: eexists; (split; [reflexivity|]). all: soft. }
  destruct E as (net' & E & b & Hb & ->). exists net'. split; [exact (s1_built _ _ lr mom Hl Hm)|]. split; [exact E|].
  split. { eapply derivable_pt_lim_ext; [|apply (derivable_pt_lim_const 1%R)]. intros t. destruct reset; cbv -[IZR Rplus Rmult Rdiv Rabs Rminus Ropp exp]; soft. }
  split; [reflexivity|exact Hb].
Qed.
Print Assumptions C69_softmax_refuted.

(* L1 and L2 regularizations of weight v shift the error by a constant instead of shrinking the weights: a neuron of weights 1 that already answers what is desired,
   where the error is 0 and has derivative 0, gets a larger weight; with the input -1 (and the answer 0) it gets a smaller one, by as much. *)
Lemma d_zero (x : R) : derivable_pt_lim (fun t => x * x * ((1 - t) * (1 - t)))%R 1%R 0%R.
Proof. auto_derive; [exact I|ring]. Qed.
Theorem C69_regularization_refuted : forall (o : @odesc RNum) (v x lr mom : R) rand reset, (o = @d_l1 RNum v \/ o = @d_l2 RNum v) -> (0 < lr < 1)%R -> (0 <= mom < 1)%R ->
  exists net net' : @Net RNum, @construct RNum (fun _ _ _ _ => 1%R) (fun _ _ _ => true) [Input [1%Z]; @FullyConnected RNum 1 a_identity [o]] lr mom = Ok net /\ @trainOnce RNum rand net [x] [x + 1]%R reset = Ok net' /\
  training_error rand net [x] [x + 1]%R reset = 0%R /\
  derivable_pt_lim (fun t => training_error rand (@with_weight_at RNum net 0 0 0 t) [x] [x + 1]%R reset) 1%R 0%R /\
  @weight_of RNum net 0 0 0 = Some 1%R /\ @weight_of RNum net' 0 0 0 = Some (1 + lr * (2 * v) * x)%R.
Proof.
  intros o v x lr mom rand reset Ho Hl Hm. exists (s1_net a_identity o lr mom).
  assert (E : exists net', @trainOnce RNum rand (s1_net a_identity o lr mom) [x] [x + 1]%R reset = Ok net' /\ exists b, @weight_of RNum net' 0 0 0 = Some b /\ (b = 1 + lr * (2 * v) * x)%R).
  { destruct Ho as [-> | ->], reset; eexists; (split; [cbv -[IZR Rplus Rmult Rdiv Rabs Rminus Ropp Rltb exp]; reflexivity|]). all: eexists; (split; [reflexivity|]). all: soft. }
  destruct E as (net' & E & b & Hb & ->). exists net'. split; [exact (s1_built _ _ lr mom Hl Hm)|]. split; [exact E|].
  split. { destruct Ho as [-> | ->], reset; cbv -[IZR Rplus Rmult Rdiv Rabs Rminus Ropp exp]; soft. }
  split. { eapply derivable_pt_lim_ext; [|exact (d_zero x)]. intros t. destruct Ho as [-> | ->], reset; cbv -[IZR Rplus Rmult Rdiv Rabs Rminus Ropp exp]; soft. }
  split; [reflexivity|exact Hb].
Qed.
Print Assumptions C69_regularization_refuted.
