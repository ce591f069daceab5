(* C70: predictions are finite numbers, in binary32. *)
From Coq Require Import Reals Lra Lia Floats.SpecFloat.
From Flocq Require Import Core.Core IEEE754.BinarySingleNaN.
From Verif Require Import Base Num NumOrder ActModel NeuronModel LayerModel NetModel FactoryModel FactorySpec FactoryProofs SafeProofs SafeNet BuildProofs PureSpec PureProps
  Float32 PoolProofs F1Spec F1Float SoftSpec SoftProps FiniteSpec FiniteProofs FiniteLayers FiniteNet Witness.
Local Open Scope R_scope.
Local Open Scope outcome_scope.

Section L.
Variables expf tanhf : f32 -> f32.
Notation N := (Num32 expf tanhf).
Notation ql := (quiet_layer expf tanhf).

Section G.
Hypothesis HM : good_math expf tanhf.
Variables w k : Z.
Hypothesis Hw : (0 <= w)%Z.
Hypothesis Hk : (1 <= k <= 23)%Z.
Lemma inspect_within (ls : list (@Layer N)) : forall x o ls' e, (0 <= e)%Z -> tame expf tanhf w k e ls -> Forall (ql w k) ls -> Forall (within (two_to e)) x -> @chain_outputs N ls x = Ok (o, ls') ->
  Forall (Forall (within (two_to 125))) o /\ Forall (ql w k) ls' /\ (forall e', (tame expf tanhf w k e' ls -> tame expf tanhf w k e' ls') /\ reach expf tanhf w k e' ls' = reach expf tanhf w k e' ls).
Proof.
  induction ls as [|l ls IH]; intros x o ls' e He Ht Hq Hx Hr; cbn [chain_outputs] in Hr.
  - assert (E : o = [] /\ ls' = []) by (split; congruence). destruct E as (-> & ->). auto.
  - apply bind_Ok_inv in Hr as ([v1 l1] & H1 & Hr). apply bind_Ok_inv in Hr as ([v2 t1] & H2 & Hr). assert (E : o = v1 :: v2 /\ ls' = l1 :: t1) by (split; congruence). destruct E as (-> & ->). inversion Hq as [|? ? Ql Qt]; subst.
    destruct Ht as (Ht1 & Ht2). destruct (layer_within expf tanhf HM w k Hw Hk _ _ _ _ _ _ He Ht1 Ql Hx H1) as (A1 & A2 & A3). assert (Rg := next_range expf tanhf w k Hw Hk e l He Ht1).
    destruct (IH _ _ _ (next expf tanhf w k e l) ltac:(lia) Ht2 Qt A1 H2) as (J1 & J2 & J3). split; [constructor; [|exact J1]|].
    + eapply Forall_impl; [|exact A1]. intros y Hy. eapply within_le; [exact Hy|]. apply bpow_le. lia.
    + split; [now constructor|]. intros e'. cbn [reach tame]. rewrite A3. destruct (J3 (next expf tanhf w k e' l)) as (K1 & K2). split; [|exact K2]. intros (T1 & T2). auto.
Qed.
(* Weights up to 2^w, at most 2^k of them per neuron, biases up to 1, inputs up to 2^e: whatever the sequence of predictions and of looks at the network, with inputs of that
   size, the outputs are finite numbers, up to 2^(reach e layers), as long as no sum can pass 2^125. *)
Theorem C70_predictions_finite (inputs : nat) (e : Z) (net net' : @Net N) : (0 <= e)%Z -> Forall (ql w k) (@nn_layers N net) -> tame expf tanhf w k e (@nn_layers N net) -> watched expf tanhf inputs e net net' ->
  forall x reset o net'', Forall (within (two_to e)) x -> @net_output N net' x reset = Ok (o, net'') -> Forall (within (two_to (reach expf tanhf w k e (@nn_layers N net)))) o.
Proof.
  intros He Hq Ht HW. induction HW as [net|net x reset o net1 net2 _ Hx E HW IH|net rand x reset o net1 net2 _ Hx E HW IH|net x o net1 net2 _ Hx E HW IH]; intros y reset' o' net'' Hy Ho.
  - unfold net_output in Ho. destruct (@nn_layers N net) as [|a t] eqn:El; [discriminate|]. apply bind_Ok_inv in Ho as ([o1 ls] & H1 & Ho). assert (G : o' = o1) by congruence. rewrite G.
    exact (proj1 (chain_within expf tanhf w k Hw Hk _ (fun i l l' x o e A B C D F => layer_within expf tanhf HM w k Hw Hk l l' x o e reset' A B C D F) _ _ _ _ _ e He Ht Hq Hy H1)).
  - unfold net_output in E. destruct (@nn_layers N net) as [|a t] eqn:El; [discriminate|]. apply bind_Ok_inv in E as ([o1 ls] & H1 & E). assert (G : @nn_layers N net1 = ls). { apply Ok_inj in E. injection E as _ <-. reflexivity. }
    destruct (chain_within expf tanhf w k Hw Hk _ (fun i l l' x o e A B C D F => layer_within expf tanhf HM w k Hw Hk l l' x o e reset A B C D F) _ _ _ _ _ e He Ht Hq Hx H1) as (_ & Q & T). destruct (T e) as (T1 & T2). rewrite <- T2, <- G in *. eapply IH; eauto.
  - unfold net_outputForTraining in E. destruct (@nn_layers N net) as [|a t] eqn:El; [discriminate|]. apply bind_Ok_inv in E as ([o1 ls] & H1 & E). assert (G : @nn_layers N net1 = ls). { apply Ok_inj in E. injection E as _ <-. reflexivity. }
    destruct (chain_within expf tanhf w k Hw Hk _ (fun i l l' x o e A B C D F => layer_training_within expf tanhf HM w k Hw Hk (rand i) l l' x o e reset A B C D F) _ _ _ _ _ e He Ht Hq Hx H1) as (_ & Q & T). destruct (T e) as (T1 & T2). rewrite <- T2, <- G in *. eapply IH; eauto.
  - unfold getLayerOutputs in E. destruct (@nn_layers N net) as [|a t] eqn:El; [discriminate|]. apply bind_Ok_inv in E as ([o1 ls] & H1 & E). assert (G : @nn_layers N net1 = ls). { apply Ok_inj in E. injection E as _ <-. reflexivity. }
    destruct (inspect_within _ _ _ _ _ He Ht Hq Hx H1) as (_ & Q & T). destruct (T e) as (T1 & T2). rewrite <- T2, <- G in *. eapply IH; eauto.
Qed.
Lemma next_le e (l : @Layer N) : (0 <= e)%Z -> (e + (w + k) <= 125)%Z -> (0 <= next expf tanhf w k e l <= e + (w + k))%Z.
Proof. intros He H. unfold next. destruct (l_body l) as [ns|ns|ns|[] f ns]; try destruct (forallb _ ns); lia. Qed.
(* short networks are tame *)
Lemma tame_short (ls : list (@Layer N)) : forall e, (0 <= e)%Z -> (e + (w + k) * Z.of_nat (List.length ls) <= 125)%Z -> tame expf tanhf w k e ls /\ (0 <= reach expf tanhf w k e ls <= e + (w + k) * Z.of_nat (List.length ls))%Z.
Proof.
  induction ls as [|l ls IH]; intros e He H; cbn [tame reach List.length] in *; [split; [auto|lia]|]. assert (A : (e + (w + k) <= 125)%Z) by nia. destruct (next_le e l He A) as (B1 & B2). destruct (IH (next expf tanhf w k e l)) as (C1 & C2 & C3); [lia|nia|]. repeat split; auto. nia.
Qed.
End G.

(* ---------- new networks ---------- *)
Notation qn := (quiet_neuron expf tanhf 2 20).
Lemma valid_length (n : @Neuron N) : @neuron_isValid N n = 0%Z -> (Z.of_nat (@List.length f32 (@n_w N n)) <= 2 ^ 20)%Z.
Proof.
  unfold neuron_isValid. destruct (_ || _)%bool; [discriminate|]. destruct (_ || _)%bool eqn:E in |- *; [discriminate|]. intros _. apply Bool.orb_false_iff in E as (_ & E). apply Z.ltb_ge in E. change (@F N) with f32 in *. lia.
Qed.
Lemma valid_each {A} (v : A -> Z) ns : neurons_isValid (map v ns) = 0%Z -> Forall (fun n => v n = 0%Z) ns.
Proof.
  unfold neurons_isValid. destruct (_ || _)%bool; [discriminate|]. intros H. apply firstError_zero in H. now apply Forall_map in H.
Qed.
Lemma abs_within b x : within b x -> within b (@fabs N x).
Proof.
  intros (r & (y & <- & Fy & <-) & B). exists (Rabs (B2R y)). split; [|now rewrite Rabs_Rabsolu]. exists (Babs y). split; [now destruct y|]. split; [now destruct y|]. apply B2R_Babs.
Qed.
Lemma init_quiet nin batch nw bias a (draws : nat -> f32) (n : @Neuron N) : (forall i, within 4 (draws i)) -> within 1 bias -> @neuron_init N nin batch nw bias a draws = Ok n ->
  Forall (within (two_to 2)) (@n_w N n) /\ within 1 (@n_bias N n) /\ @n_act N n = a.
Proof.
  intros Hd Hb H. unfold neuron_init in H. destruct nw as [|m]; [discriminate|]. apply Ok_inj in H. rewrite <- H. cbn [n_w n_bias n_act]. split; [|auto]. apply Forall_app. split.
  - apply Forall_map. apply Forall_forall. intros i _. exact (Hd i).
  - constructor; [|constructor]. apply abs_within. exact (Hd m).
Qed.
Lemma rec_quiet nin batch nw bias a (draws : nat -> f32) (n : @RNeuron N) : (forall i, within 4 (draws i)) -> within 1 bias -> bounded_act a = true -> @rneuron_init N nin batch nw bias a draws = Ok n -> @rec_isValid N n = 0%Z -> quiet_rec expf tanhf 2 20 n.
Proof.
  intros Hd Hb Ha H V. unfold rneuron_init in H. apply bind_Ok_inv in H as (n0 & H0 & H). apply Ok_inj in H. rewrite <- H in *. destruct (init_quiet _ _ _ _ _ _ _ Hd Hb H0) as (A & B & C).
  unfold rec_isValid in V. cbn [r_n] in V. destruct (_ =? _)%nat in V; [|discriminate]. apply valid_length in V. split; [exact (conj A (conj V B))|]. cbn [r_n r_lastOut]. rewrite C. split; [exact Ha|]. apply (within_zero expf tanhf). lra.
Qed.
Lemma gru_quiet nin batch nw bias (draws : nat -> nat -> f32) (n : @GNeuron N) : (forall i j, within 4 (draws i j)) -> within 1 bias -> @gru_init N nin batch nw bias draws = Ok n -> @gru_isValid N n = 0%Z -> quiet_gru expf tanhf 2 20 n.
Proof.
  intros Hd Hb H V. unfold gru_init in H. apply bind_Ok_inv in H as (a & Ha & H). apply bind_Ok_inv in H as (b & Hb' & H). apply bind_Ok_inv in H as (c & Hc & H). apply Ok_inj in H. rewrite <- H in *.
  unfold gru_isValid in V. cbn [g_reset g_update g_output] in V. destruct (Z.eqb_spec (@rec_isValid N a) 0) as [Va|]; [|contradiction]. destruct (Z.eqb_spec (@rec_isValid N b) 0) as [Vb|]; [|contradiction]. destruct (Z.eqb_spec (@rec_isValid N c) 0) as [Vc|]; [|contradiction].
  split; [|split; [|split]]; cbn [g_reset g_update g_output g_prevOut]; try (eapply rec_quiet; [|exact Hb| |eassumption|assumption]; [intros i; apply Hd|reflexivity]). apply (fin32_fofZ expf tanhf 0). lia.
Qed.
Lemma opts_quiet (masks : nat -> nat -> bool) n (d : @LDesc N) : calm_description expf tanhf d -> Forall (quiet_opt expf tanhf) (@build_opts N masks n (@d_opts N d)).
Proof.
  intros (_ & H & _). unfold build_opts. apply Forall_map. apply Forall_forall. intros (i & o) Hi. apply in_combine_r in Hi. cbn [fst snd]. destruct o as [v|v|v|v|]; cbn [build_opt quiet_opt]; auto.
  destruct (H v Hi) as (r & Hr & Br). assert (B1 : Rabs (rnd (1 - r)) <= 1). { apply rnd_bound; [apply (int_format 1); lia|]. apply Rabs_le. lra. }
  exists (rnd (1 - r)). split; [|exact B1]. apply fin32_sub; [apply (fin32_fofZ expf tanhf 1); lia|exact Hr|]. eapply Rle_lt_trans; [exact B1|]. change 1 with (bpow radix2 0). apply bpow_lt. lia.
Qed.
Lemma neurons_quiet (draws : nat -> nat -> nat -> f32) nin batch nw (d : @LDesc N) n ns : (forall i j l, within 4 (draws i j l)) -> calm_description expf tanhf d -> build_neurons (@mk_full N draws nin batch nw d) n = Ok ns -> Forall (fun n => @neuron_isValid N n = 0%Z) ns -> Forall qn ns.
Proof.
  intros Hd (Hb & _) H V. apply build_neurons_inv in H as (_ & H). rewrite Forall_forall in *. intros a Ha. apply In_nth_error in Ha as Hi. destruct Hi as (i & Hi). specialize (H _ _ Hi). unfold mk_full in H.
  destruct (init_quiet _ _ _ _ _ _ _ (fun j => Hd i 0%nat j) Hb H) as (A & B & _). split; [exact A|]. split; [|exact B]. apply valid_length. auto.
Qed.
Lemma pool_quiet (x : @Body N) : (exists kd f, x = BFilter kd f []) -> quiet_body expf tanhf 2 20 x.
Proof. intros (kd & f & ->). constructor. Qed.
Lemma built_quiet (draws : nat -> nat -> nat -> f32) masks (d : @LDesc N) s (l : @Layer N) : (forall i j l, within 4 (draws i j l)) -> calm_description expf tanhf d -> @built N draws masks d s l -> @layer_isValid N l = 0%Z -> quiet_body expf tanhf 2 20 (@l_body N l) /\ Forall (quiet_opt expf tanhf) (@l_opts N l).
Proof.
  intros Hd Hc B V. split; [|destruct B; cbn [finish l_opts]; now apply opts_quiet]. pose proof Hc as (Hb & _ & Hr). unfold layer_isValid in V.
  destruct B; cbn [finish l_body] in *; try (apply pool_quiet; eexists _, _; reflexivity);
  try (destruct (existsb _ _) in V; [discriminate|]); try (destruct (negb (fold_left _ _ _ =? _)%nat) in V; [discriminate|]); apply valid_each in V; cbn [quiet_body]; try (eapply neurons_quiet; eassumption).
  - match goal with H : build_neurons _ _ = Ok _ |- _ => apply build_neurons_inv in H as (_ & Hi) end. rewrite Forall_forall in *. intros a Ha. apply In_nth_error in Ha as Hj. destruct Hj as (i & Hj). specialize (Hi _ _ Hj). cbv beta in Hi. eapply rec_quiet; [|exact Hb|auto|exact Hi|auto]. intros j. apply Hd.
  - match goal with H : build_neurons _ _ = Ok _ |- _ => apply build_neurons_inv in H as (_ & Hi) end. rewrite Forall_forall in *. intros a Ha. apply In_nth_error in Ha as Hj. destruct Hj as (i & Hj). specialize (Hi _ _ Hj). cbv beta in Hi. eapply gru_quiet; [|exact Hb|exact Hi|auto]. intros j1 j2. apply Hd.
Qed.
Definition few_classes (l : @Layer N) : Prop := In (@OSoftmax N) (@l_opts N l) -> (Z.of_nat (outputs_of expf tanhf (@l_body N l)) <= 2 ^ 24)%Z.
Lemma rest_quiet (draws : nat -> nat -> nat -> nat -> f32) masks : (forall i j l m, within 4 (draws i j l m)) -> forall ds i s (ls : list (@Layer N)), Forall (fun x => 0 < x)%nat s -> Forall sane_kernel ds -> Forall (calm_description expf tanhf) ds ->
  @build_rest N draws masks i ds (map Z.of_nat s) = Ok ls -> Forall (fun l => @layer_isValid N l = 0%Z) ls -> Forall supported_pooling ls -> Forall few_classes ls -> Forall (ql 2 20) ls.
Proof.
  intros Hd. induction ds as [|d t IH]; intros i s ls Hs Hk Hc H HV HP HF; cbn [build_rest] in H.
  - injection H as <-. constructor.
  - apply bind_Ok_inv in H as (a & Ha & H). apply bind_Ok_inv in H as (r & Hr & H). apply Ok_inj in H. subst ls. inversion Hk; inversion HV; inversion HP; inversion Hc; inversion HF; subst.
    apply build_layer_built in Ha; auto. pose proof (built_wf _ _ _ _ _ Hs Ha ltac:(auto) ltac:(auto)) as W. constructor.
    + destruct (built_quiet _ _ _ _ _ (Hd i) ltac:(eassumption) Ha ltac:(assumption)) as (A & B). split; [exact A|]. split; [exact B|assumption].
    + eapply (IH (S i) (getShapeOfOutput a) r); eauto. destruct W as (_ & _ & Hm & _). unfold cell_count in Hm. now apply fold_mul_pos_inv in Hm.
Qed.
Lemma watched_looks n e (net net' : @Net N) : watched expf tanhf n e net net' -> looks n net net'.
Proof. induction 1; eauto using looks_none, looks_predict, looks_forTraining, looks_inspect. Qed.

(* A new network: weights drawn in [-4, 4] (Neuron.cpp 28-32 draws in +-2.4/sqrt(numberOfWeights)). With L layers and inputs up to 2^e, e + 22 L <= 125, every prediction succeeds and
   gives finite numbers, up to 2^(e + 22 L): five layers accept inputs up to 32768. *)
Theorem C70_new_network_finite (draws : nat -> nat -> nat -> nat -> f32) masks ds lr m (net : @Net N) e : good_math expf tanhf -> (forall i j l q, within 4 (draws i j l q)) -> @construct N draws masks ds lr m = Ok net ->
  sane_descriptions ds -> Forall supported_pooling (@nn_layers N net) -> Forall (calm_description expf tanhf) ds -> Forall few_classes (@nn_layers N net) ->
  (0 <= e)%Z -> (e + 22 * Z.of_nat (List.length (@nn_layers N net)) <= 125)%Z -> exists inputs, product (d_shape (hd (Input []) ds)) = Ok (Z.of_nat inputs) /\
  forall net' x reset, watched expf tanhf inputs e net net' -> List.length x = inputs -> Forall (within (two_to e)) x ->
  exists o net'', @net_output N net' x reset = Ok (o, net'') /\ Forall (within (two_to (e + 22 * Z.of_nat (List.length (@nn_layers N net))))) o.
Proof.
  intros HM Hd H Hs HP Hc HF He Hl. destruct (construct_wf _ _ _ _ _ _ H Hs HP) as (n & mm & W & Hn). exists n. split; [exact Hn|]. intros net' x reset HW Lx Hx.
  destruct (uses_wf _ _ _ _ W (looks_uses _ _ _ (watched_looks _ _ _ _ HW))) as (W' & _). destruct (@net_output_wf N n mm net' x reset W' Lx) as (o & net'' & E & _). exists o, net''. split; [exact E|].
  assert (Q : Forall (ql 2 20) (@nn_layers N net)).
  { apply construct_inv in H as (d0 & rest & -> & Ht & Hb & HV & Hne & _). destruct Hs as [Hs Hk]. destruct (pos_shape _ Hs) as (s & Es & Hp). rewrite Es in Hb. inversion Hc; subst. eapply rest_quiet; eauto. }
  destruct (tame_short 2 20 ltac:(lia) ltac:(lia) (@nn_layers N net) e He ltac:(lia)) as (T & R1 & R2).
  assert (G := C70_predictions_finite HM 2 20 ltac:(lia) ltac:(lia) n e net net' He Q T HW x reset o net'' Hx E). eapply Forall_impl; [|exact G]. intros y Hy. eapply within_le; [exact Hy|]. apply bpow_le. lia.
Qed.
End L.
Print Assumptions C70_predictions_finite.
Print Assumptions C70_new_network_finite.

(* ---------- the hypotheses are met ---------- *)
Definition flat (_ : f32) : f32 := f32_of_Z 0.
Lemma coarse_good : good_math coarse flat.
Proof.
  split.
  - intros x r _. exists 0. split; [apply (fin32_of_Z 0); lia|lra].
  - intros x r H. right. exists (if Req_EM_T r 0 then 1 else 0). split; [now apply coarse_value|]. destruct (Req_EM_T r 0); lra.
  - exact (proj1 C34_float_hypotheses_met).
  - exists 0. split; [apply (fin32_of_Z 0); lia|lra].
Qed.
Notation NC := (Num32 coarse flat).
Definition ex_net : list (@LDesc NC) := [@Input NC [2%Z]; @Recurrence NC 2 a_tanh [@d_dropout NC (@fdiv NC (@fone NC) (@fofZ NC 2))]; @FullyConnected NC 3 a_identity [@d_softmax NC]].
Definition ex_draws (l i g j : nat) : f32 := f32_of_Z (1 - Z.of_nat (Nat.modulo (i + j) 3)).
Definition ex_ok (net : @Net NC) : bool := match @nn_layers NC net with
  | [a; b] => match @l_body NC a, @l_body NC b, @l_opts NC a, @l_opts NC b with BRec _, BFull ns, [ODropout _ _ _], [OSoftmax] => Nat.eqb (List.length ns) 3 | _, _, _, _ => false end | _ => false end.
Definition ex_made : outcome (@Net NC) := @construct NC ex_draws (fun _ _ _ => true) ex_net (@flit NC 1 100) (@fzero NC).
Lemma ex_made_ok : exists net, ex_made = Ok net /\ ex_ok net = true.
Proof. apply run_check_ex. vm_compute. reflexivity. Qed.
Example C70_hypotheses_met : exists net, ex_made = Ok net /\ sane_descriptions ex_net /\ Forall supported_pooling (@nn_layers NC net) /\ Forall (calm_description coarse flat) ex_net /\ Forall (few_classes coarse flat) (@nn_layers NC net) /\
  (forall i j l q, within 4 (ex_draws i j l q)) /\ (3 + 22 * Z.of_nat (List.length (@nn_layers NC net)) <= 125)%Z /\
  watched coarse flat 2 3 net net /\ Forall (within (two_to 3)) [f32_of_Z 5; f32_of_Z (-2)].
Proof.
  destruct ex_made_ok as (net & E & K). exists net. split; [exact E|]. unfold ex_ok in K.
  destruct (@nn_layers NC net) as [|a [|b [|]]]; try discriminate K. destruct a as [ia [na|na|na|ka fa na] oa], b as [ib [nb|nb|nb|kb fb nb] ob]; cbn [l_body l_opts] in K; try discriminate K; try (destruct oa as [|[] [|]]; discriminate K).
  destruct oa as [|[] [|]]; try discriminate K. destruct ob as [|[] [|]]; try discriminate K. apply Nat.eqb_eq in K.
  split; [split; [constructor; [lia|constructor]|repeat (constructor; [exact I|]); constructor]|]. split; [repeat (constructor; [exact I|]); constructor|].
  split.
  { constructor; [|constructor; [|constructor; [|constructor]]]; split; try (split; [|intros; try discriminate; reflexivity]).
    - apply (within_zero coarse flat). lra.
    - intros v [].
    - exact (within_int coarse flat 1 ltac:(cbn; lia)).
    - intros v [Hv|[]]. assert (Dj : forall a b, @d_dropout NC a = @d_dropout NC b -> a = b) by (now intros a b [= ->]). apply Dj in Hv. rewrite <- Hv. exists (/ 2). split; [|lra].
      assert (Rh : rnd (1 / 2) = / 2). { replace (1 / 2) with (bpow radix2 (-1)) by (cbn; lra). transitivity (bpow radix2 (-1)); [|cbn; lra]. apply round_generic; [typeclasses eauto|]. apply fmt_bpow. lia. }
      rewrite <- Rh. apply fin32_div; [apply (fin32_fofZ coarse flat 1); lia|apply (fin32_fofZ coarse flat 2); lia|lra|]. rewrite Rh. rewrite Rabs_pos_eq by lra. apply Rlt_trans with 1; [lra|]. change 1 with (bpow radix2 0). apply bpow_lt. lia.
    - exact (within_int coarse flat 1 ltac:(cbn; lia)).
    - intros v [Hv|[]]. discriminate Hv. }
  split. { constructor; [|constructor; [|constructor]]; intros Hi; [destruct Hi as [Hi|[]]; discriminate Hi|]. cbn [l_body outputs_of]. change (@Neuron NC) with (@Neuron NC) in *. rewrite K. lia. }
  split. { intros i j l q. unfold ex_draws. set (z := (1 - Z.of_nat ((j + q) mod 3))%Z). assert (Hz : (-1 <= z <= 1)%Z). { unfold z. pose proof (Nat.mod_upper_bound (j + q) 3 ltac:(lia)). lia. } exists (IZR z). split; [apply fin32_of_Z; lia|]. rewrite <- abs_IZR. apply IZR_le. lia. }
  split; [cbn [List.length]; lia|]. split; [constructor|]. constructor; [|constructor; [|constructor]]; eexists; (split; [apply fin32_of_Z; lia|]); rewrite <- abs_IZR; change (two_to 3) with (IZR 8); apply IZR_le; lia.
Qed.

(* ---------- a recurrent layer with an unbounded activation function ---------- *)
(* One recurrent neuron with the identity, its three weights drawn at 1.375 (the code draws up to 2.4 / sqrt 3 = 1.3856), always the same input 1 and temporalReset always true, as for
   data that is not temporal: each prediction is larger than the one before, and after 300 predictions it is infinite. *)
Fixpoint again (n : nat) (net : @Net NC) : outcome (@Net NC) :=
  match n with O => Ok net | S n => match @net_output NC net [f32_of_Z 1] true with Ok (_, net') => again n net' | Throw s => Throw s | UB => UB end end.
Lemma again_watched n : forall net net', again n net = Ok net' -> watched coarse flat 1 0 net net'.
Proof.
  induction n as [|n IH]; intros net net' H; cbn [again] in H; [injection H as <-; constructor|]. destruct (@net_output NC net [f32_of_Z 1] true) as [[o net1]| |] eqn:E; try discriminate.
  eapply watched_predict; [| |exact E|now apply IH]; [reflexivity|]. constructor; [|constructor]. exact (within_int coarse flat 1 ltac:(cbn; lia)).
Qed.
Definition grow_draw : f32 := @fdiv NC (@fofZ NC 11) (@fofZ NC 8).
Definition grow : list (@LDesc NC) := [@Input NC [1%Z]; @Recurrence NC 1 a_identity []].
Definition grow_made : outcome (@Net NC) := @construct NC (fun _ _ _ _ => grow_draw) (fun _ _ _ => true) grow (@flit NC 1 100) (@fzero NC).
Theorem C70_recurrence_refuted : exists net net' o net'', within (1385 / 1000) grow_draw /\ grow_made = Ok net /\ watched coarse flat 1 0 net net' /\ @net_output NC net' [f32_of_Z 1] true = Ok (o, net'') /\ o = [S754_infinity false].
Proof.
  assert (H : run_check grow_made (fun net => run_check (again 300 net) (fun net' => run_check (@net_output NC net' [f32_of_Z 1] true) (fun p => sfl_eqb (fst p) [S754_infinity false]))) = true) by (vm_compute; reflexivity).
  apply run_check_ex in H as (net & E & H). apply run_check_ex in H as (net' & E' & H). apply run_check_ex in H as ([o net''] & E'' & H). apply sfl_eqb_eq in H. exists net, net', o, net''. split; [|eauto using again_watched].
  exists (11 / 8). split; [|rewrite Rabs_pos_eq; lra]. assert (Rh : rnd (11 / 8) = 11 / 8). { replace (11 / 8) with (IZR 11 * bpow radix2 (-3)) by (cbn; lra). apply round_generic; [typeclasses eauto|]. apply fmt_times; lia. }
  rewrite <- Rh. apply fin32_div; [apply (fin32_fofZ coarse flat 11); lia|apply (fin32_fofZ coarse flat 8); lia|lra|]. rewrite Rh. rewrite Rabs_pos_eq by lra. apply Rlt_trans with 2; [lra|]. change 2 with (bpow radix2 1). apply bpow_lt. lia.
Qed.
Print Assumptions C70_recurrence_refuted.
