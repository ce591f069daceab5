(* C19: computeOutput of feed-forward networks; C21: nothing is learnt after an abnormal output. *)
From Coq Require Import SpecFloat.
From Verif Require Import Base Num Witness ActModel NeuronModel LayerModel NetModel NeuronProofs LayerProofs SafeProofs SafeLayers FactoryModel FactorySpec FactoryProofs
  SafeNet BuildProofs FilterSpec FilterProofs HistProofs FilterProps PoolProofs LOptSpec LOptProps PureSpec FactoryProps.
Local Open Scope nat_scope.

(* ---------- outputs never change weights ---------- *)
Section W.
Context {N : Num}.
Lemma rec_output_w r x b v r' : rec_output r x b = Ok (v, r') -> n_w (r_n r') = n_w (r_n r).
Proof. unfold rec_output. intros H. cbv zeta in H. binds H. injection H as _ <-. destruct b; reflexivity. Qed.
Lemma gru_output_w g x b v g' : gru_output g x b = Ok (v, g') -> gru_weights g' = gru_weights g.
Proof.
  unfold gru_output. intros H. cbv zeta in H. binds H. injection H as _ <-. unfold gru_weights; cbn [g_reset g_update g_output set_lastOut r_n].
  repeat match goal with E : rec_output _ _ _ = Ok _ |- _ => apply rec_output_w in E end. cbn [set_lastOut r_n] in *. destruct b; cbn [gru_reset g_reset g_update g_output] in *; congruence.
Qed.
Lemma simple_output_w n x v n' : simple_output n x = Ok (v, n') -> n_w n' = n_w n.
Proof. intros H. apply simple_output_inv in H as (_ & ? & _ & ->). reflexivity. Qed.
Lemma conv_output_w f ns x o ns' : conv_output f ns x = Ok (o, ns') -> map n_w ns' = map n_w ns.
Proof.
  unfold conv_output. intros H. apply bind_Ok_inv in H as ([outs n1] & E & H). apply bind_Ok_inv in H as (r & _ & H). injection H as _ <-. revert E.
  match goal with |- ofold ?st _ _ = _ -> _ => assert (G : forall rows acc ns0 r1 n2, ofold st rows (acc, ns0) = Ok (r1, n2) -> map n_w n2 = map n_w ns0) end; [|apply G].
  induction rows as [|row t IH]; intros acc ns0 r1 n2 E; cbn [ofold] in E; [injection E as _ <-; reflexivity|].
  apply bind_Ok_inv in E as ([a b] & Ea & E). apply IH in E. rewrite E. cbn [fst snd] in Ea. apply bind_Ok_inv in Ea as (win & _ & Ea). apply bind_Ok_inv in Ea as ([o1 n3] & E1 & Ea). injection Ea as _ <-.
  eapply each_keeps; [|exact E1]. intros ? ? ? ? E2. exact (simple_output_w _ _ _ _ E2).
Qed.
Lemma loc_output_w f ns x o ns' : loc_output f ns x = Ok (o, ns') -> map n_w ns' = map n_w ns.
Proof.
  unfold loc_output. intros H. cbv zeta in H. destruct (_ <? _); [discriminate|]. apply bind_Ok_inv in H as (w & _ & H). apply bind_Ok_inv in H as ([a b] & E & H). apply bind_Ok_inv in H as (r & _ & H). injection H as _ <-.
  rewrite map_app. assert (K : map n_w b = map n_w (firstn (List.length (f_index f) * f_filters f) ns)).
  { eapply each_keeps; [|exact E]. intros ? ? ? ? E0. cbn beta in E0. apply bind_Ok_inv in E0 as (? & _ & E0). exact (simple_output_w _ _ _ _ E0). }
  rewrite K. rewrite <- map_app, firstn_skipn. reflexivity.
Qed.
Lemma body_output_w b x r o b' : body_output b x r = Ok (o, b') -> body_weights b' = body_weights b.
Proof.
  destruct b as [ns|ns|ns|k f ns]; cbn [body_output]; intros H.
  - apply bind_Ok_inv in H as ([a c] & E & H). injection H as _ <-. cbn [body_weights]. eapply each_keeps; [|exact E]. intros ? ? ? ? E9; exact (simple_output_w _ _ _ _ E9).
  - apply bind_Ok_inv in H as ([a c] & E & H). injection H as _ <-. cbn [body_weights]. eapply (each_keeps _ (fun r => n_w (r_n r))); [|exact E]. intros ? ? ? ? E9; exact (rec_output_w _ _ _ _ _ E9).
  - apply bind_Ok_inv in H as ([a c] & E & H). injection H as _ <-. cbn [body_weights]. eapply (each_keeps _ gru_weights); [|exact E]. intros ? ? ? ? E9; exact (gru_output_w _ _ _ _ _ E9).
  - destruct k; apply bind_Ok_inv in H as ([a c] & E & H); injection H as _ <-; cbn [body_weights]; try reflexivity; first [now apply conv_output_w in E|now apply loc_output_w in E].
Qed.
Lemma layer_output_w l x r o l' : layer_output l x r = Ok (o, l') -> layer_weights l' = layer_weights l.
Proof. unfold layer_output. intros H. apply bind_Ok_inv in H as ([a b] & E & H). apply bind_Ok_inv in H as (? & _ & H). injection H as _ <-. exact (body_output_w _ _ _ _ _ E). Qed.
Lemma layer_training_w rand l x r o l' : layer_outputForTraining rand l x r = Ok (o, l') -> layer_weights l' = layer_weights l.
Proof. unfold layer_outputForTraining. intros H. apply bind_Ok_inv in H as ([a b] & E & H). apply bind_Ok_inv in H as ([? ?] & _ & H). injection H as _ <-. exact (body_output_w _ _ _ _ _ E). Qed.
Lemma chain_w (f : nat -> Layer -> list F -> outcome (list F * Layer)) : (forall i l v o l', f i l v = Ok (o, l') -> layer_weights l' = layer_weights l) ->
  forall ls i v o ls', chain f i ls v = Ok (o, ls') -> map layer_weights ls' = map layer_weights ls.
Proof.
  intros Hf. induction ls as [|a t IH]; intros i v o ls' H; cbn [chain] in H; [injection H as _ <-; reflexivity|].
  apply bind_Ok_inv in H as ([v1 a1] & E & H). apply bind_Ok_inv in H as ([v2 t1] & E2 & H). injection H as _ <-. cbn. f_equal; [exact (Hf _ _ _ _ _ E)|exact (IH _ _ _ _ E2)].
Qed.
Lemma net_output_w n x r o n' : net_output n x r = Ok (o, n') -> net_weights n' = net_weights n /\ nn_trainings n' = nn_trainings n /\ nn_nan n' = (nn_nan n || anyAbnormal o)%bool /\ nn_opt n' = nn_opt n.
Proof.
  unfold net_output. destruct (nn_layers n) as [|a t] eqn:El; [discriminate|]. intros H. apply bind_Ok_inv in H as ([out ls] & E & H). injection H as <- <-.
  unfold net_weights. cbn [nn_layers nn_trainings nn_nan nn_opt]. rewrite El. split; [|auto]. eapply chain_w; [|exact E]. intros i l v o1 l' H1. exact (layer_output_w _ _ _ _ _ H1).
Qed.
Lemma net_training_w rand n x r o n' : net_outputForTraining rand n x r = Ok (o, n') -> net_weights n' = net_weights n /\ nn_trainings n' = nn_trainings n /\ nn_nan n' = (nn_nan n || anyAbnormal o)%bool /\ nn_opt n' = nn_opt n.
Proof.
  unfold net_outputForTraining. destruct (nn_layers n) as [|a t] eqn:El; [discriminate|]. intros H. apply bind_Ok_inv in H as ([out ls] & E & H). injection H as <- <-.
  unfold net_weights. cbn [nn_layers nn_trainings nn_nan nn_opt]. rewrite El. split; [|auto]. eapply chain_w; [|exact E]. intros i l v o1 l' H1. exact (layer_training_w _ _ _ _ _ _ H1).
Qed.
Lemma chain_outputs_w ls : forall v r ls', chain_outputs ls v = Ok (r, ls') -> map layer_weights ls' = map layer_weights ls.
Proof.
  induction ls as [|a t IH]; intros v r ls' H; cbn [chain_outputs] in H; [injection H as _ <-; reflexivity|].
  apply bind_Ok_inv in H as ([v1 a1] & E & H). apply bind_Ok_inv in H as ([v2 t1] & E2 & H). injection H as _ <-. cbn. f_equal; [exact (layer_output_w _ _ _ _ _ E)|exact (IH _ _ _ E2)].
Qed.
Lemma inspect_w n x o n' : getLayerOutputs n x = Ok (o, n') -> net_weights n' = net_weights n /\ nn_trainings n' = nn_trainings n /\ nn_nan n' = nn_nan n.
Proof.
  unfold getLayerOutputs. destruct (nn_layers n) as [|a t] eqn:El; [discriminate|]. intros H. apply bind_Ok_inv in H as ([out ls] & E & H). injection H as <- <-.
  unfold net_weights. cbn [nn_layers nn_trainings nn_nan]. rewrite El. split; [|auto]. eapply chain_outputs_w; exact E.
Qed.

(* ---------- C21 ---------- *)
Lemma train_nan rand n x d r n' : nn_nan n = true -> trainOnce rand n x d r = Ok n' -> net_weights n' = net_weights n /\ nn_nan n' = true.
Proof.
  unfold trainOnce, backpropagation. intros Hn H. apply bind_Ok_inv in H as (n1 & E & H). injection H as <-. apply bind_Ok_inv in E as ([o n2] & E & H1).
  apply net_training_w in E as (W & _ & Nn & _). rewrite Hn in Nn. cbn in Nn. rewrite Nn in H1. injection H1 as <-. unfold net_weights in *. cbn [nn_layers nn_nan]. auto.
Qed.
Lemma later_nan net net' : later net net' -> nn_nan net = true -> net_weights net' = net_weights net /\ nn_nan net' = true.
Proof.
  intros H. induction H as [|net x reset o net1 net2 E _ IH|net rand x reset o net1 net2 E _ IH|net x o net1 net2 E _ IH|net rand x d reset net1 net2 E _ IH]; intros Hn; auto.
  - apply net_output_w in E as (W & _ & Nn & _). rewrite Hn in Nn. destruct (IH Nn) as [-> ?]. auto.
  - apply net_training_w in E as (W & _ & Nn & _). rewrite Hn in Nn. destruct (IH Nn) as [-> ?]. auto.
  - apply inspect_w in E as (W & _ & Nn). rewrite Hn in Nn. destruct (IH Nn) as [-> ?]. auto.
  - destruct (train_nan _ _ _ _ _ _ Hn E) as [W Nn]. destruct (IH Nn) as [-> ?]. auto.
Qed.
Lemma abnormal_flag o : (exists y, In y o /\ abnormal y) -> anyAbnormal o = true.
Proof. intros (y & Hy & Ha). unfold anyAbnormal. apply existsb_exists. exists y. split; [exact Hy|]. now rewrite Ha. Qed.
(* Whatever the network: once an output contained an abnormal value, whether computed for a prediction or for a training step,
   no later use changes a weight, the training step in which it happened included. *)
Theorem C21_abnormal_output : forall (net : Net),
  (forall x reset o net1 net2, net_output net x reset = Ok (o, net1) -> (exists y, In y o /\ abnormal y) -> later net1 net2 -> net_weights net2 = net_weights net) /\
  (forall rand x reset o net1 net2, net_outputForTraining rand net x reset = Ok (o, net1) -> (exists y, In y o /\ abnormal y) -> later net1 net2 -> net_weights net2 = net_weights net) /\
  (forall rand x d reset o net1 net2, (exists n, net_outputForTraining rand net x reset = Ok (o, n)) -> (exists y, In y o /\ abnormal y) ->
     trainOnce rand net x d reset = Ok net1 -> later net1 net2 -> net_weights net2 = net_weights net).
Proof.
  intros net. split; [|split].
  - intros x reset o net1 net2 E Ha HL. apply net_output_w in E as (W & _ & Nn & _). rewrite (abnormal_flag _ Ha), Bool.orb_true_r in Nn. destruct (later_nan _ _ HL Nn) as [-> _]. exact W.
  - intros rand x reset o net1 net2 E Ha HL. apply net_training_w in E as (W & _ & Nn & _). rewrite (abnormal_flag _ Ha), Bool.orb_true_r in Nn. destruct (later_nan _ _ HL Nn) as [-> _]. exact W.
  - intros rand x d reset o net1 net2 (n & E) Ha Et HL. unfold trainOnce, backpropagation in Et. rewrite E in Et. cbn [bind] in Et. apply net_training_w in E as (W & _ & Nn & _). rewrite (abnormal_flag _ Ha), Bool.orb_true_r in Nn.
    rewrite Nn in Et. cbn [bind] in Et. injection Et as <-. destruct (later_nan _ _ HL) as [-> _]; [exact Nn|]. exact W.
Qed.
End W.
Print Assumptions C21_abnormal_output.

(* ---------- C19 ---------- *)
Section C19.
Context {N : Num}.
Definition twin_body (b1 b2 : Body) : Prop :=
  match b1, b2 with
  | BFull n1, BFull n2 => map setup n1 = map setup n2
  | BFilter k1 f1 n1, BFilter k2 f2 n2 => k1 = k2 /\ f2 = set_maxIndex f1 (f_maxIndex f2) /\ map setup n1 = map setup n2
  | _, _ => False
  end.
Lemma full_values k ns x r : Forall (wf_plain k) ns -> List.length x = k -> exists ns', body_output (BFull ns) x r = Ok (map (fun n => fires_of (setup n) x) ns, BFull ns').
Proof.
  intros Hw Hx. cbn [body_output]. assert (G : forall i, exists ns', each_from (fun _ n => simple_output n x) i ns = Ok (map (fun n => fires_of (setup n) x) ns, ns')).
  { induction Hw as [|n t Hn Ht IH]; intros i; [exists []; reflexivity|]. cbn [each_from]. destruct (simple_output_wf k n x Hn Hx) as (v & n' & E & _). rewrite E. apply simple_output_inv in E as (-> & _).
    cbn [bind fst snd]. destruct (IH (S i)) as (ns' & ->). cbn [bind fst snd map]. eauto. }
  unfold each. destruct (G 0) as (ns' & ->). cbn [bind]. eauto.
Qed.
Lemma map_setup_length n1 n2 : map setup n1 = map setup n2 -> List.length n1 = List.length n2.
Proof. intros H. apply (f_equal (@List.length _)) in H. now rewrite !map_length in H. Qed.
Lemma twin_output k m b1 b2 x r1 r2 : wf_body k b1 m -> wf_body k b2 m -> twin_body b1 b2 -> List.length x = k ->
  exists o c1 c2, body_output b1 x r1 = Ok (o, c1) /\ body_output b2 x r2 = Ok (o, c2).
Proof.
  intros W1 W2 T Hx. destruct b1 as [n1|n1|n1|k1 f1 n1], b2 as [n2|n2|n2|k2 f2 n2]; try contradiction; cbn [twin_body] in T.
  - destruct W1 as [_ W1], W2 as [_ W2]. destruct (full_values k n1 x r1 W1 Hx) as (a & ->). destruct (full_values k n2 x r2 W2 Hx) as (b & ->).
    assert (E : map (fun n => fires_of (setup n) x) n1 = map (fun n => fires_of (setup n) x) n2) by (rewrite <- !(map_map setup (fun s => fires_of s x)), T; reflexivity). rewrite E. eauto.
  - destruct T as (<- & Ef & T). destruct W1 as [K1 W1], W2 as [K2 W2]. pose proof (map_setup_length _ _ T) as HLn. destruct k1; cbn [wf_filter] in *.
    1, 2: destruct W1 as (R1 & M1 & P1), W2 as (R2 & M2 & P2);
      destruct (conv_values k f1 n1 x R1 ltac:(lia) P1 Hx) as (a & E1); destruct (conv_values k f2 n2 x R2 ltac:(lia) P2 Hx) as (b & E2); cbn [body_output]; rewrite E1, E2; cbn [bind];
      rewrite Ef; cbn [f_index set_maxIndex]; eexists _, _, _; split; [reflexivity|]; do 2 f_equal; apply flat_map_ext; intros row;
      rewrite <- !(map_map setup (fun s => fires_of s (map (fun i => nth (Z.to_nat i) x fzero) row))), T; reflexivity.
    1, 2: destruct W1 as (R1 & Q1 & M1 & L1 & _ & P1), W2 as (R2 & Q2 & M2 & L2 & _ & P2);
      destruct (loc_values k f1 n1 x R1 Q1 ltac:(lia) ltac:(lia) P1 Hx) as (o1 & a & E1 & LO1 & V1); destruct (loc_values k f2 n2 x R2 Q2 ltac:(lia) ltac:(lia) P2 Hx) as (o2 & b & E2 & LO2 & V2);
      cbn [body_output]; rewrite E1, E2; cbn [bind]; assert (E : o1 = o2);
      [|subst; eauto]; apply nth_error_ext; intros j; destruct (Nat.lt_ge_cases j (List.length o1)) as [Hj|Hj]; [|rewrite !(proj2 (nth_error_None _ _)) by lia; reflexivity];
      rewrite Ef in V2; cbn [f_index f_filters set_maxIndex] in V2;
      (destruct (nth_error n1 j) as [a1|] eqn:A1; [|apply nth_error_None in A1; lia]); (destruct (nth_error n2 j) as [a2|] eqn:A2; [|apply nth_error_None in A2; lia]);
      assert (Hq : j / f_filters f1 < List.length (f_index f1)) by (apply Nat.div_lt_upper_bound; lia);
      (destruct (nth_error (f_index f1) (j / f_filters f1)) as [row|] eqn:Er; [|apply nth_error_None in Er; lia]);
      rewrite (V1 _ _ _ A1 Er), (V2 _ _ _ A2 Er); do 2 f_equal;
      apply (f_equal (fun l => nth_error l j)) in T; rewrite !nth_error_map, A1, A2 in T; cbn in T; injection T; intros; unfold setup; congruence.
    1, 2: destruct W1 as (R1 & Q1 & M1 & L1 & I1 & _), W2 as (R2 & Q2 & M2 & L2 & I2 & _);
      destruct (pool_output_wf k f1 x m R1 Q1 M1 L1 (eq_sym K1) Hx) as (o1 & g1 & E1 & _); destruct (pool_output_wf k f2 x m R2 Q2 M2 L2 (eq_sym K2) Hx) as (o2 & g2 & E2 & _);
      cbn [body_output]; rewrite E1, E2; cbn [bind]; assert (E : o1 = o2); [|subst; eauto];
      rewrite Ef in E2; unfold pool_output, maxIndexOf in E1, E2; cbn [f_maxIndex f_index f_nin f_kernels set_maxIndex] in E2;
      destruct (_ <? _) in E1; [discriminate|]; destruct (_ <? _) in E2; [discriminate|];
      destruct (omap _ (f_index f1)) as [best| |] in E1, E2; cbn [bind] in E1, E2; try discriminate;
      apply bind_Ok_inv in E1 as (u & U & E1); rewrite U in E2; cbn [bind] in E2; apply bind_Ok_inv in E1 as (u1 & U1 & E1); rewrite U1 in E2; cbn [bind] in E2; congruence.
Qed.
Lemma built_twins dr1 ms1 dr2 ms2 d s l1 l2 : built dr1 ms1 d s l1 -> built dr2 ms2 d s l2 ->
  match l_body l1, l_body l2 with
  | BFull _, BFull _ | BRec _, BRec _ | BGru _, BGru _ => True
  | BFilter k f _, BFilter k' f' _ => k = k' /\ f = f'
  | _, _ => False
  end.
Proof.
  intros B1 B2. destruct B1; destruct B2; try congruence; cbn [finish l_body]; auto;
  repeat match goal with H : _ \/ _ |- _ => destruct H as [H|[H ?]] end; subst; try discriminate;
  repeat match goal with H : [_] = [_] |- _ => injection H as <- | H : [_; _] = [_; _] |- _ => injection H as <- <- | H : [_; _; _] = [_; _; _] |- _ => injection H as <- <- <- end;
  repeat match goal with H1 : d_ksize d = Z.of_nat ?a, H2 : d_ksize d = Z.of_nat ?b |- _ => assert (a = b) by lia; subst b; clear H2 end;
  repeat match goal with H1 : d_filters d = Z.of_nat ?a, H2 : d_filters d = Z.of_nat ?b |- _ => assert (a = b) by lia; subst b; clear H2 end; auto.
Qed.
Lemma built_settings dr ms d s l : built dr ms d s l -> feed_forward d -> exists m, settings (l_body l) = repeat (d_act d, d_bias d) m.
Proof.
  intros B Hf. unfold feed_forward in Hf. destruct B; try (rewrite H in Hf; contradiction); cbn [finish l_body settings]; try (exists 0; reflexivity); eexists; eapply mk_full_settings; eassumption.
Qed.
Lemma setups_eq n1 n2 a m m' : map nset n1 = repeat a m -> map nset n2 = repeat a m' -> map n_w n1 = map n_w n2 -> map setup n1 = map setup n2.
Proof.
  intros H1 H2 HW. apply nth_error_ext. intros i. assert (L : List.length n1 = List.length n2) by (apply (f_equal (@List.length _)) in HW; now rewrite !map_length in HW).
  rewrite !nth_error_map. destruct (nth_error n1 i) as [x|] eqn:E1.
  - assert (i < List.length n2) by (rewrite <- L; apply nth_error_Some; congruence). destruct (nth_error n2 i) as [y|] eqn:E2; [|apply nth_error_None in E2; lia]. cbn. f_equal.
    destruct a as [a b]. destruct (settings_at _ _ _ _ H1 _ _ E1) as [A1 B1]. destruct (settings_at _ _ _ _ H2 _ _ E2) as [A2 B2]. apply (f_equal (fun l => nth_error l i)) in HW. rewrite !nth_error_map, E1, E2 in HW. injection HW as HW. unfold setup. congruence.
  - apply nth_error_None in E1. rewrite (proj2 (nth_error_None n2 i)) by lia. reflexivity.
Qed.
Lemma opts_testing_same os1 : forall os2 v, Forall2 same_opt os1 os2 -> opts_testing os1 v = opts_testing os2 v.
Proof.
  unfold opts_testing. induction os1 as [|o t IH]; intros os2 v H; inversion H as [|? o2 ? t2 H1 H2]; subst; [reflexivity|]. cbn [ofold].
  assert (E : opt_testing o v = opt_testing o2 v). { destruct o, o2; cbn in H1; try discriminate; try (injection H1 as <-); try reflexivity. destruct H1 as (_ & <- & _). reflexivity. }
  rewrite E. destruct (opt_testing o2 v); cbn [bind]; auto.
Qed.
Lemma same_opt_sym a b : same_opt a b -> same_opt b a.
Proof. destruct a, b; cbn; try discriminate; auto; try (intros [= ->]; reflexivity). intros (-> & -> & ->). auto. Qed.
Lemma same_opts_sym a b : Forall2 same_opt a b -> Forall2 same_opt b a.
Proof. intros H. induction H; constructor; auto using same_opt_sym. Qed.
Lemma cell_count_pos s : 0 < cell_count s -> Forall (fun x => 0 < x) s.
Proof.
  unfold cell_count. generalize 1. induction s as [|x t IH]; intros a H; constructor; cbn [fold_left] in H.
  - destruct x; [|lia]. exfalso. rewrite Nat.mul_0_r in H. clear IH. assert (E : fold_left Nat.mul t 0 = 0) by (induction t; auto). rewrite E in H. lia.
  - exact (IH _ H).
Qed.
Lemma twin_layers d s l1 l2 : feed_forward d -> layer_of d s l1 -> layer_of d s l2 -> Forall (fun x => 0 < x) s -> sane_kernel d -> (forall draws masks l0, built draws masks d s l0 -> supported_pooling l0) ->
  layer_weights l1 = layer_weights l2 -> forall x r1 r2, List.length x = cell_count s ->
  exists o c1 c2, layer_output l1 x r1 = Ok (o, c1) /\ layer_output l2 x r2 = Ok (o, c2) /\ List.length o = cell_count (getShapeOfOutput l1) /\ getShapeOfOutput l1 = getShapeOfOutput l2 /\
    Forall (fun x => 0 < x) (getShapeOfOutput l1).
Proof.
  intros Hf HL1 HL2 Hs Hk HP HW x r1 r2 Hx.
  destruct (layer_of_wf d s l1 HL1 Hs Hk HP) as (dr1 & ms1 & a1 & B1 & W01 & W1 & SL1 & SS1). destruct (layer_of_wf d s l2 HL2 Hs Hk HP) as (dr2 & ms2 & a2 & B2 & W02 & W2 & SL2 & SS2).
  destruct (opts_state d s l1 HL1 Hs Hk HP) as (q1 & O1). destruct (opts_state d s l2 HL2 Hs Hk HP) as (q2 & O2).
  pose proof (built_twins _ _ _ _ _ _ _ _ B1 B2) as BT. destruct (built_settings _ _ _ _ _ B1 Hf) as (m1 & Z1). destruct (built_settings _ _ _ _ _ B2 Hf) as (m2 & Z2). rewrite Z1 in SS1. rewrite Z2 in SS2.
  destruct (same_layer_shape _ _ SL1) as [Sh1 Nn1]. destruct (same_layer_shape _ _ SL2) as [Sh2 Nn2].
  assert (EN : getNumberOfNeurons l1 = getNumberOfNeurons l2) by (unfold getNumberOfNeurons; now rewrite HW).
  destruct SL1 as (_ & (_ & K1) & _), SL2 as (_ & (_ & K2) & _).
  assert (T : twin_body (l_body l1) (l_body l2) /\ getShapeOfOutput a1 = getShapeOfOutput a2).
  { unfold getShapeOfOutput. rewrite <- Nn1, <- Nn2, EN. unfold layer_weights in HW. unfold feed_forward in Hf.
    assert (Hn : match l_body a1 with BRec _ | BGru _ => False | _ => True end) by (destruct B1; cbn [finish l_body]; auto; rewrite H in Hf; contradiction).
    clear B1 B2 W01 W02. destruct (l_body a1) as [?|?|?|ka fa na]; try contradiction; destruct (l_body a2) as [?|?|?|kb fb nb]; try contradiction;
    destruct (l_body l1) as [?|?|?|kk1 ff1 ns1]; try contradiction; destruct (l_body l2) as [?|?|?|kk2 ff2 ns2]; try contradiction; cbn [twin_body settings body_weights] in *.
    - split; [|reflexivity]. eapply setups_eq; eassumption.
    - destruct K1 as [-> K1], K2 as [-> K2], BT as [-> ->]. split; [|reflexivity]. split; [reflexivity|]. split; [rewrite K1; exact K2|]. eapply setups_eq; eassumption. }
  destruct T as [T Sh]. rewrite Sh1, Sh2, Sh. assert (W1' : wf_layer (cell_count s) l1 (cell_count (getShapeOfOutput a2))) by (rewrite <- Sh; exact W1). rewrite Sh in W1.
  destruct (twin_output (cell_count s) _ _ _ x r1 r2 (proj1 (proj2 (proj2 (proj2 W1)))) (proj1 (proj2 (proj2 (proj2 W2)))) T Hx) as (o & c1 & c2 & E1 & E2).
  destruct (layer_output_wf _ l1 _ x r1 W1 Hx) as (o1 & q & Eo & L & _). unfold layer_output in *. rewrite E1 in Eo |- *. rewrite E2. cbn [bind] in *.
  assert (EO : opts_testing (l_opts l2) o = opts_testing (l_opts l1) o).
  { apply opts_testing_same. rewrite EN in O1. eapply same_opts_trans; [apply same_opts_sym; exact O2|]. eapply same_opts_trans; [|exact O1].
    unfold build_opts. clear. generalize (getNumberOfNeurons l2). intros n. induction (combine (seq 0 (List.length (d_opts d))) (d_opts d)) as [|[i o] t IH]; cbn; constructor; auto.
    destruct o; cbn; auto. now rewrite !map_length. }
  rewrite EO. destruct (opts_testing (l_opts l1) o) as [o2| |]; cbn [bind] in *; try discriminate. injection Eo as -> <-. eexists _, _, _. split; [reflexivity|]. split; [reflexivity|]. split; [exact L|]. split; [reflexivity|].
  apply cell_count_pos. apply W2.
Qed.
Definition kindof (b : Body) : option (fkind * list nat * list nat) := match b with BFilter k f _ => Some (k, f_shapeIn f, f_shapeOut f) | _ => None end.
Lemma body_output_kind b x r o b' : body_output b x r = Ok (o, b') -> kindof b' = kindof b.
Proof.
  destruct b as [ns|ns|ns|k f ns]; cbn [body_output]; intros H; try (apply bind_Ok_inv in H as ([a c] & E & H); injection H as _ <-; reflexivity).
  destruct k; apply bind_Ok_inv in H as ([a c] & E & H); injection H as _ <-; try reflexivity; unfold pool_output in E; destruct (_ <? _) in E; try discriminate; binds E; injection E as _ <-; reflexivity.
Qed.
Lemma body_back_kind opt n b e r b' : body_back opt n b e = Ok (r, b') -> kindof b' = kindof b.
Proof.
  destruct b as [ns|ns|ns|k f ns]; cbn [body_back]; intros H; try (apply bind_Ok_inv in H as ([a c] & E & H); apply bind_Ok_inv in H as (? & _ & H); injection H as _ <-; reflexivity).
  destruct k; try (apply bind_Ok_inv in H as ([a c] & E & H); injection H as _ <-; reflexivity); apply bind_Ok_inv in H as (a & E & H); injection H as _ <-; reflexivity.
Qed.
Lemma body_train_kind opt b e b' : body_train opt b e = Ok b' -> kindof b' = kindof b.
Proof.
  destruct b as [ns|ns|ns|k f ns]; cbn [body_train]; intros H; try (apply bind_Ok_inv in H as ([a c] & E & H); injection H as <-; reflexivity).
  destruct k; try (apply bind_Ok_inv in H as ([a c] & E & H); injection H as <-; reflexivity); injection H as <-; reflexivity.
Qed.
Lemma works_kindof l l' : works l l' -> kindof (l_body l') = kindof (l_body l).
Proof.
  intros H. induction H; auto; rewrite IHworks.
  - unfold layer_output in H0. binds H0. injection H0 as _ <-. eapply body_output_kind; eassumption.
  - unfold layer_outputForTraining in H0. binds H0. injection H0 as _ <-. eapply body_output_kind; eassumption.
  - unfold layer_backOutput in H0. cbv zeta in H0. binds H0. injection H0 as _ <-. eapply body_back_kind; eassumption.
  - unfold layer_train in H0. cbv zeta in H0. binds H0. injection H0 as <-. eapply body_train_kind; eassumption.
  - unfold layer_backOutput in H1. cbv zeta in H1. binds H1. injection H1 as _ <-. eapply body_back_kind; eassumption.
Qed.
Lemma works_kind l l1 : works l1 l -> match l_body l, l_body l1 with BFilter k f _, BFilter k' f' _ => k = k' /\ f_shapeIn f = f_shapeIn f' /\ f_shapeOut f = f_shapeOut f' | BFilter _ _ _, _ | _, BFilter _ _ _ => False | _, _ => True end.
Proof. intros H. apply works_kindof in H. destruct (l_body l), (l_body l1); cbn in *; try discriminate; auto. injection H; auto. Qed.
(* the poolings of a layer in any state are those of its description *)
Lemma pooling_of d s l : layer_of d s l -> Forall (fun x => 0 < x) s -> sane_kernel d -> supported_pooling l -> forall draws masks l0, built draws masks d s l0 -> supported_pooling l0.
Proof.
  intros HL Hs Hk HP dr ms l0 B. destruct HL as (draws & masks & l1 & Hb & HV & HW). apply build_layer_built in Hb; auto.
  assert (HB1 : supported_pooling l1).
  { assert (K : match l_body l, l_body l1 with BFilter k f _, BFilter k' f' _ => k = k' /\ f_shapeIn f = f_shapeIn f' /\ f_shapeOut f = f_shapeOut f' | BFilter _ _ _, _ | _, BFilter _ _ _ => False | _, _ => True end) by (apply works_kind; exact HW).
    unfold supported_pooling in *. destruct (l_body l), (l_body l1); try contradiction; auto. destruct K as (-> & E1 & E2). destruct k0; auto; congruence. }
  pose proof (built_twins _ _ _ _ _ _ _ _ Hb B) as T. unfold supported_pooling in *. destruct (l_body l1), (l_body l0); try contradiction; auto. destruct T as [<- <-]. exact HB1.
Qed.
Lemma twin_chain ds : Forall feed_forward ds -> Forall sane_kernel ds -> forall s ls1 ls2, layers_of ds s ls1 -> layers_of ds s ls2 -> Forall (fun x => 0 < x) s ->
  Forall supported_pooling ls1 -> map layer_weights ls1 = map layer_weights ls2 -> forall i j x r1 r2, List.length x = cell_count s ->
  exists o c1 c2, chain (fun _ l v => layer_output l v r1) i ls1 x = Ok (o, c1) /\ chain (fun _ l v => layer_output l v r2) j ls2 x = Ok (o, c2).
Proof.
  induction ds as [|d t IH]; intros Hf Hk s ls1 ls2 H1 H2 Hs HP HW i j x r1 r2 Hx; destruct ls1 as [|a1 t1], ls2 as [|a2 t2]; try contradiction; [cbn; eauto|].
  cbn [layers_of] in *. destruct H1 as [HA1 H1], H2 as [HA2 H2]. injection HW as Hw HW. inversion Hf; subst. inversion Hk; subst. inversion HP; subst.
  destruct (twin_layers d s a1 a2) with (x := x) (r1 := r1) (r2 := r2) as (o & c1 & c2 & E1 & E2 & L & Sh & Hp); auto.
  { apply (pooling_of d s a1); assumption. }
  rewrite Sh in H1. destruct (IH ltac:(assumption) ltac:(assumption) _ t1 t2 H1 H2) with (i := S i) (j := S j) (x := o) (r1 := r1) (r2 := r2) as (o' & d1 & d2 & E3 & E4); auto; try congruence.
  cbn [chain]. rewrite E1, E2. cbn [bind]. rewrite E3, E4. cbn [bind]. eauto.
Qed.

(* Two networks made from the same descriptions, whatever their initial weights and histories: if all their weights are equal, they give
   the same output for every input, and temporalReset does not matter. *)
Theorem C19_parameters_decide : forall draws masks lr m net1 net1' draws' masks' lr' m' net2 net2' shape rest,
  construct draws masks (Input (map Z.of_nat shape) :: rest) lr m = Ok net1 -> construct draws' masks' (Input (map Z.of_nat shape) :: rest) lr' m' = Ok net2 ->
  Forall (fun n => 0 < n) shape -> Forall sane_kernel rest -> Forall feed_forward rest -> Forall supported_pooling (nn_layers net1) -> Forall supported_pooling (nn_layers net2) ->
  uses (cell_count shape) net1 net1' -> uses (cell_count shape) net2 net2' -> net_weights net1' = net_weights net2' ->
  forall x r1 r2, List.length x = cell_count shape -> exists o n1 n2, net_output net1' x r1 = Ok (o, n1) /\ net_output net2' x r2 = Ok (o, n2).
Proof.
  intros draws masks lr m net1 net1' draws' masks' lr' m' net2 net2' shape rest C1 C2 Hs Hk Hf P1 P2 U1 U2 HW x r1 r2 Hx.
  pose proof (network_layers _ _ _ _ _ _ _ _ C1 Hs Hk P1 U1) as L1. pose proof (network_layers _ _ _ _ _ _ _ _ C2 Hs Hk P2 U2) as L2.
  assert (PP : Forall supported_pooling (nn_layers net1')).
  { assert (Hsane : sane_descriptions (Input (map Z.of_nat shape) :: rest)) by (split; [|exact Hk]; cbn [d_shape Input]; clear -Hs; induction Hs; cbn; constructor; auto; lia).
    destruct (construct_wf _ _ _ _ _ _ C1 Hsane P1) as (k & mm & W & Hp). cbn [hd d_shape Input] in Hp. unfold product in Hp. apply product_inv in Hp. change 1%Z with (Z.of_nat 1) in Hp. rewrite fold_mul_nat in Hp. apply Nat2Z.inj in Hp.
    change (k = cell_count shape) in Hp. subst k. destruct (uses_wf _ _ _ _ W U1) as [_ HS]. clear -HS P1. induction HS as [|a b ta tb Hab HS IH]; inversion P1; subst; constructor; auto.
    destruct Hab as (_ & _ & Hw). apply works_kind in Hw. unfold supported_pooling in *. destruct (l_body a), (l_body b); try contradiction; auto. destruct Hw as (-> & E1 & E2). destruct k; auto; congruence. }
  assert (Hne : nn_layers net1' <> [] /\ nn_layers net2' <> []).
  { apply construct_inv in C1 as (d0 & r & Er & _ & _ & _ & _ & Hr). injection Er as <- <-. destruct rest as [|d t]; [|destruct (nn_layers net1'), (nn_layers net2'); try contradiction; split; discriminate].
    exfalso. unfold build_all in *. cbn in C2. discriminate. }
  destruct (twin_chain rest Hf Hk shape (nn_layers net1') (nn_layers net2') L1 L2 Hs PP HW 0 0 x r1 r2 Hx) as (o & c1 & c2 & E1 & E2).
  unfold net_output. rewrite E1, E2. destruct Hne. destruct (nn_layers net1'), (nn_layers net2'); try congruence. cbn [bind]. eauto.
Qed.
Lemma looks_uses k net net' : looks k net net' -> uses k net net'.
Proof. intros H. induction H; eauto using uses_none, uses_predict, uses_forTraining, uses_inspect. Qed.
Lemma uses_trans k a b c : uses k a b -> uses k b c -> uses k a c.
Proof. intros H. induction H; intros; eauto using uses_predict, uses_forTraining, uses_inspect, uses_train. Qed.
Lemma looks_keep k net net' : looks k net net' -> net_weights net' = net_weights net /\ nn_trainings net' = nn_trainings net.
Proof.
  intros H. induction H as [|net x reset o net1 net2 Hx E _ IH|net rand x reset o net1 net2 Hx E _ IH|net x o net1 net2 Hx E _ IH]; auto; destruct IH as [-> ->].
  - apply net_output_w in E as (-> & -> & _). auto.
  - apply net_training_w in E as (-> & -> & _). auto.
  - apply inspect_w in E as (-> & -> & _). auto.
Qed.
(* After any history of predictions and training steps, computing outputs in any way changes neither the weights nor the number of
   trainings, and the network gives the same outputs before and after. *)
Theorem C19_outputs_are_pure : forall draws masks lr m net0 net net' shape rest,
  construct draws masks (Input (map Z.of_nat shape) :: rest) lr m = Ok net0 ->
  Forall (fun n => 0 < n) shape -> Forall sane_kernel rest -> Forall feed_forward rest -> Forall supported_pooling (nn_layers net0) ->
  uses (cell_count shape) net0 net -> looks (cell_count shape) net net' ->
  net_weights net' = net_weights net /\ nn_trainings net' = nn_trainings net /\
  forall x r1 r2, List.length x = cell_count shape -> exists o n1 n2, net_output net x r1 = Ok (o, n1) /\ net_output net' x r2 = Ok (o, n2).
Proof.
  intros draws masks lr m net0 net net' shape rest C Hs Hk Hf HP U HL. destruct (looks_keep _ _ _ HL) as [HW HT]. split; [exact HW|]. split; [exact HT|]. intros x r1 r2 Hx.
  eapply C19_parameters_decide with (net1 := net0) (net2 := net0); eauto. eapply uses_trans; [exact U|]. now apply looks_uses.
Qed.
End C19.
Print Assumptions C19_parameters_decide.
Print Assumptions C19_outputs_are_pure.

(* a convolution, a pooling and two dense layers, one with dropout: built, trained once, then looked at *)
Definition demo_ff : list (@LDesc N32) :=
  [@Input N32 (map Z.of_nat [1; 4; 5]); @Convolution N32 2 2 a_ReLU []; @MaxPooling N32 2; @FullyConnected N32 3 a_sigmoid [@d_dropout N32 (b32q 1 2)]; @FullyConnected N32 2 a_identity [@d_softmax N32]].
Definition x20 : list (@F N32) := map (fun i => b32 (Z.of_nat i)) (seq 0 20).
Example C19_hypotheses : exists net0 net net', @construct N32 zdraws nomasks demo_ff (b32q 1 100) (b32q 9 10) = Ok net0 /\
  demo_ff = @Input N32 (map Z.of_nat [1; 4; 5]) :: tl demo_ff /\ Forall (@sane_kernel N32) (tl demo_ff) /\ Forall (@feed_forward N32) (tl demo_ff) /\
  Forall (@supported_pooling N32) (nn_layers net0) /\ @uses N32 20 net0 net /\ @looks N32 20 net net' /\ nn_trainings net = 1%Z.
Proof.
  by_compute (run_check (@construct N32 zdraws nomasks demo_ff (b32q 1 100) (b32q 9 10)) (fun net0 => forallb pool_okb (nn_layers net0)
    && nat_is (net_numberOfOutputs net0) 2 && match nn_layers net0 with a :: b :: t => getNumberOfNeurons (last (b :: t) a) =? cell_count (getShapeOfOutput (last (b :: t) a)) | _ => false end
    && run_check (@trainOnce N32 (fun _ _ _ => true) net0 x20 [b32 1; b32 0] true) (fun net => (nn_trainings net =? 1)%Z
    && run_check (@net_output N32 net x20 false) (fun p => true)))).
  destruct w1 as [o net']. exists w, w0, net'. split; [exact E|]. split; [reflexivity|]. split; [repeat constructor; cbn; lia|]. split; [repeat constructor|].
  split; [now apply pool_okb_ok|]. split; [eapply uses_train; [| | |exact E0|apply uses_none]; [reflexivity|now apply nat_is_ok|]|].
  { unfold trainable. destruct (nn_layers w) as [|a [|b t]]; auto. left. now apply Nat.eqb_eq. }
  split; [|now apply Z.eqb_eq].
  eapply looks_predict; [|exact E1|apply looks_none]. reflexivity.
Qed.
(* an infinite input makes the output of a dense network abnormal *)
Definition demo_id : list (@LDesc N32) := [@Input N32 [20]%Z; @FullyConnected N32 3 a_identity []; @FullyConnected N32 2 a_identity []].
Example C21_hypotheses : exists net o net1 net2, @construct N32 zdraws nomasks demo_id (b32q 1 100) (b32q 9 10) = Ok net /\
  @net_output N32 net (repeat (S754_infinity false) 20) true = Ok (o, net1) /\ (exists y, In y o /\ @abnormal N32 y) /\
  @trainOnce N32 (fun _ _ _ => true) net1 x20 [b32 1; b32 0] true = Ok net2 /\ @later N32 net1 net2.
Proof.
  by_compute (run_check (@construct N32 zdraws nomasks demo_id (b32q 1 100) (b32q 9 10)) (fun net0 =>
    run_check (@net_output N32 net0 (repeat (S754_infinity false) 20) true) (fun p => existsb (fun y => negb (@fnormal N32 y)) (fst p)
    && run_check (@trainOnce N32 (fun _ _ _ => true) (snd p) x20 [b32 1; b32 0] true) (fun p => true)))).
  destruct w0 as [o net1]. exists w, o, net1, w1. split; [exact E|]. split; [exact E0|]. split.
  - apply existsb_exists in K as (y & Hy & Ha). exists y. split; [exact Hy|]. unfold abnormal. now apply Bool.negb_true_iff.
  - split; [exact E1|]. eapply later_train; [exact E1|apply later_none].
Qed.
