(* Proofs for C13: a training on well-formed data raises no exception and has no undefined behaviour. *)
From Coq Require Import Permutation.
From Verif Require Import Base Num NumOrder NeuronModel LayerModel NetModel StatModel WaitModel WaitProofs DataModel DataSpec DataProofs SeqProofs SeriesProofs TrainModel TrainSpec TrainProofs.
From Verif Require Import FactoryModel FactorySpec SafeLayers SafeNet BuildProofs PureSpec PureProps.
Local Open Scope outcome_scope.
Local Open Scope nat_scope.

Section P.
Context {N : Num}.
Implicit Types (r : Run) (s : Snn) (env : Env) (w : Wait) (d : Data).

Definition flags_ok d : Prop :=
  match d_temporal d with
  | TNon => d_nature d = nonTemporal
  | TSeq starts => starts = [] /\ s_shuffled (d_train d) = seq 0 (s_size (d_train d)) /\ List.length (s_first (d_train d)) = s_size (d_train d) /\
      List.length (s_first (d_test d)) = s_size (d_test d) /\ List.length (s_eval (d_test d)) = s_size (d_test d) /\ d_nature d = sequential
  | TSeries rc _ _ => SeriesInv rc (s_inputs (d_train d)) (s_labels (d_train d)) d /\ rc + 1 <= s_size (d_train d) /\ d_nature d = timeSeries
  end.
Record ready (k m : nat) (d : Data) : Prop := {
  rd_in : rect k (s_inputs (d_train d)); rd_lab : rect m (s_labels (d_train d));
  rd_lin : List.length (s_inputs (d_train d)) = s_size (d_train d); rd_llab : List.length (s_labels (d_train d)) = s_size (d_train d);
  rd_lsh : List.length (s_shuffled (d_train d)) = s_size (d_train d); rd_sh : Forall (fun i => i < s_size (d_train d)) (s_shuffled (d_train d));
  rd_tin : rect k (s_inputs (d_test d)); rd_tlab : rect m (s_labels (d_test d));
  rd_tlin : List.length (s_inputs (d_test d)) = s_size (d_test d); rd_tllab : List.length (s_labels (d_test d)) = s_size (d_test d);
  rd_k : d_sizeOfData d = k; rd_m : d_numberOfLabels d = m;
  rd_one : labels_ok (d_problem d) (s_labels (d_test d));
  rd_flags : flags_ok d }.

Lemma batch_rows_ok (rows : list (list F)) sh wd buf index b : 2 <= b -> index + b <= List.length sh -> Forall (fun i => i < List.length rows) sh -> rect wd rows ->
  exists o, batch_rows rows sh wd buf index b = Ok o /\ List.length o = wd.
Proof.
  intros Hb Hi Hs Hr. set (xs := map (fun j => nth (nth (index + j) sh 0) rows []) (seq 0 b)).
  assert (Hlen : List.length xs = b) by (unfold xs; now rewrite map_length, seq_length).
  assert (Hrow : forall j, j < b -> exists i rw, nth_error sh (index + j) = Some i /\ nth_error rows i = Some rw /\ List.length rw = wd /\ nth_error xs j = Some rw).
  { intros j Hj. destruct (nth_error sh (index + j)) as [i|] eqn:E; [|apply nth_error_None in E; lia].
    assert (Hil : i < List.length rows) by (rewrite Forall_forall in Hs; apply Hs; eapply nth_error_In; eauto).
    destruct (nth_error rows i) as [rw|] eqn:E2; [|apply nth_error_None in E2; lia].
    exists i, rw. split; [reflexivity|]. split; [exact E2|]. split. { unfold rect in Hr. rewrite Forall_forall in Hr. apply Hr. eapply nth_error_In; eauto. }
    unfold xs. rewrite nth_error_map, (nth_error_nth' _ 0) by (rewrite seq_length; lia). rewrite seq_nth by lia. cbn [option_map plus].
    rewrite (nth_error_nth _ _ _ E). now rewrite (nth_error_nth _ _ _ E2). }
  assert (Hf : Forall (fun x => List.length x = wd) xs).
  { apply Forall_forall. intros x Hx. apply In_nth_error in Hx as (j & Hj). assert (j < b). { rewrite <- Hlen. apply nth_error_Some. congruence. }
    destruct (Hrow j) as (i & rw & _ & _ & Hl & E); [assumption|]. congruence. }
  assert (Hv : forall j x, nth_error xs j = Some x -> visits rows sh (index + j) x).
  { intros j x Hx. assert (j < b). { rewrite <- Hlen. apply nth_error_Some. congruence. } destruct (Hrow j) as (i & rw & A & B & _ & E); [assumption|].
    exists i. unfold lget. rewrite A. split; [reflexivity|]. rewrite B. congruence. }
  rewrite <- Hlen in Hb |- *. clearbody xs. clear Hlen Hrow. destruct xs as [|r0 [|r1 rest]]; cbn in Hb; try lia.
  rewrite batch_rows_spec by assumption. eexists. split; [reflexivity|]. rewrite map_length.
  pose proof (Forall_inv Hf) as H0. pose proof (Forall_inv_tail Hf) as H1. cbn beta in H0. rewrite <- H0 in H1. rewrite <- H0. exact (sum_rows_length _ r0 (r1 :: rest) eq_refl H1).
Qed.

Definition with_buffers d (x y : list F) : Data :=
  mkData (d_problem d) (d_nature d) (d_train d) (d_test d) (d_sizeOfData d) (d_numberOfLabels d) (d_precision d) (d_separator d) (d_temporal d) x y.
Lemma ready_buffers k m d x y : ready k m d -> ready k m (with_buffers d x y).
Proof. intros []. constructor; auto. Qed.
Lemma with_buffers_id d : d = with_buffers d (d_batchedData d) (d_batchedLabels d). Proof. now destruct d. Qed.

Lemma ready_row k m d i : ready k m d -> i < s_size (d_train d) -> exists j x y, nth_error (s_shuffled (d_train d)) i = Some j /\
  nth_error (s_inputs (d_train d)) j = Some x /\ List.length x = k /\ nth_error (s_labels (d_train d)) j = Some y /\ List.length y = m.
Proof.
  intros [] Hi. destruct (nth_error (s_shuffled (d_train d)) i) as [j|] eqn:E; [|apply nth_error_None in E; lia].
  assert (Hj : j < s_size (d_train d)) by (rewrite Forall_forall in rd_sh0; apply rd_sh0; eapply nth_error_In; eauto).
  destruct (nth_error (s_inputs (d_train d)) j) as [x|] eqn:Ex; [|apply nth_error_None in Ex; lia].
  destruct (nth_error (s_labels (d_train d)) j) as [y|] eqn:Ey; [|apply nth_error_None in Ey; lia].
  exists j, x, y. unfold rect in *. rewrite Forall_forall in rd_in0, rd_lab0. repeat split; auto; [apply rd_in0|apply rd_lab0]; eapply nth_error_In; eauto.
Qed.
Lemma ready_data k m d i b : ready k m d -> 1 <= b -> i + b <= s_size (d_train d) ->
  exists x bx, getTrainingData d i b = Ok (x, with_buffers d bx (d_batchedLabels d)) /\ List.length x = k.
Proof.
  intros R Hb Hi. unfold getTrainingData. destruct (Nat.leb_spec b 1).
  - destruct (ready_row k m d i R) as (j & x & y & A & B & C & _); [lia|]. unfold lget. rewrite A. cbn [bind]. rewrite B. cbn [bind].
    exists x, (d_batchedData d). split; [|exact C]. now rewrite <- with_buffers_id.
  - destruct R. destruct (batch_rows_ok (s_inputs (d_train d)) (s_shuffled (d_train d)) k (d_batchedData d) i b) as (o & E & L); try lia; [now rewrite rd_lin0|assumption|].
    rewrite rd_k0, E. cbn [bind]. exists o, o. split; [|exact L]. unfold with_buffers. now rewrite rd_k0.
Qed.
Lemma ready_outputs k m d i b : ready k m d -> 1 <= b -> i + b <= s_size (d_train d) ->
  exists y by_, getTrainingOutputs d i b = Ok (y, with_buffers d (d_batchedData d) by_) /\ List.length y = m.
Proof.
  intros R Hb Hi. unfold getTrainingOutputs. destruct (Nat.leb_spec b 1).
  - destruct (ready_row k m d i R) as (j & x & y & A & _ & _ & B & C); [lia|]. unfold lget. rewrite A. cbn [bind]. rewrite B. cbn [bind].
    exists y, (d_batchedLabels d). split; [|exact C]. now rewrite <- with_buffers_id.
  - destruct R. destruct (batch_rows_ok (s_labels (d_train d)) (s_shuffled (d_train d)) m (d_batchedLabels d) i b) as (o & E & L); try lia; [now rewrite rd_llab0|assumption|].
    rewrite rd_m0, E. cbn [bind]. exists o, o. split; [|exact L]. unfold with_buffers. now rewrite rd_m0.
Qed.
Lemma ready_flags k m d i : ready k m d -> i < s_size (d_train d) -> (exists f, isFirstTraining d i = Ok f) /\ (exists l, needToLearn d i = Ok l).
Proof.
  intros [] Hi. unfold flags_ok in *. unfold isFirstTraining, needToLearn. destruct (d_temporal d) as [|st|rc ids off].
  - eauto.
  - destruct rd_flags0 as (_ & _ & A & _). split; [|eauto]. unfold lget. destruct (nth_error (s_first (d_train d)) i) eqn:E; [eauto|apply nth_error_None in E; lia].
  - destruct rd_flags0 as ((_ & _ & _ & (A & B & C) & _) & _). rewrite rd_llab0 in *. unfold lget.
    destruct (nth_error (s_first (d_train d)) i) eqn:E; [|apply nth_error_None in E; lia].
    destruct (nth_error (s_train (d_train d)) i) eqn:E2; [|apply nth_error_None in E2; lia]. eauto.
Qed.
Lemma ready_test_flags k m d i : ready k m d -> i < s_size (d_test d) -> (exists f, isFirstTesting d i = Ok f) /\ (exists l, needToEvaluate d i = Ok l).
Proof.
  intros [] Hi. unfold flags_ok in *. unfold isFirstTesting, needToEvaluate. destruct (d_temporal d) as [|st|rc ids off]; eauto.
  destruct rd_flags0 as (_ & _ & _ & A & B & _). unfold lget.
  destruct (nth_error (s_first (d_test d)) i) eqn:E; [|apply nth_error_None in E; lia].
  destruct (nth_error (s_eval (d_test d)) i) eqn:E2; [|apply nth_error_None in E2; lia]. eauto.
Qed.
Lemma ready_test_row k m d i : ready k m d -> i < s_size (d_test d) -> exists x y, nth_error (s_inputs (d_test d)) i = Some x /\ List.length x = k /\
  nth_error (s_labels (d_test d)) i = Some y /\ List.length y = m /\ (d_problem d = classification -> exists c, findOne y 0 = Ok c).
Proof.
  intros [] Hi. destruct (nth_error (s_inputs (d_test d)) i) as [x|] eqn:Ex; [|apply nth_error_None in Ex; lia].
  destruct (nth_error (s_labels (d_test d)) i) as [y|] eqn:Ey; [|apply nth_error_None in Ey; lia].
  exists x, y. unfold rect in *. rewrite Forall_forall in rd_tin0, rd_tlab0.
  split; [reflexivity|]. split; [apply rd_tin0; eapply nth_error_In; eauto|]. split; [reflexivity|]. split; [apply rd_tlab0; eapply nth_error_In; eauto|].
  intros Hp. specialize (rd_one0 Hp). rewrite Forall_forall in rd_one0. destruct (rd_one0 y) as (v & Hv & E); [eapply nth_error_In; eauto|].
  clear -Hv E. generalize 0. induction y as [|a t IH]; intros n; [contradiction|]. cbn [findOne]. destruct (feqb a fone) eqn:Ea; [eauto|].
  destruct Hv as [->|Hv]; [congruence|auto].
Qed.

Lemma ready_op k m d o : fair_op o -> ready k m d -> exists d', run_op d o = Ok d' /\ ready k m d' /\ d_test d' = d_test d /\ s_size (d_train d') = s_size (d_train d) /\ d_problem d' = d_problem d /\ d_nature d' = d_nature d.
Proof.
  intros Hf R. assert (R0 := R). destruct R. unfold flags_ok in rd_flags0. destruct (d_temporal d) as [|st|rc ids off] eqn:Et.
  - destruct o as [rng|]; cbn [run_op].
    + unfold shuffle. rewrite Et. destruct (rshuffle_fair rng (s_shuffled (d_train d)) Hf) as (v & E & Hp). rewrite E. cbn [bind].
      eexists. split; [reflexivity|]. split; [|auto]. constructor; cbn; auto.
      * now rewrite (Permutation_length Hp).
      * apply Forall_forall. intros i Hi. rewrite Forall_forall in rd_sh0. apply rd_sh0. eapply Permutation_in; eauto.
    + unfold unshuffle. rewrite Et. eexists. split; [reflexivity|]. split; [|auto]. constructor; cbn; auto; rewrite ?Et.
      * now rewrite seq_length.
      * apply Forall_forall. intros i Hi. apply in_seq in Hi. lia.
  - destruct rd_flags0 as (-> & A & B). pose proof (sequential_run_ops_ok [o] d (Forall_cons _ Hf (Forall_nil _)) Et A) as E.
    unfold run_ops in E. cbn [ofold] in E. apply bind_Ok_inv in E as (d1 & E & E1). injection E1 as ->. exists d. split; [exact E|]. split; [exact R0|]. auto.
  - destruct rd_flags0 as (SI & Hlen & Hnat). rewrite <- rd_llab0 in Hlen.
    assert (X : exists d', run_op d o = Ok d' /\ SeriesInv rc (s_inputs (d_train d)) (s_labels (d_train d)) d').
    { destruct (run_ops_series rc _ _ [o] d (Forall_cons _ Hf (Forall_nil _)) Hlen SI) as (d1 & E & H1). unfold run_ops in E. cbn [ofold] in E.
      apply bind_Ok_inv in E as (d2 & E & E1). injection E1 as ->. eauto. }
    destruct X as (d' & E & SI'). exists d'. split; [exact E|].
    assert (Y : d_test d' = d_test d /\ d_problem d' = d_problem d /\ d_nature d' = d_nature d /\ d_sizeOfData d' = d_sizeOfData d /\ d_numberOfLabels d' = d_numberOfLabels d).
    { destruct o as [rng|]; cbn [run_op] in E.
      - unfold shuffle in E. rewrite Et in E. apply bind_Ok_inv in E as (ids' & _ & E). apply bind_Ok_inv in E as ([[a b] c] & _ & E). injection E as <-. cbn. auto.
      - unfold unshuffle in E. rewrite Et in E. apply bind_Ok_inv in E as (f & _ & E). injection E as <-. cbn. auto. }
    destruct Y as (Y1 & Y2 & Y3 & Y4 & Y5). pose proof SI' as (I1 & I2 & I3 & (I4 & I5 & I6) & I7 & ids' & off' & I8 & I9 & I10).
    split; [|repeat split; auto; congruence]. constructor; rewrite ?Y1, ?Y2, ?Y4, ?Y5, ?I1, ?I2, ?I3; auto.
    + now rewrite rd_llab0.
    + now apply Forall_forall.
    + unfold flags_ok. rewrite I8, I1, I2, I3, Y3. auto.
Qed.

(* ---- the network ---- *)
Definition ok_net (k m : nat) (net : Net) : Prop := exists mm, wf_net k mm net /\ trainable net /\ net_numberOfOutputs net = Ok m.
Lemma outputs_same net net' : Forall2 same_layer (nn_layers net) (nn_layers net') -> net_numberOfOutputs net' = net_numberOfOutputs net.
Proof.
  intros HS. unfold net_numberOfOutputs. inversion HS as [|a a' t t' Ha Ht E1 E2]; [reflexivity|]. rewrite !lget_last. cbn [bind].
  apply (f_equal Ok). apply same_layer_shape. now apply same_last.
Qed.
Lemma ok_net_same k m net net' mm : ok_net k m net -> wf_net k mm net' -> Forall2 same_layer (nn_layers net) (nn_layers net') -> ok_net k m net'.
Proof. intros (m0 & _ & T & O) W HS. exists mm. split; [exact W|]. split; [eapply trainable_same; eauto|]. rewrite <- O. now apply outputs_same. Qed.
Lemma outputs_le k mm m net : wf_net k mm net -> net_numberOfOutputs net = Ok m -> m <= mm.
Proof.
  intros (Hne & WC) O. unfold net_numberOfOutputs in O. destruct (nn_layers net) as [|a t]; [congruence|]. rewrite lget_last in O. cbn [bind] in O. injection O as <-.
  destruct (wf_chain_last _ _ _ _ WC) as (k' & _ & _ & Hm & WB & _). exact (neurons_le _ _ _ WB Hm).
Qed.
Lemma ok_net_inputs k m net : ok_net k m net -> net_numberOfInputs net = Ok k.
Proof.
  intros (mm & (Hne & WC) & _). unfold net_numberOfInputs. pose proof (wf_sizes _ _ _ WC) as SC. destruct (nn_layers net) as [|a t]; [congruence|].
  cbn [lget nth_error bind]. destruct SC as [-> _]. reflexivity.
Qed.
Lemma ok_output k m net x reset : ok_net k m net -> List.length x = k -> exists o net', net_output net x reset = Ok (o, net') /\ m <= List.length o /\ ok_net k m net'.
Proof.
  intros H Hx. pose proof H as (mm & W & _ & O). destruct (net_output_wf k mm net x reset W Hx) as (o & n' & E & L & W' & HS).
  exists o, n'. split; [exact E|]. split; [rewrite L; exact (outputs_le k mm m net W O)|exact (ok_net_same k m net n' mm H W' HS)].
Qed.
Lemma ok_training rand k m net x reset : ok_net k m net -> List.length x = k -> exists o net', net_outputForTraining rand net x reset = Ok (o, net') /\ ok_net k m net'.
Proof.
  intros H Hx. pose proof H as (mm & W & _ & O). destruct (net_training_wf rand k mm net x reset W Hx) as (o & n' & E & L & W' & HS).
  exists o, n'. split; [exact E|exact (ok_net_same k m net n' mm H W' HS)].
Qed.
Lemma ok_trainOnce rand k m net x y reset : ok_net k m net -> List.length x = k -> List.length y = m -> exists net', trainOnce rand net x y reset = Ok net' /\ ok_net k m net'.
Proof.
  intros H Hx Hy. pose proof H as (mm & W & T & O). destruct (trainOnce_wf rand k mm net x y reset W T Hx) as (n' & E & W' & HS & _); [now rewrite Hy|].
  exists n'. split; [exact E|exact (ok_net_same k m net n' mm H W' HS)].
Qed.

(* ---- statistics ---- *)
Lemma cells_ok f : forall (cl : list Cluster) os ds wl, List.length cl <= List.length os -> List.length cl <= List.length ds ->
  exists cl' wl', StatModel.cells f cl os ds wl = Ok (cl', wl') /\ List.length cl' = List.length cl.
Proof.
  induction cl as [|c cl IH]; intros os ds wl Ho Hd; cbn [StatModel.cells]; [eauto|]. destruct os as [|o os]; [cbn in Ho; lia|]. destruct ds as [|e ds]; [cbn in Hd; lia|].
  cbn in Ho, Hd. destruct (f c o e wl) as [c' w1]. destruct (IH os ds w1) as (cl' & w2 & E & L); [lia|lia|]. rewrite E. cbn [bind]. eexists _, _. split; [reflexivity|]. cbn. lia.
Qed.
Lemma classCells_ok c sep : forall (cl : list Cluster) os i mx, List.length cl <= List.length os ->
  exists cl' m', classCells c sep cl os i mx = Ok (cl', m') /\ List.length cl' = List.length cl.
Proof.
  induction cl as [|a cl IH]; intros os i mx Ho; cbn [classCells]; [eauto|]. destruct os as [|o os]; [cbn in Ho; lia|]. cbn in Ho.
  destruct (IH os (S i) (maxStep mx o i)) as (cl' & m2 & E & L); [lia|]. rewrite E. cbn [bind]. eexists _, _. split; [reflexivity|]. cbn. lia.
Qed.
Lemma countSample_clusters st cl wl : st_clusters (countSample st cl wl) = cl. Proof. unfold countSample. now destruct wl. Qed.

Definition snn_ok (k m : nat) (s : Snn) : Prop := ok_net k m (sn_net s) /\ List.length (st_clusters (sn_stats s)) = m.
Definition inv_ (k m : nat) (r : Run) : Prop := snn_ok k m (r_snn r) /\ ready k m (r_data r) /\ sn_ntrain (r_snn r) = s_size (d_train (r_data r)).

Lemma evaluateOnce_ok k m s d : snn_ok k m s -> ready k m d -> sn_index s < s_size (d_test d) -> exists s', evaluateOnce s d = Ok s' /\ snn_ok k m s'.
Proof.
  intros (On & Os) R Hi. destruct (ready_test_row k m d _ R Hi) as (x & y & Ex & Lx & Ey & Ly & H1). destruct (ready_test_flags k m d _ R Hi) as ((fi & Ef) & _).
  unfold evaluateOnce. destruct (ok_output k m (sn_net s) x fi On Lx) as (o & n' & E & Lo & On').
  unfold getTestingData, getTestingLabel, getTestingOutputs, getSeparator, getPrecision, isRegression.
  destruct (d_problem d) eqn:Ep; unfold lget; rewrite Ex, Ey; cbn [bind negb].
  - destruct (H1 eq_refl) as (c & Hc). rewrite Hc. cbn [bind]. rewrite Ef. cbn [bind]. rewrite E. cbn [bind]. unfold evaluateOnceForClassification.
    destruct (classCells_ok (Z.of_nat c) (d_separator d) (st_clusters (sn_stats s)) o 0 (fofZ (-2), (-1)%Z)) as (cl & mx & Ec & Lc); [lia|]. rewrite Ec. cbn [bind].
    eexists. split; [reflexivity|]. split; [exact On'|]. cbn. rewrite countSample_clusters. congruence.
  - rewrite Ef. cbn [bind]. rewrite E. cbn [bind]. unfold evaluateOnceForMultipleClassification.
    destruct (cells_ok (multiCell (d_separator d)) (st_clusters (sn_stats s)) o y true) as (cl & wl & Ec & Lc); [lia|lia|]. rewrite Ec. cbn [bind].
    eexists. split; [reflexivity|]. split; [exact On'|]. cbn. rewrite countSample_clusters. congruence.
  - rewrite Ef. cbn [bind]. rewrite E. cbn [bind]. unfold evaluateOnceForRegression.
    destruct (cells_ok (regCell (d_precision d)) (st_clusters (sn_stats s)) o y true) as (cl & wl & Ec & Lc); [lia|lia|]. rewrite Ec. cbn [bind].
    eexists. split; [reflexivity|]. split; [exact On'|]. cbn. rewrite countSample_clusters. congruence.
Qed.
Lemma evaluateTurn_ok k m s d : snn_ok k m s -> ready k m d -> sn_index s < s_size (d_test d) -> exists s', evaluateTurn s d = Ok s' /\ snn_ok k m s'.
Proof.
  intros Hs R Hi. unfold evaluateTurn. destruct (ready_test_flags k m d _ R Hi) as ((fi & Ef) & (nd & En)). rewrite En. cbn [bind]. destruct nd; [now apply evaluateOnce_ok|].
  destruct (ready_test_row k m d _ R Hi) as (x & y & Ex & Lx & _). unfold getTestingData, lget. rewrite Ex. cbn [bind]. rewrite Ef. cbn [bind].
  destruct Hs as (On & Os). destruct (ok_output k m (sn_net s) x fi On Lx) as (o & n' & E & Lo & On'). rewrite E. cbn [bind]. eexists. split; [reflexivity|]. split; [exact On'|exact Os].
Qed.
Lemma evaluateLoop_ok nan k m d : ready k m d -> forall rest s, snn_ok k m s -> sn_index s + rest = s_size (d_test d) -> exists stop s', evaluateLoop nan rest s d = Ok (stop, s') /\ snn_ok k m s'.
Proof.
  intros R. induction rest as [|rest IH]; intros s Hs Hi; cbn [evaluateLoop]; [eauto|]. destruct (nn_nan (sn_net s)).
  - eexists _, _. split; [reflexivity|]. destruct Hs as (On & Os). split; [exact On|]. cbn. rewrite map_length. exact Os.
  - destruct (evaluateTurn_ok k m s d Hs R) as (s1 & E & H1); [lia|]. rewrite E. cbn [bind]. apply evaluateTurn_keeps in E as (_ & Ei).
    apply IH; [exact H1|cbn; lia].
Qed.
Lemma stopTesting_clusters (st : Stats) : st_clusters (stopTesting st) = st_clusters st.
Proof. unfold stopTesting. reflexivity. Qed.
Lemma evaluate_ok env k m r : inv_ k m r -> exists r', evaluate env r = Ok r' /\ inv_ k m r'.
Proof.
  intros ((On & Os) & R & Hn). unfold evaluate.
  destruct (evaluateLoop_ok (e_nan env) k m (r_data r) R (s_size (d_test (r_data r))) (with_index (with_stats (r_snn r) (startTesting (sn_stats (r_snn r)))) 0)) as (stop & s' & E & Hs).
  { split; [exact On|]. cbn. rewrite map_length. exact Os. } { reflexivity. }
  pose proof E as Ek. apply evaluateLoop_keeps in Ek as ((_ & K2 & _) & _). cbn in K2. rewrite E. cbn [bind]. destruct stop.
  - eexists. split; [reflexivity|]. split; [exact Hs|]. split; [exact R|]. cbn. congruence.
  - destruct Hs as (On' & Os'). destruct (_ && _); (eexists; split; [reflexivity|]); (split; [split; [exact On'|exact Os']|]); (split; [exact R|]); cbn; congruence.
Qed.

Lemma trainingTurn_ok env b k m r : inv_ k m r -> 1 <= b -> sn_index (r_snn r) + b <= s_size (d_train (r_data r)) ->
  exists r', trainingTurn env b r = Ok r' /\ inv_ k m r'.
Proof.
  intros ((On & Os) & R & Hn) Hb Hi. unfold trainingTurn. destruct (ready_flags k m (r_data r) (sn_index (r_snn r)) R) as (_ & (nd & En)); [lia|]. rewrite En. cbn [bind].
  destruct (ready_data k m (r_data r) _ b R Hb Hi) as (x & bx & Ex & Lx). pose proof (ready_buffers k m (r_data r) bx (d_batchedLabels (r_data r)) R) as R1. destruct nd.
  - rewrite Ex. cbn [bind]. destruct (ready_outputs k m _ (sn_index (r_snn r)) b R1 Hb Hi) as (y & bo & Ey & Ly). rewrite Ey. cbn [bind].
    pose proof (ready_buffers k m _ (d_batchedData (with_buffers (r_data r) bx (d_batchedLabels (r_data r)))) bo R1) as R2.
    destruct (ready_flags k m _ (sn_index (r_snn r)) R2) as ((fi & Ef) & _); [cbn; lia|]. rewrite Ef. cbn [bind].
    destruct (ok_trainOnce (e_rand env (r_checks r)) k m _ x y fi On Lx Ly) as (n' & E & On'). rewrite E. cbn [bind].
    eexists. split; [reflexivity|]. split; [split; [exact On'|exact Os]|]. split; [exact R2|exact Hn].
  - rewrite Ex. cbn [bind]. destruct (ready_flags k m _ (sn_index (r_snn r)) R1) as ((fi & Ef) & _); [cbn; lia|]. rewrite Ef. cbn [bind].
    destruct (ok_training (e_rand env (r_checks r)) k m _ x fi On Lx) as (o & n' & E & On'). rewrite E. cbn [bind].
    eexists. split; [reflexivity|]. split; [split; [exact On'|exact Os]|]. split; [exact R1|exact Hn].
Qed.
Lemma continue_inv env w k m r go r' : continueTraining env w r = (go, r') -> inv_ k m r -> inv_ k m r'.
Proof.
  intros E ((On & Os) & R & Hn). apply continue_keeps_nan in E as (_ & _ & E1 & _ & E2 & _ & _ & E3 & E4 & _). unfold inv_, snn_ok. rewrite E1, E2, E3, E4. auto.
Qed.
Lemma epoch_ok env w b k m : 1 <= b -> forall fuel r, inv_ k m r -> epochLoop fuel env w b r = None \/
  exists early r', epochLoop fuel env w b r = Some (Ok (early, r')) /\ inv_ k m r' /\ (early = true -> sn_idle (r_snn r') = true /\ sn_index (r_snn r') = 0 /\ sn_want (r_snn r') = false).
Proof.
  intros Hb. induction fuel as [|fuel IH]; intros r I; cbn [epochLoop]; [now left|].
  destruct (Nat.leb_spec (sn_index (r_snn r) + b) (sn_ntrain (r_snn r))) as [Hl|Hl].
  2: { right. eexists _, _. split; [reflexivity|]. split; [exact I|discriminate]. }
  destruct (continueTraining env w r) as [go r1] eqn:Ec. pose proof (continue_inv _ _ _ _ _ _ _ Ec I) as I1.
  apply continue_keeps_nan in Ec as (_ & _ & _ & Ei & En & _). destruct go; [|right; eexists _, _; split; [reflexivity|]; split; [exact I1|discriminate]].
  destruct (nn_nan (sn_net (r_snn r1))).
  - right. eexists _, _. split; [reflexivity|]. destruct I1 as ((On & Os) & R & Hn). split; [|auto]. split; [split; [exact On|cbn; rewrite map_length; exact Os]|]. split; [exact R|exact Hn].
  - pose proof I1 as (_ & _ & Hn1). destruct (trainingTurn_ok env b k m r1 I1 Hb) as (r2 & E & I2); [lia|]. rewrite E. apply IH. exact I2.
Qed.
Lemma training_ok env w b f k m : 1 <= b -> fair env -> forall fuel r, inv_ k m r -> trainingLoop fuel env w b f r = None \/
  exists r', trainingLoop fuel env w b f r = Some (Ok r') /\ inv_ k m r' /\ sn_idle (r_snn r') = true /\ sn_index (r_snn r') = 0 /\ sn_want (r_snn r') = false.
Proof.
  intros Hb Hf. induction fuel as [|fuel IH]; intros r I; [now left|]. cbn [trainingLoop]. destruct (continueTraining env w r) as [go r1] eqn:Ec. pose proof (continue_inv _ _ _ _ _ _ _ Ec I) as I1.
  destruct go; [|right; eexists; split; [reflexivity|]; split; [exact I1|auto]].
  destruct I1 as ((On & Os) & R & Hn). destruct (ready_op k m (r_data r1) (OpShuffle (e_rng env (r_checks r1))) (Hf _) R) as (d' & E & R' & _ & Hsz & _). cbn [run_op] in E. rewrite E. cbn [bind andThen].
  set (r2 := mkRun _ d' _ _). assert (I2 : inv_ k m r2). { split; [split; [exact On|exact Os]|]. split; [exact R'|]. cbn. congruence. }
  destruct (epoch_ok env w b k m Hb (S fuel) r2 I2) as [->|(early & r3 & -> & I3 & Hearly)]; [now left|].
  destruct early. { right. exists r3. destruct (Hearly eq_refl) as (A & B & C). auto. }
  assert (X : exists r4, (if (0 <? f)%Z && (Z.rem (sn_epoch (r_snn r3)) f =? 0)%Z then evaluate env r3 else Ok r3) = Ok r4 /\ inv_ k m r4).
  { destruct (_ && _); [now apply evaluate_ok|eauto]. }
  destruct X as (r4 & -> & I4). cbn [andThen]. apply IH. exact I4.
Qed.
Lemma train_ok fuel env w b f k m s d : snn_ok k m s -> sn_idle s = true -> ready k m d -> fair env ->
  (1 <= b <= Z.of_nat (s_size (d_train d)))%Z -> (d_nature d <> nonTemporal -> b = 1%Z) ->
  train fuel env w b f s d = None \/
  exists r, train fuel env w b f s d = Some (Ok r) /\ inv_ k m r /\ sn_idle (r_snn r) = true /\ sn_index (r_snn r) = 0 /\ sn_want (r_snn r) = false.
Proof.
  intros (On & Os) Hid R Hf Hb Ht. unfold train. assert (V : validData s d b = Ok tt).
  { unfold validData. pose proof On as (mm & _ & _ & O). rewrite O. cbn [bind]. rewrite (ok_net_inputs _ _ _ On). cbn [bind]. destruct R. rewrite rd_k0, rd_m0, !Nat.eqb_refl. cbn [negb orb].
    replace (b <? 1)%Z with false by (symmetry; apply Z.ltb_ge; lia). replace (Z.of_nat (s_size (d_train d)) <? b)%Z with false by (symmetry; apply Z.ltb_ge; lia).
    destruct (d_nature d); [now rewrite andb_false_r| |]; rewrite (Ht ltac:(discriminate)); reflexivity. }
  rewrite V, Hid. cbn [negb]. unfold trainSync. set (r0 := upd (mkRun _ _ _ _) _).
  assert (I0 : inv_ k m r0) by (split; [split; [exact On|exact Os]|]; split; [exact R|reflexivity]).
  assert (X : exists r1, (if (0 <? f)%Z then evaluate env r0 else Ok r0) = Ok r1 /\ inv_ k m r1) by (destruct (0 <? f)%Z; [now apply evaluate_ok|eauto]).
  destruct X as (r1 & -> & I1). cbn [andThen]. apply training_ok; [lia|exact Hf|exact I1].
Qed.

(* ---- it comes to an end when the criterion does ---- *)
Definition ends_after (w : Wait) (n : Z) : Prop := forall el ep acc mae, (n < ep)%Z -> isOver w el ep acc mae = true.
Lemma epoch_keeps env w b : forall fuel r early r', epochLoop fuel env w b r = Some (Ok (early, r')) ->
  sn_ntrain (r_snn r') = sn_ntrain (r_snn r) /\ sn_epoch (r_snn r') = sn_epoch (r_snn r).
Proof.
  induction fuel as [|fuel IH]; intros r early r' H; [discriminate|]. cbn [epochLoop] in H.
  destruct (_ <=? _); [|injection H as <- <-; auto].
  destruct (continueTraining env w r) as [go r1] eqn:Ec. apply continue_keeps_nan in Ec as (_ & _ & _ & _ & En & Ee & _).
  destruct go; [|injection H as <- <-; auto]. destruct (nn_nan (sn_net (r_snn r1))); [injection H as <- <-; cbn; auto|].
  destruct (trainingTurn env b r1) as [r2|x|] eqn:Et; [|discriminate H|discriminate H].
  apply trainingTurn_keeps in Et as ((K1 & K2 & _) & _). apply IH in H as (A & B). cbn in A, B. split; congruence.
Qed.
Lemma epoch_ends env w b : 1 <= b -> forall fuel r, sn_ntrain (r_snn r) < fuel + sn_index (r_snn r) -> 0 < fuel -> epochLoop fuel env w b r <> None.
Proof.
  intros Hb. induction fuel as [|fuel IH]; intros r Hf H0; [lia|]. cbn [epochLoop].
  destruct (Nat.leb_spec (sn_index (r_snn r) + b) (sn_ntrain (r_snn r))) as [Hl|Hl]; [|discriminate].
  destruct (continueTraining env w r) as [go r1] eqn:Ec. apply continue_keeps_nan in Ec as (_ & _ & _ & Ei & En & _).
  destruct go; [|discriminate]. destruct (nn_nan (sn_net (r_snn r1))); [discriminate|].
  destruct (trainingTurn env b r1) as [r2|x|] eqn:Et; [|discriminate|discriminate].
  apply trainingTurn_keeps in Et as ((_ & K2 & _) & K & _). apply IH; cbn; rewrite ?K2, ?K; lia.
Qed.
Lemma training_ends n env w b f : 1 <= b -> ends_after w n -> forall fuel r, (Z.of_nat (sn_ntrain (r_snn r)) + 1 + Z.max 0 (n + 1 - sn_epoch (r_snn r)) <= Z.of_nat fuel)%Z ->
  trainingLoop fuel env w b f r <> None.
Proof.
  intros Hb Hw. induction fuel as [|fuel IH]; intros r Hf; [lia|]. cbn [trainingLoop]. destruct (continueTraining env w r) as [go r1] eqn:Ec.
  apply continue_keeps_nan in Ec as (_ & _ & _ & _ & En & Ee & _ & _ & _ & _ & _ & Hgo). destruct go; [|discriminate].
  destruct (Hgo eq_refl) as (_ & _ & Ho). assert (He : (sn_epoch (r_snn r) <= n)%Z).
  { destruct (Z.le_gt_cases (sn_epoch (r_snn r)) n); [assumption|]. rewrite Hw in Ho by lia. discriminate. }
  destruct (shuffle (e_rng env (r_checks r1)) (r_data r1)) as [d'|x|]; cbn [bind andThen]; [|discriminate|discriminate].
  set (r2 := mkRun _ d' _ _). assert (G := epoch_ends env w b Hb (S fuel) r2). destruct (epochLoop (S fuel) env w b r2) as [[[early r3]|x|]|] eqn:El; try discriminate.
  2: { exfalso. apply G; cbn; [lia|lia|reflexivity]. }
  destruct early; [discriminate|]. apply epoch_keeps in El as (K1 & K2). cbn in K1, K2.
  destruct (if (0 <? f)%Z && (Z.rem (sn_epoch (r_snn r3)) f =? 0)%Z then evaluate env r3 else Ok r3) as [r4|x|] eqn:Ev; cbn [andThen]; [|discriminate|discriminate].
  assert (K : sn_ntrain (r_snn r4) = sn_ntrain (r_snn r3) /\ sn_epoch (r_snn r4) = sn_epoch (r_snn r3)).
  { destruct (_ && _); [|injection Ev as <-; auto]. apply evaluate_keeps in Ev as ((A & B & _) & _). auto. }
  destruct K as (K3 & K4). apply IH. cbn. lia.
Qed.
Lemma train_ends n fuel env w b f s d : ends_after w n -> (0 <= n)%Z -> (Z.of_nat (s_size (d_train d)) + n + 1 <= Z.of_nat fuel)%Z ->
  train fuel env w b f s d <> None.
Proof.
  intros Hw Hn Hf. unfold train. destruct (validData s d b) as [u|x|] eqn:V; [|discriminate|discriminate]. apply validData_Ok in V as (Hb & _).
  destruct (negb (sn_idle s)); [discriminate|]. unfold trainSync. set (r0 := upd (mkRun _ _ _ _) _).
  destruct (if (0 <? f)%Z then evaluate env r0 else Ok r0) as [r1|x|] eqn:Ev; cbn [andThen]; [|discriminate|discriminate].
  assert (K : sn_ntrain (r_snn r1) = s_size (d_train d)).
  { destruct (0 <? f)%Z; [|injection Ev as <-; reflexivity]. now apply evaluate_keeps in Ev as ((_ & B & _) & _). }
  apply (training_ends n); [lia|exact Hw|cbn; lia].
Qed.

(* more turns change nothing *)
Lemma epoch_more env w b : forall fuel r x, epochLoop fuel env w b r = Some x -> forall fuel', fuel <= fuel' -> epochLoop fuel' env w b r = Some x.
Proof.
  induction fuel as [|fuel IH]; intros r x H fuel' Hle; [discriminate|]. destruct fuel' as [|fuel']; [lia|]. cbn [epochLoop] in *.
  destruct (_ <=? _); [|exact H]. destruct (continueTraining env w r) as [go r1]. destruct go; [|exact H]. destruct (nn_nan (sn_net (r_snn r1))); [exact H|].
  destruct (trainingTurn env b r1); [|exact H|exact H]. eapply IH; [exact H|lia].
Qed.
Lemma training_more env w b f : forall fuel r x, trainingLoop fuel env w b f r = Some x -> forall fuel', fuel <= fuel' -> trainingLoop fuel' env w b f r = Some x.
Proof.
  induction fuel as [|fuel IH]; intros r x H fuel' Hle; [discriminate|]. destruct fuel' as [|fuel']; [lia|]. cbn [trainingLoop] in *.
  destruct (continueTraining env w r) as [go r1]. destruct go; [|exact H].
  destruct (shuffle (e_rng env (r_checks r1)) (r_data r1)) as [d'|y|]; cbn [bind andThen] in *; [|exact H|exact H].
  set (r2 := mkRun _ d' _ _) in *. destruct (epochLoop (S fuel) env w b r2) as [[[early r3]|y|]|] eqn:El; try discriminate H; rewrite (epoch_more _ _ _ _ _ _ El) by lia; try exact H.
  destruct early; [exact H|].
  destruct (if (0 <? f)%Z && (Z.rem (sn_epoch (r_snn r3)) f =? 0)%Z then evaluate env r3 else Ok r3) as [r4|y|]; cbn [andThen] in *; [|exact H|exact H].
  eapply IH; [exact H|lia].
Qed.
Lemma train_more fuel fuel' env w b f s d x : train fuel env w b f s d = Some x -> fuel <= fuel' -> train fuel' env w b f s d = Some x.
Proof.
  intros H Hle. unfold train in *. destruct (validData s d b); [|exact H|exact H]. destruct (negb (sn_idle s)); [exact H|]. unfold trainSync in *.
  match type of H with andThen ?t _ = _ => destruct t as [r1|y|]; cbn [andThen] in *; [|exact H|exact H] end. eapply training_more; eauto.
Qed.
End P.
