(* Proofs for C13: what users pass and do meets the invariants of TrainSafe. *)
From Coq Require Import Permutation.
From Verif Require Import Base Num NumOrder NeuronModel LayerModel NetModel StatModel WaitModel WaitProofs DataModel DataSpec DataProofs SeqProofs SeriesProofs TrainModel TrainSpec TrainProofs TrainSafe.
From Verif Require Import FactoryModel FactorySpec SafeLayers SafeNet BuildProofs HistProofs PureSpec PureProps.
Local Open Scope outcome_scope.
Local Open Scope nat_scope.

Section P.
Context {N : Num}.
Implicit Types (r : Run) (s : Snn) (env : Env) (w : Wait) (d : Data).

(* ---- data after a training ---- *)
Lemma getTrainingData_buffers d i b x d' : getTrainingData d i b = Ok (x, d') -> exists bx, d' = with_buffers d bx (d_batchedLabels d).
Proof.
  unfold getTrainingData. destruct (_ <=? _); intros H; binds H; injection H as <- <-; [|eexists; reflexivity].
  exists (d_batchedData d). apply with_buffers_id.
Qed.
Lemma getTrainingOutputs_buffers d i b x d' : getTrainingOutputs d i b = Ok (x, d') -> exists bx, d' = with_buffers d (d_batchedData d) bx.
Proof.
  unfold getTrainingOutputs. destruct (_ <=? _); intros H; binds H; injection H as <- <-; [|eexists; reflexivity].
  exists (d_batchedLabels d). apply with_buffers_id.
Qed.
Lemma trainingTurn_data k m env b r r' : trainingTurn env b r = Ok r' -> ready k m (r_data r) -> ready k m (r_data r').
Proof.
  unfold trainingTurn. intros H R. apply bind_Ok_inv in H as (need & _ & H). destruct need; binds H; injection H as <-; cbn [r_data];
    repeat match goal with H : getTrainingData _ _ _ = _ |- _ => apply getTrainingData_buffers in H as (? & ->) | H : getTrainingOutputs _ _ _ = _ |- _ => apply getTrainingOutputs_buffers in H as (? & ->) end;
    repeat apply ready_buffers; exact R.
Qed.
Lemma epoch_data k m env w b : forall fuel r early r', epochLoop fuel env w b r = Some (Ok (early, r')) -> ready k m (r_data r) -> ready k m (r_data r').
Proof.
  induction fuel as [|fuel IH]; intros r early r' H R; [discriminate|]. cbn [epochLoop] in H. destruct (_ <=? _); [|injection H as <- <-; exact R].
  destruct (continueTraining env w r) as [go r1] eqn:Ec. apply continue_keeps_nan in Ec as (_ & _ & Ed & _). rewrite <- Ed in R.
  destruct go; [|injection H as <- <-; exact R]. destruct (nn_nan (sn_net (r_snn r1))); [injection H as <- <-; exact R|].
  destruct (trainingTurn env b r1) as [r2|x|] eqn:Et; [|discriminate H|discriminate H]. apply IH in H; [exact H|]. exact (trainingTurn_data _ _ _ _ _ _ Et R).
Qed.
Lemma training_data k m env w b f : fair env -> forall fuel r r', trainingLoop fuel env w b f r = Some (Ok r') -> ready k m (r_data r) -> ready k m (r_data r').
Proof.
  intros Hf. induction fuel as [|fuel IH]; intros r r' H R; [discriminate|]. cbn [trainingLoop] in H.
  destruct (continueTraining env w r) as [go r1] eqn:Ec. apply continue_keeps_nan in Ec as (_ & _ & Ed & _). rewrite <- Ed in R.
  destruct go; [|injection H as <-; exact R].
  destruct (ready_op k m (r_data r1) (OpShuffle (e_rng env (r_checks r1))) (Hf _) R) as (d' & E & R' & _). cbn [run_op] in E. rewrite E in H. cbn [bind andThen] in H.
  destruct (epochLoop (S fuel) env w b _) as [[[early r3]|x|]|] eqn:El; try discriminate H.
  apply (epoch_data k m) in El; [|exact R']. destruct early; [injection H as <-; exact El|].
  match type of H with andThen ?t _ = _ => destruct t as [r4|y|] eqn:Ev; cbn [andThen] in H; [|discriminate H|discriminate H] end.
  apply IH in H; [exact H|]. cbn. destruct (_ && _); [|injection Ev as <-; exact El]. apply evaluate_keeps in Ev as (_ & -> & _). exact El.
Qed.
Lemma train_data k m fuel env w b f s d r : fair env -> train fuel env w b f s d = Some (Ok r) -> ready k m d -> ready k m (r_data r).
Proof.
  intros Hf H R. unfold train in H. destruct (validData s d b); try discriminate. destruct (negb (sn_idle s)); [discriminate|]. unfold trainSync in H.
  match type of H with andThen ?t _ = _ => destruct t as [r1|y|] eqn:Ev; cbn [andThen] in H; [|discriminate H|discriminate H] end.
  eapply training_data; [exact Hf|exact H|]. cbn. destruct (0 <? f)%Z; [|injection Ev as <-; exact R]. apply evaluate_keeps in Ev as (_ & -> & _). exact R.
Qed.

(* ---- data as constructed ---- *)
Lemma last_row (rows : list (list F)) wd x t : rect wd rows -> rev rows = x :: t -> List.length x = wd.
Proof. unfold rect. intros Hr E. rewrite Forall_forall in Hr. apply Hr. apply in_rev. rewrite E. now left. Qed.
Lemma seq_bound n : Forall (fun i => i < n) (seq 0 n).
Proof. apply Forall_forall. intros i Hi. apply in_seq in Hi. lia. Qed.

Lemma plain_ready k m p trIn trLab teIn teLab rec d : mkData4 p trIn trLab teIn teLab nonTemporal rec = Ok d ->
  List.length trIn = List.length trLab -> List.length teIn = List.length teLab -> rect k trIn -> rect m trLab -> rect k teIn -> rect m teLab -> labels_ok p teLab -> ready k m d.
Proof.
  intros H L1 L2 R1 R2 R3 R4 HL. unfold mkData4, initialize in H. destruct (rev trIn) eqn:E1; [discriminate|]. destruct (rev trLab) eqn:E2; [discriminate|].
  cbn [bind] in H. apply bind_Ok_inv in H as (e & _ & H). destruct (negb (e =? 0)); [discriminate|]. injection H as <-. constructor; cbn; auto.
  all: try (rewrite seq_length; reflexivity); try apply seq_bound; try reflexivity.
  all: try (eapply last_row; [|eassumption]; eassumption).
Qed.
Lemma series_ready k m p trIn trLab teIn teLab rec d : mkData4 p trIn trLab teIn teLab timeSeries rec = Ok d ->
  List.length trIn = List.length trLab -> List.length teIn = List.length teLab -> rect k trIn -> rect m trLab -> rect k teIn -> rect m teLab -> labels_ok p teLab ->
  (rec + 1 <= Z.of_nat (List.length trLab))%Z -> ready k m d.
Proof.
  intros H L1 L2 R1 R2 R3 R4 HL Hlen. pose proof (mkData4_series_inv _ _ _ _ _ _ _ H) as (Hrec & SI).
  unfold mkData4, initialize in H. destruct (rev trIn) eqn:E1; [discriminate|]. destruct (rev trLab) eqn:E2; [discriminate|].
  apply bind_Ok_inv in H as ([[t tr'] te'] & Hc & H). unfold series_ctor in Hc. destruct (rec <? 1)%Z; [discriminate|].
  apply bind_Ok_inv in Hc as (first & Hfst & Hc). injection Hc as <- <- <-. apply bind_Ok_inv in H as (e & _ & H). destruct (negb (e =? 0)); [discriminate|]. injection H as <-.
  constructor; cbn; auto.
  all: try (rewrite seq_length; reflexivity); try apply seq_bound.
  all: try (eapply last_row; [|eassumption]; eassumption).
  unfold flags_ok. cbn. split; [exact SI|]. split; [lia|reflexivity].
Qed.
Lemma sequences_ready k m p trIn trLab teIn teLab rec d : mkData4_3D p trIn trLab teIn teLab sequential rec = Ok d ->
  Forall (fun v => v <> []) trIn -> Forall (fun v => v <> []) teIn ->
  List.length (concat trIn) = List.length trLab -> List.length (concat teIn) = List.length teLab ->
  rect k (concat trIn) -> rect m trLab -> rect k (concat teIn) -> rect m teLab -> labels_ok p teLab -> ready k m d.
Proof.
  intros H F1 F2 L1 L2 R1 R2 R3 R4 HL. unfold mkData4_3D in H.
  destruct (flatten_set_train trIn F1) as (fi & ev & E1 & (_ & _ & A1 & _)). destruct (flatten_set_test teIn F2) as (fi2 & ev2 & E2 & (_ & _ & A2 & A3 & _)).
  rewrite E1 in H. cbn [bind] in H. rewrite E2 in H. cbn [bind] in H. unfold initialize in H. cbn [s_inputs s_nseq s_first s_train s_eval s_shuffled] in H.
  destruct (rev (concat trIn)) eqn:V1; [discriminate|]. destruct (rev trLab) eqn:V2; [discriminate|]. rewrite seq_ctor_nil in H. cbn [bind] in H.
  apply bind_Ok_inv in H as (e & _ & H). destruct (negb (e =? 0)); [discriminate|]. injection H as <-.
  constructor; cbn; auto.
  all: try (rewrite seq_length; reflexivity); try apply seq_bound.
  all: try (eapply last_row; [|eassumption]; eassumption).
  unfold flags_ok. cbn. repeat split; congruence.
Qed.
Lemma user_data_ready k m d : user_data k m d -> ready k m d.
Proof.
  induction 1 as [p trIn trLab teIn teLab rec d H|p trIn trLab teIn teLab rec d H|p trIn trLab teIn teLab rec d H|d o d' _ IH Ho E|fuel env w b f s d r _ IH Hf E].
  - eapply plain_ready; eauto.
  - eapply series_ready; eauto.
  - eapply sequences_ready; eauto.
  - destruct (ready_op k m d o Ho IH) as (d1 & E1 & R & _). congruence.
  - eapply train_data; eauto.
Qed.

(* ---- networks ---- *)
Lemma newSnn_ok draws masks ds lr mo s0 k : newSnn draws masks ds lr mo = Ok s0 -> sane_descriptions ds -> Forall supported_pooling (nn_layers (sn_net s0)) -> trainable (sn_net s0) ->
  product (d_shape (hd (Input []) ds)) = Ok (Z.of_nat k) ->
  exists m, snn_ok k m s0 /\ net_numberOfOutputs (sn_net s0) = Ok m /\ sn_idle s0 = true.
Proof.
  intros H Hs HP T Hk. unfold newSnn in H. apply bind_Ok_inv in H as (net & Hc & H). apply bind_Ok_inv in H as (m & Ho & H). injection H as <-. cbn in *.
  destruct (construct_wf _ _ _ _ _ _ Hc Hs HP) as (k' & mm & W & Hp). rewrite Hk in Hp. injection Hp as Hp. apply Nat2Z.inj in Hp. subst k'.
  exists m. split; [|auto]. split; [exists mm; auto|]. cbn. now rewrite map_length, repeat_length.
Qed.
Lemma evaluateData_ok env k m s d : snn_ok k m s -> ready k m d -> exists r, evaluateData env s d = Ok r /\ snn_ok k m (r_snn r) /\ r_data r = d.
Proof.
  intros (On & Os) R. unfold evaluateData, evaluate. cbn [r_snn r_data].
  destruct (evaluateLoop_ok (e_nan env) k m d R (s_size (d_test d)) (with_index (with_stats s (startTesting (sn_stats s))) 0)) as (stop & s' & E & Hs).
  { split; [exact On|]. cbn. rewrite map_length. exact Os. } { reflexivity. }
  rewrite E. cbn [bind]. destruct stop; [eexists; split; [reflexivity|]; split; [exact Hs|reflexivity]|].
  destruct Hs as (On' & Os'). destruct (_ && _); (eexists; split; [reflexivity|]); (split; [|reflexivity]); (split; [exact On'|exact Os']).
Qed.
(* an evaluation leaves the flags as they are, or resets them *)
Lemma evaluateData_flags env s d r : evaluateData env s d = Ok r -> (sn_want (r_snn r) = sn_want s /\ sn_idle (r_snn r) = sn_idle s) \/ (sn_want (r_snn r) = false /\ sn_idle (r_snn r) = true).
Proof.
  assert (G : forall nan d rest s st s', evaluateLoop nan rest s d = Ok (st, s') -> (sn_want s' = sn_want s /\ sn_idle s' = sn_idle s) \/ (sn_want s' = false /\ sn_idle s' = true)).
  { clear. intros nan d. induction rest as [|rest IH]; intros s st s' H; cbn [evaluateLoop] in H; [injection H as <- <-; auto|]. destruct (nn_nan (sn_net s)); [injection H as <- <-; auto|].
    apply bind_Ok_inv in H as (s1 & H1 & H). apply IH in H. cbn [with_index sn_want sn_idle] in H.
    assert (E : sn_want s1 = sn_want s /\ sn_idle s1 = sn_idle s). { unfold evaluateTurn, evaluateOnce in H1. apply bind_Ok_inv in H1 as ([|] & _ & H1); [destruct (d_problem d)|]; HistProofs.binds H1; injection H1 as <-; auto. }
    destruct E as (<- & <-). exact H. }
  unfold evaluateData, evaluate. cbn [r_snn r_data]. intros H. apply bind_Ok_inv in H as ((st & s1) & H1 & H). apply G in H1. cbn in H1. destruct st; [injection H as <-; exact H1|]. destruct (_ && _); injection H as <-; exact H1.
Qed.
Lemma evaluateData_want env s d r : evaluateData env s d = Ok r -> sn_want s = false -> sn_want (r_snn r) = false.
Proof. intros H E. apply evaluateData_flags in H as [(H & _)|(H & _)]; congruence. Qed.
Lemma lived_ok k m s0 s : snn_ok k m s0 -> sn_idle s0 = true -> lived k m s0 s -> snn_ok k m s /\ sn_idle s = true.
Proof.
  intros H0 I0 H. induction H as [s|s0 s x reset o s1 _ IH Hx E|s0 s x reset o s1 _ IH Hx E|s0 s fuel env w b f d r _ IH Hd Hf E|s0 s env d r _ IH Hd E|s0 s p d _ IH r E|s0 s a p _ IH].
  - auto.
  - destruct (IH H0 I0) as ((On & Os) & Hi). unfold computeOutput in E. destruct (ok_output k m (sn_net s) x reset On Hx) as (o' & n' & E1 & _ & On'). rewrite E1 in E. cbn [bind] in E. injection E as <- <-.
    split; [split; [exact On'|exact Os]|exact Hi].
  - destruct (IH H0 I0) as ((On & Os) & Hi). unfold computeCluster, computeOutput in E. destruct (ok_output k m (sn_net s) x reset On Hx) as (o' & n' & E1 & _ & On'). rewrite E1 in E. cbn [bind] in E. injection E as <- <-.
    split; [split; [exact On'|exact Os]|exact Hi].
  - destruct (IH H0 I0) as (Hok & Hi). pose proof E as E0. unfold train in E0. destruct (validData s d b) as [u|y|] eqn:V; try discriminate. apply validData_Ok in V as (Hb & _ & _ & Ht).
    destruct (train_ok fuel env w b f k m s d Hok Hi (user_data_ready _ _ _ Hd) Hf Hb Ht) as [E1|(r1 & E1 & (I1 & _) & Hid & _)]; [congruence|].
    rewrite E in E1. injection E1 as ->. auto.
  - destruct (IH H0 I0) as (Hok & Hi). destruct (evaluateData_ok env k m s d Hok (user_data_ready _ _ _ Hd)) as (r1 & E1 & Ok1 & _). rewrite E in E1. injection E1 as <-. split; [exact Ok1|].
    apply evaluateData_flags in E as [(_ & E)|(_ & E)]; congruence.
  - destruct (IH H0 I0) as (Hok & Hi). unfold saveAs in E. destruct (negb _); [discriminate|]. injection E as <-. split; [exact Hok|exact Hi].
  - exact (IH H0 I0).
Qed.
End P.
