(* Trainings, evaluations and predictions made through the public functions are uses of the network: whatever is proved of a network after
   any uses (FactorySpec.uses) holds after any life (TrainSpec.lived). *)
From Coq Require Import String.
From Verif Require Import Base Num NeuronModel LayerModel NetModel StatModel WaitModel DataModel DataSpec FactoryModel FactorySpec SafeLayers SafeNet HistProofs PureSpec PureProps TrainModel TrainSpec TrainProofs TrainSafe TrainUser TrainPresent TrainLater.
Local Open Scope outcome_scope.
Local Open Scope nat_scope.

Section P.
Context {N : Num}.
Implicit Types (r : Run) (s : Snn) (env : Env) (w : Wait) (d : Data).
Lemma evaluate_uses env k m r r' : ready k m (r_data r) -> evaluate env r = Ok r' -> uses k (sn_net (r_snn r)) (sn_net (r_snn r')).
Proof.
  intros R H. apply looks_uses. unfold evaluate in H. apply bind_Ok_inv in H as ((st & s) & H1 & H). apply (evaluateLoop_looks k m) in H1; [|exact R]. cbn in H1.
  destruct st; [injection H as <-; exact H1|]. destruct (_ && _); injection H as <-; exact H1.
Qed.
Lemma turn_uses env b k m r r' : trainingTurn env b r = Ok r' -> 1 <= b -> sn_index (r_snn r) + b <= s_size (d_train (r_data r)) -> inv_ k m r -> uses k (sn_net (r_snn r)) (sn_net (r_snn r')).
Proof.
  intros E Hb Hi (((mm & W & T & O) & Os) & R & _). unfold trainingTurn in E. apply bind_Ok_inv in E as (nd & _ & E). destruct (ready_data k m (r_data r) _ b R Hb Hi) as (x & bx & Ex & Lx). rewrite Ex in E. cbn [bind] in E. destruct nd.
  - pose proof (ready_buffers k m (r_data r) bx (d_batchedLabels (r_data r)) R) as R1. destruct (ready_outputs k m _ (sn_index (r_snn r)) b R1 Hb Hi) as (y & bo & Ey & Ly). rewrite Ey in E. cbn [bind] in E.
    apply bind_Ok_inv in E as (fi & _ & E). apply bind_Ok_inv in E as (n & En & E). injection E as <-. cbn [r_snn with_net sn_net].
    eapply uses_train; [exact Lx| |exact T|exact En|apply uses_none]. now rewrite Ly.
  - apply bind_Ok_inv in E as (fi & _ & E). apply bind_Ok_inv in E as ((o & n) & En & E). injection E as <-. cbn [r_snn with_net sn_net]. eapply uses_forTraining; [exact Lx|exact En|apply uses_none].
Qed.
Lemma epoch_uses env w b k m : 1 <= b -> forall fuel r early r', epochLoop fuel env w b r = Some (Ok (early, r')) -> inv_ k m r -> uses k (sn_net (r_snn r)) (sn_net (r_snn r')) /\ inv_ k m r'.
Proof.
  intros Hb. induction fuel as [|fuel IH]; intros r early r' H HI; [discriminate|]. cbn [epochLoop] in H.
  destruct (Nat.leb_spec (sn_index (r_snn r) + b) (sn_ntrain (r_snn r))) as [Hl|Hl]. 2: { injection H as <- <-. split; [apply uses_none|exact HI]. }
  destruct (continueTraining env w r) as [go r1] eqn:Ec. pose proof (continue_inv _ _ _ _ _ _ _ Ec HI) as I1. pose proof (continue_net _ _ _ _ _ Ec) as En. apply continue_keeps_nan in Ec as (_ & _ & _ & Ei & Ent & _). rewrite <- En.
  destruct go. 2: { injection H as <- <-. split; [apply uses_none|exact I1]. }
  destruct (nn_nan (sn_net (r_snn r1))).
  { injection H as <- <-. split; [apply uses_none|]. destruct I1 as ((On & Os) & R & Hn). split; [split; [exact On|cbn; rewrite map_length; exact Os]|split; [exact R|exact Hn]]. }
  destruct (trainingTurn env b r1) as [r2|z|] eqn:Et; [|discriminate H|discriminate H].
  assert (Hi : sn_index (r_snn r1) + b <= s_size (d_train (r_data r1))) by (pose proof I1 as (_ & _ & Hn1); lia).
  pose proof (turn_uses env b k m r1 r2 Et Hb Hi I1) as U. destruct (trainingTurn_ok env b k m r1 I1 Hb Hi) as (r2' & E2 & I2). rewrite Et in E2. injection E2 as <-.
  apply IH in H as (U2 & I3); [|exact I2]. split; [|exact I3]. exact (uses_trans _ _ _ _ U U2).
Qed.
Lemma training_uses env w b f k m : 1 <= b -> fair env -> forall fuel r r', trainingLoop fuel env w b f r = Some (Ok r') -> inv_ k m r -> uses k (sn_net (r_snn r)) (sn_net (r_snn r')) /\ inv_ k m r'.
Proof.
  intros Hb Hf. induction fuel as [|fuel IH]; intros r r' H HI; [discriminate|]. cbn [trainingLoop] in H.
  destruct (continueTraining env w r) as [go r1] eqn:Ec. pose proof (continue_inv _ _ _ _ _ _ _ Ec HI) as I1. pose proof (continue_net _ _ _ _ _ Ec) as En. rewrite <- En.
  destruct go; [|injection H as <-; split; [apply uses_none|exact I1]]. destruct I1 as ((On & Os) & R & Hn).
  destruct (ready_op k m (r_data r1) (OpShuffle (e_rng env (r_checks r1))) (Hf _) R) as (d' & E & R' & _ & Hsz & _). cbn [run_op] in E. rewrite E in H. cbn [bind andThen] in H.
  destruct (epochLoop (S fuel) env w b _) as [[[early r3]|z|]|] eqn:Ee; try discriminate H.
  apply (epoch_uses env w b k m Hb) in Ee as (U & I3). 2: { split; [split; [exact On|exact Os]|split; [exact R'|cbn; congruence]]. } cbn [r_snn with_index sn_net logs upd] in U.
  destruct early; [injection H as <-; split; [exact U|exact I3]|].
  match type of H with andThen ?t _ = _ => destruct t as [r4|y|] eqn:Ev; cbn [andThen] in H; [|discriminate H|discriminate H] end.
  assert (Q : uses k (sn_net (r_snn r3)) (sn_net (r_snn r4)) /\ inv_ k m r4).
  { destruct (_ && _); [|injection Ev as <-; split; [apply uses_none|exact I3]]. split; [eapply evaluate_uses; [apply I3|exact Ev]|]. destruct (evaluate_ok env k m r3 I3) as (r5 & E5 & I5). congruence. }
  destruct Q as (U2 & I4). apply IH in H as (U3 & I5); [|exact I4]. split; [|exact I5]. exact (uses_trans _ _ _ _ U (uses_trans _ _ _ _ U2 U3)).
Qed.
Lemma train_uses k m fuel env w b f s d r : train fuel env w b f s d = Some (Ok r) -> snn_ok k m s -> ready k m d -> fair env -> uses k (sn_net s) (sn_net (r_snn r)).
Proof.
  intros H (On & Os) R Hf. unfold train in H. destruct (validData s d b) as [u|z|] eqn:V; try discriminate. apply validData_Ok in V as (Hb & _). destruct (negb (sn_idle s)); [discriminate|]. unfold trainSync in H.
  set (r0 := upd (mkRun _ _ _ _) _) in H. assert (I0 : inv_ k m r0) by (split; [split; [exact On|exact Os]|split; [exact R|reflexivity]]).
  match type of H with andThen ?t _ = _ => destruct t as [r1|y|] eqn:Ev; cbn [andThen] in H; [|discriminate H|discriminate H] end.
  assert (Q : uses k (sn_net s) (sn_net (r_snn r1)) /\ inv_ k m r1).
  { destruct (0 <? f)%Z; [|injection Ev as <-; split; [apply uses_none|exact I0]]. split; [exact (evaluate_uses env k m r0 r1 R Ev)|]. destruct (evaluate_ok env k m r0 I0) as (r5 & E5 & I5). congruence. }
  destruct Q as (U & I1). apply (training_uses env w (Z.to_nat b) f k m ltac:(lia) Hf) in H as (U2 & _); [|exact I1]. exact (uses_trans _ _ _ _ U U2).
Qed.
Lemma evaluateData_uses k m env s d r : evaluateData env s d = Ok r -> ready k m d -> uses k (sn_net s) (sn_net (r_snn r)).
Proof. intros H R. exact (evaluate_uses env k m (mkRun s d 0 []) r R H). Qed.
Lemma lived_uses k m s0 s : snn_ok k m s0 -> sn_idle s0 = true -> lived k m s0 s -> uses k (sn_net s0) (sn_net s).
Proof.
  intros H0 I0 H. revert H0 I0. induction H as [s|s0 s x reset o s1 HL IH Hx E|s0 s x reset o s1 HL IH Hx E|s0 s fuel env w b f d r HL IH Hd Hf E|s0 s env d r HL IH Hd E|s0 s p d HL IH r E|s0 s a p HL IH]; intros H0 I0.
  - apply uses_none.
  - apply (uses_trans _ _ _ _ (IH H0 I0)). unfold computeOutput in E. apply bind_Ok_inv in E as ((o1 & n1) & E1 & E). injection E as <- <-. eapply uses_predict; [exact Hx|exact E1|apply uses_none].
  - apply (uses_trans _ _ _ _ (IH H0 I0)). unfold computeCluster, computeOutput in E. apply bind_Ok_inv in E as ((o1 & s2) & E1 & E). apply bind_Ok_inv in E1 as ((o2 & n2) & E2 & E1). injection E1 as <- <-. injection E as <- <-.
    eapply uses_predict; [exact Hx|exact E2|apply uses_none].
  - apply (uses_trans _ _ _ _ (IH H0 I0)). destruct (lived_ok k m s0 s H0 I0 HL) as (Hok & _). exact (train_uses k m _ _ _ _ _ _ _ _ E Hok (user_data_ready _ _ _ Hd) Hf).
  - apply (uses_trans _ _ _ _ (IH H0 I0)). exact (evaluateData_uses k m _ _ _ _ E (user_data_ready _ _ _ Hd)).
  - unfold saveAs in E. destruct (negb _); [discriminate|]. injection E as <-. exact (IH H0 I0).
  - exact (IH H0 I0).
Qed.
End P.
