(* A training is a sequence of predictions and training steps: whatever holds after any such sequence holds after train(). *)
From Coq Require Import String.
From Verif Require Import Base Num ActModel NeuronModel LayerModel NetModel StatModel WaitModel DataModel FactoryModel PureSpec HistProofs PureProps TrainModel TrainSpec TrainProofs.
Local Open Scope outcome_scope.

Section P.
Context {N : Num}.
Lemma later_trans a b c : later a b -> later b c -> later a c.
Proof. intros H. induction H; intros HC; [exact HC|eapply later_predict|eapply later_forTraining|eapply later_inspect|eapply later_train]; eauto. Qed.
Lemma evaluateTurn_later s d s' : evaluateTurn s d = Ok s' -> later (sn_net s) (sn_net s').
Proof.
  unfold evaluateTurn, evaluateOnce. intros H. apply bind_Ok_inv in H as ([|] & _ & H).
  - destruct (d_problem d); binds H; injection H as <-; cbn; eapply later_predict; try eassumption; constructor.
  - binds H; injection H as <-; cbn; eapply later_predict; try eassumption; constructor.
Qed.
Lemma evaluateLoop_later nan d : forall rest s st s', evaluateLoop nan rest s d = Ok (st, s') -> later (sn_net s) (sn_net s').
Proof.
  induction rest as [|rest IH]; intros s st s' H; cbn in H; [injection H as <- <-; constructor|].
  destruct (nn_nan (sn_net s)); [injection H as <- <-; constructor|]. apply bind_Ok_inv in H as (s1 & H1 & H). apply evaluateTurn_later in H1. apply IH in H. exact (later_trans _ _ _ H1 H).
Qed.
Lemma evaluate_later env r r' : evaluate env r = Ok r' -> later (sn_net (r_snn r)) (sn_net (r_snn r')).
Proof.
  unfold evaluate. intros H. apply bind_Ok_inv in H as ((st & s) & H1 & H). apply evaluateLoop_later in H1. cbn in H1.
  destruct st; [injection H as <-; exact H1|]. destruct (_ && _); injection H as <-; exact H1.
Qed.
Lemma turn_later env b r r' : trainingTurn env b r = Ok r' -> later (sn_net (r_snn r)) (sn_net (r_snn r')).
Proof.
  unfold trainingTurn. intros H. apply bind_Ok_inv in H as ([|] & _ & H); binds H; injection H as <-; cbn.
  - eapply later_train; [eassumption|constructor].
  - eapply later_forTraining; [eassumption|constructor].
Qed.
Lemma continue_net env w r go r' : continueTraining env w r = (go, r') -> sn_net (r_snn r') = sn_net (r_snn r).
Proof. intros H. now apply continue_keeps_nan in H as (_ & _ & _ & _ & _ & _ & _ & _ & E & _). Qed.
Lemma epoch_later env w b : forall fuel r early r', epochLoop fuel env w b r = Some (Ok (early, r')) -> later (sn_net (r_snn r)) (sn_net (r_snn r')).
Proof.
  induction fuel as [|fuel IH]; intros r early r' H; [discriminate|]. cbn [epochLoop] in H.
  destruct (_ <=? _); [|injection H as <- <-; constructor].
  destruct (continueTraining env w r) as [go r1] eqn:Ec. apply continue_net in Ec. rewrite <- Ec.
  destruct go; [|injection H as <- <-; constructor]. destruct (nn_nan _); [injection H as <- <-; constructor|].
  destruct (trainingTurn env b r1) as [r2|m|] eqn:Et; try discriminate. apply turn_later in Et. apply IH in H. exact (later_trans _ _ _ Et H).
Qed.
Lemma training_later env w b f : forall fuel r r', trainingLoop fuel env w b f r = Some (Ok r') -> later (sn_net (r_snn r)) (sn_net (r_snn r')).
Proof.
  induction fuel as [|fuel IH]; intros r r' H; [discriminate|]. cbn [trainingLoop] in H.
  destruct (continueTraining env w r) as [go r1] eqn:Ec. apply continue_net in Ec. rewrite <- Ec. destruct go; [|injection H as <-; constructor].
  destruct (shuffle _ _) as [d|m|]; cbn [bind andThen] in H; try discriminate.
  destruct (epochLoop _ _ _ _ _) as [[([|] & r2)|m|]|] eqn:Ee; try discriminate; apply epoch_later in Ee; cbn [r_snn sn_net with_index] in Ee; [injection H as <-; exact Ee|].
  assert (HV : forall r3, (if (0 <? f)%Z && (Z.rem (sn_epoch (r_snn r2)) f =? 0)%Z then evaluate env r2 else Ok r2) = Ok r3 -> later (sn_net (r_snn r2)) (sn_net (r_snn r3))).
  { intros r3. destruct (_ && _); [apply evaluate_later|]. intros E. injection E as <-. constructor. }
  destruct (if _ : bool then _ else _) as [r3|m|]; cbn [andThen] in H; try discriminate. specialize (HV _ eq_refl). apply IH in H. exact (later_trans _ _ _ Ee (later_trans _ _ _ HV H)).
Qed.
Lemma train_later fuel env w b f s d r : train fuel env w b f s d = Some (Ok r) -> later (sn_net s) (sn_net (r_snn r)).
Proof.
  unfold train. destruct (validData s d b); try discriminate. destruct (negb _); [discriminate|]. unfold trainSync. intros H.
  assert (HV : forall r2 r3, (if (0 <? f)%Z then evaluate env r2 else Ok r2) = Ok r3 -> later (sn_net (r_snn r2)) (sn_net (r_snn r3))).
  { intros r2 r3. destruct (_ <? _)%Z; [apply evaluate_later|]. intros E. injection E as <-. constructor. }
  match type of H with andThen ?x _ = _ => destruct x as [r3|m|] eqn:E3 end; cbn [andThen] in H; try discriminate. apply HV in E3. apply training_later in H. exact (later_trans _ _ _ E3 H).
Qed.

(* no use changes the number of layers or the optimizer *)
Lemma chain_length f ls : forall l v o ls', chain f l ls v = Ok (o, ls') -> List.length ls' = List.length ls.
Proof.
  induction ls as [|a t IH]; intros l v o ls' H; cbn in H; [injection H as _ <-; reflexivity|]. apply bind_Ok_inv in H as ((v1 & a1) & _ & H). apply bind_Ok_inv in H as ((v2 & t1) & E & H). injection H as _ <-.
  cbn. f_equal. exact (IH _ _ _ _ E).
Qed.
Definition frame (a b : Net) : Prop := List.length (nn_layers b) = List.length (nn_layers a) /\ nn_opt b = nn_opt a.
Lemma output_frame n x r o n' : net_output n x r = Ok (o, n') -> frame n n'.
Proof.
  intros H. pose proof (net_output_w _ _ _ _ _ H) as (W & _ & _ & E). split; [|exact E]. apply (f_equal (@List.length _)) in W. unfold net_weights in W. now rewrite !map_length in W.
Qed.
Lemma training_frame rand n x r o n' : net_outputForTraining rand n x r = Ok (o, n') -> frame n n'.
Proof.
  intros H. pose proof (net_training_w _ _ _ _ _ _ H) as (W & _ & _ & E). split; [|exact E]. apply (f_equal (@List.length _)) in W. unfold net_weights in W. now rewrite !map_length in W.
Qed.
Lemma chain_back_length o ls : forall e e' ls', chain_back o ls e = Ok (e', ls') -> List.length ls' = List.length ls.
Proof.
  induction ls as [|a t IH]; intros e e' ls' H; cbn in H; [injection H as _ <-; reflexivity|]. apply bind_Ok_inv in H as ((e1 & t1) & E & H). apply bind_Ok_inv in H as ((e2 & a1) & _ & H). injection H as _ <-.
  cbn. f_equal. exact (IH _ _ _ E).
Qed.
Lemma frame_trans a b c : frame a b -> frame b c -> frame a c.
Proof. intros (A1 & A2) (B1 & B2). split; congruence. Qed.
Lemma trainOnce_frame rand n x d r n' : trainOnce rand n x d r = Ok n' -> frame n n'.
Proof.
  unfold trainOnce, backpropagation. intros H. apply bind_Ok_inv in H as (n1 & E & H). injection H as <-. apply bind_Ok_inv in E as ((o & n2) & E & H). apply training_frame in E as (E1 & E2).
  destruct (nn_nan n2); [injection H as <-; split; assumption|]. destruct (nn_layers n2) as [|a t] eqn:El; [discriminate|]. binds H. injection H as <-. cbn.
  match goal with H : chain_back _ _ _ = _ |- _ => apply chain_back_length in H; split; cbn in *; congruence end.
Qed.
Lemma outputs_frame n x o n' : getLayerOutputs n x = Ok (o, n') -> frame n n'.
Proof.
  intros H. unfold getLayerOutputs in H. destruct (nn_layers n) as [|a t] eqn:El; [discriminate|]. apply bind_Ok_inv in H as ((r & ls) & E & H). injection H as <- <-. split; [|reflexivity]. cbn [nn_layers].
  apply chain_outputs_w in E. apply (f_equal (@List.length _)) in E. rewrite !map_length in E. rewrite El. exact E.
Qed.
Lemma later_frame a b : later a b -> frame a b.
Proof.
  intros H. induction H as [n|n x r o n1 n2 E _ IH|n rand x r o n1 n2 E _ IH|n x o n1 n2 E _ IH|n rand x d r n1 n2 E _ IH]; [now split|..]; refine (frame_trans _ _ _ _ IH);
    [exact (output_frame _ _ _ _ _ E)|exact (training_frame _ _ _ _ _ _ E)|exact (outputs_frame _ _ _ _ E)|exact (trainOnce_frame _ _ _ _ _ _ E)].
Qed.
End P.
