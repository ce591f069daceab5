(* Proofs: the number of training steps reported by the network. *)
From Verif Require Import Base Num NeuronModel LayerModel NetModel HistProofs StatModel WaitModel DataModel DataSpec TrainModel TrainSpec TrainProofs EvalSpec PureSpec PureProps.
Local Open Scope nat_scope.
Local Open Scope outcome_scope.

Section P.
Context {N : Num}.
Definition learned (e : TrainModel.event) : bool := match e with Stepped _ true _ _ _ => true | _ => false end.
Definition steps_learned (log : list TrainModel.event) : nat := List.length (filter learned log).
Lemma steps_app a b : steps_learned (a ++ b) = steps_learned a + steps_learned b.
Proof. unfold steps_learned. rewrite filter_app, app_length. reflexivity. Qed.
Lemma trainOnce_count rand n x y t n' : trainOnce rand n x y t = Ok n' -> nn_trainings n' = (nn_trainings n + 1)%Z.
Proof.
  unfold trainOnce, backpropagation. intros H. apply bind_Ok_inv in H as (n1 & H1 & H). injection H as <-. cbn. apply bind_Ok_inv in H1 as ((o & n2) & H2 & H1).
  apply net_training_w in H2 as (_ & <- & _). destruct (nn_nan n2); [now injection H1 as <-|]. destruct (nn_layers n2); [discriminate|].
  apply bind_Ok_inv in H1 as (e & _ & H1). apply bind_Ok_inv in H1 as ((e2 & ls) & _ & H1). apply bind_Ok_inv in H1 as (l2 & _ & H1). injection H1 as <-. reflexivity.
Qed.
Lemma evaluateTurn_count s d s' : evaluateTurn s d = Ok s' -> nn_trainings (sn_net s') = nn_trainings (sn_net s).
Proof.
  intros H. unfold evaluateTurn in H. apply bind_Ok_inv in H as (need & _ & H).
  destruct need; [unfold evaluateOnce in H; destruct (d_problem d)|]; binds H; injection H as <-; cbn; match goal with H : net_output _ _ _ = Ok _ |- _ => now apply net_output_w in H as (_ & -> & _) end.
Qed.
Lemma evaluateLoop_count nan d : forall rest s st s', evaluateLoop nan rest s d = Ok (st, s') -> nn_trainings (sn_net s') = nn_trainings (sn_net s).
Proof.
  induction rest as [|rest IH]; intros s st s' H; cbn [evaluateLoop] in H; [now injection H as <- <-|].
  destruct (nn_nan (sn_net s)); [now injection H as <- <-|]. apply bind_Ok_inv in H as (s1 & H1 & H). apply IH in H. cbn in H. rewrite H. now apply evaluateTurn_count in H1.
Qed.
Variable s0 : Snn.
Definition counted (s : Snn) (log : list TrainModel.event) : Prop := nn_trainings (sn_net s) = (nn_trainings (sn_net s0) + Z.of_nat (steps_learned log))%Z.
Definition counts_so_far (r : Run) : Prop := counted (r_snn r) (r_log r).
Lemma counts_evaluate env r r' : evaluate env r = Ok r' -> counts_so_far r -> counts_so_far r'.
Proof.
  unfold evaluate, counts_so_far, counted. intros H HC. apply bind_Ok_inv in H as ((st & s) & H1 & H). apply evaluateLoop_count in H1. cbn in H1.
  destruct st; [injection H as <-; cbn [logs upd r_snn r_log]; rewrite steps_app, H1, HC; cbn; lia|].
  destruct (_ && _); injection H as <-; cbn [saveSync logs upd r_snn r_log with_path with_stats sn_net]; rewrite !steps_app, H1, HC; cbn; lia.
Qed.
Lemma counts_turn env b r r' : trainingTurn env b r = Ok r' -> counts_so_far r -> counts_so_far r'.
Proof.
  unfold trainingTurn, counts_so_far, counted. intros H HC. apply bind_Ok_inv in H as (nd & _ & H). destruct nd; binds H; injection H as <-; cbn [r_snn r_log with_net sn_net]; rewrite steps_app.
  - match goal with H : trainOnce _ _ _ _ _ = _ |- _ => rewrite (trainOnce_count _ _ _ _ _ _ H) end. rewrite HC. cbn [steps_learned filter learned List.length]. change (steps_learned [_]) with 1. lia.
  - match goal with H : net_outputForTraining _ _ _ _ = _ |- _ => apply net_training_w in H as (_ & -> & _) end. rewrite HC. change (steps_learned [_]) with 0. lia.
Qed.
Lemma counts_continue env w r go r' : continueTraining env w r = (go, r') -> counts_so_far r -> counts_so_far r'.
Proof. unfold continueTraining, counts_so_far, counted. intros H HC. injection H as _ <-. cbn [r_snn r_log]. destruct (e_stop env (r_checks r)); exact HC. Qed.
Lemma counts_epoch env w b : forall fuel r early r', epochLoop fuel env w b r = Some (Ok (early, r')) -> counts_so_far r -> counts_so_far r'.
Proof.
  induction fuel as [|fuel IH]; intros r early r' H HT; [discriminate|]. cbn [epochLoop] in H.
  destruct (_ <=? _) in H. 2: { injection H as <- <-. exact HT. }
  destruct (continueTraining env w r) as [go r1] eqn:Ec. apply counts_continue in Ec; [|exact HT]. destruct go. 2: { injection H as <- <-. exact Ec. }
  destruct (nn_nan (sn_net (r_snn r1))). { injection H as <- <-. exact Ec. }
  destruct (trainingTurn env b r1) as [r2|z|] eqn:Et; [|discriminate H|discriminate H]. apply counts_turn in Et; [|exact Ec].
  apply IH in H; [exact H|]. exact Et.
Qed.
Lemma counts_training env w b f : forall fuel r r', trainingLoop fuel env w b f r = Some (Ok r') -> counts_so_far r -> counts_so_far r'.
Proof.
  induction fuel as [|fuel IH]; intros r r' H HT; [discriminate|]. cbn [trainingLoop] in H.
  destruct (continueTraining env w r) as [go r1] eqn:Ec. apply counts_continue in Ec; [|exact HT]. destruct go; [|injection H as <-; exact Ec].
  destruct (shuffle (e_rng env (r_checks r1)) (r_data r1)) as [d'|z|] eqn:Es; cbn [bind andThen] in H; try discriminate H.
  destruct (epochLoop (S fuel) env w b _) as [[[early r3]|z|]|] eqn:Ee; try discriminate H.
  apply counts_epoch in Ee. 2: { unfold counts_so_far, counted in *. cbn [r_snn r_log with_index sn_net]. rewrite steps_app, Ec. cbn. lia. }
  destruct early; [injection H as <-; exact Ee|].
  match type of H with andThen ?t _ = _ => destruct t as [r4|y|] eqn:Ev; cbn [andThen] in H; [|discriminate H|discriminate H] end.
  apply IH in H; [exact H|]. destruct (_ && _); [exact (counts_evaluate _ _ _ Ev Ee)|injection Ev as <-; exact Ee].
Qed.
Lemma train_counts fuel env w b f d r : train fuel env w b f s0 d = Some (Ok r) -> counts_so_far r.
Proof.
  intros H. unfold train in H. destruct (validData s0 d b) as [u|z|] eqn:V; try discriminate. destruct (negb (sn_idle s0)); [discriminate|]. unfold trainSync in H.
  set (r0 := upd (mkRun _ _ _ _) _) in H. assert (T0 : counts_so_far r0) by (unfold counts_so_far, counted; cbn; lia).
  match type of H with andThen ?t _ = _ => destruct t as [r1|y|] eqn:Ev; cbn [andThen] in H; [|discriminate H|discriminate H] end.
  apply counts_training in H; [exact H|]. destruct (0 <? f)%Z; [exact (counts_evaluate _ _ _ Ev T0)|injection Ev as <-; exact T0].
Qed.
End P.
