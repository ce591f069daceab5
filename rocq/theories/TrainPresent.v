(* Proofs for C56: a training on plain data presents every sample once in each epoch. *)
From Coq Require Import Permutation.
From Verif Require Import Base Num NumOrder NeuronModel LayerModel NetModel StatModel WaitModel DataModel DataSpec DataProofs TrainModel TrainSpec TrainProofs TrainSafe TrainLogs.
From Verif Require Import FactoryModel FactorySpec PureSpec PureProps.
Local Open Scope outcome_scope.
Local Open Scope nat_scope.

Section P.
Context {N : Num}.
Implicit Types (r : Run) (s : Snn) (env : Env) (w : Wait) (d : Data).

Lemma looks_trans k a b c : looks k a b -> looks k b c -> looks k a c.
Proof. intros H. induction H; intros; [assumption|eapply looks_predict; eauto|eapply looks_forTraining; eauto|eapply looks_inspect; eauto]. Qed.
Lemma test_row k m d i x : ready k m d -> getTestingData d i = Ok x -> List.length x = k.
Proof. intros R H. unfold getTestingData, lget in H. destruct (nth_error _ i) eqn:E; [|discriminate]. injection H as ->. pose proof (rd_tin _ _ _ R) as Q. unfold rect in Q. rewrite Forall_forall in Q. eapply Q, nth_error_In; eauto. Qed.
Lemma evaluateTurn_looks k m s d s' : ready k m d -> evaluateTurn s d = Ok s' -> looks k (sn_net s) (sn_net s').
Proof.
  intros R H. unfold evaluateTurn in H. apply bind_Ok_inv in H as (need & _ & H).
  destruct need; [unfold evaluateOnce in H; destruct (d_problem d)|]; HistProofs.binds H; injection H as <-; cbn;
    match goal with H : getTestingData _ _ = Ok ?x, H' : net_output _ ?x _ = Ok (_, ?n) |- _ => apply (looks_predict k _ x _ _ n _ (test_row k m d _ x R H) H'), looks_none end.
Qed.
Lemma evaluateLoop_looks k m nan d : ready k m d -> forall rest s st s', evaluateLoop nan rest s d = Ok (st, s') -> looks k (sn_net s) (sn_net s').
Proof.
  intros R. induction rest as [|rest IH]; intros s st s' H; cbn [evaluateLoop] in H; [injection H as <- <-; apply looks_none|].
  destruct (nn_nan (sn_net s)); [injection H as <- <-; apply looks_none|]. apply bind_Ok_inv in H as (s1 & H1 & H). apply IH in H.
  eapply looks_trans; [eapply evaluateTurn_looks; eauto|exact H].
Qed.

Lemma nth_error_firstn' {A} (l : list A) : forall n j, j < n -> nth_error (firstn n l) j = nth_error l j.
Proof. induction l as [|a l IH]; intros [|n] [|j] H; cbn; try lia; auto. apply IH. lia. Qed.
Lemma nth_error_skipn' {A} (l : list A) : forall n j, nth_error (skipn n l) j = nth_error l (n + j).
Proof. induction l as [|a l IH]; intros [|n] j; cbn; auto. now destruct j. Qed.

Variables (k m b : nat) (trIn trLab : list (list F)) (net0 : Net).
Hypothesis Hb : 1 <= b.
Hypothesis Hlen : List.length trIn = List.length trLab.
Let samples := combine trIn trLab.
Definition order_of d : list sample := map (fun i => nth i samples ([], [])) (s_shuffled (d_train d)).
Definition pinv d : Prop := NonTemporalInv trIn trLab d /\ ready k m d.
Lemma samples_length : List.length samples = List.length trLab. Proof. unfold samples. rewrite combine_length. lia. Qed.
Lemma order_perm d : pinv d -> Permutation (order_of d) samples.
Proof. intros ((_ & _ & _ & _ & Hp) & _). unfold order_of. rewrite Hp, <- samples_length. apply Permutation_refl'. apply map_nth_seq. Qed.
Lemma order_nth d i x y : pinv d -> nth_error (order_of d) i = Some (x, y) -> exposes d i x y.
Proof.
  intros ((Ht & Hi & Hl & Hs & Hp) & R) H. unfold order_of in H. rewrite nth_error_map in H. destruct (nth_error (s_shuffled (d_train d)) i) as [j|] eqn:Ej; [|discriminate].
  cbn in H. injection H as H. assert (Hj : j < List.length trLab). { apply nth_error_In in Ej. apply (Permutation_in _ Hp) in Ej. apply in_seq in Ej. lia. }
  unfold samples in H. rewrite combine_nth in H by exact Hlen. injection H as <- <-.
  apply exposes_visits. unfold visits, lget. rewrite Ej, Hi, Hl. split; exists j; (split; [reflexivity|]); rewrite (nth_error_nth' _ []) by lia; reflexivity.
Qed.
Lemma order_length d : pinv d -> List.length (order_of d) = s_size (d_train d).
Proof. intros ((_ & _ & _ & Hs & Hp) & _). unfold order_of. now rewrite map_length, (Permutation_length Hp), seq_length. Qed.
Lemma batch_present d n : pinv d -> n * b + b <= s_size (d_train d) ->
  exists x y d1 d2 bx by_, getTrainingData d (n * b) b = Ok (x, d1) /\ getTrainingOutputs d1 (n * b) b = Ok (y, d2) /\ batch_of b n (order_of d) x y /\ d2 = with_buffers d bx by_.
Proof.
  intros P Hn. pose proof P as (NI & R). set (rows := firstn b (skipn (n * b) (order_of d))).
  assert (Hrl : List.length rows = b). { unfold rows. rewrite firstn_length, skipn_length, (order_length d P). lia. }
  assert (Hrn : forall j x y, nth_error rows j = Some (x, y) -> exposes d (n * b + j) x y).
  { intros j x y H. apply (order_nth d _ _ _ P). unfold rows in H. assert (j < b). { assert (j < List.length rows); [apply nth_error_Some; unfold rows; congruence|lia]. }
    rewrite nth_error_firstn' in H by assumption. now rewrite nth_error_skipn' in H. }
  destruct (ready_data k m d (n * b) b R Hb Hn) as (x & bx & E1 & _).
  assert (R1 : ready k m (with_buffers d bx (d_batchedLabels d))) by now apply ready_buffers.
  destruct (ready_outputs k m _ (n * b) b R1 Hb Hn) as (y & by_ & E2 & _).
  exists x, y, (with_buffers d bx (d_batchedLabels d)), (with_buffers d bx by_), bx, by_. split; [exact E1|]. split; [exact E2|]. split; [|reflexivity].
  split; [exact Hrl|]. fold rows. destruct (Nat.eqb_spec b 1) as [Eb|Eb].
  - destruct rows as [|(x1, y1) [|]]; cbn in Hrl; try lia. destruct (Hrn 0 x1 y1 eq_refl) as ((d1 & A) & d2 & B). rewrite Nat.add_0_r in A, B. rewrite Eb in E1, E2.
    rewrite Eb, E1 in A. injection A as -> _.
    assert (C : getTrainingOutputs (with_buffers d bx (d_batchedLabels d)) (n * 1) 1 = Ok (y1, with_buffers d bx (d_batchedLabels d))).
    { unfold getTrainingOutputs in *. cbn [Nat.leb with_buffers d_train] in *. rewrite Eb in B. destruct (lget (s_shuffled (d_train d)) (n * 1)) as [j0|z0|]; cbn [bind] in *; try discriminate. destruct (lget (s_labels (d_train d)) j0); cbn [bind] in *; try discriminate. now injection B as -> _. }
    rewrite C in E2. injection E2 as -> _. reflexivity.
  - destruct (batch_is_mean_l d (n * b) (map fst rows) (map snd rows)) as (mx & my & d1 & d2 & A & B & C & D & _); rewrite ?map_length.
    + unfold sample in *. lia.
    + reflexivity.
    + intros j x1 y1 H1 H2. rewrite nth_error_map in H1, H2. unfold sample in *. destruct (nth_error rows j) as [(u, v)|] eqn:E; [|discriminate]. cbn in H1, H2. injection H1 as <-. injection H2 as <-. now apply Hrn.
    + apply Forall_forall. intros z Hz. apply in_map_iff in Hz as ((u, v) & <- & Hz). apply In_nth_error in Hz as (j & Hz). apply Hrn in Hz as ((dd & Hz) & _). cbn.
      rewrite (rd_k _ _ _ R). pose proof (rd_in _ _ _ R) as rd_in0. unfold getTrainingData in Hz. cbn [Nat.leb] in Hz. HistProofs.binds Hz. injection Hz as <- _. unfold lget in *.
      match goal with H : match nth_error (s_inputs _) ?q with _ => _ end = Ok _ |- _ => destruct (nth_error (s_inputs (d_train d)) q) eqn:E; [|discriminate H]; injection H as -> end.
      unfold rect in rd_in0. rewrite Forall_forall in rd_in0. eapply rd_in0, nth_error_In; eauto.
    + apply Forall_forall. intros z Hz. apply in_map_iff in Hz as ((u, v) & <- & Hz). apply In_nth_error in Hz as (j & Hz). apply Hrn in Hz as (_ & (dd & Hz)). cbn.
      rewrite (rd_m _ _ _ R). pose proof (rd_lab _ _ _ R) as rd_lab0. unfold getTrainingOutputs in Hz. cbn [Nat.leb] in Hz. HistProofs.binds Hz. injection Hz as <- _. unfold lget in *.
      match goal with H : match nth_error (s_labels _) ?q with _ => _ end = Ok _ |- _ => destruct (nth_error (s_labels (d_train d)) q) eqn:E; [|discriminate H]; injection H as -> end.
      unfold rect in rd_lab0. rewrite Forall_forall in rd_lab0. eapply rd_lab0, nth_error_In; eauto.
    + rewrite map_length in A, C. unfold sample in *. rewrite Hrl in A, C. rewrite E1 in A. injection A as <- <-. rewrite E2 in C. injection C as <- _. auto.
Qed.

Lemma turn_present env r n net1 log os rest : trainingTurn env b r = Ok rest -> pinv (r_data r) -> sn_index (r_snn r) = n * b -> n * b + b <= s_size (d_train (r_data r)) ->
  net1 = sn_net (r_snn r) -> log = r_log r -> presents k b samples net0 log (os ++ [order_of (r_data r)]) n net1 ->
  presents k b samples net0 (r_log rest) (os ++ [order_of (r_data rest)]) (S n) (sn_net (r_snn rest)) /\ pinv (r_data rest) /\ s_size (d_train (r_data rest)) = s_size (d_train (r_data r)).
Proof.
  intros H P Hi Hn -> -> PS. destruct (batch_present (r_data r) n P Hn) as (x & y & d1 & d2 & bx & by_ & E1 & E2 & BO & E3).
  pose proof P as ((Ht & _) & R). unfold trainingTurn in H. unfold needToLearn in H. rewrite Ht in H. cbn [bind] in H. rewrite Hi, E1 in H. cbn [bind] in H. rewrite E2 in H. cbn [bind] in H.
  unfold isFirstTraining in H. assert (Ht2 : d_temporal d2 = TNon) by (subst d2; exact Ht). rewrite Ht2 in H. cbn [bind] in H.
  apply bind_Ok_inv in H as (n' & H1 & H). injection H as <-. cbn [r_log r_data r_snn with_net sn_net]. subst d2. split; [|split; [|reflexivity]].
  - change (order_of (with_buffers (r_data r) bx by_)) with (order_of (r_data r)).
    apply (ps_step k b samples net0 (r_log r) os (order_of (r_data r)) n (sn_net (r_snn r)) x y (e_rand env (r_checks r)) (with_net (r_snn r) n') PS BO). exact H1.
  - split; [exact (proj1 P)|now apply ready_buffers].
Qed.
Definition shows r : Prop := pinv (r_data r) /\ s_size (d_train (r_data r)) = sn_ntrain (r_snn r) /\ exists os n, presents k b samples net0 (r_log r) os n (sn_net (r_snn r)).
Lemma epoch_present env w : forall fuel r n os early r', epochLoop fuel env w b r = Some (Ok (early, r')) ->
  pinv (r_data r) -> s_size (d_train (r_data r)) = sn_ntrain (r_snn r) -> sn_index (r_snn r) = n * b ->
  presents k b samples net0 (r_log r) (os ++ [order_of (r_data r)]) n (sn_net (r_snn r)) -> shows r'.
Proof.
  induction fuel as [|fuel IH]; intros r n os early r' H P Hs Hi PS; [discriminate|]. cbn [epochLoop] in H.
  destruct (Nat.leb_spec (sn_index (r_snn r) + b) (sn_ntrain (r_snn r))) as [Hle|Hle]. 2: { injection H as <- <-. split; [exact P|]. split; [exact Hs|]. eauto. }
  destruct (continueTraining env w r) as [go r1] eqn:Ec. apply continue_keeps_nan in Ec as (_ & El & Ed & Ei & En & _ & _ & _ & Enet & _).
  assert (P1 : pinv (r_data r1)) by (rewrite Ed; exact P). rewrite <- Ed, <- Enet, <- El in PS. rewrite <- Ed, <- En in Hs. rewrite <- Ei in Hi.
  destruct go. 2: { injection H as <- <-. split; [exact P1|]. split; [exact Hs|]. eauto. }
  destruct (nn_nan (sn_net (r_snn r1))). { injection H as <- <-. split; [exact P1|]. split; [exact Hs|]. eexists _, _. exact PS. }
  destruct (trainingTurn env b r1) as [r2|z|] eqn:Et; [|discriminate H|discriminate H].
  pose proof (turn_present env r1 n _ _ os r2 Et P1 Hi ltac:(rewrite <- Hi, Hs, Ei, En; lia) eq_refl eq_refl PS) as (PS2 & P2 & Es2).
  apply trainingTurn_keeps in Et as ((_ & K2 & _) & Ki & _).
  apply (IH (upd r2 (with_index (r_snn r2) (sn_index (r_snn r2) + b))) (S n) os early r') in H; cbn [upd r_data r_log r_snn with_index sn_index sn_ntrain sn_net]; auto; [congruence|rewrite Ki, Hi; cbn; lia].
Qed.
Lemma evaluate_present env r r' : evaluate env r = Ok r' -> shows r -> shows r'.
Proof.
  intros H (P & Hs & os & n & PS). pose proof (evaluate_keeps _ _ _ H) as ((_ & Kn & _) & Ed & _). split; [rewrite Ed; exact P|]. split; [rewrite Ed, Kn; exact Hs|]. exists os, n.
  unfold evaluate in H. apply bind_Ok_inv in H as ((stop, s) & H1 & H). pose proof P as (_ & R). apply (evaluateLoop_looks k m) in H1; [|exact R]. cbn [with_stats with_index sn_net] in H1.
  destruct stop; [injection H as <-; cbn [logs upd r_log r_snn]; now apply (ps_evaluate _ _ _ _ _ _ _ (sn_net (r_snn r)))|].
  assert (PE : presents k b samples net0 (r_log r ++ [Evaluated (with_stats s (stopTesting (sn_stats s)))]) os n (sn_net s)).
  { apply (ps_evaluate _ _ _ _ _ _ _ (sn_net (r_snn r)) (with_stats s (stopTesting (sn_stats s))) PS H1). }
  destruct (_ && _); injection H as <-; cbn [saveSync logs upd r_log r_snn with_path with_stats sn_net]; [|exact PE]. apply ps_save; [exact PE|reflexivity].
Qed.
Lemma training_present env w f : fair env -> forall fuel r r', trainingLoop fuel env w b f r = Some (Ok r') -> shows r -> shows r'.
Proof.
  intros Hf. induction fuel as [|fuel IH]; intros r r' H SH; [discriminate|]. cbn [trainingLoop] in H.
  destruct (continueTraining env w r) as [go r1] eqn:Ec. apply continue_keeps_nan in Ec as (_ & El & Ed & Ei & En & _ & _ & _ & Enet & _).
  assert (S1 : shows r1). { unfold shows in *. now rewrite El, Ed, En, Enet. } clear SH El Ed Ei En Enet.
  destruct go; [|injection H as <-; exact S1]. destruct S1 as ((NI & R) & Hs & os & n & PS).
  destruct (ready_op k m (r_data r1) (OpShuffle (e_rng env (r_checks r1))) (Hf _) R) as (d' & E & R' & _ & Es' & _).
  destruct (run_op_nontemporal trIn trLab (r_data r1) (OpShuffle (e_rng env (r_checks r1))) (Hf _) NI) as (d'' & E' & NI').
  rewrite E in E'. injection E' as <-. cbn [run_op] in E. rewrite E in H. cbn [bind andThen] in H.
  destruct (epochLoop (S fuel) env w b _) as [[[early r3]|z|]|] eqn:Ee; try discriminate H.
  apply (epoch_present _ _ _ _ 0 os) in Ee; cbn [r_data r_log r_snn with_index sn_index sn_ntrain sn_net]; [|now split|congruence|reflexivity|].
  2: { apply ps_shuffle with (n := n); [exact PS|]. apply order_perm. now split. }
  destruct early; [injection H as <-; exact Ee|].
  match type of H with andThen ?t _ = _ => destruct t as [r4|y|] eqn:Ev; cbn [andThen] in H; [|discriminate H|discriminate H] end.
  apply IH in H; [exact H|]. assert (S4 : shows r4). { destruct (_ && _); [exact (evaluate_present _ _ _ Ev Ee)|injection Ev as <-; exact Ee]. } exact S4.
Qed.
End P.

Lemma train_presents {N : Num} k m trIn trLab fuel env w b f s d r : List.length trIn = List.length trLab -> pinv k m trIn trLab d -> fair env ->
  train fuel env w b f s d = Some (Ok r) ->
  (exists os n, presents k (Z.to_nat b) (combine trIn trLab) (sn_net s) (r_log r) os n (sn_net (r_snn r))) /\ pinv k m trIn trLab (r_data r).
Proof.
  intros Hl P Hf H. unfold train in H. destruct (validData s d b) as [u|z|] eqn:V; try discriminate. apply validData_Ok in V as (Hb & _). destruct (negb (sn_idle s)); [discriminate|]. unfold trainSync in H.
  set (r0 := upd (mkRun _ _ _ _) _) in H. assert (Hb' : 1 <= Z.to_nat b) by lia.
  assert (S0 : shows k m (Z.to_nat b) trIn trLab (sn_net s) r0). { split; [exact P|]. split; [reflexivity|]. exists [], 0. apply ps_start. }
  match type of H with andThen ?t _ = _ => destruct t as [r1|y|] eqn:Ev; cbn [andThen] in H; [|discriminate H|discriminate H] end.
  apply (training_present k m (Z.to_nat b) trIn trLab (sn_net s) Hb' Hl _ _ _ Hf) in H as (X1 & _ & X); [split; [exact X|exact X1]|].
  assert (S1 : shows k m (Z.to_nat b) trIn trLab (sn_net s) r1). { destruct (0 <? f)%Z; [exact (evaluate_present _ _ _ _ _ _ _ _ _ Ev S0)|injection Ev as <-; exact S0]. } exact S1.
Qed.
