(* C76: evaluate() called while the training thread runs. *)
From Verif Require Import Base Num NumOrder ToolsModel NeuronModel LayerModel NetModel StatModel WaitModel DataModel DataSpec FactoryModel TrainModel TrainSpec TrainProofs TrainSafe TrainUser CountProofs EvalProofs ShareModel ShareProofs.
From Verif Require PureProps.
Local Open Scope outcome_scope.

Section P.
Context {N : Num}.
(* each thread alone does what the sequential functions do *)
Lemma eval_exact env w b t d0 k : forall rest (sn : Snn) stop sn1 l, evaluateLoop (e_nan env) rest sn d0 = Ok (stop, sn1) -> sn_index sn + rest = s_size (d_test d0) ->
  goes env w b (mkShare (mkRun sn d0 k l) t E_cond) (if stop then mkShare (mkRun sn1 d0 k (l ++ [Evaluated sn1])) t E_idle else mkShare (mkRun sn1 d0 k l) t E_stop).
Proof.
  induction rest as [|rest IH]; intros sn stop sn1 l H Hi; cbn [evaluateLoop] in H.
  - injection H as <- <-. eapply goes_estep; [|apply goes_refl]. unfold estep. cbn [sh_e sh_run sh_t r_snn r_data]. replace (_ <? _) with false by (symmetry; apply Nat.ltb_ge; lia). reflexivity.
  - eapply goes_estep; [unfold estep; cbn [sh_e sh_run sh_t r_snn r_data]; replace (_ <? _) with true by (symmetry; apply Nat.ltb_lt; lia); reflexivity|].
    destruct (nn_nan (sn_net sn)) eqn:En.
    + injection H as <- <-. eapply goes_estep; [unfold estep; cbn [sh_e sh_run sh_t r_snn r_data]; rewrite En; reflexivity|]. apply goes_refl.
    + apply bind_Ok_inv in H as (s2 & E2 & H). destruct (evaluateTurn_keeps _ _ _ E2) as (_ & Ki). eapply goes_estep; [unfold estep; cbn [sh_e sh_run sh_t r_snn r_data]; rewrite En, E2; reflexivity|].
      eapply goes_estep; [reflexivity|]. apply IH; [exact H|cbn; lia].
Qed.
Theorem C76_each_alone : forall env w,
  (forall fuel k s d r, train fuel env w k 0 s d = Some (Ok r) -> exists n, runs env w (Z.to_nat k) (repeat true n) (entered s d) = Ok (mkShare r T_done E_idle)) /\
  (forall b s d r t, evaluateData env s d = Ok r -> exists sched, runs env w b sched (mkShare (mkRun s d 0 []) t E_idle) = Ok (mkShare r t E_idle)).
Proof.
  intros env w. split.
  - intros fuel k s d r H. unfold train in H. destruct (validData s d k); try discriminate. destruct (negb (sn_idle s)); [discriminate|]. unfold trainSync in H. cbn [Z.ltb Z.compare andThen] in H.
    exact (loop_steps env w (Z.to_nat k) E_idle _ _ _ H).
  - intros b s d r t H. unfold evaluateData, evaluate in H. cbn [r_snn r_data] in H. apply bind_Ok_inv in H as ((stop & s1) & E & H).
    assert (G := eval_exact env w b t d 0 _ _ _ _ [] E eq_refl). change (goes env w b (mkShare (mkRun s d 0 []) t E_idle) (mkShare r t E_idle)). eapply goes_estep; [reflexivity|]. eapply goes_trans; [exact G|]. destruct stop.
    + injection H as <-. apply goes_refl.
    + eapply goes_estep; [reflexivity|]. cbn [r_snn r_data]. unfold logs, upd, saveSync in *. cbn [r_snn r_data r_checks r_log] in *. destruct (_ && _); injection H as <-; apply goes_refl.
Qed.

(* ---------- under every schedule ---------- *)
Definition learned (e : event) : bool := match e with Stepped _ l _ _ _ => l | _ => false end.
Definition from_rows (ins labs : list (list F)) (e : event) : Prop := match e with Stepped _ l x y _ => In x ins /\ (l = true -> In y labs) | _ => True end.
Lemma estep_weights env sh sh' : estep env sh = Ok sh' -> net_weights (sn_net (r_snn (sh_run sh'))) = net_weights (sn_net (r_snn (sh_run sh))) /\ nn_trainings (sn_net (r_snn (sh_run sh'))) = nn_trainings (sn_net (r_snn (sh_run sh))).
Proof.
  unfold estep. destruct (sh_e sh); intros H; try (injection H as <-; split; reflexivity).
  - destruct (nn_nan _); [injection H as <-; split; reflexivity|]. apply bind_Ok_inv in H as (sn & E & H). injection H as <-. cbn. unfold evaluateTurn in E. apply bind_Ok_inv in E as (nd & _ & E). destruct nd; [unfold evaluateOnce in E; destruct (d_problem _)|]; HistProofs.binds E; injection E as <-; cbn;
      match goal with H : net_output _ _ _ = Ok _ |- _ => destruct (PureProps.net_output_w _ _ _ _ _ H) as (? & ? & _); split; assumption end.
  - injection H as <-. cbn. destruct (_ && _); split; reflexivity.
Qed.
Definition good (ins labs : list (list F)) (t0 : Z) (b : nat) (sh : Share) : Prop :=
  s_inputs (d_train (r_data (sh_run sh))) = ins /\ s_labels (d_train (r_data (sh_run sh))) = labs /\
  nn_trainings (sn_net (r_snn (sh_run sh))) = (t0 + Z.of_nat (List.length (filter learned (r_log (sh_run sh)))))%Z /\
  (b = 1 -> Forall (from_rows ins labs) (r_log (sh_run sh)) /\ match sh_t sh with T_labels x | T_look x => In x ins | T_learn x y => In x ins /\ In y labs | _ => True end).
Lemma shuffle_rows rng d d' : shuffle rng d = Ok d' -> s_inputs (d_train d') = s_inputs (d_train d) /\ s_labels (d_train d') = s_labels (d_train d).
Proof. unfold shuffle. intros H. destruct (d_temporal d); HistProofs.binds H; injection H as <-; split; reflexivity. Qed.
Lemma training_rows d i b x d' : getTrainingData d i b = Ok (x, d') -> d_train d' = d_train d /\ (b = 1 -> In x (s_inputs (d_train d))).
Proof.
  unfold getTrainingData. intros H. destruct (Nat.leb_spec b 1); HistProofs.binds H; injection H as <- <-; (split; [reflexivity|]); [|intros ->; lia].
  intros _. match goal with H : lget (s_inputs _) _ = Ok _ |- _ => unfold lget in H; destruct (nth_error _ _) eqn:X in H; [|discriminate]; injection H as <-; eapply nth_error_In; exact X end.
Qed.
Lemma training_labels d i b x d' : getTrainingOutputs d i b = Ok (x, d') -> d_train d' = d_train d /\ (b = 1 -> In x (s_labels (d_train d))).
Proof.
  unfold getTrainingOutputs. intros H. destruct (Nat.leb_spec b 1); HistProofs.binds H; injection H as <- <-; (split; [reflexivity|]); [|intros ->; lia].
  intros _. match goal with H : lget (s_labels _) _ = Ok _ |- _ => unfold lget in H; destruct (nth_error _ _) eqn:X in H; [|discriminate]; injection H as <-; eapply nth_error_In; exact X end.
Qed.
Lemma filter_len1 {A} (f : A -> bool) l e : List.length (filter f (l ++ [e])) = List.length (filter f l) + (if f e then 1 else 0).
Proof. rewrite filter_app, app_length. cbn. now destruct (f e). Qed.
Lemma tstep_good env w b ins labs t0 sh sh' : good ins labs t0 b sh -> tstep env w b sh = Ok sh' -> good ins labs t0 b sh'.
Proof.
  intros (G1 & G2 & G3 & G4) H. unfold tstep in H. destruct (sh_t sh) as [| | |lr|x|x y|x| | |] eqn:Et.
  - destruct (continueTraining env w (sh_run sh)) as [on r] eqn:Ec. apply continue_keeps_nan in Ec as (_ & El & Ed & _ & _ & _ & _ & _ & En & _). destruct on.
    + apply bind_Ok_inv in H as (d' & Es & H). injection H as <-. apply shuffle_rows in Es as (S1 & S2). unfold good. cbn. rewrite filter_len1. cbn [learned]. rewrite Nat.add_0_r, S1, S2, Ed, El, En. split; [exact G1|]. split; [exact G2|]. split; [exact G3|].
      intros Hb. destruct (G4 Hb) as (G & _). split; [|exact I]. apply Forall_app. split; [exact G|]. constructor; [exact I|constructor].
    + injection H as <-. unfold good. cbn. rewrite Ed, El, En. split; [exact G1|]. split; [exact G2|]. split; [exact G3|]. intros Hb. split; [apply G4, Hb|exact I].
  - destruct (_ <=? _).
    + destruct (continueTraining env w (sh_run sh)) as [on r] eqn:Ec. apply continue_keeps_nan in Ec as (_ & El & Ed & _ & _ & _ & _ & _ & En & _). injection H as <-. unfold good. cbn. rewrite Ed, El, En. split; [exact G1|]. split; [exact G2|]. split; [exact G3|]. intros Hb. split; [apply G4, Hb|]. destruct on; exact I.
    + injection H as <-. unfold good. cbn. split; [exact G1|]. split; [exact G2|]. split; [exact G3|]. intros Hb. split; [apply G4, Hb|exact I].
  - destruct (nn_nan _).
    + injection H as <-. unfold good. cbn. split; [exact G1|]. split; [exact G2|]. split; [exact G3|]. intros Hb. split; [apply G4, Hb|exact I].
    + apply bind_Ok_inv in H as (nd & _ & H). injection H as <-. unfold good. cbn. split; [exact G1|]. split; [exact G2|]. split; [exact G3|]. intros Hb. split; [apply G4, Hb|exact I].
  - apply bind_Ok_inv in H as ((x & d') & E & H). injection H as <-. apply training_rows in E as (Ed & Ex). unfold good. cbn. rewrite Ed. split; [exact G1|]. split; [exact G2|]. split; [exact G3|]. intros Hb. split; [apply G4, Hb|]. rewrite G1 in Ex. destruct lr; exact (Ex Hb).
  - apply bind_Ok_inv in H as ((y & d') & E & H). injection H as <-. apply training_labels in E as (Ed & Ex). unfold good. cbn. rewrite Ed. split; [exact G1|]. split; [exact G2|]. split; [exact G3|]. intros Hb. destruct (G4 Hb) as (A & B). split; [exact A|]. rewrite G2 in Ex. split; [exact B|exact (Ex Hb)].
  - apply bind_Ok_inv in H as (fi & _ & H). apply bind_Ok_inv in H as (n & E & H). injection H as <-. apply trainOnce_count in E. unfold good. cbn. rewrite filter_len1. cbn [learned]. split; [exact G1|]. split; [exact G2|]. split; [rewrite E, G3, Nat2Z.inj_add; lia|].
    intros Hb. destruct (G4 Hb) as (A & B1 & B2). split; [|exact I]. apply Forall_app. split; [exact A|]. constructor; [|constructor]. split; [exact B1|]. intros _. exact B2.
  - apply bind_Ok_inv in H as (fi & _ & H). apply bind_Ok_inv in H as ((o & n) & E & H). injection H as <-. apply PureProps.net_training_w in E as (_ & E & _). unfold good. cbn. rewrite filter_len1. cbn [learned]. split; [exact G1|]. split; [exact G2|]. split; [rewrite E, G3, Nat.add_0_r; lia|].
    intros Hb. destruct (G4 Hb) as (A & B). split; [|exact I]. apply Forall_app. split; [exact A|]. constructor; [|constructor]. split; [exact B|]. discriminate.
  - injection H as <-. unfold good. cbn. split; [exact G1|]. split; [exact G2|]. split; [exact G3|]. intros Hb. split; [apply G4, Hb|exact I].
  - injection H as <-. unfold good. cbn. split; [exact G1|]. split; [exact G2|]. split; [exact G3|]. intros Hb. split; [apply G4, Hb|exact I].
  - injection H as <-. unfold good. rewrite Et. split; [exact G1|]. split; [exact G2|]. split; [exact G3|]. intros Hb. split; [apply G4, Hb|exact I].
Qed.
Lemma estep_good env b ins labs t0 sh sh' : good ins labs t0 b sh -> estep env sh = Ok sh' -> good ins labs t0 b sh'.
Proof.
  intros G H. pose proof (estep_weights env sh sh' H) as (_ & Hc). destruct G as (G1 & G2 & G3 & G4).
  assert (X : r_data (sh_run sh') = r_data (sh_run sh) /\ sh_t sh' = sh_t sh /\ exists l, r_log (sh_run sh') = r_log (sh_run sh) ++ l /\ filter learned l = [] /\ forall ins labs, Forall (from_rows ins labs) l).
  { unfold estep in H. destruct (sh_e sh); try (injection H as <-; cbn; split; [reflexivity|]; split; [reflexivity|]; exists []; rewrite app_nil_r; repeat split; constructor).
    - destruct (nn_nan _); [injection H as <-|apply bind_Ok_inv in H as (sn & _ & H); injection H as <-]; cbn; (split; [reflexivity|]); (split; [reflexivity|]); [eexists; split; [reflexivity|]; repeat split; repeat constructor|exists []; rewrite app_nil_r; repeat split; constructor].
    - injection H as <-. destruct (_ && _); cbn; (split; [reflexivity|]); (split; [reflexivity|]).
      + rewrite <- app_assoc. cbn. eexists. split; [reflexivity|]. repeat split; repeat constructor.
      + eexists. split; [reflexivity|]. repeat split; repeat constructor. }
  destruct X as (X1 & X2 & l & X3 & X4 & X5). unfold good. rewrite X1, X2, X3, Hc, filter_app, X4, app_nil_r. split; [exact G1|]. split; [exact G2|]. split; [exact G3|]. intros Hb. destruct (G4 Hb) as (A & B). split; [|exact B]. apply Forall_app. split; [exact A|apply X5].
Qed.
(* whatever the schedule and the number of evaluations: an evaluation never changes a weight, the network counts exactly the steps that learned,
   and with batches of one sample every step used a row of the training set (and labels of the training set), never the testing set *)
Theorem C76_every_schedule : forall env w b sched s d sh, runs env w b sched (entered s d) = Ok sh ->
  (forall sh', estep env sh = Ok sh' -> net_weights (sn_net (r_snn (sh_run sh'))) = net_weights (sn_net (r_snn (sh_run sh)))) /\
  nn_trainings (sn_net (r_snn (sh_run sh))) = (nn_trainings (sn_net s) + Z.of_nat (List.length (filter learned (r_log (sh_run sh)))))%Z /\
  (b = 1 -> forall i l x y st, In (Stepped i l x y st) (r_log (sh_run sh)) -> In x (s_inputs (d_train d)) /\ (l = true -> In y (s_labels (d_train d)))).
Proof.
  intros env w b sched s d sh H. split; [intros sh' E; exact (proj1 (estep_weights _ _ _ E))|].
  assert (G : good (s_inputs (d_train d)) (s_labels (d_train d)) (nn_trainings (sn_net s)) b sh).
  { assert (G0 : good (s_inputs (d_train d)) (s_labels (d_train d)) (nn_trainings (sn_net s)) b (entered s d)) by (unfold good; cbn; repeat split; try lia; constructor).
    revert G0 H. generalize (entered s d). unfold runs. induction sched as [|who t IH]; intros s0 G0 H; cbn [ofold] in H; [injection H as <-; exact G0|].
    apply bind_Ok_inv in H as (s1 & E & H). apply (IH s1); [|exact H]. destruct who; [eapply tstep_good|eapply estep_good]; eassumption. }
  destruct G as (_ & _ & G3 & G4). split; [exact G3|]. intros Hb i l x y st Hin. destruct (G4 Hb) as (A & _). rewrite Forall_forall in A. exact (A _ Hin).
Qed.
(* ---------- what goes wrong ---------- *)
Section R.
Variable ok : F -> Prop.
Hypothesis OL : order_laws N ok.
Variables (env : Env) (n : Z).
Hypothesis Hu : undisturbed env.
Hypothesis Hn : (1 <= n < int_max)%Z.
Notation w := (lit_ep n).
Lemma w_only : epochs_only w n. Proof. apply (lit_ep_only ok); [exact OL|lia]. Qed.
Lemma goes_on (r : Run) : (0 < sn_epoch (r_snn r) <= n)%Z -> sn_want (r_snn r) = false -> hasNan r = false -> continueTraining env w r = (true, ticked r).
Proof. intros He Hw Ha. rewrite (continue_un n env w r Hu w_only) by lia. rewrite Hw, Ha. replace (_ <=? _)%Z with true by (symmetry; apply Z.leb_le; lia). reflexivity. Qed.
(* the state at the start of the first epoch *)
Definition fresh (s : Snn) (d d1 : Data) : Run := mkRun (with_index (with_epoch (with_idle (with_want (with_ntrain (with_epoch s 0) (s_size (d_train d))) false) false) 1) 0) d1 1 [Shuffled].
Lemma reach_fresh b s d d1 e : nn_nan (sn_net s) = false -> shuffle (e_rng env 1) d = Ok d1 -> tgoes env w b (mkShare (sh_run (entered s d)) T_outer e) (mkShare (fresh s d d1) T_cond e).
Proof.
  intros Ha Es. eapply tgoes_step; [|apply tgoes_refl]. unfold tstep. cbn [sh_t sh_run sh_e]. rewrite goes_on; [|cbn; lia|reflexivity|exact Ha]. cbn [ticked entered sh_run r_checks r_data]. rewrite Es. reflexivity.
Qed.
Lemma oob k m fuel b s d r re : ready k m d -> fair env -> (1 <= s_size (d_test d)) ->
  train fuel env w b 0 s d = Some (Ok r) -> hasNan r = false -> evaluateData env s d = Ok re -> hasNan re = false ->
  exists sched, runs env w (Z.to_nat b) sched (entered s d) = UB.
Proof.
  intros R Hf Ht H Hr He Hre. pose proof w_only as Hw. unfold train in H. destruct (validData s d b) as [u| |] eqn:Ev; try discriminate. apply validData_Ok in Ev as (Hb & _). destruct (negb (sn_idle s)); [discriminate|]. unfold trainSync in H. cbn [Z.ltb Z.compare andThen] in H.
  assert (Hb1 : 1 <= Z.to_nat b) by lia. assert (Hb2 : Z.to_nat b <= s_size (d_train d)) by lia. set (c := Z.to_nat b) in *. clearbody c.
  change (trainingLoop fuel env w c 0 (sh_run (entered s d)) = Some (Ok r)) in H. destruct fuel as [|fuel]; [discriminate|]. cbn [trainingLoop] in H.
  assert (Ha : nn_nan (sn_net s) = false). { destruct (nn_nan (sn_net s)) eqn:X; [|reflexivity]. destruct (continueTraining env w (sh_run (entered s d))) as [go r1] eqn:Ec. apply continue_keeps_nan in Ec as (E1 & _ & _ & _ & _ & _ & _ & _ & _ & _ & _ & E2). change (hasNan (sh_run (entered s d))) with (nn_nan (sn_net s)) in *. destruct go; [destruct (E2 eq_refl); congruence|]. injection H as <-. unfold hasNan in *. cbn in Hr. congruence. }
  rewrite goes_on in H; [|cbn; lia|reflexivity|exact Ha]. cbn [ticked r_checks r_data entered sh_run r_snn r_log] in H. destruct (ready_op k m d (OpShuffle (e_rng env 1)) (Hf _) R) as (d1 & Es & R1 & T1 & Sz & _). cbn [run_op] in Es. rewrite Es in H. cbn [bind andThen] in H.
  destruct (epochLoop _ _ _ _ _) as [[[early r3]| |]|] eqn:Ee; try discriminate. change (mkRun _ d1 1 _) with (fresh s d d1) in Ee.
  assert (Hn3 : hasNan r3 = false). { destruct early; [injection H as <-; exact Hr|]. cbn [Z.ltb Z.compare andb andThen] in H. destruct (hasNan r3) eqn:X; [|reflexivity]. assert (Y := training_nan env w c 0 fuel _ _ H ltac:(exact X)). congruence. }
  pose proof (epoch_like env w c n Hu Hw _ _ _ _ Ee Hn3 ltac:(cbn; lia) eq_refl) as EL.
  destruct (Nat.le_gt_cases (s_size (d_test d) + c) (s_size (d_train d))) as [Hc|Hc].
  - (* the testing set is the smaller one: the caller tests index < size, the training moves the index beyond, the caller reads *)
    assert (G1 := reach_fresh c s d d1 E_idle Ha Es).
    destruct (EL (upd (fresh s d d1) (with_stats (r_snn (fresh s d d1)) (startTesting (sn_stats (r_snn (fresh s d d1)))))) E_turn (like_intro _ _)) as (Hi & r1' & G2 & (st & log & Er1)).
    assert (Kp : sn_ntrain (r_snn r3) = s_size (d_train d) /\ r_data r1' = r_data r3). { split; [|now rewrite Er1]. destruct (epoch_exact n env w c ltac:(lia) Hu Hw (S fuel) (fresh s d d1) 0 early r3 eq_refl (Nat.le_0_l _) (conj eq_refl (proj1 Hn)) eq_refl Ee Hn3) as (_ & (_ & K & _) & _). exact K. }
    destruct Kp as (Kn & Kd). assert (Hin : s_size (d_test d) <= sn_index (r_snn r3)) by lia.
    assert (Rd : ready k m (r_data r3)) by (exact (epoch_data k m env w c _ _ _ _ Ee R1)).
    assert (Te : same_test d1 (r_data r3)) by (exact (epoch_same env w c _ _ _ _ Ee)).
    apply (goes_ub env w c (entered s d) (mkShare r1' T_epoch E_turn) false).
    + eapply goes_trans; [apply goes_t; exact G1|]. eapply goes_estep; [reflexivity|]. eapply goes_estep; [unfold estep; cbn [sh_e sh_run sh_t upd r_snn with_index sn_index r_data fresh]; replace (_ <? _) with true by (symmetry; apply Nat.ltb_lt; rewrite T1; lia); reflexivity|].
      apply goes_t. exact G2.
    + unfold estep. cbn [sh_e sh_run sh_t]. rewrite Er1. cbn [r_snn with_stats sn_net r_data]. unfold hasNan in Hn3. rewrite Hn3. rewrite test_out_ub; [reflexivity|]. cbn [sn_index]. rewrite (rd_tlin _ _ _ Rd). destruct Te as (Te & _). rewrite Te, T1. exact Hin.
  - (* the training tests index + batchSize <= size, the caller moves the index to the end of the testing set, the training reads *)
    unfold evaluateData, evaluate in He. cbn [r_snn r_data] in He. apply bind_Ok_inv in He as ((stop & s1) & El & He).
    assert (Hs1 : nn_nan (sn_net s1) = false). { unfold hasNan in Hre. destruct stop; [injection He as <-; exact Hre|]. match type of He with (if ?c then _ else _) = _ => destruct c end; injection He as <-; exact Hre. }
    assert (G1 := reach_fresh c s d d1 E_idle Ha Es).
    assert (C : tstep env w c (mkShare (fresh s d d1) T_cond E_idle) = Ok (mkShare (ticked (fresh s d d1)) T_body E_idle)).
    { unfold tstep. cbn [sh_t sh_run sh_e]. cbn [fresh r_snn with_index sn_index sn_ntrain with_epoch with_idle with_want with_ntrain]. replace (0 + c <=? _) with true by (symmetry; apply Nat.leb_le; lia). rewrite goes_on; [reflexivity|cbn; lia|reflexivity|exact Ha]. }
    destruct (eval_steps env w c (e_nan env) T_body d _ _ _ _ El Hs1 eq_refl (upd (ticked (fresh s d d1)) (with_index (with_stats (r_snn (fresh s d d1)) (startTesting (sn_stats (r_snn (fresh s d d1))))) 0))) as (r1 & G2 & I1 & I2 & I3).
    + split; [|split]; reflexivity.
    + exact (shuffle_same _ _ _ Es).
    + assert (G : goes env w c (entered s d) (mkShare r1 T_body E_stop)).
      { eapply goes_trans; [apply goes_t; exact G1|]. eapply goes_tstep; [exact C|]. eapply goes_estep; [reflexivity|]. exact G2. }
      assert (Hout : getTrainingData (r_data r1) (sn_index (r_snn r1)) c = UB) by (apply data_out; [exact Hb1|rewrite I1, I2; cbn [upd r_data ticked fresh]; rewrite (rd_lsh _ _ _ R1), Sz; lia]).
      assert (Hx : nn_nan (sn_net (r_snn r1)) = false) by congruence.
      destruct (need_ub (r_data r1) (sn_index (r_snn r1))) as [(nd & En)|En].
      * refine (goes_ub env w c (entered s d) (mkShare r1 (T_data nd) E_stop) true _ _); [eapply goes_trans; [exact G|]; eapply goes_tstep; [unfold tstep; cbn [sh_t sh_run sh_e]; rewrite Hx, En; reflexivity|apply goes_refl]|].
        unfold tstep. cbn [sh_t sh_run sh_e]. rewrite Hout. reflexivity.
      * refine (goes_ub env w c (entered s d) _ true G _). unfold tstep. cbn [sh_t sh_run sh_e]. rewrite Hx, En. reflexivity.
Qed.
(* one step of the training thread, from the test of the loop to the increment, when the caller does nothing *)
Lemma one_step (r : Run) x y n1 e : d_temporal (r_data r) = TNon -> (0 < sn_epoch (r_snn r) <= n)%Z -> sn_want (r_snn r) = false -> hasNan r = false -> sn_index (r_snn r) + 1 <= sn_ntrain (r_snn r) ->
  getTrainingData (r_data r) (sn_index (r_snn r)) 1 = Ok (x, r_data r) -> getTrainingOutputs (r_data r) (sn_index (r_snn r)) 1 = Ok (y, r_data r) -> trainOnce (e_rand env (S (r_checks r))) (sn_net (r_snn r)) x y true = Ok n1 ->
  tgoes env w 1 (mkShare r T_cond e) (mkShare (mkRun (with_index (with_net (r_snn r) n1) (sn_index (r_snn r) + 1)) (r_data r) (S (r_checks r)) (r_log r ++ [Stepped (sn_index (r_snn r)) true x y (with_net (r_snn r) n1)])) T_cond e).
Proof.
  intros Ht He Hw Ha Hi Ex Ey En.
  assert (T : trainingTurn env 1 (ticked r) = Ok (mkRun (with_net (r_snn r) n1) (r_data r) (S (r_checks r)) (r_log r ++ [Stepped (sn_index (r_snn r)) true x y (with_net (r_snn r) n1)]))).
  { unfold trainingTurn, needToLearn, isFirstTraining. cbn [ticked r_data r_snn r_checks r_log]. rewrite Ht. cbn [bind]. rewrite Ex. cbn [bind]. rewrite Ey. cbn [bind]. rewrite Ht. cbn [bind]. rewrite En. reflexivity. }
  eapply tgoes_step; [unfold tstep; cbn [sh_t sh_run sh_e]; replace (_ <=? _) with true by (symmetry; apply Nat.leb_le; exact Hi); rewrite goes_on by assumption; reflexivity|].
  eapply tgoes_trans; [apply turn_steps; [exact Ha|exact T]|eapply tgoes_step; [reflexivity|apply tgoes_refl]].
Qed.
Lemma get1 d i x d' : getTrainingData d i 1 = Ok (x, d') -> d' = d. Proof. unfold getTrainingData. cbn. intros H. HistProofs.binds H. now injection H. Qed.
Lemma out1 d i x d' : getTrainingOutputs d i 1 = Ok (x, d') -> d' = d. Proof. unfold getTrainingOutputs. cbn. intros H. HistProofs.binds H. now injection H. Qed.
Lemma shuffle_non rng d d1 : shuffle rng d = Ok d1 -> d_temporal d = TNon -> d_temporal d1 = TNon.
Proof. unfold shuffle. intros H E. rewrite E in H. HistProofs.binds H. now injection H as <-. Qed.
(* evaluate() started between the two reads of the training: the inputs of the second sample are learned with the labels of the first *)
Lemma mixed s d d1 x0 y0 x1 n1 n2 : d_temporal d = TNon -> nn_nan (sn_net s) = false -> shuffle (e_rng env 1) d = Ok d1 -> 2 <= s_size (d_train d) ->
  getTrainingData d1 0 1 = Ok (x0, d1) -> getTrainingOutputs d1 0 1 = Ok (y0, d1) -> getTrainingData d1 1 1 = Ok (x1, d1) ->
  trainOnce (e_rand env 2) (sn_net s) x0 y0 true = Ok n1 -> nn_nan n1 = false -> trainOnce (e_rand env 3) n1 x1 y0 true = Ok n2 ->
  exists sched sh st1 st2, runs env w 1 sched (entered s d) = Ok sh /\ r_log (sh_run sh) = [Shuffled; Stepped 0 true x0 y0 st1; Stepped 0 true x1 y0 st2] /\ sn_net (r_snn (sh_run sh)) = n2.
Proof.
  intros Ht Ha Es Hs Ex0 Ey0 Ex1 E1 Ha1 E2. assert (Ht1 := shuffle_non _ _ _ Es Ht).
  assert (G1 := reach_fresh 1 s d d1 E_idle Ha Es).
  assert (G2 := one_step (fresh s d d1) x0 y0 n1 E_idle Ht1 ltac:(cbn; lia) eq_refl Ha ltac:(cbn; lia) Ex0 Ey0 E1). match type of G2 with tgoes _ _ _ _ (mkShare ?r _ _) => set (r2 := r) in * end.
  assert (X : goes env w 1 (entered s d) (mkShare (upd (ticked r2) (with_index (with_stats (r_snn r2) (startTesting (sn_stats (r_snn r2)))) 0)) (T_labels x1) E_cond)).
  { eapply goes_trans; [apply goes_t; exact G1|]. eapply goes_trans; [apply goes_t; exact G2|].
    eapply goes_tstep; [unfold tstep; cbn [sh_t sh_run sh_e]; replace (_ <=? _) with true by (symmetry; apply Nat.leb_le; cbn; lia); rewrite goes_on; [reflexivity|cbn; lia|reflexivity|exact Ha1]|].
    eapply goes_tstep; [unfold tstep; cbn [sh_t sh_run sh_e]; change (nn_nan (sn_net (r_snn (ticked r2)))) with (nn_nan n1); rewrite Ha1; unfold needToLearn; change (r_data (ticked r2)) with d1; rewrite Ht1; reflexivity|].
    eapply goes_tstep; [unfold tstep; cbn [sh_t sh_run sh_e]; change (getTrainingData (r_data (ticked r2)) (sn_index (r_snn (ticked r2))) 1) with (getTrainingData d1 1 1); rewrite Ex1; reflexivity|].
    eapply goes_estep; [reflexivity|]. apply goes_refl. }
  set (r3 := upd _ _) in X. destruct X as (sched & X).
  assert (Y : goes env w 1 (entered s d) (mkShare (mkRun (with_net (r_snn r3) n2) d1 (r_checks r3) (r_log r3 ++ [Stepped 0 true x1 y0 (with_net (r_snn r3) n2)])) T_inc E_cond)).
  { eapply goes_trans; [exists sched; exact X|]. eapply goes_tstep; [unfold tstep; cbn [sh_t sh_run sh_e]; change (getTrainingOutputs (r_data r3) (sn_index (r_snn r3)) 1) with (getTrainingOutputs d1 0 1); rewrite Ey0; reflexivity|].
    eapply goes_tstep; [unfold tstep; cbn [sh_t sh_run sh_e r_data r_snn r_checks]; unfold isFirstTraining; rewrite Ht1; cbn [bind]; change (trainOnce (e_rand env (r_checks r3)) (sn_net (r_snn r3)) x1 y0 true) with (trainOnce (e_rand env 3) n1 x1 y0 true); rewrite E2; reflexivity|]. apply goes_refl. }
  destruct Y as (sched2 & Y). eexists sched2, _, _, _. split; [exact Y|]. split; reflexivity.
Qed.
(* evaluate() started between two steps: the epoch starts again, the first sample is learned twice *)
Lemma again s d d1 x0 y0 n1 n2 : d_temporal d = TNon -> nn_nan (sn_net s) = false -> shuffle (e_rng env 1) d = Ok d1 -> 1 <= s_size (d_train d) ->
  getTrainingData d1 0 1 = Ok (x0, d1) -> getTrainingOutputs d1 0 1 = Ok (y0, d1) ->
  trainOnce (e_rand env 2) (sn_net s) x0 y0 true = Ok n1 -> nn_nan n1 = false -> trainOnce (e_rand env 3) n1 x0 y0 true = Ok n2 ->
  exists sched sh st1 st2, runs env w 1 sched (entered s d) = Ok sh /\ r_log (sh_run sh) = [Shuffled; Stepped 0 true x0 y0 st1; Stepped 0 true x0 y0 st2] /\ sn_net (r_snn (sh_run sh)) = n2.
Proof.
  intros Ht Ha Es Hs Ex0 Ey0 E1 Ha1 E2. assert (Ht1 := shuffle_non _ _ _ Es Ht).
  assert (G1 := reach_fresh 1 s d d1 E_idle Ha Es).
  assert (G2 := one_step (fresh s d d1) x0 y0 n1 E_idle Ht1 ltac:(cbn; lia) eq_refl Ha ltac:(cbn; lia) Ex0 Ey0 E1). match type of G2 with tgoes _ _ _ _ (mkShare ?r _ _) => set (r2 := r) in * end.
  set (r3 := upd r2 (with_index (with_stats (r_snn r2) (startTesting (sn_stats (r_snn r2)))) 0)).
  assert (G3 := one_step r3 x0 y0 n2 E_cond Ht1 ltac:(cbn; lia) eq_refl Ha1 ltac:(cbn; lia) Ex0 Ey0 E2).
  assert (Y : goes env w 1 (entered s d) (mkShare r2 T_cond E_idle)) by (eapply goes_trans; [apply goes_t; exact G1|apply goes_t; exact G2]).
  assert (Z : goes env w 1 (mkShare r2 T_cond E_idle) (mkShare r3 T_cond E_cond)) by (eapply goes_estep; [reflexivity|apply goes_refl]).
  destruct (goes_trans _ _ _ _ _ _ Y (goes_trans _ _ _ _ _ _ Z (goes_t _ _ _ _ _ G3))) as (sched & X). eexists sched, _, _, _. split; [exact X|]. split; reflexivity.
Qed.
End R.
(* For every network and every data: if a training and an evaluation, each alone, go well, some schedule of the two reads outside of the data. *)
Theorem C76_out_of_bounds_refuted : forall (ok : F -> Prop), order_laws N ok -> forall env n k m fuel b s d r re, undisturbed env -> fair env -> (1 <= n < int_max)%Z -> user_data k m d -> 1 <= s_size (d_test d) ->
  train fuel env (lit_ep n) b 0 s d = Some (Ok r) -> hasNan r = false -> evaluateData env s d = Ok re -> hasNan re = false ->
  exists sched, runs env (lit_ep n) (Z.to_nat b) sched (entered s d) = UB.
Proof. intros ok OL env n k m fuel b s d r re Hu Hf Hn Hd. intros. eapply (oob ok OL env n Hu Hn k m); eauto. now apply user_data_ready. Qed.
(* Every network, every plain data: some schedule makes the network learn the inputs of a sample with the labels of another one, and
   some schedule makes it learn the same sample twice in the same epoch. *)
Theorem C76_wrong_samples_refuted : forall (ok : F -> Prop), order_laws N ok -> forall env n s d d1 x0 y0 x1 y1 n1 n2 n2', undisturbed env -> (1 <= n < int_max)%Z ->
  d_temporal d = TNon -> nn_nan (sn_net s) = false -> shuffle (e_rng env 1) d = Ok d1 -> 2 <= s_size (d_train d) ->
  getTrainingData d1 0 1 = Ok (x0, d1) -> getTrainingOutputs d1 0 1 = Ok (y0, d1) -> getTrainingData d1 1 1 = Ok (x1, d1) -> getTrainingOutputs d1 1 1 = Ok (y1, d1) ->
  trainOnce (e_rand env 2) (sn_net s) x0 y0 true = Ok n1 -> nn_nan n1 = false -> trainOnce (e_rand env 3) n1 x1 y0 true = Ok n2 -> trainOnce (e_rand env 3) n1 x0 y0 true = Ok n2' ->
  (exists sched sh st1 st2, runs env (lit_ep n) 1 sched (entered s d) = Ok sh /\ r_log (sh_run sh) = [Shuffled; Stepped 0 true x0 y0 st1; Stepped 0 true x1 y0 st2] /\ sn_net (r_snn (sh_run sh)) = n2) /\
  (exists sched sh st1 st2, runs env (lit_ep n) 1 sched (entered s d) = Ok sh /\ r_log (sh_run sh) = [Shuffled; Stepped 0 true x0 y0 st1; Stepped 0 true x0 y0 st2] /\ sn_net (r_snn (sh_run sh)) = n2').
Proof.
  intros ok OL env n s d d1 x0 y0 x1 y1 n1 n2 n2' Hu Hn Ht Ha Es Hs Ex0 Ey0 Ex1 _ E1 Ha1 E2 E3. split.
  - eapply (mixed ok OL env n Hu Hn); eauto.
  - eapply (again ok OL env n Hu Hn); eauto. lia.
Qed.
End P.
Print Assumptions C76_each_alone.
Print Assumptions C76_every_schedule.
Print Assumptions C76_out_of_bounds_refuted.
Print Assumptions C76_wrong_samples_refuted.

From Verif Require Import Witness FactoryProps DataProps TrainProps.
(* the demonstration network and data of C13 *)
Definition c76_check : bool :=
  run_check (@newSnn N32 draws_t nomasks demo_t (b32q 1 100) (b32q 9 10)) (fun s0 =>
  run_check (@mkData4 N32 classification trIn_t trLab_t teIn_t teLab_t nonTemporal 0) (fun d =>
  snn_check (train 10 env_t (lit_ep 2) 2 0 s0 d) (fun r => negb (hasNan r) && run_check (evaluateData env_t s0 d) (fun re => negb (hasNan re) && (1 <=? s_size (d_test d)) &&
  run_check (shuffle (e_rng env_t 1) d) (fun d1 => run_check (getTrainingData d1 0 1) (fun x0 => run_check (getTrainingOutputs d1 0 1) (fun y0 => run_check (getTrainingData d1 1 1) (fun x1 => run_check (getTrainingOutputs d1 1 1) (fun y1 =>
    run_check (trainOnce (e_rand env_t 2) (sn_net s0) (fst x0) (fst y0) true) (fun n1 => negb (nn_nan (sn_net s0)) && negb (nn_nan n1) && negb (sfl_eqb (fst y0) (fst y1)) && run_check (trainOnce (e_rand env_t 3) n1 (fst x1) (fst y0) true) (fun n2 => run_check (trainOnce (e_rand env_t 3) n1 (fst x0) (fst y0) true) (fun _ => true)))))))))))).
Example C76_hypotheses_met : exists s0 d r re d1 x0 y0 x1 y1 n1 n2 n2', @newSnn N32 draws_t nomasks demo_t (b32q 1 100) (b32q 9 10) = Ok s0 /\ user_data 2 2 d /\ undisturbed env_t /\ fair env_t /\ 1 <= s_size (d_test d) /\
  train 10 env_t (lit_ep 2) 2 0 s0 d = Some (Ok r) /\ hasNan r = false /\ evaluateData env_t s0 d = Ok re /\ hasNan re = false /\
  d_temporal d = TNon /\ nn_nan (sn_net s0) = false /\ shuffle (e_rng env_t 1) d = Ok d1 /\ getTrainingData d1 0 1 = Ok (x0, d1) /\ getTrainingOutputs d1 0 1 = Ok (y0, d1) /\ getTrainingData d1 1 1 = Ok (x1, d1) /\ getTrainingOutputs d1 1 1 = Ok (y1, d1) /\ y1 <> y0 /\
  trainOnce (e_rand env_t 2) (sn_net s0) x0 y0 true = Ok n1 /\ nn_nan n1 = false /\ trainOnce (e_rand env_t 3) n1 x1 y0 true = Ok n2 /\ trainOnce (e_rand env_t 3) n1 x0 y0 true = Ok n2'.
Proof.
  assert (H : c76_check = true) by (vm_compute; reflexivity). unfold c76_check in H. apply run_check_ex in H as (s0 & E & H). apply run_check_ex in H as (d & E0 & H). apply snn_check_ex in H as (r & E1 & H). apply andb_prop in H as [H1 H]. apply run_check_ex in H as (re & E2 & H). apply andb_prop in H as [H2 H]. apply andb_prop in H2 as [H2 H3].
  apply run_check_ex in H as (d1 & E3 & H). apply run_check_ex in H as ((x0 & dx0) & E4 & H). apply run_check_ex in H as ((y0 & dy0) & E5 & H). apply run_check_ex in H as ((x1 & dx1) & E6 & H). apply run_check_ex in H as ((y1 & dy1) & E7 & H). cbn [fst] in H. apply run_check_ex in H as (n1 & E8 & H). apply andb_prop in H as [H4 H]. apply andb_prop in H4 as [H4 H6]. apply andb_prop in H4 as [H4 H5]. apply run_check_ex in H as (n2 & E9 & H). apply run_check_ex in H as (n2' & E10 & _).
  pose proof (get1 _ _ _ _ E4) as X4. pose proof (out1 _ _ _ _ E5) as X5. pose proof (get1 _ _ _ _ E6) as X6. pose proof (out1 _ _ _ _ E7) as X7. subst.
  exists s0, d, r, re, d1, x0, y0, x1, y1, n1, n2, n2'. split; [exact E|]. split; [now apply demo_user|]. split; [intros k; reflexivity|]. split; [intros k; apply rev_rng_fair|]. split; [now apply Nat.leb_le|]. split; [exact E1|]. split; [now apply negb_true_iff|]. split; [exact E2|]. split; [now apply negb_true_iff|].
  split. { unfold mkData4 in E0. HistProofs.binds E0. repeat match goal with H : (if ?c then _ else _) = Ok _ |- _ => destruct c; try discriminate end; try (injection E0 as <-); reflexivity. }
  split; [now apply negb_true_iff|]. do 5 (split; [assumption|]). split; [|split; [assumption|]; split; [now apply negb_true_iff|]; split; assumption].
  intros W. subst. rewrite (proj2 (sfl_eqb_eq _ _) eq_refl) in H6. discriminate.
Qed.
