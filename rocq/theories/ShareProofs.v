(* Proofs about a training and evaluations that share the index of the network. *)
From Verif Require Import Base Num NumOrder NeuronModel LayerModel NetModel StatModel WaitModel DataModel TrainModel TrainSpec TrainProofs TrainSafe EvalProofs ShareModel.
Local Open Scope outcome_scope.

Section P.
Context {N : Num}.
Variables (env : Env) (w : Wait) (b : nat).
Implicit Types (r : Run) (s : Share).
Notation runs := (runs env w b).
Notation tstep := (tstep env w b).
Notation estep := (estep env).
(* the training thread alone *)
Definition tgoes s s' : Prop := exists n, runs (repeat true n) s = Ok s'.
Lemma tgoes_refl s : tgoes s s. Proof. now exists 0. Qed.
Lemma tgoes_step s s1 s' : tstep s = Ok s1 -> tgoes s1 s' -> tgoes s s'.
Proof. intros H (n & E). exists (S n). unfold runs in *. cbn [repeat ofold]. rewrite H. exact E. Qed.
Lemma tgoes_trans s1 s2 s3 : tgoes s1 s2 -> tgoes s2 s3 -> tgoes s1 s3.
Proof. intros (n & E) (m & E2). exists (n + m). rewrite repeat_app. unfold ShareModel.runs in *. rewrite ofold_app, E. exact E2. Qed.
Definition goes s s' : Prop := exists sched, runs sched s = Ok s'.
Lemma goes_t s s' : tgoes s s' -> goes s s'. Proof. intros (n & E). exists (repeat true n). exact E. Qed.
Lemma goes_refl s : goes s s. Proof. now exists []. Qed.
Lemma goes_tstep s s1 s' : tstep s = Ok s1 -> goes s1 s' -> goes s s'.
Proof. intros H (n & E). exists (true :: n). unfold ShareModel.runs in *. cbn [ofold]. rewrite H. exact E. Qed.
Lemma goes_estep s s1 s' : estep s = Ok s1 -> goes s1 s' -> goes s s'.
Proof. intros H (n & E). exists (false :: n). unfold ShareModel.runs in *. cbn [ofold]. rewrite H. exact E. Qed.
Lemma goes_trans s1 s2 s3 : goes s1 s2 -> goes s2 s3 -> goes s1 s3.
Proof. intros (n & E) (m & E2). exists (n ++ m). unfold ShareModel.runs in *. rewrite ofold_app, E. exact E2. Qed.
Lemma goes_ub s s' who : goes s s' -> (if (who : bool) then tstep s' else estep s') = UB -> exists sched, runs sched s = UB.
Proof. intros (n & E) H. exists (n ++ [who]). unfold ShareModel.runs in *. rewrite ofold_app, E. cbn [bind ofold]. now rewrite H. Qed.

(* ---------- the training thread alone is trainSync ---------- *)
Lemma turn_steps r r1 e : nn_nan (sn_net (r_snn r)) = false -> trainingTurn env b r = Ok r1 -> tgoes (mkShare r T_body e) (mkShare r1 T_inc e).
Proof.
  intros Hn H. unfold trainingTurn in H. apply bind_Ok_inv in H as (need & E0 & H). destruct need.
  - apply bind_Ok_inv in H as ((x & d1) & E1 & H). apply bind_Ok_inv in H as ((y & d2) & E2 & H). apply bind_Ok_inv in H as (fi & E3 & H). apply bind_Ok_inv in H as (n & E4 & H). injection H as <-.
    eapply tgoes_step; [unfold ShareModel.tstep; cbn [sh_t sh_run sh_e]; rewrite Hn, E0; reflexivity|].
    eapply tgoes_step; [unfold ShareModel.tstep; cbn [sh_t sh_run sh_e]; rewrite E1; reflexivity|].
    eapply tgoes_step; [unfold ShareModel.tstep; cbn [sh_t sh_run sh_e r_data r_snn]; rewrite E2; reflexivity|].
    eapply tgoes_step; [unfold ShareModel.tstep; cbn [sh_t sh_run sh_e r_data r_snn r_checks]; rewrite E3; cbn [bind]; rewrite E4; reflexivity|]. apply tgoes_refl.
  - apply bind_Ok_inv in H as ((x & d1) & E1 & H). apply bind_Ok_inv in H as (fi & E3 & H). apply bind_Ok_inv in H as ((o & n) & E4 & H). injection H as <-.
    eapply tgoes_step; [unfold ShareModel.tstep; cbn [sh_t sh_run sh_e]; rewrite Hn, E0; reflexivity|].
    eapply tgoes_step; [unfold ShareModel.tstep; cbn [sh_t sh_run sh_e]; rewrite E1; reflexivity|].
    eapply tgoes_step; [unfold ShareModel.tstep; cbn [sh_t sh_run sh_e r_data r_snn r_checks]; rewrite E3; cbn [bind]; rewrite E4; reflexivity|]. apply tgoes_refl.
Qed.
Lemma epoch_steps e : forall fuel r early r1, epochLoop fuel env w b r = Some (Ok (early, r1)) -> tgoes (mkShare r T_cond e) (mkShare r1 (if early then T_done else T_epoch) e).
Proof.
  induction fuel as [|fuel IH]; intros r early r1 H; [discriminate|]. cbn [epochLoop] in H. destruct (_ <=? _) eqn:Ec.
  - destruct (continueTraining env w r) as [on r2] eqn:Et. destruct on.
    + assert (C : tgoes (mkShare r T_cond e) (mkShare r2 T_body e)) by (eapply tgoes_step; [unfold ShareModel.tstep; cbn [sh_t sh_run sh_e]; rewrite Ec, Et; reflexivity|apply tgoes_refl]).
      destruct (nn_nan (sn_net (r_snn r2))) eqn:Hn.
      * injection H as <- <-. eapply tgoes_trans; [exact C|]. eapply tgoes_step; [unfold ShareModel.tstep; cbn [sh_t sh_run sh_e]; rewrite Hn; reflexivity|apply tgoes_refl].
      * destruct (trainingTurn env b r2) as [r3| |] eqn:E3; try discriminate. eapply tgoes_trans; [exact C|]. eapply tgoes_trans; [apply turn_steps; eassumption|].
        eapply tgoes_step; [reflexivity|]. apply IH. exact H.
    + injection H as <- <-. eapply tgoes_step; [unfold ShareModel.tstep; cbn [sh_t sh_run sh_e]; rewrite Ec, Et; reflexivity|apply tgoes_refl].
  - injection H as <- <-. eapply tgoes_step; [unfold ShareModel.tstep; cbn [sh_t sh_run sh_e]; rewrite Ec; reflexivity|apply tgoes_refl].
Qed.
Lemma loop_steps e : forall fuel r r1, trainingLoop fuel env w b 0 r = Some (Ok r1) -> tgoes (mkShare r T_outer e) (mkShare r1 T_done e).
Proof.
  induction fuel as [|fuel IH]; intros r r1 H; [discriminate|]. cbn [trainingLoop] in H. destruct (continueTraining env w r) as [on r2] eqn:Et. destruct on.
  - destruct (shuffle (e_rng env (r_checks r2)) (r_data r2)) as [d| |] eqn:Es; cbn [bind andThen] in H; try discriminate.
    destruct (epochLoop _ _ _ _ _) as [[[early r3]| |]|] eqn:Ee; try discriminate. apply (epoch_steps e) in Ee. eapply tgoes_step; [unfold ShareModel.tstep; cbn [sh_t sh_run sh_e]; rewrite Et, Es; reflexivity|].
    eapply tgoes_trans; [exact Ee|]. destruct early; [injection H as <-; apply tgoes_refl|]. cbn [Z.ltb Z.compare andb andThen] in H. eapply tgoes_step; [reflexivity|]. apply IH. exact H.
  - injection H as <-. eapply tgoes_step; [unfold ShareModel.tstep; cbn [sh_t sh_run sh_e]; rewrite Et; reflexivity|apply tgoes_refl].
Qed.

(* ---------- runs that differ in the statistics and in the log ---------- *)
Definition like r r' : Prop := exists st log, r' = mkRun (with_stats (r_snn r) st) (r_data r) (r_checks r) log.
Lemma like_intro r st : like r (upd r (with_stats (r_snn r) st)). Proof. exists st, (r_log r). reflexivity. Qed.
Lemma like_turn r r' r1 : like r r' -> trainingTurn env b r = Ok r1 -> exists r1', trainingTurn env b r' = Ok r1' /\ like r1 r1'.
Proof.
  intros (st & log & ->) H. unfold trainingTurn in *. cbn [r_snn r_data r_checks r_log with_stats sn_index sn_net]. apply bind_Ok_inv in H as (need & E0 & H). rewrite E0. cbn [bind]. destruct need.
  - apply bind_Ok_inv in H as ((x & d1) & E1 & H). apply bind_Ok_inv in H as ((y & d2) & E2 & H). apply bind_Ok_inv in H as (fi & E3 & H). apply bind_Ok_inv in H as (n & E4 & H). injection H as <-.
    rewrite E1. cbn [bind]. rewrite E2. cbn [bind]. rewrite E3. cbn [bind]. rewrite E4. cbn [bind]. eexists. split; [reflexivity|]. eexists st, _. reflexivity.
  - apply bind_Ok_inv in H as ((x & d1) & E1 & H). apply bind_Ok_inv in H as (fi & E3 & H). apply bind_Ok_inv in H as ((o & n) & E4 & H). injection H as <-.
    rewrite E1. cbn [bind]. rewrite E3. cbn [bind]. rewrite E4. cbn [bind]. eexists. split; [reflexivity|]. eexists st, _. reflexivity.
Qed.
(* a whole epoch, whatever the statistics: the index ends beyond the last batch *)
Lemma epoch_like n : undisturbed env -> epochs_only w n -> forall fuel r early r1, epochLoop fuel env w b r = Some (Ok (early, r1)) -> hasNan r1 = false -> (0 < sn_epoch (r_snn r) <= n)%Z -> sn_want (r_snn r) = false ->
  forall r' e, like r r' -> sn_ntrain (r_snn r1) < sn_index (r_snn r1) + b /\ exists r1', tgoes (mkShare r' T_cond e) (mkShare r1' T_epoch e) /\ like r1 r1'.
Proof.
  intros Hu Hw. induction fuel as [|fuel IH]; intros r early r1 H Hn He Hwant r' e L; [discriminate|]. cbn [epochLoop] in H. pose proof L as (st & log & Er').
  destruct (_ <=? _) eqn:Ec.
  - rewrite (continue_un n) in H by (auto || lia). rewrite Hwant in H. replace (sn_epoch (r_snn r) <=? n)%Z with true in H by (symmetry; apply Z.leb_le; lia). cbn [negb andb] in H.
    destruct (hasNan r) eqn:Hr; cbn [negb] in H; [injection H as <- <-; unfold hasNan in *; cbn in Hn; congruence|].
    change (nn_nan (sn_net (r_snn (ticked r)))) with (hasNan r) in H. rewrite Hr in H.
    destruct (trainingTurn env b (ticked r)) as [r2| |] eqn:Et; try discriminate.
    assert (C : tstep (mkShare r' T_cond e) = Ok (mkShare (ticked r') T_body e)).
    { unfold ShareModel.tstep. cbn [sh_t sh_run sh_e]. rewrite Er'. cbn [r_snn with_stats sn_index sn_ntrain]. rewrite Ec. rewrite (continue_un n) by (auto || (cbn; lia)). cbn [r_snn with_stats sn_want sn_epoch]. unfold hasNan in Hr |- *. cbn [r_snn with_stats sn_net]. rewrite Hwant, Hr. replace (sn_epoch (r_snn r) <=? n)%Z with true by (symmetry; apply Z.leb_le; lia). reflexivity. }
    destruct (like_turn (ticked r) (ticked r') r2) as (r2' & E2' & L2); [exists st, log; rewrite Er'; reflexivity|exact Et|].
    assert (Hn2 : hasNan r2 = false). { destruct (hasNan r2) eqn:X; [|reflexivity]. assert (Y := epoch_nan env w b fuel _ _ _ H ltac:(exact X)). congruence. }
    apply trainingTurn_keeps in Et as ((K1 & K2 & _ & _ & _ & K6) & Ei & _). cbn [ticked r_snn] in K1, K2, K6, Ei. destruct (K6 Hn2) as (W1 & _).
    destruct (IH _ _ _ H Hn) with (r' := upd r2' (with_index (r_snn r2') (sn_index (r_snn r2') + b))) (e := e) as (I1 & r1' & G & L1).
    + cbn. lia.
    + cbn. congruence.
    + destruct L2 as (st2 & log2 & ->). exists st2, log2. reflexivity.
    + split; [exact I1|]. exists r1'. split; [|exact L1]. eapply tgoes_step; [exact C|]. eapply tgoes_trans; [apply turn_steps; [|exact E2']|].
      * rewrite Er'. unfold hasNan in Hr. cbn. exact Hr.
      * eapply tgoes_step; [reflexivity|exact G].
  - injection H as <- <-. split; [apply Nat.leb_gt in Ec; lia|]. exists r'. split; [|exact L]. eapply tgoes_step; [|apply tgoes_refl]. unfold ShareModel.tstep. cbn [sh_t sh_run sh_e]. rewrite Er'. cbn [r_snn with_stats sn_index sn_ntrain]. rewrite Ec. reflexivity.
Qed.
(* ---------- the evaluation alone, on a network that differs in the rest ---------- *)
Definition elike (s s' : Snn) : Prop := sn_net s' = sn_net s /\ sn_stats s' = sn_stats s /\ sn_index s' = sn_index s.
Lemma eval_elike (s s' : Snn) d d' (s1 : Snn) : elike s s' -> same_test d d' -> evaluateTurn s d = Ok s1 -> exists s1' : Snn, evaluateTurn s' d' = Ok s1' /\ elike s1 s1' /\ s1' = with_stats (with_net s' (sn_net s1')) (sn_stats s1').
Proof.
  intros (A1 & A2 & A3) (B1 & B2 & B3 & B4 & B5) H. unfold evaluateTurn, evaluateOnce, needToEvaluate, isFirstTesting, getTestingData, getTestingLabel, getTestingOutputs, getSeparator, getPrecision, isRegression in *. rewrite A1, A2, A3, B1, B2, B3, B4 in *.
  destruct (d_temporal d), (d_temporal d'); try discriminate B5; cbn [bind] in *; destruct (d_problem d); repeat (match goal with H : bind ?x _ = Ok _ |- _ => let Y := fresh "Y" in apply bind_Ok_inv in H as (? & Y & H); rewrite Y; cbn [bind] | H : (if ?c then _ else _) = Ok _ |- _ => destruct c | p : (_ * _)%type |- _ => destruct p end; cbn [bind] in *);
    try (injection H as <-; eexists; split; [reflexivity|]; split; [split; [|split]; cbn; congruence || reflexivity|destruct s'; reflexivity]).
Qed.
Lemma eval_steps nan t d : forall rest (sn : Snn) stop sn1, evaluateLoop nan rest sn d = Ok (stop, sn1) -> nn_nan (sn_net sn1) = false -> sn_index sn + rest = s_size (d_test d) ->
  forall r, elike sn (r_snn r) -> same_test d (r_data r) -> exists r1, goes (mkShare r t E_cond) (mkShare r1 t E_stop) /\ sn_index (r_snn r1) = s_size (d_test d) /\ r_data r1 = r_data r /\ sn_net (r_snn r1) = sn_net sn1.
Proof.
  induction rest as [|rest IH]; intros sn stop sn1 H Hn Hi r L T; cbn [evaluateLoop] in H; pose proof L as (L1 & L2 & L3); pose proof T as (T1 & _).
  - exists r. split; [|split; [lia|split; [reflexivity|injection H as _ <-; exact L1]]]. eapply goes_estep; [|apply goes_refl]. unfold ShareModel.estep. cbn [sh_e sh_run sh_t]. replace (_ <? _) with false by (symmetry; apply Nat.ltb_ge; rewrite T1; lia). reflexivity.
  - destruct (nn_nan (sn_net sn)) eqn:En; [injection H as _ <-; cbn in Hn; congruence|]. apply bind_Ok_inv in H as (s2 & E2 & H). destruct (eval_elike _ _ _ _ _ L T E2) as (s2' & E2' & L' & Es). destruct L' as (M1 & M2 & M3).
    assert (K := evaluateTurn_keeps _ _ _ E2). destruct K as (_ & Ki).
    destruct (IH _ _ _ H Hn) with (r := upd r (with_index s2' (S (sn_index s2')))) as (r1 & G & I1 & I2 & I3).
    + cbn. lia.
    + split; [|split]; cbn; congruence.
    + exact T.
    + exists r1. split; [|split; [exact I1|split; [exact I2|exact I3]]]. eapply goes_estep; [unfold ShareModel.estep; cbn [sh_e sh_run sh_t]; replace (_ <? _) with true by (symmetry; apply Nat.ltb_lt; rewrite T1; lia); reflexivity|].
      eapply goes_estep; [unfold ShareModel.estep; cbn [sh_e sh_run sh_t]; rewrite L1, En, E2'; reflexivity|]. eapply goes_estep; [reflexivity|]. exact G.
Qed.
(* ---------- out of bounds ---------- *)
Lemma lget_out {A} (l : list A) i : List.length l <= i -> lget l i = UB.
Proof. intros H. unfold lget. destruct (nth_error l i) eqn:E; [|reflexivity]. exfalso. apply nth_error_None in H. congruence. Qed.
Lemma ofold_ub (rows : list (list F)) sh : forall js j v, In j js -> List.length sh <= j ->
  ofold (fun b j => let* i := lget sh j in let* data := lget rows i in overwrite b (zipwith fadd b data)) js v = UB.
Proof.
  induction js as [|a js IH]; intros j v Hj Hl; [destruct Hj|]. cbn [ofold]. destruct Hj as [-> |Hj]; [now rewrite lget_out|].
  destruct (lget sh a) as [i| |] eqn:Ei; [|unfold lget in Ei; destruct (nth_error sh a); discriminate|reflexivity]. cbn [bind]. destruct (lget rows i) as [dt| |] eqn:Ed; [|unfold lget in Ed; destruct (nth_error rows i); discriminate|reflexivity]. cbn [bind].
  destruct (overwrite v (zipwith fadd v dt)) as [v'| |] eqn:Eo; [|unfold overwrite in Eo; destruct (_ <=? _); discriminate|reflexivity]. cbn [bind]. exact (IH j v' Hj Hl).
Qed.
Lemma batch_out rows sh wd buf i k : 2 <= k -> List.length sh < i + k -> batch_rows rows sh wd buf i k = UB.
Proof.
  intros Hk Hl. unfold batch_rows.
  destruct (lget sh i) as [i0| |] eqn:E0; [|unfold lget in E0; destruct (nth_error sh i); discriminate|reflexivity]. cbn [bind]. destruct (lget rows i0) as [d0| |] eqn:E1; [|unfold lget in E1; destruct (nth_error rows i0); discriminate|reflexivity]. cbn [bind].
  destruct (lget sh (i + 1)) as [i1| |] eqn:E2; [|unfold lget in E2; destruct (nth_error sh (i + 1)); discriminate|reflexivity]. cbn [bind]. destruct (lget rows i1) as [d1| |] eqn:E3; [|unfold lget in E3; destruct (nth_error rows i1); discriminate|reflexivity]. cbn [bind].
  destruct (overwrite _ _) as [v'| |] eqn:Eo; [|unfold overwrite in Eo; destruct (_ <=? _); discriminate|reflexivity]. cbn [bind].
  assert (Hs : i + 1 < List.length sh). { unfold lget in E2. apply nth_error_Some. destruct (nth_error sh (i + 1)); congruence. }
  rewrite (ofold_ub rows sh (seq (i + 2) (k - 2)) (List.length sh)); [reflexivity|apply in_seq; lia|lia].
Qed.
Lemma data_out d i : 1 <= b -> List.length (s_shuffled (d_train d)) < i + b -> getTrainingData d i b = UB.
Proof. intros Hb Hl. unfold getTrainingData. destruct (Nat.leb_spec b 1); [rewrite lget_out by lia; reflexivity|]. rewrite batch_out by lia. reflexivity. Qed.
Lemma test_out (sn : Snn) d : List.length (s_inputs (d_test d)) <= sn_index sn -> evaluateTurn sn d = UB \/ exists m, evaluateTurn sn d = Throw m /\ needToEvaluate d (sn_index sn) = Throw m.
Proof.
  intros H. unfold evaluateTurn. destruct (needToEvaluate d (sn_index sn)) as [[|]|m|]; [| |right; eexists; split; reflexivity|left; reflexivity]; left; cbn [bind].
  - unfold evaluateOnce, getTestingData. rewrite lget_out by exact H. destruct (d_problem d); reflexivity.
  - unfold getTestingData. rewrite lget_out by exact H. reflexivity.
Qed.
Lemma test_out_ub (sn : Snn) d : List.length (s_inputs (d_test d)) <= sn_index sn -> evaluateTurn sn d = UB.
Proof. intros H. destruct (test_out sn d H) as [H1|(m & _ & H1)]; [exact H1|]. exfalso. unfold needToEvaluate in H1. destruct (d_temporal d); try discriminate. unfold lget in H1. destruct (nth_error _ _); discriminate. Qed.
Lemma need_ub d i : (exists x, needToLearn d i = Ok x) \/ needToLearn d i = UB.
Proof. unfold needToLearn. destruct (d_temporal d); eauto. unfold lget. destruct (nth_error _ _); eauto. Qed.
Lemma turn_same r r1 : trainingTurn env b r = Ok r1 -> same_test (r_data r) (r_data r1).
Proof.
  unfold trainingTurn. intros H. apply bind_Ok_inv in H as (need & _ & H). destruct need.
  - apply bind_Ok_inv in H as ((x & d1) & E1 & H). apply bind_Ok_inv in H as ((y & d2) & E2 & H). apply bind_Ok_inv in H as (fi & _ & H). apply bind_Ok_inv in H as (n & _ & H). injection H as <-. cbn [r_data]. eapply same_test_trans; [eapply training_data_same; exact E1|eapply training_outputs_same; exact E2].
  - apply bind_Ok_inv in H as ((x & d1) & E1 & H). apply bind_Ok_inv in H as (fi & _ & H). apply bind_Ok_inv in H as ((o & n) & _ & H). injection H as <-. cbn [r_data]. eapply training_data_same; exact E1.
Qed.
Lemma epoch_same : forall fuel r early r1, epochLoop fuel env w b r = Some (Ok (early, r1)) -> same_test (r_data r) (r_data r1).
Proof.
  induction fuel as [|fuel IH]; intros r early r1 H; [discriminate|]. cbn [epochLoop] in H. destruct (_ <=? _); [|injection H as _ <-; apply same_test_refl].
  destruct (continueTraining env w r) as [on r2] eqn:Ec. apply continue_keeps_nan in Ec as (_ & _ & Ed & _). rewrite <- Ed. destruct on; [|injection H as _ <-; apply same_test_refl].
  destruct (nn_nan _); [injection H as _ <-; apply same_test_refl|]. destruct (trainingTurn env b r2) as [r3| |] eqn:E3; try discriminate. eapply same_test_trans; [exact (turn_same _ _ E3)|]. exact (IH _ _ _ H).
Qed.
End P.
