(* Two evaluations of networks with the same parameters on the same test samples: proofs for C61. *)
From Verif Require Import Base Num NeuronModel LayerModel NetModel HistProofs StatModel StatSpec WaitModel DataModel DataSpec TrainModel TrainSpec TrainProofs EvalSpec EvalProofs.
From Verif Require Import FactoryModel FactorySpec SafeNet PureSpec PureProps TrainSafe TrainUser TrainPresent TrainUses.
Local Open Scope outcome_scope.
Local Open Scope nat_scope.

Section P.
Context {N : Num}.
Implicit Types (s : Snn) (d : Data) (t : trial).

(* ---- statistics: the counters decide the figures ---- *)
Definition same_counters (a b : Stats) : Prop := st_clusters a = st_clusters b /\ st_well a = st_well b /\ st_mis a = st_mis b.
Lemma same_counters_judge a b j : same_counters a b ->
  match judge a j, judge b j with Ok a', Ok b' => same_counters a' b' | Throw x, Throw y => x = y | UB, UB => True | _, _ => False end.
Proof.
  intros (E1 & E2 & E3).
  assert (C : forall cl w, same_counters (countSample a cl w) (countSample b cl w)) by (intros cl [|]; unfold countSample, same_counters; cbn; rewrite E2, E3; auto).
  destruct j; cbn [judge]; unfold evaluateOnceForRegression, evaluateOnceForMultipleClassification, evaluateOnceForClassification; rewrite E1.
  - destruct (StatModel.cells _ _ _ _ _) as [[cl w]|z|]; cbn [bind]; auto.
  - destruct (StatModel.cells _ _ _ _ _) as [[cl w]|z|]; cbn [bind]; auto.
  - destruct (classCells _ _ _ _ _ _) as [[cl w]|z|]; cbn [bind]; auto.
Qed.
Lemma judged_fun p sep prec o y j j' : judged_as p sep prec o y j -> judged_as p sep prec o y j' -> j = j'.
Proof.
  destruct p; cbn; try congruence. intros (c & v & H1 & H2 & H3 & ->) (c' & v' & H1' & H2' & H3' & ->).
  destruct (Nat.lt_trichotomy c c') as [L|[<-|L]]; [|reflexivity|]; [specialize (H3' _ _ L H1)|specialize (H3 _ _ L H1')]; congruence.
Qed.

(* ---- one turn ---- *)
Lemma turn_shows ts p sep prec s d s' t : holds d ts p sep prec -> nth_error ts (sn_index s) = Some t -> evaluateTurn s d = Ok s' ->
  sn_index s' = sn_index s /\ exists o, net_output (sn_net s) (t_inputs t) (t_reset t) = Ok (o, sn_net s') /\
  if t_counts t then exists j, judged_as p sep prec o (t_expected t) j /\ judge (sn_stats s) j = Ok (sn_stats s') else sn_stats s' = sn_stats s.
Proof.
  intros HD Et H. unfold evaluateTurn in H. pose proof HD as (_ & _ & _ & _ & HT). destruct (HT _ _ Et) as (C1 & C2 & C3 & C4). rewrite C3 in H. cbn [bind] in H. destruct (t_counts t).
  - apply (evaluateOnce_judges ts p sep prec s d s' t HD Et) in H as (o & j & E1 & E2 & E3 & E4). eauto 8.
  - rewrite C1, C2 in H. cbn [bind] in H. apply bind_Ok_inv in H as ([o n1] & E1 & H). injection H as <-. cbn. eauto.
Qed.
Lemma evaluateData_weights env s d r : evaluateData env s d = Ok r -> net_weights (sn_net (r_snn r)) = net_weights (sn_net s).
Proof.
  intros E. unfold evaluateData, evaluate in E. cbn [r_snn r_data] in E. apply bind_Ok_inv in E as ((st & s1) & H1 & E).
  assert (Q : forall nan d rest s st s', evaluateLoop nan rest s d = Ok (st, s') -> net_weights (sn_net s') = net_weights (sn_net s)).
  { intros nan d0 rest. induction rest as [|rest IH]; intros s2 st' s' H; cbn [evaluateLoop] in H; [injection H as _ <-; reflexivity|]. destruct (nn_nan (sn_net s2)); [injection H as _ <-; reflexivity|].
    apply bind_Ok_inv in H as (s3 & H2 & H). apply IH in H. cbn [with_index sn_net] in H. rewrite H. clear -H2. unfold evaluateTurn, evaluateOnce in H2. apply bind_Ok_inv in H2 as (b & _ & H2).
    destruct b; [destruct (d_problem d0)|]; binds H2; injection H2 as <-; cbn [with_stats with_net sn_net]; match goal with H : net_output _ _ _ = Ok _ |- _ => apply net_output_w in H as (-> & _); reflexivity end. }
  apply Q in H1. cbn [with_index with_stats sn_net] in H1. destruct st; [injection E as <-; exact H1|]. destruct (_ && _); injection E as <-; exact H1.
Qed.
(* networks that answer alike, now and after any further look *)
Variable k : nat.
Variable alike : Net -> Net -> Prop.
Hypothesis alike_output : forall a b x r, alike a b -> List.length x = k -> forall o a' o' b', net_output a x r = Ok (o, a') -> net_output b x r = Ok (o', b') -> o = o' /\ alike a' b'.
Lemma loops_agree nan ts p sep prec d d' : holds d ts p sep prec -> holds d' ts p sep prec -> Forall (fun t => List.length (t_inputs t) = k) ts ->
  forall rest s s' b b' z z', sn_index s + rest = List.length ts -> sn_index s' = sn_index s -> alike (sn_net s) (sn_net s') -> nn_nan (sn_net s) = nn_nan (sn_net s') ->
  same_counters (sn_stats s) (sn_stats s') -> evaluateLoop nan rest s d = Ok (b, z) -> evaluateLoop nan rest s' d' = Ok (b', z') ->
  b = b' /\ nn_nan (sn_net z) = nn_nan (sn_net z') /\ same_counters (sn_stats z) (sn_stats z') /\
  (b = true -> exists st st', sn_stats z = setResultsAsNan nan st /\ sn_stats z' = setResultsAsNan nan st').
Proof.
  intros HD HD' HK. induction rest as [|rest IH]; intros s s' b b' z z' Hi Hi' HA Hn HC H H'; cbn [evaluateLoop] in H, H'.
  - injection H as <- <-. injection H' as <- <-. repeat split; auto; try apply HC; discriminate.
  - rewrite <- Hn in H'. destruct (nn_nan (sn_net s)) eqn:En.
    + injection H as <- <-. injection H' as <- <-. split; [reflexivity|]. cbn. split; [congruence|]. split.
      * destruct HC as (E1 & _). unfold same_counters. cbn. rewrite E1. auto.
      * intros _. eauto.
    + destruct (nth_error ts (sn_index s)) as [t|] eqn:Et; [|apply nth_error_None in Et; lia].
      apply bind_Ok_inv in H as (s1 & H1 & H). apply bind_Ok_inv in H' as (s1' & H1' & H').
      apply (turn_shows ts p sep prec s d s1 t HD Et) in H1 as (I1 & o & O1 & J1). apply (turn_shows ts p sep prec s' d' s1' t HD') in H1' as (I1' & o' & O1' & J1'); [|now rewrite Hi'].
      assert (Lt : List.length (t_inputs t) = k) by (rewrite Forall_forall in HK; apply HK; eapply nth_error_In; exact Et).
      destruct (alike_output _ _ _ _ HA Lt _ _ _ _ O1 O1') as [<- HA1].
      assert (Hn1 : nn_nan (sn_net s1) = nn_nan (sn_net s1')). { apply net_output_w in O1 as (_ & _ & -> & _). apply net_output_w in O1' as (_ & _ & -> & _). rewrite En. rewrite <- Hn. reflexivity. }
      assert (HC1 : same_counters (sn_stats s1) (sn_stats s1')).
      { destruct (t_counts t); [|rewrite J1, J1'; exact HC]. destruct J1 as (j & A1 & B1). destruct J1' as (j' & A1' & B1'). rewrite <- (judged_fun _ _ _ _ _ _ _ A1 A1') in B1'.
        pose proof (same_counters_judge _ _ j HC) as Q. rewrite B1, B1' in Q. exact Q. }
      apply (IH (with_index s1 (S (sn_index s1))) (with_index s1' (S (sn_index s1'))) b b' z z'); [cbn [with_index sn_index]; lia|cbn [with_index sn_index]; congruence|exact HA1|exact Hn1|exact HC1|exact H|exact H'].
Qed.
Definition figures (st : Stats) : F * F * F * F * F := (st_rate st, st_wrate st, st_f1 st, st_mae st, st_rmse st).
Lemma evaluations_agree env env' ts p sep prec s s' d d' r r' : holds d ts p sep prec -> holds d' ts p sep prec -> Forall (fun t => List.length (t_inputs t) = k) ts ->
  alike (sn_net s) (sn_net s') -> nn_nan (sn_net s) = nn_nan (sn_net s') -> List.length (st_clusters (sn_stats s)) = List.length (st_clusters (sn_stats s')) -> e_nan env = e_nan env' ->
  evaluateData env s d = Ok r -> evaluateData env' s' d' = Ok r' ->
  figures (sn_stats (r_snn r)) = figures (sn_stats (r_snn r')) /\ st_clusters (sn_stats (r_snn r)) = st_clusters (sn_stats (r_snn r')) /\ nn_nan (sn_net (r_snn r)) = nn_nan (sn_net (r_snn r')).
Proof.
  intros HD HD' HK HA Hn HL He H H'. unfold evaluateData, evaluate in H, H'. cbn [r_snn r_data] in H, H'. apply bind_Ok_inv in H as ([b z] & H1 & H). apply bind_Ok_inv in H' as ([b' z'] & H1' & H').
  pose proof HD as (_ & _ & _ & Sz & _). pose proof HD' as (_ & _ & _ & Sz' & _). rewrite Sz in H1. rewrite Sz', <- He in H1'.
  assert (HC : same_counters (startTesting (sn_stats s)) (startTesting (sn_stats s'))).
  { unfold same_counters, startTesting. cbn. split; [|auto]. clear -HL. revert HL. generalize (st_clusters (sn_stats s)) as l, (st_clusters (sn_stats s')) as l'. induction l as [|a l IH]; intros [|a' l'] E; cbn in *; try discriminate; [reflexivity|]. f_equal. apply IH. lia. }
  pose proof (loops_agree (e_nan env) ts p sep prec d d' HD HD' HK (List.length ts) (with_index (with_stats s (startTesting (sn_stats s))) 0) (with_index (with_stats s' (startTesting (sn_stats s'))) 0) b b' z z' eq_refl eq_refl HA Hn HC H1 H1') as (<- & N1 & C1 & S1).
  destruct b.
  - injection H as <-. injection H' as <-. cbn [logs upd r_snn]. destruct (S1 eq_refl) as (st & st' & E & E'). split; [rewrite E, E'; reflexivity|]. split; [apply C1|exact N1].
  - assert (Q : figures (stopTesting (sn_stats z)) = figures (stopTesting (sn_stats z')) /\ st_clusters (stopTesting (sn_stats z)) = st_clusters (stopTesting (sn_stats z'))).
    { destruct C1 as (E1 & E2 & E3). unfold figures, stopTesting; cbn [st_rate st_wrate st_f1 st_mae st_rmse st_clusters].
      unfold computeGlobalClusteringRate, computeWeightedClusteringRate, computeF1Score, computeMeanAbsoluteError, computeRootMeanSquaredError. rewrite E1, E2, E3. auto. }
    destruct (_ && _) in H; destruct (_ && _) in H'; injection H as <-; injection H' as <-; cbn; (split; [apply Q|split; [apply Q|exact N1]]).
Qed.
End P.
