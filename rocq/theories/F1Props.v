(* C65: the weighted clustering rate and the F1 score an evaluation reports. *)
From Coq Require Import Reals Lra Lia SpecFloat.
From Verif Require Import Base Num NumOrder StatModel StatSpec StatProofs StatReal Float32 Witness F1Spec F1Proofs F1Float.
Local Open Scope outcome_scope.

(* exact arithmetic: the mean over the classes of the recall, and of the F1 score; between 0 and 1, and 1 exactly when every class occurs in the test
   and is found (claimed for exactly its members) *)
Theorem C65_scores_real : forall (n : nat) (s : @Stats RNum) (js : list judged), 0 < n ->
  length (st_clusters s) = n -> Forall (judged_ok (fun _ => True) n) js -> Forall classifies js ->
  exists s', test s js = Ok s' /\
    st_wrate s' = mean_over_classes (fun i => recall i js) n /\ st_f1 s' = mean_over_classes (fun i => f1 i js) n /\
    (0 <= st_wrate s' <= 1)%R /\ (0 <= st_f1 s' <= 1)%R /\
    (st_wrate s' = 1%R <-> forall i, i < n -> occurs i js /\ found i js) /\
    (st_f1 s' = 1%R <-> forall i, i < n -> occurs i js /\ recognised i js).
Proof.
  intros n s js H0 Hn Hok HC. destruct (test_spec _ order_laws_R _ (counts_R (length js)) n js s Hn Hok (le_n _)) as (s' & _ & Hc & E). eexists. split; [exact E|]. red in Hc.
  assert (A : st_wrate (stopTesting s') = mean_over_classes (fun i => recall i js) n).
  { cbn [stopTesting st_wrate]. rewrite Hc, wrate_fold, (fold_total _ (fun i => recall i js)), R_fofnat; [reflexivity|intros i; apply (recall_real i js HC)|intros i; apply (recall_real i js HC)]. }
  assert (B : st_f1 (stopTesting s') = mean_over_classes (fun i => f1 i js) n).
  { cbn [stopTesting st_f1]. rewrite Hc, f1_fold, (fold_total _ (fun i => f1 i js / 2)%R), R_fofnat; [|intros i; apply (f1_real i js HC)|intros i; apply (f1_real i js HC)].
    unfold mean_over_classes. rewrite RNum_lit. cbn [fdiv fmul RNum]. f_equal. unfold total. generalize (seq 0 n). intros l. induction l as [|i l IH]; cbn [map fold_right]; [apply Rmult_0_r|]. rewrite <- IH. generalize (fold_right Rplus 0%R (map (fun i0 => (f1 i0 js / 2)%R) l)). intros t. change (2 * (f1 i js / 2 + t) = f1 i js + 2 * t)%R. field. }
  rewrite A, B. split; [reflexivity|]. split; [reflexivity|]. destruct (mean_range (fun i => recall i js) n H0 (fun i => proj1 (recall_range i js))) as (P1 & P2). destruct (mean_range (fun i => f1 i js) n H0 (fun i => proj1 (f1_range i js))) as (Q1 & Q2).
  split; [exact P1|]. split; [exact Q1|]. rewrite P2, Q2. split; (split; intros H i Hi; [apply (proj2 (recall_range i js)) || apply (proj2 (f1_range i js)); auto|apply (proj2 (recall_range i js)) || apply (proj2 (f1_range i js)); auto]).
Qed.
Print Assumptions C65_scores_real.
(* binary32, up to 2^24 samples and classes: finite, still between 0 and 1, and exactly 1 when every class is perfectly recognised *)
Theorem C65_scores_float : forall expf tanhf (n : nat) (s : @Stats (Num32 expf tanhf)) (js : list judged), 0 < n -> (Z.of_nat n <= 2 ^ 24)%Z ->
  length (st_clusters s) = n -> Forall (@judged_ok (Num32 expf tanhf) not_nan n) js -> (Z.of_nat (length js) <= 2 ^ 24)%Z -> Forall classifies js ->
  exists s' w v, test s js = Ok s' /\ fin32 (st_wrate s') w /\ fin32 (st_f1 s') v /\ (0 <= w <= 1)%R /\ (0 <= v <= 1)%R /\
    ((forall i, i < n -> occurs i js /\ found i js) -> w = 1%R) /\ ((forall i, i < n -> occurs i js /\ recognised i js) -> v = 1%R).
Proof.
  intros expf tanhf n s js H0 H24 Hn Hok HB HC. destruct (test_spec _ (order_laws_32 expf tanhf) _ (counts_32 expf tanhf (length js) HB) n js s Hn Hok (le_n _)) as (s' & _ & Hc & E).
  red in Hc. destruct (scores32 expf tanhf n s js (fofnat (count (correct n) js)) (fofnat (count (fun j => negb (correct n j)) js)) H0 H24 HB) as ((w & Ew & Rw & Pw) & (v & Ev & Rv & Pv)). rewrite <- Hc in Ew, Ev.
  assert (T : forall i, occurs i js -> found i js -> 0 < tally TP i js /\ tally FN i js = 0).
  { intros i (j & Hj & Bj) HF. destruct (count_all (belongs i) (claimed i) js) as (_ & X). pose proof (proj2 X HF) as Y. fold (hits i js) in Y. rewrite <- (tally_hits i js HC), <- (tally_belongs i js HC) in Y.
    pose proof (count_pos (belongs i) js j Hj Bj) as Z. rewrite <- (tally_belongs i js HC) in Z. lia. }
  exists (stopTesting s'), w, v. split; [exact E|]. split; [exact Ew|]. split; [exact Ev|]. split; [exact Rw|]. split; [exact Rv|]. split; intros H.
  - apply Pw. intros i Hi. destruct (H i Hi). auto.
  - apply Pv. intros i Hi. destruct (H i Hi) as (HO & HR). destruct (T i HO) as (A & B). { intros j Hj Bj. now rewrite (HR j Hj). }
    split; [exact A|]. split; [exact B|]. destruct (count_all (claimed i) (belongs i) js) as (_ & X). rewrite <- hits_claimed in X. assert (Y : hits i js = count (claimed i) js) by (apply X; intros j Hj Cj; now rewrite <- (HR j Hj)).
    rewrite <- (tally_hits i js HC), <- (tally_claimed i js HC) in Y. lia.
Qed.
Print Assumptions C65_scores_float.
(* so the greatest weighted clustering rate C16 speaks of is the best one reported: its hypothesis on the reports always holds *)

(* a regression: both scores are 0, whatever the network answers *)
Theorem C65_regression_scores_zero : forall expf tanhf (n : nat) (s : @Stats (Num32 expf tanhf)) (js : list judged), 0 < n -> (Z.of_nat n <= 2 ^ 24)%Z ->
  length (st_clusters s) = n -> Forall (@judged_ok (Num32 expf tanhf) not_nan n) js -> (Z.of_nat (length js) <= 2 ^ 24)%Z -> Forall (fun j => ~ classifies j) js ->
  exists s', test s js = Ok s' /\ fin32 (st_wrate s') 0 /\ fin32 (st_f1 s') 0.
Proof.
  intros expf tanhf n s js H0 H24 Hn Hok HB HC. destruct (test_spec _ (order_laws_32 expf tanhf) _ (counts_32 expf tanhf (length js) HB) n js s Hn Hok (le_n _)) as (s' & _ & Hc & E).
  red in Hc. destruct (scores_none expf tanhf n s js (fofnat (count (correct n) js)) (fofnat (count (fun j => negb (correct n j)) js)) H0 H24 (fun i => tally_regression i js HC)) as (A & B). rewrite <- Hc in A, B. eauto.
Qed.
Print Assumptions C65_regression_scores_zero.

(* a test of three classes: three samples, the last one mistaken *)
Definition js3 : list (@judged N32) :=
  [@Classification N32 [b32q 9 10; b32q 1 10; b32 0] 0 (b32q 1 2); @Classification N32 [b32q 1 10; b32q 8 10; b32 0] 1 (b32q 1 2); @Classification N32 [b32q 1 10; b32q 8 10; b32q 7 10] 2 (b32q 1 2)].
Example C65_hypotheses_met : Forall (@judged_ok N32 not_nan 3) js3 /\ Forall (@classifies N32) js3 /\ exists s', @test N32 (initialStats 3) js3 = Ok s' /\ st_wrate s' = b32 1 /\ sf_eqb (st_f1 s') (b32 1) = false.
Proof.
  split; [repeat constructor; discriminate|]. split; [repeat constructor|].
  by_compute (run_check (@test N32 (initialStats 3) js3) (fun s' => sf_eqb (st_wrate s') (b32 1) && negb (sf_eqb (st_f1 s') (b32 1)))).
  eexists. split; [exact E|]. split; [now apply sf_eqb_eq|]. match goal with H : negb _ = true |- _ => apply Bool.negb_true_iff in H; exact H end.
Qed.
(* the accuracy goes by the largest output, the scores by the separator: a network that classifies every sample well has accuracy 1 and F1 score 0; and
   a class absent from the test set counts for 0, so a perfect network gets 1/2 *)
Theorem C65_scores_refuted :
  (exists s', @test N32 (initialStats 2) [@Classification N32 [b32q 4 10; b32q 1 10] 0 (b32q 1 2); @Classification N32 [b32q 1 10; b32q 4 10] 1 (b32q 1 2)] = Ok s' /\
     st_rate s' = b32 1 /\ st_wrate s' = b32 0 /\ st_f1 s' = b32 0) /\
  (exists s', @test N32 (initialStats 2) [@Classification N32 [b32 1; b32 0] 0 (b32q 1 2)] = Ok s' /\ st_rate s' = b32 1 /\ st_wrate s' = b32q 1 2 /\ st_f1 s' = b32q 1 2).
Proof.
  by_compute (run_check (@test N32 (initialStats 2) [@Classification N32 [b32q 4 10; b32q 1 10] 0 (b32q 1 2); @Classification N32 [b32q 1 10; b32q 4 10] 1 (b32q 1 2)])
      (fun s' => sf_eqb (st_rate s') (b32 1) && sf_eqb (st_wrate s') (b32 0) && sf_eqb (st_f1 s') (b32 0))
    && run_check (@test N32 (initialStats 2) [@Classification N32 [b32 1; b32 0] 0 (b32q 1 2)]) (fun s' => sf_eqb (st_rate s') (b32 1) && sf_eqb (st_wrate s') (b32q 1 2) && sf_eqb (st_f1 s') (b32q 1 2))).
  split; eexists; (split; [eassumption|]); repeat split; now apply sf_eqb_eq.
Qed.
Print Assumptions C65_scores_refuted.
