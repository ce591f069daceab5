(* Property theorems about evaluation statistics: C14, C15, C16, C17, C18, C48. *)
From Coq Require Import Reals Lra SpecFloat.
From Verif Require Import Base Num NumOrder StatModel StatSpec StatProofs StatReal Float32 Witness.
Local Open Scope outcome_scope.

(* ===== C14 ===== *)
(* every counter is the number of samples it should count, and they partition the samples, whatever was counted before;
   the counters are floats, so up to B samples: B is unlimited over the reals and 2^24 in binary32 (C48) *)
Theorem C14_confusion_counters_partial : forall (N : Num) (ok : F -> Prop), order_laws N ok ->
  forall B, counts_exactly_below B ->
  forall (n : nat) (s : Stats) (js : list judged),
  length (st_clusters s) = n -> Forall (judged_ok ok n) js -> length js <= B ->
  exists s', count_test s js = Ok s' /\ length (st_clusters s') = n /\
   (forall i, i < n -> exists c, nth_error (st_clusters s') i = Some c /\
     c_tp c = fofnat (count (fun j => kind_eqb (kind_of i j) TP) js) /\
     c_tn c = fofnat (count (fun j => kind_eqb (kind_of i j) TN) js) /\
     c_fp c = fofnat (count (fun j => kind_eqb (kind_of i j) FP) js) /\
     c_fn c = fofnat (count (fun j => kind_eqb (kind_of i j) FN) js) /\
     count (fun j => kind_eqb (kind_of i j) TP) js + count (fun j => kind_eqb (kind_of i j) TN) js
     + count (fun j => kind_eqb (kind_of i j) FP) js + count (fun j => kind_eqb (kind_of i j) FN) js = length js) /\
   st_well s' = fofnat (count (correct n) js) /\
   st_mis s' = fofnat (count (fun j => negb (correct n j)) js) /\
   count (correct n) js + count (fun j => negb (correct n j)) js = length js.
Proof.
  intros N ok OL B HB n s js Hn Hok HB'.
  destruct (count_test_spec ok OL B HB n js s Hn Hok HB') as (s' & E & ->). eexists. split; [exact E|].
  cbn [with_counters st_clusters st_well st_mis]. split; [now rewrite map_length, seq_length|].
  split; [|split; [reflexivity|]; split; [reflexivity|apply count_partition]].
  intros i Hi. exists (clusterFor js i). split.
  - rewrite (nth_error_nth' _ zeroCluster) by (now rewrite map_length, seq_length). now rewrite nth_map_seq.
  - do 4 (split; [reflexivity|]). apply kind_partition.
Qed.
Print Assumptions C14_confusion_counters_partial.
(* the counting hypothesis holds in both arithmetics *)
Theorem C14_counting : (forall B, @counts_exactly_below RNum B) /\
  (forall expf tanhf B, (Z.of_nat B <= 2 ^ 24)%Z -> @counts_exactly_below (Num32 expf tanhf) B).
Proof. split; [exact counts_R|exact counts_32]. Qed.
Print Assumptions C14_counting.
Definition js32 : list (@judged N32) :=
  [@Classification N32 [b32q 9 10; b32q 1 10] 0 (b32q 1 2); @Classification N32 [b32q 8 10; b32q 1 10] 1 (b32q 1 2);
   @Regression N32 [b32 1; b32 5] [b32 1; b32 2] (b32q 1 10)].
Example C14_hypotheses_met : order_laws N32 not_nan /\ Forall (@judged_ok N32 not_nan 2) js32 /\ length js32 = 3 /\
  map (@correct N32 2) js32 = [true; false; false] /\ map (@kind_of N32 1) js32 = [TN; FN; FP].
Proof.
  split; [apply order_laws_32|]. split; [|split; [reflexivity|split; vm_compute; reflexivity]].
  repeat constructor; discriminate.
Qed.

(* a NaN output is counted nowhere but the sample is well treated (regression) *)
Theorem C14_nan_refuted : exists s',
  @count_test N32 (initialStats 1) [@Regression N32 [b32_nan] [b32 1] (b32q 1 10)] = Ok s' /\
  st_well s' = b32 1 /\ map (fun c => [c_tp c; c_tn c; c_fp c; c_fn c]) (st_clusters s') = [[b32 0; b32 0; b32 0; b32 0]].
Proof.
  by_compute (run_check (@count_test N32 (initialStats 1) [@Regression N32 [b32_nan] [b32 1] (b32q 1 10)])
    (fun s' => sf_eqb (st_well s') (b32 1) && list_eqb sfl_eqb (map (fun c => [c_tp c; c_tn c; c_fp c; c_fn c]) (st_clusters s')) [[b32 0; b32 0; b32 0; b32 0]])).
  eexists. split; [exact E|]. split; [now apply sf_eqb_eq|]. now apply (list_eqb_eq sfl_eqb sfl_eqb_eq).
Qed.
Print Assumptions C14_nan_refuted.

(* ===== C15 ===== *)
(* exact arithmetic *)
Theorem C15_accuracy_real : forall (n : nat) (s : @Stats RNum) (js : list judged),
  length (st_clusters s) = n -> Forall (judged_ok (fun _ => True) n) js -> js <> [] ->
  exists s', test s js = Ok s' /\ st_rate s' = (INR (count (correct n) js) / INR (length js))%R /\ (0 <= st_rate s' <= 1)%R.
Proof.
  intros n s js Hn Hok Hne.
  destruct (test_spec _ order_laws_R _ (counts_R (length js)) n js s Hn Hok (le_n _)) as (s' & _ & Hc & E).
  eexists. split; [exact E|]. red in Hc. subst s'. cbn [stopTesting st_rate computeGlobalClusteringRate].
  unfold computeGlobalClusteringRate. cbn [with_counters st_well st_mis].
  rewrite !R_fofnat. cbn [fdiv fadd RNum].
  assert (Hs : (INR (count (correct n) js) + INR (count (fun j => negb (correct n j)) js))%R = INR (length js)).
  { rewrite <- plus_INR. now rewrite count_partition. }
  cbn in *. rewrite Hs. split; [reflexivity|].
  assert (0 < INR (length js))%R by (apply lt_0_INR; destruct js; [congruence|cbn; lia]).
  pose proof (count_le (correct n) js) as Hle. apply le_INR in Hle. split.
  - apply Rmult_le_pos; [apply pos_INR|apply Rlt_le, Rinv_0_lt_compat; auto].
  - apply Rmult_le_reg_r with (INR (length js)); auto. unfold Rdiv.
    rewrite Rmult_assoc, Rinv_l, Rmult_1_l, Rmult_1_r by lra. exact Hle.
Qed.
Print Assumptions C15_accuracy_real.
(* binary32, up to 2^24 samples: the correctly rounded quotient, still in [0,1] *)
Theorem C15_accuracy_float : forall expf tanhf (n : nat) (s : @Stats (Num32 expf tanhf)) (js : list judged),
  length (st_clusters s) = n -> Forall (@judged_ok (Num32 expf tanhf) not_nan n) js -> js <> [] -> (Z.of_nat (length js) <= 2 ^ 24)%Z ->
  exists s' r, test s js = Ok s' /\ fin32 (st_rate s') r /\
    r = Flocq.Core.Generic_fmt.round Flocq.Core.Zaux.radix2 (SpecFloat.fexp 24 128)
          (Flocq.IEEE754.BinarySingleNaN.round_mode Flocq.IEEE754.BinarySingleNaN.mode_NE)
          (INR (count (correct n) js) / INR (length js)) /\ (0 <= r <= 1)%R.
Proof.
  intros expf tanhf n s js Hn Hok Hne HB.
  destruct (test_spec _ (order_laws_32 expf tanhf) _ (counts_32 expf tanhf (length js) HB) n js s Hn Hok (le_n _)) as (s' & _ & Hc & E).
  pose proof (count_partition n js) as Hp.
  destruct (rate_32 expf tanhf (count (correct n) js) (count (fun j => negb (correct n j)) js)) as (r & Hr & Hv & Hb).
  { rewrite Hp. destruct js; [congruence|]. cbn [length] in *. lia. }
  rewrite Hp in Hv. exists (stopTesting s'), r. split; [exact E|]. red in Hc. subst s'.
  split; [exact Hr|]. split; [exact Hv|exact Hb].
Qed.
Print Assumptions C15_accuracy_float.
Example C15_hypotheses_met : exists s', @test N32 (initialStats 2) js32 = Ok s' /\ st_rate s' = b32q 1 3.
Proof.
  by_compute (run_check (@test N32 (initialStats 2) js32) (fun s' => sf_eqb (st_rate s') (b32q 1 3))).
  eexists. split; [exact E|]. now apply sf_eqb_eq.
Qed.
(* the label's output is the largest but not above -2: counted as wrong; and no sample at all gives NaN *)
Theorem C15_refuted :
  (exists s', @test N32 (initialStats 2) [@Classification N32 [b32 (-2); b32 (-3)] 0 (b32q 1 2)] = Ok s' /\ st_rate s' = b32 0) /\
  (exists s', @test N32 (initialStats 2) [] = Ok s' /\ st_rate s' = b32_nan).
Proof.
  by_compute (run_check (@test N32 (initialStats 2) [@Classification N32 [b32 (-2); b32 (-3)] 0 (b32q 1 2)]) (fun s' => sf_eqb (st_rate s') (b32 0))
    && run_check (@test N32 (initialStats 2) []) (fun s' => sf_eqb (st_rate s') b32_nan)).
  split; eexists; (split; [eassumption|now apply sf_eqb_eq]).
Qed.
Print Assumptions C15_refuted.

(* ===== C16 ===== *)
(* for any history of completed and abandoned tests.  missing: the F1 score and the RMSE, see the refutation *)
Theorem C16_best_partial : forall (N : Num) (ok : F -> Prop), order_laws N ok ->
  forall (n : nat) (es : list event) (s : Stats), history n es = Ok s ->
  let rates := reports st_rate (initialStats n) es in
  let wrates := reports st_wrate (initialStats n) es in
  let maes := reports st_mae (initialStats n) es in
  (rates <> [] -> Forall (fun r => ok r /\ fltb (fofZ (-1)) r = true) rates ->
     In (st_rateMax s) rates /\ Forall (fun r => fltb (st_rateMax s) r = false) rates) /\
  (wrates <> [] -> Forall (fun r => ok r /\ fltb (fofZ (-1)) r = true) wrates ->
     In (st_wrateMax s) wrates /\ Forall (fun r => fltb (st_wrateMax s) r = false) wrates) /\
  (maes <> [] -> Forall (fun r => ok r /\ fltb r fzero = false) maes ->
     In (st_maeMin s) maes /\ Forall (fun r => fltb r (st_maeMin s) = false) maes).
Proof.
  intros N ok OL n es s Hs. destruct (history_best n ok OL es s Hs) as (H1 & H2 & H3 & _). cbv zeta in *.
  split; [|split]; intros Hne HF.
  - destruct (H1 HF) as (_ & A & B). auto.
  - destruct (H2 HF) as (_ & A & B). auto.
  - destruct (H3 HF) as (_ & A & B). auto.
Qed.
Print Assumptions C16_best_partial.
Definition es32 : list (@event N32) :=
  [Tested [@Classification N32 [b32q 9 10; b32q 1 10] 0 (b32q 1 2); @Classification N32 [b32q 1 10; b32q 8 10] 0 (b32q 1 2)];
   @Abandoned N32 [] b32_nan;
   Tested [@Classification N32 [b32q 9 10; b32q 1 10] 0 (b32q 1 2)];
   Tested [@Classification N32 [b32q 2 10; b32q 7 10] 0 (b32q 1 2)]].
Example C16_hypotheses_met : exists s, @history N32 2 es32 = Ok s /\
  reports st_rate (@initialStats N32 2) es32 = [b32q 1 2; b32 1; b32 0] /\ st_rateMax s = b32 1 /\
  forallb (fun r => @fltb N32 (b32 (-1)) r) (reports st_wrate (@initialStats N32 2) es32) = true /\
  forallb (fun r => negb (@fltb N32 r (b32 0))) (reports st_mae (@initialStats N32 2) es32) = true.
Proof.
  by_compute (run_check (@history N32 2 es32) (fun s => sfl_eqb (reports st_rate (@initialStats N32 2) es32) [b32q 1 2; b32 1; b32 0]
    && sf_eqb (st_rateMax s) (b32 1) && forallb (fun r => @fltb N32 (b32 (-1)) r) (reports st_wrate (@initialStats N32 2) es32)
    && forallb (fun r => negb (@fltb N32 r (b32 0))) (reports st_mae (@initialStats N32 2) es32))).
  eexists. split; [exact E|]. split; [now apply sfl_eqb_eq|]. split; [now apply sf_eqb_eq|]. auto.
Qed.

(* the best F1 score is never recorded: it is -1 after every history, although a test reports a perfect score; the
   smallest RMSE stays at -1 too although a test reports 0 *)
Theorem C16_f1_rmse_refuted :
  (forall (N : Num) n (es : list event) s, history n es = Ok s -> st_f1Max s = fofZ (-1)) /\
  (exists s, @history N32 1 [Tested [@Classification N32 [b32 1] 0 (b32q 1 2)]] = Ok s /\
     st_f1 s = b32 1 /\ st_f1Max s = b32 (-1) /\ st_rmse s = b32 0 /\ st_rmseMin s = b32 (-1)).
Proof.
  split.
  - intros N n es s. revert s. induction es as [|e es IH] using rev_ind; intros s Hs.
    + injection Hs as <-. reflexivity.
    + apply history_snoc in Hs as (s1 & E & Hh). specialize (IH s1 E).
      apply happen_best in Hh. destruct e; destruct Hh as (_ & _ & _ & ->); exact IH.
  - by_compute (run_check (@history N32 1 [Tested [@Classification N32 [b32 1] 0 (b32q 1 2)]]) (fun s =>
      sf_eqb (st_f1 s) (b32 1) && sf_eqb (st_f1Max s) (b32 (-1)) && sf_eqb (st_rmse s) (b32 0) && sf_eqb (st_rmseMin s) (b32 (-1)))).
    eexists. split; [exact E|]. repeat split; now apply sf_eqb_eq.
Qed.
Print Assumptions C16_f1_rmse_refuted.

(* ===== C17 ===== *)
(* the total absolute error divided by the number of samples (not by the number of values): right for one output.
   The RMSE reported for one output is sqrt(number of samples) times the mean absolute error *)
Theorem C17_errors_partial : forall (n : nat) (s : @Stats RNum) (js : list judged),
  length (st_clusters s) = n -> Forall (judged_ok (fun _ => True) n) js -> js <> [] ->
  exists s', test s js = Ok s' /\
    st_mae s' = (Rsum (map (fun i => Rsum (map (error_of i) js)) (seq 0 n)) / INR (length js))%R /\
    (n = 1 -> st_mae s' = (Rsum (map (error_of 0) js) / INR (length js))%R /\
              st_rmse s' = (sqrt (INR (length js)) * st_mae s')%R).
Proof.
  intros n s js Hn Hok Hne.
  destruct (test_spec _ order_laws_R _ (counts_R (length js)) n js s Hn Hok (le_n _)) as (s' & _ & Hc & E).
  eexists. split; [exact E|]. red in Hc. subst s'.
  assert (Hs : @fadd RNum (fofnat (count (correct n) js)) (fofnat (count (fun j => negb (correct n j)) js)) = INR (length js)).
  { rewrite !R_fofnat. cbn. rewrite <- plus_INR. now rewrite count_partition. }
  assert (HM : st_mae (stopTesting (with_counters s (map (clusterFor js) (seq 0 n)) (fofnat (count (correct n) js))
        (fofnat (count (fun j => negb (correct n j)) js)))) =
        (Rsum (map (fun i => Rsum (map (error_of i) js)) (seq 0 n)) / INR (length js))%R).
  { cbn [stopTesting st_mae]. unfold computeMeanAbsoluteError. cbn [with_counters st_clusters st_well st_mis].
    rewrite Hs. rewrite (fold_err_R (@c_err RNum)). rewrite map_map. cbn [clusterFor c_err].
    replace (@fzero RNum) with 0%R by (symmetry; apply RNum_lit). rewrite Rplus_0_l. cbn [fdiv RNum].
    f_equal. f_equal. apply map_ext. intros i. unfold clusterFor. cbn [c_err]. apply fsum_R. }
  rewrite HM. split; [reflexivity|]. intros ->. split; [cbn; now rewrite Rplus_0_r|].
  cbn [stopTesting st_rmse]. unfold computeRootMeanSquaredError. cbn [with_counters st_clusters st_well st_mis].
  rewrite Hs. cbn [seq map fold_left]. unfold clusterFor at 1 2. cbn [c_err]. rewrite fsum_R.
  replace (@fzero RNum) with 0%R by (symmetry; apply RNum_lit).
  cbn [fadd fmul fdiv fsqrt RNum Rsum fold_right]. rewrite Rplus_0_l, Rplus_0_r.
  assert (P : (0 < INR (length js))%R) by (apply lt_0_INR; destruct js; [congruence|cbn; lia]).
  set (t := Rsum (map (error_of 0) js)).
  assert (Ht : (0 <= t)%R).
  { apply Rsum_nonneg, Forall_forall. intros x Hx. apply in_map_iff in Hx as (j & <- & _). destruct j; apply Rabs_pos. }
  unfold Rdiv. rewrite sqrt_mult_alt by (apply Rmult_le_pos; auto). rewrite sqrt_square by auto.
  change (fold_right Rplus 0%R (map (error_of 0) js)) with t.
  assert (0 < sqrt (INR (length js)))%R by now apply sqrt_lt_R0.
  rewrite sqrt_inv. pose proof (sqrt_sqrt (INR (length js)) ltac:(lra)) as Hq.
  set (q := sqrt (INR (length js))) in *. change (t * / q = q * (t * / INR (length js)))%R. rewrite <- Hq. field. lra.
Qed.
Print Assumptions C17_errors_partial.
Example C17_hypotheses_met : exists s', @test N32 (initialStats 1)
   [@Regression N32 [b32 1] [b32 2] (b32q 1 10); @Regression N32 [b32 5] [b32 2] (b32q 1 10)] = Ok s' /\ st_mae s' = b32 2.
Proof.
  by_compute (run_check (@test N32 (initialStats 1) [@Regression N32 [b32 1] [b32 2] (b32q 1 10); @Regression N32 [b32 5] [b32 2] (b32q 1 10)]) (fun s' => sf_eqb (st_mae s') (b32 2))).
  eexists. split; [exact E|]. now apply sf_eqb_eq.
Qed.
(* two outputs, each off by 1: MAE 2.  Four samples of one output, each off by 1: RMSE 2 *)
Theorem C17_errors_refuted :
  (exists s', @test N32 (initialStats 2) [@Regression N32 [b32 1; b32 1] [b32 0; b32 0] (b32q 1 10)] = Ok s' /\ st_mae s' = b32 2) /\
  (exists s', @test N32 (initialStats 1) (repeat (@Regression N32 [b32 1] [b32 0] (b32q 1 10)) 4) = Ok s' /\
     st_mae s' = b32 1 /\ st_rmse s' = b32 2).
Proof.
  by_compute (run_check (@test N32 (initialStats 2) [@Regression N32 [b32 1; b32 1] [b32 0; b32 0] (b32q 1 10)]) (fun s' => sf_eqb (st_mae s') (b32 2))
    && run_check (@test N32 (initialStats 1) (repeat (@Regression N32 [b32 1] [b32 0] (b32q 1 10)) 4)) (fun s' => sf_eqb (st_mae s') (b32 1) && sf_eqb (st_rmse s') (b32 2))).
  split; eexists; (split; [eassumption|]); try split; now apply sf_eqb_eq.
Qed.
Print Assumptions C17_errors_refuted.

(* ===== C18 ===== *)
(* missing: outputs that are all -2 or below *)
Theorem C18_cluster_partial : forall (N : Num) (ok : F -> Prop), order_laws N ok ->
  forall outputs : list F, Forall ok outputs -> Exists (fun o => fltb (fofZ (-2)) o = true) outputs ->
  exists i, clusterOf outputs = Z.of_nat i /\ i < length outputs /\
    (forall j, j < i -> fltb (nth j outputs fzero) (nth i outputs fzero) = true) /\
    (forall j, j < length outputs -> fltb (nth i outputs fzero) (nth j outputs fzero) = false).
Proof.
  intros N ok OL os Hos Hex. assert (H2 : ok (fofZ (-2))) by (apply (ol_lit _ _ OL); lia).
  unfold clusterOf. destruct (argmax_spec ok OL os 0 (fofZ (-2)) (-1) Hos H2) as [[_ Hb]|(j & Hj & -> & Hl & Hb & Ha)].
  - exfalso. apply Exists_exists in Hex as (o & Hin & Ho). apply (In_nth _ _ fzero) in Hin as (j & Hj & <-).
    specialize (Hb j Hj). unfold at_ in Hb. congruence.
  - exists j. split; [reflexivity|]. auto.
Qed.
Print Assumptions C18_cluster_partial.
Example C18_hypotheses_met : @clusterOf N32 [b32q 1 10; b32 3; b32 3; b32 2] = 1%Z.
Proof. vm_compute. reflexivity. Qed.
(* outputs below -2 (possible with the identity activation): no cluster at all, -1 *)
Theorem C18_cluster_refuted : @clusterOf N32 [b32 (-5); b32 (-3)] = (-1)%Z /\ @clusterOf N32 [b32 (-2)] = (-1)%Z.
Proof. split; vm_compute; reflexivity. Qed.
Print Assumptions C18_cluster_refuted.

(* ===== C48 ===== *)
Definition good : @judged N32 := @Classification N32 [b32 1] 0 (b32q 1 2).
Definition bad : @judged N32 := @Classification N32 [b32 (-3)] 0 (b32q 1 2).
Lemma order_laws_N32 : order_laws N32 not_nan.
Proof. exact (order_laws_32 _ _). Qed.
Lemma counts_N32 B : (Z.of_nat B <= 2 ^ 24)%Z -> @counts_exactly_below N32 B.
Proof. exact (counts_32 _ _ B). Qed.

(* exact up to 2^24 samples of each sort *)
Theorem C48_exact_counts_partial : forall expf tanhf (n : nat) (s : @Stats (Num32 expf tanhf)) (js : list judged),
  length (st_clusters s) = n -> Forall (@judged_ok (Num32 expf tanhf) not_nan n) js -> (Z.of_nat (length js) <= 2 ^ 24)%Z ->
  exists s', count_test s js = Ok s' /\ st_well s' = f32_of_Z (Z.of_nat (count (correct n) js)) /\
    st_mis s' = f32_of_Z (Z.of_nat (length js - count (correct n) js)).
Proof.
  intros expf tanhf n s js Hn Hok HB.
  destruct (count_test_spec _ (order_laws_32 expf tanhf) _ (counts_32 expf tanhf (length js) HB) n js s Hn Hok (le_n _)) as (s' & E & ->).
  eexists. split; [exact E|]. cbn [with_counters st_well st_mis].
  pose proof (count_partition n js). split; unfold fofnat; rewrite fofZ_of_Z by lia; [reflexivity|].
  f_equal. lia.
Qed.
Print Assumptions C48_exact_counts_partial.
Example C48_hypotheses_met : Forall (@judged_ok N32 not_nan 1) [good; bad] /\ map (@correct N32 1) [good; bad] = [true; false].
Proof. split; [repeat constructor; discriminate|vm_compute; reflexivity]. Qed.

Section Stuck.
Variable big : nat.
Hypothesis Hbig : Z.of_nat big = (2 ^ 24)%Z.
Lemma stuck_step : @fadd N32 (@fofnat N32 big) (@fone N32) = @fofnat N32 big.
Proof. unfold fofnat. rewrite Hbig. vm_compute. reflexivity. Qed.
Lemma good_stuck s k : length (st_clusters s) = 1 -> st_well s = @fofnat N32 big -> 
  exists s', ofold (@judge N32) (repeat good k) s = Ok s' /\ length (st_clusters s') = 1 /\ st_well s' = @fofnat N32 big /\ st_mis s' = st_mis s.
Proof.
  revert s; induction k as [|k IH]; intros s H1 H2; cbn [repeat ofold]; [eauto|].
  rewrite (judge_spec _ order_laws_N32 s 1 good) by (auto; repeat constructor; discriminate). cbn [bind].
  replace (correct 1 good) with true by (vm_compute; reflexivity). unfold countSample.
  destruct (IH (with_counters s (map (fun i => bump (kind_of i good) (error_of i good) (nth i (st_clusters s) zeroCluster)) (seq 0 1)) (incr (st_well s)) (st_mis s)))
    as (s' & E & L & W & M).
  - reflexivity.
  - cbn [with_counters st_well]. rewrite H2. apply stuck_step.
  - eauto.
Qed.
Lemma count_repeat {A} (p : A -> bool) a k : count p (repeat a k) = if p a then k else 0.
Proof. unfold count. induction k as [|k IH]; cbn [repeat filter]; [destruct (p a); reflexivity|]. destruct (p a) eqn:E; cbn [length]; auto. Qed.
Lemma stuck_l : exists s',
  @count_test N32 (initialStats 1) (repeat good (big + big)) = Ok s' /\ st_well s' = b32 (2 ^ 24).
Proof.
  assert (Hok : Forall (@judged_ok N32 not_nan 1) (repeat good big)).
  { apply Forall_forall. intros j Hj. apply repeat_spec in Hj as ->. repeat constructor; discriminate. }
  destruct (count_test_spec _ order_laws_N32 _ (counts_N32 big ltac:(lia)) 1 (repeat good big) (initialStats 1) eq_refl Hok) as (s1 & E & Hc).
  { now rewrite repeat_length. }
  red in Hc. rewrite count_repeat in Hc. replace (correct 1 good) with true in Hc by (vm_compute; reflexivity).
  destruct (good_stuck s1 big) as (s' & E' & _ & Ws & _); [now subst s1|now subst s1|].
  exists s'. split.
  - unfold count_test in *. rewrite repeat_app, ofold_app, E. exact E'.
  - rewrite Ws. unfold fofnat. rewrite Hbig. reflexivity.
Qed.
End Stuck.

(* with 2^25 correct answers, the counter still says 2^24 *)
Theorem C48_exact_counts_refuted : forall big, Z.of_nat big = (2 ^ 24)%Z -> exists s',
  @count_test N32 (initialStats 1) (repeat good (big + big)) = Ok s' /\
  count (@correct N32 1) (repeat good (big + big)) = big + big /\
  st_well s' = b32 (2 ^ 24) /\ b32 (2 ^ 24) <> b32 (2 ^ 25).
Proof.
  intros big Hbig. destruct (stuck_l big Hbig) as (s' & E & W). exists s'. split; [exact E|].
  split; [rewrite count_repeat; replace (correct 1 good) with true by (vm_compute; reflexivity); reflexivity|].
  split; [exact W|]. vm_compute. discriminate.
Qed.
Print Assumptions C48_exact_counts_refuted.
