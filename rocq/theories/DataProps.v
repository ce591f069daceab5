(* Property theorems about Data: C01-C09, C51, C53-C55.  Statements only; proofs in *Proofs.v. *)
From Coq Require Import Reals Permutation Lra.
From Verif Require Import Base Num DataModel DataSpec DataProofs SeqProofs SeriesProofs NormProofs Witness.
Local Open Scope nat_scope.
Local Open Scope list_scope.

(* ===== C01 ===== *)
Theorem C01_each_sample_once :
  forall (N : Num) p (trIn trLab teIn teLab : list (list F)) rec d ops,
  mkData4 p trIn trLab teIn teLab nonTemporal rec = Ok d ->
  length trIn = length trLab ->
  Forall fair_op ops ->
  exists d' visited, run_ops ops d = Ok d' /\
    Permutation visited (combine trIn trLab) /\
    forall i x y, nth_error visited i = Some (x, y) <-> (i < length trLab /\ exposes d' i x y).
Proof. intros N. exact nontemporal_each_sample_once_l. Qed.
Print Assumptions C01_each_sample_once.

(* a generator and data sets used to show the hypotheses can be met *)
Definition rev_rng (n : nat) : list nat := rev (seq 0 n).
Lemma rev_rng_fair : fair_rng rev_rng.
Proof. intros n. apply Permutation_sym, Permutation_rev. Qed.
Definition rows32 (l : list (list Z)) : list (list (@F N32)) := map (map b32) l.

Example C01_hypotheses_met :
  exists d, @mkData4 N32 classification (rows32 [[1;2];[3;4];[5;6]]%Z) (rows32 [[1;0];[0;1];[1;0]]%Z)
              (rows32 [[7;8]]%Z) (rows32 [[0;1]]%Z) nonTemporal 0 = Ok d /\
  exists d', @run_ops N32 [OpShuffle rev_rng; OpUnshuffle; OpShuffle rev_rng] d = Ok d' /\
             exists d'', @getTrainingData N32 d' 0 1 = Ok (map b32 [5;6]%Z, d'').
Proof.
  by_compute (run_check (@mkData4 N32 classification (rows32 [[1;2];[3;4];[5;6]]%Z) (rows32 [[1;0];[0;1];[1;0]]%Z)
              (rows32 [[7;8]]%Z) (rows32 [[0;1]]%Z) nonTemporal 0) (fun d =>
     run_check (@run_ops N32 [OpShuffle rev_rng; OpUnshuffle; OpShuffle rev_rng] d) (fun d' =>
       row_is (@getTrainingData N32 d' 0 1) (map b32 [5;6]%Z)))).
  exists w. split; [leaf|]. exists w0. split; leaf.
Qed.

(* ===== C02 ===== *)
Theorem C02_batch_is_mean :
  forall (N : Num) (d : Data) (index : nat) (xs ys : list (list F)),
  2 <= length xs -> length ys = length xs ->
  (forall k x y, nth_error xs k = Some x -> nth_error ys k = Some y -> exposes d (index + k) x y) ->
  Forall (fun x => length x = d_sizeOfData d) xs ->
  Forall (fun y => length y = d_numberOfLabels d) ys ->
  exists mx my d1 d2,
    getTrainingData d index (length xs) = Ok (mx, d1) /\ mean_of xs mx /\
    getTrainingOutputs d1 index (length xs) = Ok (my, d2) /\ mean_of ys my /\
    (forall i x y, exposes d2 i x y <-> exposes d i x y).
Proof. intros N. exact batch_is_mean_l. Qed.
Print Assumptions C02_batch_is_mean.

Example C02_hypotheses_met :
  exists d, @mkData2 N32 regression (rows32 [[1;2];[3;4];[5;6]]%Z) (rows32 [[1];[2];[6]]%Z) nonTemporal 0 = Ok d /\
  @exposes N32 d 1 (map b32 [3;4]%Z) [b32 2] /\ @exposes N32 d 2 (map b32 [5;6]%Z) [b32 6] /\
  exists d1, @getTrainingData N32 d 1 2 = Ok (map b32 [4;5]%Z, d1) /\
  exists d2, @getTrainingOutputs N32 d1 0 3 = Ok ([b32 3], d2).
Proof.
  by_compute (run_check (@mkData2 N32 regression (rows32 [[1;2];[3;4];[5;6]]%Z) (rows32 [[1];[2];[6]]%Z) nonTemporal 0) (fun d =>
    row_is (@getTrainingData N32 d 1 1) (map b32 [3;4]%Z) && row_is (@getTrainingOutputs N32 d 1 1) [b32 2] &&
    row_is (@getTrainingData N32 d 2 1) (map b32 [5;6]%Z) && row_is (@getTrainingOutputs N32 d 2 1) [b32 6] &&
    run_check (@getTrainingData N32 d 1 2) (fun p => sfl_eqb (fst p) (map b32 [4;5]%Z) && row_is (@getTrainingOutputs N32 (snd p) 0 3) [b32 3]))).
  exists w. split; [leaf|].
  split; [split; leaf|]. split; [split; leaf|].
  destruct w0 as [r d1]. cbn [fst snd] in *.
  match goal with Hk : sfl_eqb r _ = true |- _ => apply sfl_eqb_eq in Hk; subst r end. exists d1. split; leaf.
Qed.

(* ===== C03 ===== *)
Theorem C03_sequence_boundaries_one_set :
  forall (N : Num) p (ins : list (list (list F))) labs rec,
  Forall (fun v => v <> []) ins -> ins <> [] -> length labs = length (concat ins) -> label_ok p labs ->
  exists d, mkData2_3D p ins labs sequential rec = Ok d /\
   forall s v k x i, nth_error ins s = Some v -> nth_error v k = Some x -> i = position_of ins s k ->
     isFirstTraining d i = Ok (k =? 0) /\ isFirstTesting d i = Ok (k =? 0) /\
     needToEvaluate d i = Ok (S k =? length v) /\ needToLearn d i = Ok true /\
     getTestingData d i = Ok x /\ (exists y, nth_error labs i = Some y /\ exposes d i x y).
Proof. intros N. exact sequential_flags_one_set_l. Qed.
Print Assumptions C03_sequence_boundaries_one_set.

Theorem C03_sequence_boundaries_two_sets :
  forall (N : Num) p (trIn : list (list (list F))) trLab teIn teLab rec,
  Forall (fun v => v <> []) trIn -> trIn <> [] -> Forall (fun v => v <> []) teIn ->
  length trLab = length (concat trIn) -> length teLab = length (concat teIn) -> label_ok p trLab ->
  exists d, mkData4_3D p trIn trLab teIn teLab sequential rec = Ok d /\
   (forall s v k x i, nth_error trIn s = Some v -> nth_error v k = Some x -> i = position_of trIn s k ->
     isFirstTraining d i = Ok (k =? 0) /\ needToLearn d i = Ok true /\
     (exists y, nth_error trLab i = Some y /\ exposes d i x y)) /\
   (forall s v k x i, nth_error teIn s = Some v -> nth_error v k = Some x -> i = position_of teIn s k ->
     isFirstTesting d i = Ok (k =? 0) /\ needToEvaluate d i = Ok (S k =? length v) /\
     getTestingData d i = Ok x).
Proof. intros N. exact sequential_flags_two_sets_l. Qed.
Print Assumptions C03_sequence_boundaries_two_sets.

Definition seqs_ex : list (list (list (@F N32))) := [rows32 [[1];[2]]%Z; rows32 [[3];[4];[5]]%Z].
Example C03_hypotheses_met :
  Forall (fun v => v <> []) seqs_ex /\ length (rows32 [[1];[2];[3];[4];[5]]%Z) = length (concat seqs_ex) /\
  position_of seqs_ex 1 1 = 3 /\
  exists d, @mkData2_3D N32 regression seqs_ex (rows32 [[1];[2];[3];[4];[5]]%Z) sequential 0 = Ok d /\
     @isFirstTraining N32 d 2 = Ok true /\ @needToEvaluate N32 d 4 = Ok true /\ @needToEvaluate N32 d 3 = Ok false.
Proof.
  split; [repeat constructor; discriminate|]. split; [reflexivity|]. split; [reflexivity|].
  by_compute (run_check (@mkData2_3D N32 regression seqs_ex (rows32 [[1];[2];[3];[4];[5]]%Z) sequential 0) (fun d =>
     bool_is (@isFirstTraining N32 d 2) true && (bool_is (@needToEvaluate N32 d 4) true && bool_is (@needToEvaluate N32 d 3) false))).
  exists w. repeat split; leaf.
Qed.

(* ===== C04: the visiting order of sequential data never changes ===== *)
(* what is missing from C04: the sequences are never reordered, see the refutation *)
Theorem C04_sequences_stay_in_place_partial :
  forall (N : Num) p ins labs rec d ops,
  mkData2_3D p ins labs sequential rec = Ok d -> Forall fair_op ops -> run_ops ops d = Ok d.
Proof. intros N. exact sequential_shuffle_identity_l. Qed.
Print Assumptions C04_sequences_stay_in_place_partial.

Theorem C04_sequences_stay_in_place_two_sets_partial :
  forall (N : Num) p trIn trLab teIn teLab rec d ops,
  mkData4_3D p trIn trLab teIn teLab sequential rec = Ok d -> Forall fair_op ops -> run_ops ops d = Ok d.
Proof. intros N. exact sequential_shuffle_identity4_l. Qed.
Print Assumptions C04_sequences_stay_in_place_two_sets_partial.

(* two different sequences of two samples: no generator can ever bring the second one first *)
Theorem C04_reordering_refuted :
  exists d, @mkData2_3D N32 regression [rows32 [[1];[2]]%Z; rows32 [[3];[4]]%Z] (rows32 [[1];[2];[3];[4]]%Z) sequential 0 = Ok d /\
  forall ops d', Forall fair_op ops -> @run_ops N32 ops d = Ok d' ->
    exists d'', @getTrainingData N32 d' 0 1 = Ok ([b32 1], d'').
Proof.
  by_compute (run_check (@mkData2_3D N32 regression [rows32 [[1];[2]]%Z; rows32 [[3];[4]]%Z] (rows32 [[1];[2];[3];[4]]%Z) sequential 0)
    (fun d => row_is (@getTrainingData N32 d 0 1) [b32 1])).
  exists w. split; [leaf|]. intros ops d' Hf Hr.
  rewrite (C04_sequences_stay_in_place_partial N32 _ _ _ _ _ ops E Hf) in Hr. injection Hr as <-. leaf.
Qed.
Print Assumptions C04_reordering_refuted.

(* ===== C05 ===== *)
Theorem C05_time_series_windows :
  forall (N : Num) p (trIn trLab teIn teLab : list (list F)) rec d ops rng,
  mkData4 p trIn trLab teIn teLab timeSeries rec = Ok d ->
  length trIn = length trLab ->
  (rec + 1 <= Z.of_nat (length trLab))%Z ->
  Forall fair_op ops -> fair_rng rng ->
  exists d' order, run_ops (ops ++ [OpShuffle rng]) d = Ok d' /\
    length order = length trLab /\ Forall (fun s => s < length trLab) order /\
    (forall i s x y, nth_error order i = Some s -> nth_error trIn s = Some x -> nth_error trLab s = Some y ->
       exposes d' i x y) /\
    (* a learnt sample closes a window of genuine predecessors that starts with a reset *)
    (forall i s, nth_error order i = Some s -> needToLearn d' i = Ok true ->
       exists k, k <= i /\ isFirstTraining d' (i - k) = Ok true /\
         (forall t, t < k -> isFirstTraining d' (i - t) = Ok false) /\
         (forall t, t <= k -> t <= s /\ nth_error order (i - t) = Some (s - t)) /\
         (Z.of_nat k = rec \/ ((Z.of_nat i < rec)%Z /\ k = i /\ s = i))) /\
    (* no sample is learnt twice *)
    (forall i i' s, nth_error order i = Some s -> nth_error order i' = Some s ->
       needToLearn d' i = Ok true -> needToLearn d' i' = Ok true -> i = i').
Proof. intros N. exact series_windows_l. Qed.
Print Assumptions C05_time_series_windows.

Definition series4 : list (list (@F N32)) := rows32 [[0];[1];[2];[3]]%Z.
Example C05_hypotheses_met :
  exists d, @mkData2 N32 regression series4 series4 timeSeries 1 = Ok d /\
  exists d', @run_ops N32 [OpShuffle rev_rng; OpUnshuffle; OpShuffle rev_rng] d = Ok d' /\
    @needToLearn N32 d' 2 = Ok true /\ @needToLearn N32 d' 1 = Ok false.
Proof.
  by_compute (run_check (@mkData2 N32 regression series4 series4 timeSeries 1) (fun d =>
    run_check (@run_ops N32 [OpShuffle rev_rng; OpUnshuffle; OpShuffle rev_rng] d) (fun d' =>
      bool_is (@needToLearn N32 d' 2) true && bool_is (@needToLearn N32 d' 1) false))).
  exists w. split; [leaf|]. exists w0. repeat split; leaf.
Qed.

(* the size hypothesis of C05 is needed: with fewer samples the first shuffle is undefined behaviour *)
Theorem C05_short_series_is_undefined :
  forall (N : Num) p (trIn trLab teIn teLab : list (list F)) rec d rng,
  mkData4 p trIn trLab teIn teLab timeSeries rec = Ok d ->
  (Z.of_nat (length trLab) < rec + 1)%Z -> fair_rng rng -> shuffle rng d = UB.
Proof. intros N. exact series_too_short_ub_l. Qed.
Print Assumptions C05_short_series_is_undefined.

Example C05_short_series_exists :
  exists d, @mkData2 N32 regression (rows32 [[0];[1]]%Z) (rows32 [[0];[1]]%Z) timeSeries 2 = Ok d /\
            @shuffle N32 rev_rng d = UB.
Proof.
  by_compute (run_check (@mkData2 N32 regression (rows32 [[0];[1]]%Z) (rows32 [[0];[1]]%Z) timeSeries 2) (fun d =>
     is_ub (@shuffle N32 rev_rng d))).
  exists w. split; leaf.
Qed.

(* ===== C06 refuted: the second shuffle can lose a sample and show another one twice ===== *)
Theorem C06_time_series_permutation_refuted :
  exists d d', @mkData2 N32 regression series4 series4 timeSeries 1 = Ok d /\
    @run_ops N32 [OpShuffle rev_rng; OpShuffle rev_rng] d = Ok d' /\
    (forall i x d'', i < 4 -> @getTrainingData N32 d' i 1 = Ok (x, d'') -> x <> [b32 3]) /\
    (exists d'', @getTrainingData N32 d' 1 1 = Ok ([b32 1], d'')) /\
    (exists d'', @getTrainingData N32 d' 3 1 = Ok ([b32 1], d'')).
Proof.
  by_compute (run_check (@mkData2 N32 regression series4 series4 timeSeries 1) (fun d =>
    run_check (@run_ops N32 [OpShuffle rev_rng; OpShuffle rev_rng] d) (fun d' =>
      row_is (@getTrainingData N32 d' 1 1) [b32 1] && (row_is (@getTrainingData N32 d' 3 1) [b32 1] &&
      forallb (fun i => negb (row_is (@getTrainingData N32 d' i 1) [b32 3])) (seq 0 4))))).
  exists w, w0. repeat (split; [leaf|]). split; [|split; leaf].
  intros i x d'' Hi Hg ->. rewrite forallb_forall in H. specialize (H i ltac:(apply in_seq; lia)).
  unfold row_is in H. rewrite Hg in H. cbn [run_check fst] in H.
  rewrite (proj2 (sfl_eqb_eq _ _) eq_refl) in H. discriminate.
Qed.
Print Assumptions C06_time_series_permutation_refuted.

(* the positive part: unshuffle() restores every sample at its place *)
Theorem C06_unshuffle_restores_order_partial :
  forall (N : Num) p (trIn trLab teIn teLab : list (list F)) rec d ops i x y,
  mkData4 p trIn trLab teIn teLab timeSeries rec = Ok d ->
  (rec + 1 <= Z.of_nat (length trLab))%Z -> Forall fair_op ops ->
  nth_error trIn i = Some x -> nth_error trLab i = Some y ->
  exists d', run_ops (ops ++ [OpUnshuffle]) d = Ok d' /\ exposes d' i x y /\
    needToLearn d' i = Ok true /\ isFirstTraining d' i = Ok (i =? 0).
Proof. intros N. exact series_unshuffle_l. Qed.
Print Assumptions C06_unshuffle_restores_order_partial.

(* ===== C53: every sample is learnt in any r+1 consecutive epochs ===== *)
Theorem C53_time_series_coverage :
  forall (N : Num) p (trIn trLab teIn teLab : list (list F)) rec d ops rngs s x y,
  mkData4 p trIn trLab teIn teLab timeSeries rec = Ok d ->
  length trIn = length trLab ->
  (rec + 1 <= Z.of_nat (length trLab))%Z ->
  Forall fair_op ops -> Forall fair_rng rngs -> Z.of_nat (length rngs) = (rec + 1)%Z ->
  nth_error trIn s = Some x -> nth_error trLab s = Some y ->
  exists n d' i, n < length rngs /\
    run_ops (ops ++ map OpShuffle (firstn (S n) rngs)) d = Ok d' /\
    i < length trLab /\ needToLearn d' i = Ok true /\ exposes d' i x y.
Proof. intros N. exact series_coverage_l. Qed.
Print Assumptions C53_time_series_coverage.

(* ===== C07 ===== *)
(* missing from C07: constant columns, see the refutation *)
Theorem C07_normalize_partial :
  forall (d : @Data RNum) (lo hi : R),
  (lo <= hi)%R -> @rect RNum (d_sizeOfData d) (s_inputs (d_train d)) -> @rect RNum (d_sizeOfData d) (s_inputs (d_test d)) ->
  s_inputs (d_train d) <> [] ->
  exists d', @normalize RNum lo hi d = Ok d' /\
    s_labels (d_train d') = s_labels (d_train d) /\ s_labels (d_test d') = s_labels (d_test d) /\
    length (s_inputs (d_train d')) = length (s_inputs (d_train d)) /\
    length (s_inputs (d_test d')) = length (s_inputs (d_test d)) /\
    forall j, j < d_sizeOfData d ->
      (exists a b : R, (0 <= a)%R /\
        (forall i, i < length (s_inputs (d_train d)) ->
           @cell RNum (s_inputs (d_train d')) i j = (a * @cell RNum (s_inputs (d_train d)) i j + b)%R) /\
        (forall i, i < length (s_inputs (d_test d)) ->
           @cell RNum (s_inputs (d_test d')) i j = (a * @cell RNum (s_inputs (d_test d)) i j + b)%R) /\
        ((lo < hi)%R -> (0 < a)%R) /\
        (constant_column (s_inputs (d_train d)) j -> a = (hi - lo)%R /\ b = lo)) /\
      (~ constant_column (s_inputs (d_train d)) j ->
        (forall i, i < length (s_inputs (d_train d)) -> (lo <= @cell RNum (s_inputs (d_train d')) i j <= hi)%R) /\
        (exists i, i < length (s_inputs (d_train d)) /\ @cell RNum (s_inputs (d_train d')) i j = lo) /\
        (exists i, i < length (s_inputs (d_train d)) /\ @cell RNum (s_inputs (d_train d')) i j = hi)).
Proof. exact normalize_R_l. Qed.
Print Assumptions C07_normalize_partial.

Example C07_hypotheses_met :
  exists d, @mkData2 RNum regression [[1%R; 2%R]; [3%R; 2%R]] [[0%R]; [0%R]] nonTemporal 0 = Ok d /\
    @rect RNum (d_sizeOfData d) (s_inputs (d_train d)) /\ ~ constant_column (s_inputs (d_train d)) 0 /\
    s_inputs (d_train d) <> [].
Proof.
  eexists; split; [reflexivity|]. cbn. split; [repeat constructor|]. split; [|discriminate].
  intros H. specialize (H 0 1 ltac:(cbn; lia) ltac:(cbn; lia)). cbn in H. lra.
Qed.

(* a constant column of 5 stays at 5 although [0,1] was asked for *)
Theorem C07_normalize_constant_column_refuted :
  exists d d', @mkData2 N32 regression (rows32 [[5];[5]]%Z) (rows32 [[0];[0]]%Z) nonTemporal 0 = Ok d /\
    @normalize N32 (b32 0) (b32 1) d = Ok d' /\
    exists d'', @getTrainingData N32 d' 0 1 = Ok ([b32 5], d'').
Proof.
  by_compute (run_check (@mkData2 N32 regression (rows32 [[5];[5]]%Z) (rows32 [[0];[0]]%Z) nonTemporal 0) (fun d =>
    run_check (@normalize N32 (b32 0) (b32 1) d) (fun d' => row_is (@getTrainingData N32 d' 0 1) [b32 5]))).
  exists w, w0. repeat split; leaf.
Qed.
Print Assumptions C07_normalize_constant_column_refuted.

(* ===== C08 ===== *)
(* what the constructor does decide, for every combination of row counts *)
Theorem C08_acceptance_partial :
  forall (N : Num) p (trIn trLab teIn teLab : list (list F)) rec,
  trIn <> [] -> trLab <> [] ->
  (label_ok p trLab -> exists d, mkData4 p trIn trLab teIn teLab nonTemporal rec = Ok d) /\
  (~ label_ok p trLab -> exists msg, mkData4 p trIn trLab teIn teLab nonTemporal rec = Throw msg).
Proof. intros N. exact mkData4_nontemporal_accepts_l. Qed.
Print Assumptions C08_acceptance_partial.

Theorem C08_flat_sequential_rejected_partial :
  forall (N : Num) p (trIn trLab teIn teLab : list (list F)) rec,
  trIn <> [] -> trLab <> [] ->
  exists msg, mkData4 p trIn trLab teIn teLab sequential rec = Throw msg.
Proof. intros N. exact mkData_sequential_2D_rejected_l. Qed.
Print Assumptions C08_flat_sequential_rejected_partial.

(* one input row, two label rows: accepted, and reading the second sample is undefined behaviour *)
Theorem C08_mismatch_accepted_refuted :
  exists d, @mkData2 N32 regression (rows32 [[1]]%Z) (rows32 [[1];[2]]%Z) nonTemporal 0 = Ok d /\
    s_size (d_train d) = 2 /\ @getTrainingData N32 d 1 1 = UB.
Proof.
  by_compute (run_check (@mkData2 N32 regression (rows32 [[1]]%Z) (rows32 [[1];[2]]%Z) nonTemporal 0) (fun d =>
    Nat.eqb (s_size (d_train d)) 2 && is_ub (@getTrainingData N32 d 1 1))).
  exists w. split; [leaf|]. split; [now apply Nat.eqb_eq|leaf].
Qed.
Print Assumptions C08_mismatch_accepted_refuted.

(* ===== C09 ===== *)
Theorem C09_label_matches_when_unshuffled_partial :
  forall (N : Num) p (trIn trLab teIn teLab : list (list F)) rec d ops d' i,
  mkData4 p trIn trLab teIn teLab nonTemporal rec = Ok d -> p = classification ->
  Forall fair_op ops -> run_ops (ops ++ [OpUnshuffle]) d = Ok d' ->
  i < length trLab ->
  exists y, (exists d2, getTrainingOutputs d' i 1 = Ok (y, d2)) /\ getTrainingLabel d' i = findOne y 0.
Proof. intros N. exact unshuffled_label_l. Qed.
Print Assumptions C09_label_matches_when_unshuffled_partial.

Theorem C09_label_after_shuffle_refuted :
  exists d d', @mkData2 N32 classification (rows32 [[1];[2]]%Z) (rows32 [[1;0];[0;1]]%Z) nonTemporal 0 = Ok d /\
    @shuffle N32 rev_rng d = Ok d' /\
    (exists d'', @getTrainingOutputs N32 d' 0 1 = Ok (map b32 [0;1]%Z, d'')) /\ @getTrainingLabel N32 d' 0 = Ok 0.
Proof.
  by_compute (run_check (@mkData2 N32 classification (rows32 [[1];[2]]%Z) (rows32 [[1;0];[0;1]]%Z) nonTemporal 0) (fun d =>
    run_check (@shuffle N32 rev_rng d) (fun d' => row_is (@getTrainingOutputs N32 d' 0 1) (map b32 [0;1]%Z) &&
       nat_is (@getTrainingLabel N32 d' 0) 0))).
  exists w, w0. repeat (split; [leaf|]). leaf.
Qed.
Print Assumptions C09_label_after_shuffle_refuted.

(* ===== C51 ===== *)
Theorem C51_precision_only_for_regression :
  forall (N : Num) (d : Data) (v : F),
  (d_problem d = regression ->
     exists d', setPrecision v d = Ok d' /\ getPrecision d' = Ok v /\ d_problem d' = regression /\
       (forall i x y, exposes d' i x y <-> exposes d i x y)) /\
  (d_problem d <> regression -> (exists m, setPrecision v d = Throw m) /\ (exists m, getPrecision d = Throw m)) /\
  (d_problem d <> regression ->
     exists d', setSeparator v d = Ok d' /\ getSeparator d' = Ok v /\ d_problem d' = d_problem d /\
       (forall i x y, exposes d' i x y <-> exposes d i x y)) /\
  (d_problem d = regression -> (exists m, setSeparator v d = Throw m) /\ (exists m, getSeparator d = Throw m)).
Proof. intros N. exact precision_separator_l. Qed.
Print Assumptions C51_precision_only_for_regression.

Example C51_hypotheses_met :
  exists d, @mkData2 N32 regression (rows32 [[1]]%Z) (rows32 [[1]]%Z) nonTemporal 0 = Ok d /\ d_problem d = regression.
Proof. eexists. split; reflexivity. Qed.
