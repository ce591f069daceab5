(* C66: what train() does with a time series and with sequences. *)
From Coq Require Import Permutation.
From Verif Require Import Base Num NumOrder NeuronModel LayerModel NetModel StatModel WaitModel DataModel DataSpec DataProofs SeriesProofs SeqProofs TrainModel TrainSpec TrainProofs TrainSafe TrainLogs TrainPresent.
From Verif Require Import FactoryModel FactorySpec PureSpec PureProps VisitSpec VisitProofs TrainUser ToolsModel Witness FactoryProps DataProps TrainProps.
Local Open Scope outcome_scope.
Local Open Scope nat_scope.

(* On a time series, shuffled, unshuffled or used for trainings before, with any number of recurrences and any network: train() follows one plan per epoch,
   in which every learning step comes at the end of a run over the sample's predecessors, the memory cleared exactly at the start of the run, no sample
   learned twice; any r+1 epochs in a row learn all the samples. *)
Theorem C66_series : forall (N : Num) k m p trIn trLab teIn teLab rec d0 d fuel env w b f s r,
  mkData4 p trIn trLab teIn teLab timeSeries rec = Ok d0 -> List.length trIn = List.length trLab -> List.length teIn = List.length teLab ->
  rect k trIn -> rect m trLab -> rect k teIn -> rect m teLab -> labels_ok p teLab -> (rec + 1 <= Z.of_nat (List.length trLab))%Z ->
  reused d0 d -> fair env -> train fuel env w b f s d = Some (Ok r) ->
  exists plans n, carries_out k trIn trLab (series_plans (Z.to_nat rec) (List.length trLab)) (sn_net s) (r_log r) plans n (sn_net (r_snn r)).
Proof.
  intros N k m p trIn trLab teIn teLab rec d0 d fuel env w b f s r H L1 L2 R1 R2 R3 R4 HL Hrc HR Hf HT. set (rc := Z.to_nat rec).
  destruct (mkData4_series_inv _ _ _ _ _ _ _ H) as (H1 & HI). fold rc in HI.
  assert (Hn0 : d_nature d0 = timeSeries). { unfold mkData4, initialize in H. destruct (rev trIn); [discriminate|]. destruct (rev trLab); [discriminate|]. apply bind_Ok_inv in H as (((t & tr) & te) & _ & H). apply bind_Ok_inv in H as (e & _ & H). destruct (negb _); [discriminate|]. injection H as <-. reflexivity. }
  assert (B0 : base k m rc trIn trLab d0). { split; [eapply user_data_ready, ud_series; eauto|]. split; [exact HI|]. split; [unfold rc; lia|exact Hn0]. }
  assert (G : forall fuel env w b f s d r, base k m rc trIn trLab d -> fair env -> train fuel env w b f s d = Some (Ok r) -> base k m rc trIn trLab (r_data r) /\
     exists plans n, carries_out k trIn trLab (series_plans rc (List.length trLab)) (sn_net s) (r_log r) plans n (sn_net (r_snn r))).
  { intros fuel' env' w' b' f' s' d' r' B Hf' T. pose proof B as (_ & _ & _ & Hn).
    destruct (train_visits k m trIn trLab (series_plans rc (List.length trLab)) (sn_net s') (SP k m rc trIn trLab) (SP_ready k m rc trIn trLab) (SP_good k m rc trIn trLab) (SP_shuffle k m rc trIn trLab)
      fuel' env' w' b' f' d' s' r' eq_refl Hf' (base_SP k m rc trIn trLab d' B)) as (plans & n & (B' & _) & C); [congruence|exact T|]. split; [exact B'|]. eauto. }
  assert (B : base k m rc trIn trLab d).
  { clear HT. induction HR as [|d o d' _ IH Ho E|fuel' env' w' b' f' s' d r' _ IH Hf' E]; [exact B0| |exact (proj1 (G _ _ _ _ _ _ _ _ IH Hf' E))].
    destruct IH as (A & I & Hs & Hn). destruct (ready_op k m d o Ho A) as (y & E2 & B' & _ & _ & _ & Hn'). rewrite E in E2. injection E2 as <-.
    destruct (run_ops_series rc trIn trLab [o] d (Forall_cons o Ho (Forall_nil _)) Hs I) as (x & E1 & A'). unfold run_ops in E1. cbn [ofold] in E1. rewrite E in E1. cbn [bind] in E1. injection E1 as <-.
    split; [exact B'|]. split; [exact A'|]. split; [exact Hs|congruence]. }
  exact (proj2 (G _ _ _ _ _ _ _ _ B Hf HT)).
Qed.
Print Assumptions C66_series.

(* On sequences, whatever was done with the data before: every epoch visits the sequences in the given order, each from its start to its end, learns every
   element with its label and clears the memory exactly at the start of each sequence. *)
Theorem C66_sequences : forall (N : Num) k m p trIn trLab teIn teLab rec d0 d fuel env w b f s r,
  mkData4_3D p trIn trLab teIn teLab sequential rec = Ok d0 -> Forall (fun v => v <> []) trIn -> Forall (fun v => v <> []) teIn ->
  List.length (concat trIn) = List.length trLab -> List.length (concat teIn) = List.length teLab ->
  rect k (concat trIn) -> rect m trLab -> rect k (concat teIn) -> rect m teLab -> labels_ok p teLab ->
  reused d0 d -> fair env -> train fuel env w b f s d = Some (Ok r) ->
  exists plans n, carries_out k (concat trIn) trLab (Forall (fun plan => plan = sequence_plan trIn)) (sn_net s) (r_log r) plans n (sn_net (r_snn r)).
Proof.
  intros N k m p trIn trLab teIn teLab rec d0 d fuel env w b f s r H F1 F2 L1 L2 R1 R2 R3 R4 HL HR Hf HT.
  destruct (sequence_state _ _ _ _ _ _ _ H F1 F2 L1) as (A1 & A2 & A3 & A4 & A5 & A6).
  assert (B0 : QP k m trIn trLab [] d0). { split; [eapply user_data_ready, ud_sequences; eauto|]. auto 10. }
  assert (G : forall fuel env w b f s d r, QP k m trIn trLab [] d -> fair env -> train fuel env w b f s d = Some (Ok r) -> QP k m trIn trLab [] (r_data r) /\
     exists plans n, carries_out k (concat trIn) trLab (Forall (fun plan => plan = sequence_plan trIn)) (sn_net s) (r_log r) plans n (sn_net (r_snn r))).
  { intros fuel' env' w' b' f' s' d' r' B Hf' T. pose proof B as (_ & _ & _ & _ & Hn & _).
    destruct (train_visits k m (concat trIn) trLab (Forall (fun plan => plan = sequence_plan trIn)) (sn_net s') (QP k m trIn trLab)) with (fuel := fuel') (env := env') (w := w') (b := b') (f := f') (d := d') (s := s') (r := r')
      as (plans & n & B' & C); auto.
    - intros ps x (Q1 & _ & Q2 & Q3 & _). auto.
    - intros ps x (_ & _ & _ & _ & _ & _ & _ & Q). exact Q.
    - intros ps x rng x' Q Hr E. exact (QP_shuffle k m trIn trLab ps x rng x' Q Hr E).
    - congruence.
    - split; [|eauto]. destruct B' as (Q1 & Q2 & Q3 & Q4 & Q5 & Q6 & Q7 & _). repeat (split; [assumption|]). constructor. }
  assert (B : QP k m trIn trLab [] d).
  { clear HT. induction HR as [|d o d' _ IH Ho E|fuel' env' w' b' f' s' d r' _ IH Hf' E]; [exact B0| |exact (proj1 (G _ _ _ _ _ _ _ _ IH Hf' E))].
    rewrite (QP_op _ _ _ _ _ _ _ _ IH Ho E). exact IH. }
  exact (proj2 (G _ _ _ _ _ _ _ _ B Hf HT)).
Qed.
Print Assumptions C66_sequences.

Definition ts_in : list (list (@F N32)) := rows32 [[1];[2];[3];[1];[2]]%Z.
Definition ts_lab : list (list (@F N32)) := rows32 [[2];[3];[1];[2];[3]]%Z.
Definition ts_ein : list (list (@F N32)) := rows32 [[1];[2]]%Z.
Definition ts_elab : list (list (@F N32)) := rows32 [[2];[3]]%Z.
(* 2 recurrences, 5 samples, 2 epochs: visits that learn and visits that only watch *)
Example C66_series_hypotheses : exists s0 d r, @newSnn N32 draws_t nomasks demo_id2 (b32q 1 100) (b32q 9 10) = Ok s0 /\ @mkData4 N32 regression ts_in ts_lab ts_ein ts_elab timeSeries 2 = Ok d /\
  @rect N32 1 ts_in /\ rect 1 ts_lab /\ rect 1 ts_ein /\ rect 1 ts_elab /\ labels_ok regression ts_elab /\ reused d d /\ fair env_t /\ train 10 env_t (lit_ep 2) 1 1 s0 d = Some (Ok r) /\
  (exists i x y s, In (Stepped i true x y s) (r_log r)) /\ (exists i x y s, In (Stepped i false x y s) (r_log r)).
Proof.
  assert (H : run_check (@newSnn N32 draws_t nomasks demo_id2 (b32q 1 100) (b32q 9 10)) (fun s0 =>
    run_check (@mkData4 N32 regression ts_in ts_lab ts_ein ts_elab timeSeries 2) (fun d =>
    snn_check (train 10 env_t (lit_ep 2) 1 1 s0 d) (fun r => existsb (fun e => match e with Stepped _ true _ _ _ => true | _ => false end) (r_log r) && existsb (fun e => match e with Stepped _ false _ _ _ => true | _ => false end) (r_log r)))) = true) by (vm_compute; reflexivity).
  unpack_all. apply snn_check_ex in H as (r & Er & H). apply Bool.andb_true_iff in H as (Ha & Hb). exists w, w0, r. split; [exact E|]. split; [exact E0|].
  do 4 (split; [repeat constructor|]). split; [intros Q; discriminate|]. split; [constructor|]. split; [intros j; apply rev_rng_fair|]. split; [exact Er|]. split.
  - apply existsb_exists in Ha as (e & He & Ha). destruct e as [| ? [|] ? ? ? | |]; try discriminate. eauto 6.
  - apply existsb_exists in Hb as (e & He & Hb). destruct e as [| ? [|] ? ? ? | |]; try discriminate. eauto 6.
Qed.
Definition sq_in : list (list (list (@F N32))) := [rows32 [[1];[2]]; rows32 [[3];[1];[2]]]%Z.
Definition sq_ein : list (list (list (@F N32))) := [rows32 [[1];[2]]]%Z.
Example C66_sequences_hypotheses : exists s0 d r, @newSnn N32 draws_t nomasks demo_id2 (b32q 1 100) (b32q 9 10) = Ok s0 /\ @mkData4_3D N32 regression sq_in ts_lab sq_ein ts_elab sequential 0 = Ok d /\
  Forall (fun v => v <> []) sq_in /\ Forall (fun v => v <> []) sq_ein /\ List.length (concat sq_in) = List.length ts_lab /\ List.length (concat sq_ein) = List.length ts_elab /\
  @rect N32 1 (concat sq_in) /\ rect 1 ts_lab /\ rect 1 (concat sq_ein) /\ rect 1 ts_elab /\ labels_ok regression ts_elab /\ reused d d /\ fair env_t /\ train 10 env_t (lit_ep 2) 1 1 s0 d = Some (Ok r) /\
  (exists i x y s, In (Stepped i true x y s) (r_log r)) /\ map v_reset (sequence_plan sq_in) = [true; false; true; false; false].
Proof.
  assert (H : run_check (@newSnn N32 draws_t nomasks demo_id2 (b32q 1 100) (b32q 9 10)) (fun s0 =>
    run_check (@mkData4_3D N32 regression sq_in ts_lab sq_ein ts_elab sequential 0) (fun d =>
    snn_check (train 10 env_t (lit_ep 2) 1 1 s0 d) (fun r => existsb (fun e => match e with Stepped _ true _ _ _ => true | _ => false end) (r_log r)))) = true) by (vm_compute; reflexivity).
  unpack_all. apply snn_check_ex in H as (r & Er & H). exists w, w0, r. split; [exact E|]. split; [exact E0|]. split; [repeat constructor; discriminate|]. split; [repeat constructor; discriminate|].
  do 2 (split; [reflexivity|]). do 4 (split; [repeat constructor|]). split; [intros Q; discriminate|]. split; [constructor|]. split; [intros j; apply rev_rng_fair|]. split; [exact Er|]. split; [|reflexivity].
  apply existsb_exists in H as (e & He & Ha). destruct e as [| ? [|] ? ? ? | |]; try discriminate. eauto 6.
Qed.
