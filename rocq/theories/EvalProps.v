(* Property theorems about evaluations (C58) and the count of training steps (C59). *)
From Coq Require Import Reals Lra.
From Verif Require Import Base Num NumOrder NeuronModel LayerModel NetModel HistProofs StatModel StatSpec StatProofs WaitModel DataModel DataSpec DataProofs SeqProofs TrainModel TrainSpec TrainProofs EvalSpec EvalProofs PureSpec PureProps.
From Verif Require Import FactorySpec TrainSafe TrainUser EvalSized StatReal Float32 Witness StatProps FactoryModel FactoryProps DataProps TrainProps.
Local Open Scope nat_scope.
Local Open Scope outcome_scope.

(* ===== C58 ===== *)
(* every evaluation of a training shows the test samples of the data set to the network as it is at that moment, and what the
   network object reports is the statistics of a test with these answers and nothing else *)
Theorem C58_evaluations : forall (N : Num) d trials p separator precision, tests d trials p separator precision ->
  forall fuel env w b f s r, train fuel env w b f s d = Some (Ok r) ->
  forall before s1 after, r_log r = before ++ Evaluated s1 :: after -> evaluated p separator precision trials (state_after s before) s1.
Proof. intros N d ts p sep prec HT fuel env w b f s r H before s1 after E. apply tests_holds in HT. exact (proj2 (train_told _ _ _ _ _ _ _ _ _ _ _ _ HT H) _ _ _ E). Qed.
Print Assumptions C58_evaluations.

(* the answers of a completed evaluation: as many as samples that count *)
Lemma answers_length {N : Num} p sep prec n ts js n' : answers p sep prec n ts js n' -> List.length js = List.length (filter t_counts ts).
Proof. induction 1; cbn [filter]; [reflexivity| |]; rewrite H; cbn [List.length]; auto. Qed.
Lemma plain_count {N : Num} ins labels : List.length ins = List.length labels -> List.length (filter t_counts (plain_trials ins labels)) = List.length ins.
Proof. revert labels. induction ins as [|x l IH]; intros [|y m] H; cbn in *; try discriminate; [reflexivity|]. f_equal. apply (IH m). now injection H. Qed.
Lemma series_count {N : Num} ins labels : List.length ins = List.length labels -> List.length (filter t_counts (series_trials ins labels)) = List.length ins.
Proof.
  intros H. unfold series_trials. replace (filter _ _) with (map (fun s : nat * (list F * list F) => mkTrial (fst (snd s)) (fst s =? 0) true (snd (snd s))) (combine (seq 0 (List.length ins)) (combine ins labels))).
  - rewrite map_length, !combine_length, seq_length. lia.
  - symmetry. generalize (combine (seq 0 (List.length ins)) (combine ins labels)). intros l. induction l as [|a l IH]; [reflexivity|]. cbn [map filter t_counts]. now rewrite IH.
Qed.
Lemma filter_combine {N : Num} (rows : list (list F * (bool * bool))) (labels : list (list F)) : List.length rows = List.length labels ->
  List.length (filter t_counts (map (fun s => mkTrial (fst (fst s)) (fst (snd (fst s))) (snd (snd (fst s))) (snd s)) (combine rows labels))) = List.length (filter (fun r => snd (snd r)) rows).
Proof. revert labels. induction rows as [|a l IH]; intros [|y m] H; cbn in *; try discriminate; [reflexivity|]. destruct (snd (snd a)); cbn; auto. Qed.
Lemma one_last {N : Num} (v : list (list F)) k : v <> [] -> List.length (filter (fun r => snd (snd r)) (map (fun s : nat * list F => (snd s, (fst s =? 0, S (fst s) =? k + List.length v))) (combine (seq k (List.length v)) v))) = 1.
Proof.
  revert k. induction v as [|x v IH]; intros k H; [congruence|]. cbn [List.length seq combine map filter snd fst]. destruct v as [|y v].
  - cbn [List.length]. replace (S k =? k + 1) with true by (symmetry; apply Nat.eqb_eq; lia). reflexivity.
  - replace (S k =? k + S (List.length (y :: v))) with false by (symmetry; apply Nat.eqb_neq; cbn; lia).
    rewrite <- (IH (S k)) by discriminate. f_equal. f_equal. apply map_ext. intros s. replace (k + S (List.length (y :: v))) with (S k + List.length (y :: v)) by lia. reflexivity.
Qed.
Lemma sequence_count {N : Num} seqs labels : Forall (fun v => v <> []) seqs -> List.length (concat seqs) = List.length labels -> List.length (filter t_counts (sequence_trials seqs labels)) = List.length seqs.
Proof.
  intros HF HL. unfold sequence_trials. rewrite filter_combine. 2: { rewrite <- HL, <- (rows_concat seqs), map_length. reflexivity. } clear HL.
  induction HF as [|v l Hv _ IH]; [reflexivity|]. cbn [flat_map]. rewrite filter_app, app_length, IH. cbn [List.length]. replace (List.length (filter _ (sequence_rows v))) with 1; [reflexivity|]. symmetry. exact (one_last v 0 Hv).
Qed.
(* one answer is judged for each plain sample, for each sample of a time series and for each sequence *)
Theorem C58_one_answer_per_sample : forall (N : Num) p separator precision,
  (forall ins labels n js n', List.length ins = List.length labels -> answers p separator precision n (plain_trials ins labels) js n' -> List.length js = List.length ins) /\
  (forall ins labels n js n', List.length ins = List.length labels -> answers p separator precision n (series_trials ins labels) js n' -> List.length js = List.length ins) /\
  (forall seqs labels n js n', Forall (fun v => v <> []) seqs -> List.length (concat seqs) = List.length labels -> answers p separator precision n (sequence_trials seqs labels) js n' -> List.length js = List.length seqs).
Proof.
  intros N p sep prec. split; [|split].
  - intros ins labels n js n' HL H. apply answers_length in H. now rewrite H, plain_count.
  - intros ins labels n js n' HL H. apply answers_length in H. now rewrite H, series_count.
  - intros seqs labels n js n' HF HL H. apply answers_length in H. now rewrite H, sequence_count.
Qed.
Print Assumptions C58_one_answer_per_sample.

(* the answers of a network of the right format on data of the right format, when nothing abnormal came out *)
Lemma answers_nan {N : Num} p sep prec n ts js n' : answers p sep prec n ts js n' -> nn_nan n = true -> nn_nan n' = true.
Proof. induction 1 as [|n t o n1 j rest js n' Hc E _ _ IH|n t o n1 rest js n' Hc E _ IH]; intros H; auto; apply IH; apply net_output_w in E as (_ & _ & -> & _); rewrite H; reflexivity. Qed.
Lemma answers_ok {N : Num} (ok : F -> Prop) p sep prec k m : (forall x : F, fnormal x = true -> ok x) -> ok sep -> forall n ts js n', answers p sep prec n ts js n' ->
  sized k m n -> Forall (fun t => List.length (t_inputs t) = k /\ List.length (t_expected t) = m /\ Forall ok (t_expected t)) ts -> nn_nan n' = false -> Forall (judged_ok ok m) js.
Proof.
  intros Hok Hsep n ts js n' H. induction H as [|n t o n1 j rest js n' Hc E Hj HA IH|n t o n1 rest js n' Hc E HA IH]; intros HS HF Hn; [constructor| |]; inversion HF as [|? ? (Lx & Ly & Oy) HF']; subst.
  - destruct (sized_output (List.length (t_inputs t)) (List.length (t_expected t)) n _ _ o n1 HS eq_refl E) as (Lo & S1). constructor; [|now apply IH].
    assert (No : Forall ok o).
    { destruct (nn_nan n1) eqn:En1; [rewrite (answers_nan _ _ _ _ _ _ _ HA En1) in Hn; discriminate|]. apply net_output_w in E as (_ & _ & En & _). rewrite En in En1. apply Bool.orb_false_iff in En1 as [_ En1].
      apply Forall_forall. intros v Hv. apply Hok. unfold anyAbnormal in En1. destruct (fnormal v) eqn:Ev; [reflexivity|]. assert (X : existsb (fun x : F => negb (fnormal x)) o = true) by (apply existsb_exists; exists v; rewrite Ev; auto). congruence. }
    unfold judged_as in Hj. destruct p; [destruct Hj as (c & v & _ & _ & _ & ->)|subst j|subst j]; cbn; auto.
  - destruct (sized_output (List.length (t_inputs t)) (List.length (t_expected t)) n _ _ o n1 HS eq_refl E) as (Lo & S1). now apply IH.
Qed.
Lemma trials_sized {N : Num} k m d ts p sep prec : ready k m d -> holds d ts p sep prec -> Forall (fun t => List.length (t_inputs t) = k /\ List.length (t_expected t) = m) ts.
Proof.
  intros R (_ & _ & _ & Hs & HT). apply Forall_forall. intros t Ht. apply In_nth_error in Ht as (i & Hi). destruct (HT i t Hi) as (C1 & _ & _ & C4).
  assert (Hlt : i < s_size (d_test d)) by (rewrite Hs; apply nth_error_Some; congruence). destruct (ready_test_row k m d i R Hlt) as (x & y & Ex & Lx & Ey & Ly & _).
  unfold getTestingData, lget in C1. rewrite Ex in C1. rewrite Ey in C4. injection C1 as <-. injection C4 as <-. auto.
Qed.
Lemma state_sized {N : Num} k m s log : snn_sized k m s -> Forall (sized_event k m) log -> snn_sized k m (state_after s log).
Proof. intros HS H. unfold state_after. revert s HS. induction H as [|e l He _ IH]; intros s HS; cbn [fold_left]; [exact HS|]. apply IH. destruct e; auto. Qed.
(* the whole chain: a network made by the constructor, with one output per neuron of its last layer, used at will, trained on data of its
   format; what every evaluation reports when nothing abnormal came out of the network *)
Definition one_output_per_neuron {N : Num} (s : Snn) (m : nat) : Prop := forall a t, nn_layers (sn_net s) = a :: t -> cell_count (getShapeOfOutput (last t a)) = m.
Lemma evaluation_judged (N : Num) (ok : F -> Prop) : (forall x : F, fnormal x = true -> ok x) -> forall draws masks ds lr mo s0 s d k m trials p separator precision fuel env w b f r before s1 after,
  newSnn draws masks ds lr mo = Ok s0 -> sane_descriptions ds -> Forall supported_pooling (nn_layers (sn_net s0)) -> product (d_shape (hd (Input []) ds)) = Ok (Z.of_nat k) ->
  net_numberOfOutputs (sn_net s0) = Ok m -> one_output_per_neuron s0 m -> lived k m s0 s -> user_data k m d -> fair env ->
  tests d trials p separator precision -> ok separator -> Forall (fun t => Forall ok (t_expected t)) trials ->
  train fuel env w b f s d = Some (Ok r) -> r_log r = before ++ Evaluated s1 :: after -> nn_nan (sn_net s1) = false ->
  List.length (st_clusters (sn_stats (state_after s before))) = m /\ exists js, answers p separator precision (sn_net (state_after s before)) trials js (sn_net s1) /\
    Forall (judged_ok ok m) js /\ test (sn_stats (state_after s before)) js = Ok (sn_stats s1).
Proof.
  intros Hok draws masks ds lr mo s0 s d k m ts p sep prec fuel env w b f r before s1 after HN Hs HP Hk Hm H1 HL HD Hf HT Osep Oy H E Hnan.
  pose proof (newSnn_sized _ _ _ _ _ _ k m HN Hs HP Hk Hm H1) as S0. pose proof (lived_sized k m s0 s S0 HL) as SS. pose proof (user_data_ready k m d HD) as R.
  pose proof (train_kept k m _ _ _ _ _ _ _ _ H SS R Hf) as (_ & _ & KL). rewrite E in KL. apply Forall_app in KL as [KB _]. pose proof (state_sized k m s before SS KB) as (SB & OB).
  split; [exact OB|]. destruct (C58_evaluations N d ts p sep prec HT fuel env w b f s r H before s1 after E) as [(js & A & B)|(X & _)]; [|congruence].
  exists js. split; [exact A|]. split; [|exact B]. eapply (answers_ok ok p sep prec k m Hok Osep); [exact A|exact SB| |exact Hnan].
  pose proof (trials_sized k m d ts p sep prec R (tests_holds _ _ _ _ _ HT)) as Q. apply Forall_forall. intros t Ht. rewrite Forall_forall in Q, Oy. destruct (Q t Ht). auto.
Qed.
Theorem C58_accuracy_real : forall draws masks ds lr mo s0 s d k m trials p separator precision fuel env w b f r before s1 after,
  @newSnn RNum draws masks ds lr mo = Ok s0 -> sane_descriptions ds -> Forall supported_pooling (nn_layers (sn_net s0)) -> product (d_shape (hd (Input []) ds)) = Ok (Z.of_nat k) ->
  net_numberOfOutputs (sn_net s0) = Ok m -> one_output_per_neuron s0 m -> lived k m s0 s -> user_data k m d -> fair env ->
  tests d trials p separator precision -> filter t_counts trials <> [] ->
  train fuel env w b f s d = Some (Ok r) -> r_log r = before ++ Evaluated s1 :: after -> nn_nan (sn_net s1) = false ->
  exists js, answers p separator precision (sn_net (state_after s before)) trials js (sn_net s1) /\
    st_rate (sn_stats s1) = (INR (count (correct m) js) / INR (List.length (filter t_counts trials)))%R.
Proof.
  intros draws masks ds lr mo s0 s d k m ts p sep prec fuel env w b f r before s1 after HN Hs HP Hk Hm H1 HL HD Hf HT Hne H E Hnan.
  destruct (evaluation_judged RNum (fun _ => True) (fun _ _ => I) _ _ _ _ _ s0 s d k m ts p sep prec fuel env w b f r before s1 after HN Hs HP Hk Hm H1 HL HD Hf HT I) as (OB & js & A & J & B); auto.
  { apply Forall_forall. intros t _. apply Forall_forall. auto. }
  pose proof (answers_length _ _ _ _ _ _ _ A) as L. destruct (C15_accuracy_real m (sn_stats (state_after s before)) js OB J) as (st & E1 & E2 & _). { intros ->. destruct (filter t_counts ts); [congruence|discriminate]. }
  rewrite B in E1. injection E1 as <-. exists js. split; [exact A|]. rewrite <- L. exact E2.
Qed.
Print Assumptions C58_accuracy_real.
Lemma normal32_not_nan expf tanhf (x : @F (Num32 expf tanhf)) : fnormal x = true -> not_nan x.
Proof. intros H E. subst x. discriminate. Qed.
Theorem C58_accuracy_float : forall expf tanhf draws masks ds lr mo s0 s d k m (trials : list (@trial (Num32 expf tanhf))) p (separator precision : @F (Num32 expf tanhf)) fuel env w b f r before s1 after,
  @newSnn (Num32 expf tanhf) draws masks ds lr mo = Ok s0 -> sane_descriptions ds -> Forall supported_pooling (nn_layers (sn_net s0)) -> product (d_shape (hd (Input []) ds)) = Ok (Z.of_nat k) ->
  net_numberOfOutputs (sn_net s0) = Ok m -> one_output_per_neuron s0 m -> lived k m s0 s -> user_data k m d -> fair env ->
  tests d trials p separator precision -> filter t_counts trials <> [] -> (Z.of_nat (List.length (filter t_counts trials)) <= 2 ^ 24)%Z ->
  not_nan separator -> Forall (fun t : @trial (Num32 expf tanhf) => Forall not_nan (t_expected t)) trials ->
  train fuel env w b f s d = Some (Ok r) -> r_log r = before ++ Evaluated s1 :: after -> nn_nan (sn_net s1) = false ->
  exists js v, answers p separator precision (sn_net (state_after s before)) trials js (sn_net s1) /\ fin32 (st_rate (sn_stats s1)) v /\
    v = Flocq.Core.Generic_fmt.round Flocq.Core.Zaux.radix2 (SpecFloat.fexp 24 128)
          (Flocq.IEEE754.BinarySingleNaN.round_mode Flocq.IEEE754.BinarySingleNaN.mode_NE)
          (INR (count (correct m) js) / INR (List.length (filter t_counts trials))) /\ (0 <= v <= 1)%R.
Proof.
  intros expf tanhf draws masks ds lr mo s0 s d k m ts p sep prec fuel env w b f r before s1 after HN Hs HP Hk Hm H1 HL HD Hf HT Hne Hb Osep Oy H E Hnan.
  destruct (evaluation_judged (Num32 expf tanhf) not_nan (normal32_not_nan expf tanhf) _ _ _ _ _ s0 s d k m ts p sep prec fuel env w b f r before s1 after HN Hs HP Hk Hm H1 HL HD Hf HT Osep) as (OB & js & A & J & B); auto.
  pose proof (answers_length _ _ _ _ _ _ _ A) as L. destruct (C15_accuracy_float expf tanhf m (sn_stats (state_after s before)) js OB J) as (st & v & E1 & E2 & E3 & E4).
  { intros ->. destruct (filter t_counts ts); [congruence|discriminate]. } { now rewrite L. }
  rewrite B in E1. injection E1 as <-. exists js, v. split; [exact A|]. split; [exact E2|]. rewrite <- L. auto.
Qed.
Print Assumptions C58_accuracy_float.
(* a training of demo_t with an evaluation before and after each epoch: the hypotheses hold, every evaluation is complete *)
Example C58_hypotheses : exists s0 d r, @newSnn N32 draws_t nomasks demo_t (b32q 1 100) (b32q 9 10) = Ok s0 /\ sane_descriptions demo_t /\
  Forall (@supported_pooling N32) (nn_layers (sn_net s0)) /\ product (d_shape (hd (Input []) demo_t)) = Ok (Z.of_nat 2) /\ net_numberOfOutputs (sn_net s0) = Ok 2 /\ @one_output_per_neuron N32 s0 2 /\
  lived 2 2 s0 (auto_on s0) /\ user_data 2 2 d /\ fair env_t /\
  tests d (@plain_trials N32 teIn_t teLab_t) classification (@flit N32 1 2) (@flit N32 1 10) /\ filter t_counts (@plain_trials N32 teIn_t teLab_t) <> [] /\
  train 10 env_t (lit_ep 2) 2 1 (auto_on s0) d = Some (Ok r) /\ hasNan r = false /\ exists before s1 after, r_log r = before ++ Evaluated s1 :: after.
Proof.
  destruct demo_run as (s0 & d & r & A & B & C & D & E & G & H & I & J & _). exists s0, d, r. split; [exact A|].
  split; [split; [repeat constructor|]; repeat constructor; cbn; lia|]. split; [exact C|]. split; [reflexivity|]. split; [exact D|].
  split. { unfold trainable in E. unfold net_numberOfOutputs in D. unfold one_output_per_neuron. intros a t Ea. rewrite Ea in *. destruct t as [|b t].
    - exfalso. clear - A Ea. revert Ea. by_compute (run_check (@newSnn N32 draws_t nomasks demo_t (b32q 1 100) (b32q 9 10)) (fun s => 2 =? List.length (nn_layers (sn_net s)))). rewrite A in E. injection E as <-. intros Ea. match goal with H : (2 =? _) = true |- _ => rewrite Ea in H; discriminate H end.
    - rewrite SafeNet.lget_last in D. rewrite SafeNet.last_cons in *. cbn [bind] in D. injection D as D. destruct E as [E|E]; congruence. }
  split; [apply lv_auto, lv_none|]. split; [now apply demo_user|]. split; [intros k; apply rev_rng_fair|].
  split; [eapply te_plain; [exact B|reflexivity]|]. split; [discriminate|]. split; [exact H|]. split; [exact I|].
  clear - J. assert (Q : exists s1, In (Evaluated s1) (r_log r)).
  { revert J. induction (r_log r) as [|e l IH]; [discriminate|]. destruct e; intros J; try discriminate J; [eexists; left; reflexivity|]. change (marks (Saved path s :: l)) with (marks l) in J. destruct (IH J) as (s1 & Hs). exists s1. now right. }
  destruct Q as (s1 & Hs). apply in_split in Hs as (a & b & ->). eauto.
Qed.

(* ===== C59 ===== *)
From Verif Require Import CountProofs TrainPresent ToolsModel.
(* getNumberOfTraining(): 0 at first, one more for each learning step, unchanged by predictions and evaluations *)
Theorem C59_number_of_trainings : forall (N : Num),
  (forall draws masks ds lr mo s0, newSnn draws masks ds lr mo = Ok s0 -> nn_trainings (sn_net s0) = 0%Z) /\
  (forall s x reset o s', computeOutput s x reset = Ok (o, s') -> nn_trainings (sn_net s') = nn_trainings (sn_net s)) /\
  (forall s x reset o s', computeCluster s x reset = Ok (o, s') -> nn_trainings (sn_net s') = nn_trainings (sn_net s)) /\
  (forall fuel env w b f s d r, train fuel env w b f s d = Some (Ok r) ->
    nn_trainings (sn_net (r_snn r)) = (nn_trainings (sn_net s) + Z.of_nat (List.length (filter (fun e => match e with Stepped _ true _ _ _ => true | _ => false end) (r_log r))))%Z).
Proof.
  intros N. assert (HO : forall s x reset o s', computeOutput s x reset = Ok (o, s') -> nn_trainings (sn_net s') = nn_trainings (sn_net s)).
  { intros s x reset o s' H. unfold computeOutput in H. apply bind_Ok_inv in H as ((o1 & n1) & E & H). injection H as <- <-. now apply net_output_w in E as (_ & E & _). }
  split; [|split; [|split]].
  - intros draws masks ds lr mo s0 H. unfold newSnn in H. apply bind_Ok_inv in H as (net & Hc & H). apply bind_Ok_inv in H as (o & _ & H). injection H as <-. unfold construct in Hc. binds Hc. destruct (_ =? 0)%Z in Hc; [injection Hc as <-; reflexivity|discriminate].
  - exact HO.
  - intros s x reset o s' H. unfold computeCluster in H. apply bind_Ok_inv in H as ((o1 & s1) & E & H). injection H as <- <-. eapply HO; exact E.
  - intros fuel env w b f s d r H. exact (train_counts s fuel env w b f d r H).
Qed.
Print Assumptions C59_number_of_trainings.
(* so after n undisturbed epochs on plain data, floor(samples / batch size) for each epoch *)
Theorem C59_plain_trainings : forall (N : Num) (ok : F -> Prop), order_laws N ok -> forall k m p trIn trLab teIn teLab rec d0 d fuel env n b f s r,
  mkData4 p trIn trLab teIn teLab nonTemporal rec = Ok d0 -> List.length trIn = List.length trLab -> List.length teIn = List.length teLab ->
  rect k trIn -> rect m trLab -> rect k teIn -> rect m teLab -> labels_ok p teLab -> reused d0 d -> fair env -> undisturbed env -> (Z.of_nat n < int_max)%Z ->
  train fuel env (lit_ep (Z.of_nat n)) b f s d = Some (Ok r) -> hasNan r = false ->
  nn_trainings (sn_net (r_snn r)) = (nn_trainings (sn_net s) + Z.of_nat (n * (s_size (d_train d) / Z.to_nat b)))%Z.
Proof.
  intros N ok OL k m p trIn trLab teIn teLab rec d0 d fuel env n b f s r H L1 L2 R1 R2 R3 R4 HL HR Hf Hu Hn HT Hnan.
  destruct (C56_epochs_present_each_sample_once N k m p trIn trLab teIn teLab rec d0 d fuel env _ b f s r H L1 L2 R1 R2 R3 R4 HL HR Hf HT) as (os & n' & P).
  destruct (C13_schedule N ok OL env n f fuel b s d r Hu Hn HT Hnan) as (EM & _).
  assert (Hb : 0 < Z.to_nat b). { unfold train in HT. destruct (validData s d b) as [u|z|] eqn:V; try discriminate. apply validData_Ok in V as (Hb & _). lia. }
  destruct (C13_counts (s_size (d_train d)) (Z.to_nat b) n f Hb) as (_ & CS & _). rewrite <- EM in CS.
  rewrite (proj2 (proj2 (proj2 (C59_number_of_trainings N))) _ _ _ _ _ _ _ _ HT), <- CS. f_equal. f_equal. clear - P.
  induction P as [|log os n net' o P IH|log os o n net' x y rand s1 P IH|log os n net' s1 P IH|log os n net' q s1 P IH]; [reflexivity| | | |];
    unfold marks in *; rewrite flat_map_app, !filter_app, !app_length, IH; cbn [flat_map mark_of app filter List.length]; lia.
Qed.
Print Assumptions C59_plain_trainings.
Example C59_hypotheses : exists s0 d r, @newSnn N32 draws_t nomasks demo_t (b32q 1 100) (b32q 9 10) = Ok s0 /\
  @mkData4 N32 classification trIn_t trLab_t teIn_t teLab_t nonTemporal 0 = Ok d /\ @rect N32 2 trIn_t /\ rect 2 trLab_t /\ rect 2 teIn_t /\ rect 2 teLab_t /\ labels_ok classification teLab_t /\
  reused d d /\ fair env_t /\ undisturbed env_t /\ train 10 env_t (lit_ep (Z.of_nat 2)) 2 1 (auto_on s0) d = Some (Ok r) /\ hasNan r = false /\ s_size (d_train d) / 2 = 1.
Proof.
  destruct demo_run as (s0 & d & r & A & B & C & D & E & G & H & I & J & _). exists s0, d, r. split; [exact A|]. split; [exact B|].
  do 4 (split; [repeat constructor|]). split; [intros _; constructor; [|constructor]; exists (b32 1); split; [right; left; reflexivity|reflexivity]|].
  split; [constructor|]. split; [intros k; apply rev_rng_fair|]. split; [intros k; reflexivity|]. split; [exact H|]. split; [exact I|]. rewrite G. reflexivity.
Qed.
