(* Property theorems about evaluate(data) called by the user (C61). *)
From Verif Require Import Base Num NeuronModel LayerModel NetModel HistProofs StatModel StatSpec StatProofs WaitModel DataModel DataSpec DataProofs TrainModel TrainSpec TrainProofs EvalSpec EvalProofs PureSpec PureProps.
From Verif Require Import FactorySpec FactoryProofs BuildProofs SafeNet TrainSafe TrainUser TrainPresent TrainUses EvalSized EvalCall ActModel StatReal Float32 Witness StatProps FactoryModel FactoryProps DataProps TrainProps EvalProps.
Local Open Scope nat_scope.
Local Open Scope outcome_scope.

(* ===== C61 ===== *)
(* A network made by the constructor, after any life, evaluated on data of its format: the call comes back; the parameters, the number
   of trainings, the data set and the ability to train again are untouched; what it reports is about the test samples of the data. *)
Theorem C61_evaluate : forall (N : Num) draws masks ds lr mo s0 s d k m env,
  newSnn draws masks ds lr mo = Ok s0 -> sane_descriptions ds -> Forall supported_pooling (nn_layers (sn_net s0)) -> trainable (sn_net s0) -> product (d_shape (hd (Input []) ds)) = Ok (Z.of_nat k) ->
  net_numberOfOutputs (sn_net s0) = Ok m -> lived k m s0 s -> user_data k m d ->
  exists r, evaluateData env s d = Ok r /\
    net_weights (sn_net (r_snn r)) = net_weights (sn_net s) /\ nn_trainings (sn_net (r_snn r)) = nn_trainings (sn_net s) /\ r_data r = d /\ sn_idle (r_snn r) = true /\
    forall trials p separator precision, tests d trials p separator precision -> evaluated p separator precision trials s (r_snn r).
Proof.
  intros N draws masks ds lr mo s0 s d k m env HN Hs HP HT Hk Hm HL HD.
  destruct (newSnn_ok _ _ _ _ _ _ _ HN Hs HP HT Hk) as (m' & O0 & Hm' & I0). rewrite Hm in Hm'. injection Hm' as <-. destruct (lived_ok k m s0 s O0 I0 HL) as (Os & Is).
  pose proof (user_data_ready _ _ _ HD) as R. destruct (evaluateData_ok env k m s d Os R) as (r & E & _ & Ed). exists r. split; [exact E|].
  assert (K : net_weights (sn_net (r_snn r)) = net_weights (sn_net s) /\ nn_trainings (sn_net (r_snn r)) = nn_trainings (sn_net s)).
  { apply (looks_keep k). clear -E R. unfold evaluateData, evaluate in E. cbn [r_snn r_data] in E. apply bind_Ok_inv in E as ((st & s1) & H1 & E). apply (evaluateLoop_looks k m) in H1; [|exact R]. cbn [with_index with_stats sn_net] in H1.
    destruct st; [injection E as <-; exact H1|]. destruct (_ && _); injection E as <-; exact H1. }
  split; [apply K|]. split; [apply K|]. split; [exact Ed|]. split. { apply evaluateData_flags in E as [(_ & E)|(_ & E)]; congruence. }
  intros ts p sep prec HTs. apply tests_holds in HTs. exact (proj1 (evaluate_judges env ts p sep prec (mkRun s d 0 []) r HTs E)).
Qed.
Print Assumptions C61_evaluate.

(* Feed-forward networks with the same parameters, whatever else happened to them, evaluated on data sets with the same test samples
   (shuffled or trained on in between): the same accuracy, weighted accuracy, F1 score, mean absolute and root mean squared error, and
   the same counters per output. *)
Theorem C61_same_parameters_same_figures : forall (N : Num) draws masks draws' masks' shape rest lr mo lr' mo' s0 s0' s s' m d d' trials p separator precision env env' r r',
  newSnn draws masks (Input (map Z.of_nat shape) :: rest) lr mo = Ok s0 -> newSnn draws' masks' (Input (map Z.of_nat shape) :: rest) lr' mo' = Ok s0' ->
  Forall (fun n => 0 < n) shape -> Forall sane_kernel rest -> Forall feed_forward rest -> Forall supported_pooling (nn_layers (sn_net s0)) -> Forall supported_pooling (nn_layers (sn_net s0')) ->
  trainable (sn_net s0) -> trainable (sn_net s0') -> net_numberOfOutputs (sn_net s0) = Ok m -> net_numberOfOutputs (sn_net s0') = Ok m ->
  lived (cell_count shape) m s0 s -> lived (cell_count shape) m s0' s' ->
  net_weights (sn_net s) = net_weights (sn_net s') -> nn_nan (sn_net s) = nn_nan (sn_net s') -> e_nan env = e_nan env' ->
  user_data (cell_count shape) m d -> user_data (cell_count shape) m d' -> tests d trials p separator precision -> tests d' trials p separator precision ->
  evaluateData env s d = Ok r -> evaluateData env' s' d' = Ok r' ->
  figures (sn_stats (r_snn r)) = figures (sn_stats (r_snn r')) /\ st_clusters (sn_stats (r_snn r)) = st_clusters (sn_stats (r_snn r')).
Proof.
  intros N draws masks draws' masks' shape rest lr mo lr' mo' s0 s0' s s' m d d' ts p sep prec env env' r r' H0 H0' Hsh Hk Hf HP HP' HT HT' Hm Hm' HL HL' HW Hn He HD HD' HTs HTs' H H'.
  assert (Hsane : sane_descriptions (Input (map Z.of_nat shape) :: rest)) by (split; [|exact Hk]; cbn [d_shape Input]; clear -Hsh; induction Hsh; cbn; constructor; auto; lia).
  assert (Hprod : product (d_shape (hd (Input []) (Input (map Z.of_nat shape) :: rest))) = Ok (Z.of_nat (cell_count shape))).
  { assert (X : exists net, construct draws masks (Input (map Z.of_nat shape) :: rest) lr mo = Ok net /\ Forall supported_pooling (nn_layers net)) by (unfold newSnn in H0; apply bind_Ok_inv in H0 as (net & Hc & H0); apply bind_Ok_inv in H0 as (o & Ho & H0); injection H0 as <-; eauto).
    destruct X as (net & Hc & Hpn). destruct (construct_wf _ _ _ _ _ _ Hc Hsane Hpn) as (k & mm & W & Hp). cbn [hd d_shape Input] in *. pose proof Hp as Hp2. unfold product in Hp2. apply product_inv in Hp2. change 1%Z with (Z.of_nat 1) in Hp2. rewrite fold_mul_nat in Hp2. rewrite Hp. now rewrite Hp2. }
  destruct (newSnn_ok _ _ _ _ _ _ _ H0 Hsane HP HT Hprod) as (m1 & O0 & E1 & I0). rewrite Hm in E1. injection E1 as <-.
  destruct (newSnn_ok _ _ _ _ _ _ _ H0' Hsane HP' HT' Hprod) as (m1' & O0' & E1' & I0'). rewrite Hm' in E1'. injection E1' as <-.
  pose proof (lived_uses _ _ _ _ O0 I0 HL) as U. pose proof (lived_uses _ _ _ _ O0' I0' HL') as U'. destruct (lived_ok _ _ _ _ O0 I0 HL) as ((_ & Os) & _). destruct (lived_ok _ _ _ _ O0' I0' HL') as ((_ & Os') & _).
  assert (C0 : construct draws masks (Input (map Z.of_nat shape) :: rest) lr mo = Ok (sn_net s0)) by (unfold newSnn in H0; apply bind_Ok_inv in H0 as (net & Hc & H0); apply bind_Ok_inv in H0 as (o & Ho & H0); injection H0 as <-; exact Hc).
  assert (C0' : construct draws' masks' (Input (map Z.of_nat shape) :: rest) lr' mo' = Ok (sn_net s0')) by (unfold newSnn in H0'; apply bind_Ok_inv in H0' as (net & Hc & H0'); apply bind_Ok_inv in H0' as (o & Ho & H0'); injection H0' as <-; exact Hc).
  pose proof (tests_holds _ _ _ _ _ HTs) as K. pose proof (tests_holds _ _ _ _ _ HTs') as K'.
  set (alike := fun a b : Net => uses (cell_count shape) (sn_net s0) a /\ uses (cell_count shape) (sn_net s0') b /\ net_weights a = net_weights b).
  destruct (evaluations_agree (cell_count shape) alike) with (env := env) (env' := env') (ts := ts) (p := p) (sep := sep) (prec := prec) (s := s) (s' := s') (d := d) (d' := d') (r := r) (r' := r') as (A & B & _); auto.
  - intros a b x rs (Ua & Ub & Wab) Hx o a' o' b' Oa Ob.
    destruct (C19_parameters_decide _ _ _ _ _ a _ _ _ _ _ b shape rest C0 C0' Hsh Hk Hf HP HP' Ua Ub Wab x rs rs Hx) as (o1 & a1 & b1 & Q & Q').
    assert (o = o1) by congruence. assert (o' = o1) by congruence. split; [congruence|]. split; [|split].
    + eapply uses_trans; [exact Ua|]. eapply uses_predict; [exact Hx|exact Oa|apply uses_none].
    + eapply uses_trans; [exact Ub|]. eapply uses_predict; [exact Hx|exact Ob|apply uses_none].
    + apply net_output_w in Oa as (-> & _). apply net_output_w in Ob as (-> & _). exact Wab.
  - pose proof (trials_sized _ _ _ _ _ _ _ (user_data_ready _ _ _ HD) K) as Q. eapply Forall_impl; [|exact Q]. cbn. intros t (? & _). assumption.
  - split; [exact U|split; [exact U'|exact HW]].
  - congruence.
Qed.
Print Assumptions C61_same_parameters_same_figures.

(* Compiled with any verbosity, the same call reads through a null pointer as soon as the data set has a test sample. *)
Theorem C61_verbose_refuted : forall (N : Num) draws masks ds lr mo s0 s d k m env,
  newSnn draws masks ds lr mo = Ok s0 -> sane_descriptions ds -> Forall supported_pooling (nn_layers (sn_net s0)) -> trainable (sn_net s0) -> product (d_shape (hd (Input []) ds)) = Ok (Z.of_nat k) ->
  net_numberOfOutputs (sn_net s0) = Ok m -> lived k m s0 s -> user_data k m d -> nn_nan (sn_net s) = false -> s_size (d_test d) <> 0 ->
  evaluateVerbose env s d = UB.
Proof.
  intros N draws masks ds lr mo s0 s d k m env HN Hs HP HT Hk Hm HL HD Hn Hz.
  destruct (newSnn_ok _ _ _ _ _ _ _ HN Hs HP HT Hk) as (m' & O0 & Hm' & I0). rewrite Hm in Hm'. injection Hm' as <-. destruct (lived_ok k m s0 s O0 I0 HL) as ((On & Os) & Is).
  pose proof (user_data_ready _ _ _ HD) as R. unfold evaluateVerbose. destruct (s_size (d_test d)) as [|z] eqn:Ez; [congruence|]. cbn [with_index with_stats sn_net]. rewrite Hn.
  destruct (evaluateLoop_ok (e_nan env) k m d R (S z) (with_index (with_stats s (startTesting (sn_stats s))) 0)) as (stop & s1 & E & _).
  { split; [exact On|]. cbn. rewrite map_length. exact Os. } { cbn. lia. }
  cbn [evaluateLoop] in E. change (nn_nan (sn_net (with_index (with_stats s (startTesting (sn_stats s))) 0))) with (nn_nan (sn_net s)) in E. rewrite Hn in E.
  destruct (evaluateTurn _ d) as [s2|z2|] eqn:Et; [reflexivity|discriminate E|discriminate E].
Qed.
Print Assumptions C61_verbose_refuted.

(* evaluate does not check the data as train does: data sets of another width are rejected by train; evaluate reads past the end of the
   weights if the samples are longer, and reports figures of some other network if they are shorter *)
Definition other_width (trIn teIn : list (list (@F N32))) (bad : outcome (@Run N32) -> bool) : Prop := exists s0 d, @newSnn N32 draws_t nomasks demo_t (b32q 1 100) (b32q 9 10) = Ok s0 /\
  @mkData4 N32 classification trIn (rows32 [[1;0];[0;1]]%Z) teIn teLab_t nonTemporal 0 = Ok d /\
  (exists e, train 10 env_t (lit_ep 1) 1 1 s0 d = Some (Throw e)) /\ bad (evaluateData env_t s0 d) = true.
Theorem C61_other_width_refuted :
  other_width (rows32 [[1;2;3];[4;5;6]]%Z) (rows32 [[7;8;9]]%Z) (fun o => match o with UB => true | _ => false end) /\
  other_width (rows32 [[1];[2]]%Z) (rows32 [[3]]%Z) (fun o => match o with Ok r => negb (nn_nan (sn_net (r_snn r))) | _ => false end).
Proof.
  assert (G : forall trIn teIn bad, run_check (@newSnn N32 draws_t nomasks demo_t (b32q 1 100) (b32q 9 10)) (fun s0 =>
    run_check (@mkData4 N32 classification trIn (rows32 [[1;0];[0;1]]%Z) teIn teLab_t nonTemporal 0) (fun d =>
     match train 10 env_t (lit_ep 1) 1 1 s0 d with Some (Throw _) => true | _ => false end && bad (evaluateData env_t s0 d))) = true -> other_width trIn teIn bad).
  { intros trIn teIn bad H. unfold other_width. unpack_all. eexists _, _. split; [eassumption|]. split; [eassumption|]. split; [|assumption].
    match goal with H : match train ?a ?b ?c ?d ?e ?f ?g with _ => _ end = true |- _ => destruct (train a b c d e f g) as [[]|]; try discriminate H end. eauto. }
  split; apply G; vm_compute; reflexivity.
Qed.
Print Assumptions C61_other_width_refuted.

(* With a recurrent layer the same network evaluated twice in a row on the same data reports different errors, for plain data as for a
   time series: nothing clears the memory before the first test sample. *)
Definition demo_rec : list (@LDesc N32) := [@Input N32 [1]%Z; @Recurrence N32 1 a_identity []].
Definition twice (nt : nature) (recurrences : Z) : Prop := exists s0 d r r', @newSnn N32 draws_t nomasks demo_rec (b32q 1 100) (b32q 9 10) = Ok s0 /\
  @mkData4 N32 regression (rows32 [[1];[2]]%Z) (rows32 [[1];[0]]%Z) (rows32 [[1];[2]]%Z) (rows32 [[1];[2]]%Z) nt recurrences = Ok d /\
  evaluateData env_t s0 d = Ok r /\ evaluateData env_t (r_snn r) d = Ok r' /\ nn_nan (sn_net (r_snn r')) = false /\ net_weights (sn_net (r_snn r)) = net_weights (sn_net s0) /\
  st_mae (sn_stats (r_snn r)) <> st_mae (sn_stats (r_snn r')).
Theorem C61_recurrent_refuted : twice nonTemporal 0 /\ twice timeSeries 1.
Proof.
  assert (G : forall nt recurrences, run_check (@newSnn N32 draws_t nomasks demo_rec (b32q 1 100) (b32q 9 10)) (fun s0 =>
    run_check (@mkData4 N32 regression (rows32 [[1];[2]]%Z) (rows32 [[1];[0]]%Z) (rows32 [[1];[2]]%Z) (rows32 [[1];[2]]%Z) nt recurrences) (fun d =>
    run_check (evaluateData env_t s0 d) (fun r => run_check (evaluateData env_t (r_snn r) d) (fun r' => negb (nn_nan (sn_net (r_snn r'))) && negb (@feqb N32 (st_mae (sn_stats (r_snn r))) (st_mae (sn_stats (r_snn r')))) &&
      @feqb N32 (st_mae (sn_stats (r_snn r'))) (st_mae (sn_stats (r_snn r'))))))) = true -> twice nt recurrences).
  { intros nt recurrences H. unfold twice. unpack_all. do 4 eexists. split; [eassumption|]. split; [eassumption|]. split; [eassumption|]. split; [eassumption|].
    match goal with H : negb (nn_nan _) = true |- _ => apply Bool.negb_true_iff in H; split; [exact H|] end. split.
    - eapply evaluateData_weights. eassumption.
    - intros X. match goal with H : negb (feqb _ _) = true |- _ => rewrite X in H; apply Bool.negb_true_iff in H end. congruence. }
  split; apply G; vm_compute; reflexivity.
Qed.
Print Assumptions C61_recurrent_refuted.

(* the demonstration network of C13, trained, evaluated before and after a prediction on the data before and after the training *)
Example C61_hypotheses : exists s0 d r, @newSnn N32 draws_t nomasks demo_t (b32q 1 100) (b32q 9 10) = Ok s0 /\ demo_t = @Input N32 (map Z.of_nat [2]) :: tl demo_t /\
  sane_descriptions demo_t /\ Forall (@feed_forward N32) (tl demo_t) /\ Forall (@supported_pooling N32) (nn_layers (sn_net s0)) /\ trainable (sn_net s0) /\ net_numberOfOutputs (sn_net s0) = Ok 2 /\
  lived 2 2 s0 (r_snn r) /\ user_data 2 2 d /\ user_data 2 2 (r_data r) /\ nn_nan (sn_net (r_snn r)) = false /\
  tests d (plain_trials teIn_t teLab_t) classification (@flit N32 1 2) (@flit N32 1 10) /\ tests (r_data r) (plain_trials teIn_t teLab_t) classification (@flit N32 1 2) (@flit N32 1 10) /\ s_size (d_test d) <> 0.
Proof.
  destruct demo_run as (s0 & d & r & A & B & C & D & E & G & H & I & _). exists s0, d, r. pose proof (demo_user d B) as U. assert (Fa : fair env_t) by (intros k; apply rev_rng_fair).
  assert (T : tests d (plain_trials teIn_t teLab_t) classification (@flit N32 1 2) (@flit N32 1 10)) by (eapply te_plain; [exact B|reflexivity]).
  split; [exact A|]. split; [reflexivity|]. split; [split; [repeat constructor|]; repeat constructor; cbn; lia|]. split; [repeat constructor|]. split; [exact C|]. split; [exact E|]. split; [exact D|].
  split; [eapply lv_train; [apply lv_auto, lv_none|exact U|exact Fa|exact H]|]. split; [exact U|]. split; [eapply ud_trained; [exact U|exact Fa|exact H]|]. split; [exact I|]. split; [exact T|]. split; [eapply te_trained; [exact T|exact H]|].
  apply tests_holds in T as (_ & _ & _ & -> & _). discriminate.
Qed.
