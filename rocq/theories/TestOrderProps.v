(* C79: the results of an evaluation do not depend on the order of the test samples. *)
From Coq Require Import Permutation.
From Coq Require Raxioms Rdefinitions.
From Verif Require Import Base Num NumOrder HistProofs ActModel NeuronModel LayerModel NetModel StatModel StatSpec WaitModel DataModel FactoryModel FactorySpec DataSpec TrainModel TrainSpec TrainProofs TrainSafe TrainUser TrainUses EvalSpec EvalProofs EvalSized EvalCall EvalProps EvalCallProps
  FactoryProofs BuildProofs PureSpec PureProps SafeProofs AlikeProofs TestOrderSpec TestOrderProofs.
Local Open Scope outcome_scope.

Section P.
Context {N : Num}.
(* ---------- the answers, one by one ---------- *)
Variable k : nat.
Variable U : Net -> Prop.
Hypothesis U_next : forall n x r o n', U n -> List.length x = k -> net_output n x r = Ok (o, n') -> U n'.
Hypothesis U_same : forall a b x r o a' o' b', U a -> U b -> List.length x = k -> net_output a x r = Ok (o, a') -> net_output b x r = Ok (o', b') -> o = o'.
Variables (p : problem) (sep prec : F).
Definition sized (t : trial) : Prop := List.length (t_inputs t) = k.
Definition gives (t : trial) (j : judged) : Prop := exists n o n', U n /\ net_output n (t_inputs t) (t_reset t) = Ok (o, n') /\ judged_as p sep prec o (t_expected t) j.
Definition breaks (t : trial) : Prop := exists n o n', U n /\ net_output n (t_inputs t) (t_reset t) = Ok (o, n') /\ anyAbnormal o = true.
Lemma gives_fun t j j' : sized t -> gives t j -> gives t j' -> j = j'.
Proof.
  intros S (n & o & n1 & A & B & C) (n' & o' & n1' & A' & B' & C'). rewrite (U_same _ _ _ _ _ _ _ _ A A' S B B') in C. exact (judged_fun _ _ _ _ _ _ _ C C').
Qed.
Lemma answers_each n ts js n' : answers p sep prec n ts js n' -> Forall sized ts -> U n -> Forall2 gives (filter t_counts ts) js /\ (nn_nan n' = true <-> nn_nan n = true \/ Exists breaks ts).
Proof.
  induction 1 as [n|n t o n1 j rest js n' Hc E J _ IH|n t o n1 rest js n' Hc E _ IH]; intros S HU.
  - split; [constructor|]. split; [now left|]. intros [H|H]; [exact H|inversion H].
  - inversion S as [|? ? S1 S2]; subst. destruct (IH S2 (U_next _ _ _ _ _ HU S1 E)) as (A & B). cbn [filter]. rewrite Hc. split; [constructor; [exists n, o, n1; auto|exact A]|].
    destruct (net_output_w _ _ _ _ _ E) as (_ & _ & Hf & _). rewrite Hf in B. rewrite B. rewrite orb_true_iff. split.
    + intros [[H|H]|H]; [now left|right; left; exists n, o, n1; auto|right; now right].
    + intros [H|H]; [now left; left|]. inversion H as [? ? (n2 & o2 & n3 & U2 & E2 & B2)|? ? H2]; subst; [|now right]. left. right. rewrite (U_same _ _ _ _ _ _ _ _ HU U2 S1 E E2). exact B2.
  - inversion S as [|? ? S1 S2]; subst. destruct (IH S2 (U_next _ _ _ _ _ HU S1 E)) as (A & B). cbn [filter]. rewrite Hc. split; [exact A|].
    destruct (net_output_w _ _ _ _ _ E) as (_ & _ & Hf & _). rewrite Hf in B. rewrite B. rewrite orb_true_iff. split.
    + intros [[H|H]|H]; [now left|right; left; exists n, o, n1; auto|right; now right].
    + intros [H|H]; [now left; left|]. inversion H as [? ? (n2 & o2 & n3 & U2 & E2 & B2)|? ? H2]; subst; [|now right]. left. right. rewrite (U_same _ _ _ _ _ _ _ _ HU U2 S1 E E2). exact B2.
Qed.
Lemma filter_perm {A} (f : A -> bool) l l' : Permutation l l' -> Permutation (filter f l) (filter f l').
Proof.
  induction 1 as [|x l l' _ IH|x y l|l1 l2 l3 _ IH1 _ IH2]; cbn; [constructor|destruct (f x); [now constructor|exact IH]| |now transitivity (filter f l2)].
  destruct (f x), (f y); auto. constructor.
Qed.
Lemma gives_perm ts ts' : Permutation ts ts' -> forall js js', Forall sized ts -> Forall2 gives ts js -> Forall2 gives ts' js' -> Permutation js js'.
Proof.
  intros HP. assert (G : forall js, Forall2 gives ts js -> exists js', Forall2 gives ts' js' /\ Permutation js js').
  { induction HP as [|t l l' _ IH|t u l|l1 l2 l3 _ IH1 _ IH2]; intros js H.
    - inversion H; subst. exists []. split; constructor.
    - inversion H as [|? j ? js1 H1 H2]; subst. destruct (IH _ H2) as (js' & A & B). exists (j :: js'). split; constructor; auto.
    - inversion H as [|? j ? js1 H1 H2]; subst. inversion H2 as [|? j2 ? js2 H3 H4]; subst. exists (j2 :: j :: js2). split; [repeat constructor; auto|constructor].
    - destruct (IH1 _ H) as (js1 & A & B). destruct (IH2 _ A) as (js2 & C & D). exists js2. split; [exact C|]. now transitivity js1. }
  intros js js' S H H'. destruct (G _ H) as (js2 & A & B). assert (S' : Forall sized ts') by (rewrite Forall_forall in *; intros t Ht; apply S; eapply Permutation_in; [symmetry; exact HP|exact Ht]).
  replace js' with js2; [exact B|]. clear - A H' S' U_same. revert js' H'. induction A as [|t j l js A1 _ IH]; intros js' H'; inversion H' as [|? j' ? ? H1 H2]; subst; [reflexivity|]. inversion S'; subst. f_equal; [eapply gives_fun; eassumption|auto].
Qed.
Lemma any_order ts ts' s r s' r' : Permutation ts ts' -> Forall sized ts -> U (sn_net s) -> U (sn_net s') -> nn_nan (sn_net s') = nn_nan (sn_net s) -> sn_stats s' = sn_stats s -> evaluated p sep prec ts s r -> evaluated p sep prec ts' s' r' -> nn_nan (sn_net r) = false ->
  nn_nan (sn_net r') = false /\ same_but_errors (sn_stats r) (sn_stats r') /\ (sums_commute -> sn_stats r = sn_stats r').
Proof.
  intros HP S HU HU' Hn Hs [(js & A & B)|(Hnan & _)] E' Hr; [|congruence].
  assert (S' : Forall sized ts') by (rewrite Forall_forall in *; intros t Ht; apply S; eapply Permutation_in; [symmetry; exact HP|exact Ht]).
  destruct (answers_each _ _ _ _ A S HU) as (A1 & A2). assert (B0 : nn_nan (sn_net s) = false /\ ~ Exists breaks ts).
  { split; [destruct (nn_nan (sn_net s)) eqn:X; [|reflexivity]; assert (nn_nan (sn_net r) = true) by (apply A2; now left); congruence|]. intros X. assert (nn_nan (sn_net r) = true) by (apply A2; now right). congruence. }
  destruct B0 as (B1 & B2). assert (B3 : ~ Exists breaks ts'). { intros X. apply B2. rewrite Exists_exists in *. destruct X as (t & Ht & X). exists t. split; [eapply Permutation_in; [symmetry; exact HP|exact Ht]|exact X]. }
  destruct E' as [(js' & A' & B')|(Hnan & shown & lft & js' & st & nan & Et & _ & A' & _)].
  - destruct (answers_each _ _ _ _ A' S' HU') as (A1' & A2'). split.
    { destruct (nn_nan (sn_net r')) eqn:X; [|reflexivity]. destruct (proj1 A2' eq_refl) as [Y|Y]; [congruence|contradiction]. }
    assert (P := gives_perm _ _ (filter_perm t_counts _ _ HP) js js' ltac:(rewrite Forall_forall in *; intros t Ht; apply filter_In in Ht as (Ht & _); auto) A1 A1').
    assert (T := test_agree sums_commute (fun x => x) js js' (sn_stats s) (sn_stats s') P ltac:(now rewrite Hs) ltac:(rewrite Hs; repeat split)). rewrite B, B' in T. exact T.
  - exfalso. assert (Ssh : Forall sized shown) by (rewrite Et in S'; apply Forall_app in S'; apply S'). destruct (answers_each _ _ _ _ A' Ssh HU') as (_ & A2'). destruct (proj1 A2' Hnan) as [Y|Y]; [congruence|]. apply B3. rewrite Et, Exists_app. now constructor.
Qed.
End P.
(* A network made of feed-forward layers, after any life; two data sets with the same test samples in different orders (the training
   samples may be others): after both evaluations the accuracies, the F1 score, all counters and what is derived from them are the same,
   whatever the numbers; with numbers whose sums do not depend on the order, so are the errors. *)
Theorem C79_any_order : forall (N : Num) draws masks shape rest lr mo s0 s m d d' trials trials' p separator precision env env' r r',
  newSnn draws masks (Input (map Z.of_nat shape) :: rest) lr mo = Ok s0 -> Forall (fun n => 0 < n) shape -> Forall sane_kernel rest -> Forall feed_forward rest -> Forall supported_pooling (nn_layers (sn_net s0)) ->
  trainable (sn_net s0) -> net_numberOfOutputs (sn_net s0) = Ok m -> lived (cell_count shape) m s0 s -> user_data (cell_count shape) m d -> user_data (cell_count shape) m d' ->
  tests d trials p separator precision -> tests d' trials' p separator precision -> Permutation trials trials' ->
  evaluateData env s d = Ok r -> evaluateData env' s d' = Ok r' -> hasNan r = false ->
  hasNan r' = false /\ same_but_errors (sn_stats (r_snn r)) (sn_stats (r_snn r')) /\ (sums_commute -> sn_stats (r_snn r) = sn_stats (r_snn r')).
Proof.
  intros N draws masks shape rest lr mo s0 s m d d' ts ts' p sep prec env env' r r' H0 Hsh Hk Hf HP HT Hm HL HD HD' HTs HTs' HPm H H' Hn.
  assert (Hsane : sane_descriptions (Input (map Z.of_nat shape) :: rest)) by (split; [|exact Hk]; cbn [d_shape Input]; clear -Hsh; induction Hsh; cbn; constructor; auto; lia).
  assert (C0 : construct draws masks (Input (map Z.of_nat shape) :: rest) lr mo = Ok (sn_net s0)) by (unfold newSnn in H0; apply bind_Ok_inv in H0 as (net & Hc & H0); apply bind_Ok_inv in H0 as (o & Ho & H0); injection H0 as <-; exact Hc).
  assert (Hprod : product (d_shape (hd (Input []) (Input (map Z.of_nat shape) :: rest))) = Ok (Z.of_nat (cell_count shape))).
  { destruct (construct_wf _ _ _ _ _ _ C0 Hsane HP) as (k & mm & W & Hp). cbn [hd d_shape Input] in *. pose proof Hp as Hp2. unfold product in Hp2. apply product_inv in Hp2. change 1%Z with (Z.of_nat 1) in Hp2. rewrite fold_mul_nat in Hp2. rewrite Hp. now rewrite Hp2. }
  destruct (newSnn_ok _ _ _ _ _ _ _ H0 Hsane HP HT Hprod) as (m1 & O0 & E1 & I0). rewrite Hm in E1. injection E1 as <-.
  pose proof (lived_uses _ _ _ _ O0 I0 HL) as US.
  destruct (C61_evaluate N _ _ _ _ _ _ s d (cell_count shape) m env H0 Hsane HP HT Hprod Hm HL HD) as (q & Q1 & _ & _ & _ & _ & Q2). rewrite H in Q1. injection Q1 as <-. specialize (Q2 _ _ _ _ HTs).
  destruct (C61_evaluate N _ _ _ _ _ _ s d' (cell_count shape) m env' H0 Hsane HP HT Hprod Hm HL HD') as (q' & Q1' & _ & _ & _ & _ & Q2'). rewrite H' in Q1'. injection Q1' as <-. specialize (Q2' _ _ _ _ HTs').
  assert (SZ : Forall (sized (cell_count shape)) ts). { pose proof (trials_sized _ _ _ _ _ _ _ (user_data_ready _ _ _ HD) (tests_holds _ _ _ _ _ HTs)) as Q. eapply Forall_impl; [|exact Q]. cbn. intros t (? & _). assumption. }
  apply (any_order (cell_count shape) (fun n => uses (cell_count shape) (sn_net s0) n /\ net_weights n = net_weights (sn_net s))) with (p := p) (sep := sep) (prec := prec) (ts := ts) (ts' := ts') (s := s) (s' := s); auto.
  - intros n x rs o n' (Un & Wn) Hx E. split; [eapply uses_trans; [exact Un|]; eapply uses_predict; [exact Hx|exact E|apply uses_none]|]. apply net_output_w in E as (-> & _). exact Wn.
  - intros a b x rs o a' o' b' (Ua & Wa) (Ub & Wb) Hx Ea Eb. destruct (C19_parameters_decide _ _ _ _ _ a _ _ _ _ _ b shape rest C0 C0 Hsh Hk Hf HP HP Ua Ub ltac:(congruence) x rs rs Hx) as (o1 & a1 & b1 & X & X'). congruence.
Qed.
Print Assumptions C79_any_order.
(* in real arithmetic the whole statistics are the same *)
Theorem C79_sums_of_reals : @sums_commute RNum.
Proof. intros x a b. cbn. apply (eq_trans (Raxioms.Rplus_assoc _ _ _)). apply (eq_trans (f_equal (Rdefinitions.Rplus x) (Raxioms.Rplus_comm _ _))). symmetry. apply Raxioms.Rplus_assoc. Qed.
Lemma plain_order {N : Num} ins ins' labels labels' : Permutation (combine ins labels) (combine ins' labels') -> Permutation (plain_trials ins labels) (plain_trials ins' labels').
Proof. apply Permutation_map. Qed.
Print Assumptions C79_sums_of_reals.
From Verif Require Import Witness FactoryProps DataProps TrainProps.
Definition demo_one : list (@LDesc N32) := [@Input N32 [1]%Z; @FullyConnected N32 1 a_identity []].
(* an evaluation of a network by two data sets with the same three test samples in another order *)
Definition two_orders (ds : list (@LDesc N32)) (teIn teIn' teLab teLab' : list (list f32)) (differs : @Run N32 -> @Run N32 -> Prop) : Prop :=
  exists s0 d d' r r', @newSnn N32 draws_t nomasks ds (b32q 1 100) (b32q 9 10) = Ok s0 /\
  @mkData4 N32 regression teIn teLab teIn teLab nonTemporal 0 = Ok d /\ @mkData4 N32 regression teIn teLab teIn' teLab' nonTemporal 0 = Ok d' /\ Permutation (combine teIn teLab) (combine teIn' teLab') /\
  evaluateData env_t s0 d = Ok r /\ evaluateData env_t s0 d' = Ok r' /\ differs r r'.
Local Notation orders_check ds teIn teIn' teLab teLab' ck := (
  run_check (@newSnn N32 draws_t nomasks ds (b32q 1 100) (b32q 9 10)) (fun s0 =>
  run_check (@mkData4 N32 regression teIn teLab teIn teLab nonTemporal 0) (fun d => run_check (@mkData4 N32 regression teIn teLab teIn' teLab' nonTemporal 0) (fun d' =>
  run_check (evaluateData env_t s0 d) (fun r => run_check (evaluateData env_t s0 d') (fun r' => ck r r')))))) (only parsing).
Lemma orders_ex ds teIn teIn' teLab teLab' (ck : @Run N32 -> @Run N32 -> bool) (P : @Run N32 -> @Run N32 -> Prop) : Permutation (combine teIn teLab) (combine teIn' teLab') -> (forall r r', ck r r' = true -> P r r') ->
  orders_check ds teIn teIn' teLab teLab' ck = true -> two_orders ds teIn teIn' teLab teLab' P.
Proof.
  intros HP Hc H. apply run_check_ex in H as (s0 & E & H). apply run_check_ex in H as (d & E1 & H). apply run_check_ex in H as (d' & E2 & H). apply run_check_ex in H as (r & E3 & H). apply run_check_ex in H as (r' & E4 & H).
  exists s0, d, d', r, r'. do 3 (split; [assumption|]). split; [exact HP|]. split; [assumption|]. split; [assumption|]. now apply Hc.
Qed.
(* float32: the mean absolute error depends on the order *)
Definition mae_differs (r r' : @Run N32) : Prop := hasNan r = false /\ hasNan r' = false /\ st_rate (sn_stats (r_snn r)) = st_rate (sn_stats (r_snn r')) /\ @feqb N32 (st_mae (sn_stats (r_snn r))) (st_mae (sn_stats (r_snn r'))) = false /\ @feqb N32 (st_mae (sn_stats (r_snn r))) (st_mae (sn_stats (r_snn r))) = true.
Theorem C79_float_error_refuted : two_orders demo_one (rows32 [[1];[2];[3]]%Z) (rows32 [[3];[2];[1]]%Z) (rows32 [[268435456];[14];[14]]%Z) (rows32 [[14];[14];[268435456]]%Z) mae_differs.
Proof.
  apply orders_ex with (ck := fun r r' : @Run N32 => negb (hasNan r) && negb (hasNan r') && sf_eqb (st_rate (sn_stats (r_snn r))) (st_rate (sn_stats (r_snn r'))) && negb (@feqb N32 (st_mae (sn_stats (r_snn r))) (st_mae (sn_stats (r_snn r')))) && @feqb N32 (st_mae (sn_stats (r_snn r))) (st_mae (sn_stats (r_snn r)))).
  - exact (Permutation_rev (combine (rows32 [[1];[2];[3]]%Z) (rows32 [[268435456];[14];[14]]%Z))).
  - intros r r' H. apply andb_prop in H as [H A]. apply andb_prop in H as [H B]. apply andb_prop in H as [H C]. apply andb_prop in H as [H D]. repeat split; try (now apply negb_true_iff); try assumption. now apply sf_eqb_eq.
  - vm_compute. reflexivity.
Qed.
Print Assumptions C79_float_error_refuted.
(* an abnormal output: nothing is reported when it comes first, the accuracy over all samples when it comes last *)
Definition rate_differs (r r' : @Run N32) : Prop := hasNan r = true /\ hasNan r' = true /\ @feqb N32 (st_rate (sn_stats (r_snn r))) (st_rate (sn_stats (r_snn r))) = false /\ @feqb N32 (st_rate (sn_stats (r_snn r'))) (st_rate (sn_stats (r_snn r'))) = true.
Theorem C79_abnormal_refuted : two_orders demo_one [[b32_nan]; [b32 1]] [[b32 1]; [b32_nan]] (rows32 [[1];[1]]%Z) (rows32 [[1];[1]]%Z) rate_differs.
Proof.
  apply orders_ex with (ck := fun r r' : @Run N32 => hasNan r && hasNan r' && negb (@feqb N32 (st_rate (sn_stats (r_snn r))) (st_rate (sn_stats (r_snn r)))) && @feqb N32 (st_rate (sn_stats (r_snn r'))) (st_rate (sn_stats (r_snn r')))).
  - cbn [rows32 map combine]; apply perm_swap.
  - intros r r' H. apply andb_prop in H as [H A]. apply andb_prop in H as [H B]. apply andb_prop in H as [H C]. repeat split; try assumption. now apply negb_true_iff.
  - vm_compute. reflexivity.
Qed.
Print Assumptions C79_abnormal_refuted.
(* a recurrent layer, whose memory outlives its reset: the order matters *)
Definition error_differs (r r' : @Run N32) : Prop := hasNan r = false /\ hasNan r' = false /\ @feqb N32 (st_mae (sn_stats (r_snn r))) (st_mae (sn_stats (r_snn r'))) = false.
Theorem C79_recurrent_refuted : two_orders demo_rec (rows32 [[1];[2]]%Z) (rows32 [[2];[1]]%Z) (rows32 [[0];[0]]%Z) (rows32 [[0];[0]]%Z) error_differs.
Proof.
  apply orders_ex with (ck := fun r r' : @Run N32 => negb (hasNan r) && negb (hasNan r') && negb (@feqb N32 (st_mae (sn_stats (r_snn r))) (st_mae (sn_stats (r_snn r'))))).
  - cbn [rows32 map combine]; apply perm_swap.
  - intros r r' H. apply andb_prop in H as [H A]. apply andb_prop in H as [H B]. repeat split; now apply negb_true_iff.
  - vm_compute. reflexivity.
Qed.
Print Assumptions C79_recurrent_refuted.
(* the hypotheses: the same network with one layer, three different test samples in two orders *)
Example C79_hypotheses_met : exists s0 d d' r r', @newSnn N32 draws_t nomasks demo_t (b32q 1 100) (b32q 9 10) = Ok s0 /\ demo_t = @Input N32 (map Z.of_nat [2]) :: tl demo_t /\ Forall (fun n => 0 < n) [2] /\ Forall (@sane_kernel N32) (tl demo_t) /\ Forall (@feed_forward N32) (tl demo_t) /\
  Forall (@supported_pooling N32) (nn_layers (sn_net s0)) /\ trainable (sn_net s0) /\ net_numberOfOutputs (sn_net s0) = Ok 2 /\ @lived N32 (cell_count [2]) 2 s0 s0 /\ @user_data N32 (cell_count [2]) 2 d /\ @user_data N32 (cell_count [2]) 2 d' /\
  @tests N32 d (@plain_trials N32 trIn_t trLab_t) regression (@flit N32 1 2) (@flit N32 1 10) /\ @tests N32 d' (@plain_trials N32 (rev trIn_t) (rev trLab_t)) regression (@flit N32 1 2) (@flit N32 1 10) /\
  Permutation (@plain_trials N32 trIn_t trLab_t) (@plain_trials N32 (rev trIn_t) (rev trLab_t)) /\ trIn_t <> rev trIn_t /\ List.length trIn_t = 3 /\
  evaluateData env_t s0 d = Ok r /\ evaluateData env_t s0 d' = Ok r' /\ hasNan r = false.
Proof.
  destruct demo_run as (s0 & _ & _ & A & _ & C & D & E & _).
  assert (U : forall teIn teLab d, @mkData4 N32 regression trIn_t trLab_t teIn teLab nonTemporal 0 = Ok d -> List.length teIn = List.length teLab -> Forall (fun x : list f32 => List.length x = 2) teIn -> Forall (fun x : list f32 => List.length x = 2) teLab -> user_data 2 2 d).
  { intros teIn teLab d H L X Y. eapply ud_plain; [exact H|reflexivity|exact L|repeat constructor|repeat constructor|exact X|exact Y|discriminate]. }
  assert (H : run_check (@newSnn N32 draws_t nomasks demo_t (b32q 1 100) (b32q 9 10)) (fun s0 => run_check (@mkData4 N32 regression trIn_t trLab_t trIn_t trLab_t nonTemporal 0) (fun d => run_check (@mkData4 N32 regression trIn_t trLab_t (rev trIn_t) (rev trLab_t) nonTemporal 0) (fun d' =>
     run_check (evaluateData env_t s0 d) (fun r => run_check (evaluateData env_t s0 d') (fun r' => negb (hasNan r)))))) = true) by (vm_compute; reflexivity).
  apply run_check_ex in H as (s1 & E0 & H). apply run_check_ex in H as (d & E1 & H). apply run_check_ex in H as (d' & E2 & H). apply run_check_ex in H as (r & E3 & H). apply run_check_ex in H as (r' & E4 & H). rewrite A in E0. injection E0 as <-.
  exists s0, d, d', r, r'. split; [exact A|]. split; [reflexivity|]. split; [repeat constructor|]. split; [repeat constructor|]. split; [repeat constructor|]. split; [exact C|]. split; [exact E|]. split; [exact D|]. split; [constructor|].
  split; [apply (U _ _ _ E1); repeat constructor|]. split; [apply (U _ _ _ E2); repeat constructor|]. split; [eapply te_plain; [exact E1|reflexivity]|]. split; [eapply te_plain; [exact E2|reflexivity]|].
  split; [apply plain_order; change (combine (rev trIn_t) (rev trLab_t)) with (rev (combine trIn_t trLab_t)); apply Permutation_rev|]. split; [discriminate|]. split; [reflexivity|]. split; [exact E3|]. split; [exact E4|]. now apply negb_true_iff.
Qed.
