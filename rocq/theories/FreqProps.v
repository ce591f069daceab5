(* C75: how often a feed-forward network is evaluated during train() does not change what it learns. *)
From Verif Require Import Base Num ActModel NeuronModel LayerModel NetModel StatModel WaitModel DataModel FactoryModel FactorySpec TrainModel TrainSpec TrainProofs PureSpec AlikeProofs LookSpec LookProofs LookProps FreqSpec.
From Verif Require Witness TrainProps.
Local Open Scope outcome_scope.

Section P.
Context {N : Num}.
Local Arguments steps : simpl never.
Lemma forward_rel rand a b x t : netrel a b -> orel (with_out netrel) (net_outputForTraining rand a x t) (net_outputForTraining rand b x t).
Proof.
  intros (H & A & B & C). unfold net_outputForTraining. assert (X := chain_rel (fun i l v => layer_outputForTraining (rand i) l v t) (fun i p q z => layer_forward_rel (rand i) p q z t) _ _ H 0 x).
  destruct (nn_layers a) as [|a0 u], (nn_layers b) as [|b0 v]; try (inversion H; fail); [exact I|]. eapply orel_bind; [exact X|]. intros [o1 u1] [o2 v1] (Eo & H1). cbn in Eo, H1. subst o2. split; [reflexivity|]. cbn [snd]. rewrite A, B, C. repeat split. now apply F2_weak.
Qed.
Lemma later_self a b : later a b -> netrel a a -> netrel b b.
Proof.
  induction 1 as [net|net x t o n1 n2 E _ IH|net rand x t o n1 n2 E _ IH|net x o n1 n2 E _ IH|net rand x d t n1 n2 E _ IH]; intros H; auto; apply IH.
  - assert (X := predict_rel net net x t H). rewrite E in X. apply X.
  - assert (X := forward_rel rand net net x t H). rewrite E in X. apply X.
  - assert (X := inspect_rel net net x H). rewrite E in X. apply X.
  - assert (X := train_once_rel rand net net x d t H). rewrite E in X. apply X.
Qed.
Lemma predict_idle a b x t o b' : netrel a b -> net_output b x t = Ok (o, b') -> nn_nan b' = false -> netrel a b'.
Proof.
  intros H E Hn. apply (perform_idle a b (Prediction x t) (Predicted o) b' H eq_refl); [cbn [perform]; rewrite E; reflexivity|].
  intros o' v [Ho|[]] Hv. injection Ho as <-. destruct (PureProps.net_output_w _ _ _ _ _ E) as (_ & _ & Hf & _). rewrite Hn in Hf. symmetry in Hf. apply orb_false_iff in Hf as (_ & Hf). unfold anyAbnormal in Hf.
  destruct (fnormal v) eqn:Ev; [reflexivity|]. exfalso. assert (X : existsb (fun z => negb (fnormal z)) o = true) by (apply existsb_exists; exists v; now rewrite Ev). congruence.
Qed.
(* ---------- the runs: without (b) and with (a) evaluations ---------- *)
Definition rel0 (b a : Run) : Prop := netrel (sn_net (r_snn b)) (sn_net (r_snn a)) /\ sn_epoch (r_snn b) = sn_epoch (r_snn a) /\ sn_ntrain (r_snn b) = sn_ntrain (r_snn a) /\ sn_want (r_snn b) = sn_want (r_snn a) /\
  r_data b = r_data a /\ r_checks b = r_checks a /\ steps (r_log b) = steps (r_log a).
Definition rel1 (b a : Run) : Prop := rel0 b a /\ sn_index (r_snn b) = sn_index (r_snn a).
Lemma continue_rel env w b a : ignores_results w -> rel0 b a -> with_out rel0 (continueTraining env w b) (continueTraining env w a) /\ (sn_index (r_snn b) = sn_index (r_snn a) -> sn_index (r_snn (snd (continueTraining env w b))) = sn_index (r_snn (snd (continueTraining env w a)))).
Proof.
  intros Hw (H & E1 & E2 & E3 & E5 & E6 & E7). unfold continueTraining. rewrite <- E6. assert (Hn : nn_nan (sn_net (r_snn b)) = nn_nan (sn_net (r_snn a))) by apply H.
  split; [split|]; cbn [fst snd].
  - destruct (e_stop env (r_checks b)); cbn [sn_want with_want negb andb]; [reflexivity|]. rewrite E3, E1, Hn. rewrite (Hw _ _ (st_rate (sn_stats (r_snn b))) (st_mae (sn_stats (r_snn b))) (st_rate (sn_stats (r_snn a))) (st_mae (sn_stats (r_snn a)))). reflexivity.
  - destruct (e_stop env (r_checks b)); unfold rel0; cbn; repeat split; auto; try apply H.
  - destruct (e_stop env (r_checks b)); cbn; auto.
Qed.
Lemma steps_app l l' : steps (l ++ l') = steps l ++ steps l'.
Proof. apply flat_map_app. Qed.
Lemma turn_rel env k b a : rel1 b a -> orel rel1 (trainingTurn env k b) (trainingTurn env k a).
Proof.
  intros ((H & E1 & E2 & E3 & E5 & E6 & E7) & Ei). unfold trainingTurn. rewrite <- E5, <- E6, <- Ei.
  eapply orel_bind; [apply orel_eq|]. intros ? [|] ->.
  - eapply orel_bind; [apply orel_eq|]; intros ? (x & d1) ->. eapply orel_bind; [apply orel_eq|]; intros ? (y & d2) ->. eapply orel_bind; [apply orel_eq|]; intros ? fi ->.
    eapply orel_bind; [apply train_once_rel; exact H|]. intros n1 n2 Hn. cbn. split; [|reflexivity || exact Ei]. repeat split; cbn; auto; try apply Hn. rewrite !steps_app, E7. unfold steps at 2 4. cbn. rewrite (netrel_weights _ _ Hn). reflexivity.
  - eapply orel_bind; [apply orel_eq|]; intros ? (x & d1) ->. eapply orel_bind; [apply orel_eq|]; intros ? fi ->.
    eapply orel_bind; [apply forward_rel; exact H|]. intros (o1 & n1) (o2 & n2) (_ & Hn). cbn in Hn. cbn. split; [|reflexivity || exact Ei]. repeat split; cbn; auto; try apply Hn. rewrite !steps_app, E7. unfold steps at 2 4. cbn. rewrite (netrel_weights _ _ Hn). reflexivity.
Qed.
Definition opt_rel {A B} (R : A -> B -> Prop) (x : option A) (y : option B) : Prop := match x, y with Some a, Some b => R a b | None, None => True | _, _ => False end.
Lemma rel0_index b a i j : rel0 b a -> rel0 (upd b (with_index (r_snn b) i)) (upd a (with_index (r_snn a) j)).
Proof. intros (H & E). exact (conj H E). Qed.
Lemma epoch_rel env w k : ignores_results w -> forall fuel b a, rel1 b a -> opt_rel (orel (with_out rel1)) (epochLoop fuel env w k b) (epochLoop fuel env w k a).
Proof.
  intros Hw. induction fuel as [|fuel IH]; intros b a H; [exact I|]. cbn [epochLoop]. pose proof H as (H0 & Hi). pose proof H0 as (_ & _ & En & _). rewrite <- Hi, <- En.
  destruct (_ <=? _); [|split; [reflexivity|exact H]].
  destruct (continue_rel env w b a Hw H0) as ((C1 & C2) & C3). specialize (C3 Hi). destruct (continueTraining env w b) as [g1 b1], (continueTraining env w a) as [g2 a1]. cbn [fst snd] in C1, C2, C3. subst g2. destruct g1; [|split; [reflexivity|exact (conj C2 C3)]].
  assert (Hn : nn_nan (sn_net (r_snn b1)) = nn_nan (sn_net (r_snn a1))) by (destruct C2 as ((_ & _ & X & _) & _); exact X). rewrite <- Hn. destruct (nn_nan (sn_net (r_snn b1))).
  - split; [reflexivity|]. cbn [snd]. destruct C2 as (K1 & K2 & K3 & K4 & K5 & K6 & K7). split; [|reflexivity]. repeat split; cbn; auto; apply K1.
  - assert (T := turn_rel env k b1 a1 (conj C2 C3)). destruct (trainingTurn env k b1) as [b2| |], (trainingTurn env k a1) as [a2| |]; cbn in T; try contradiction; [|subst; reflexivity|exact I].
    apply IH. destruct T as (T0 & Ti). split; [rewrite <- Ti; now apply rel0_index|]. cbn. now rewrite Ti.
Qed.
(* an evaluation *)
Lemma eval_turn a s d s' : netrel a (sn_net s) -> evaluateTurn s d = Ok s' -> nn_nan (sn_net s') = false -> netrel a (sn_net s').
Proof.
  intros H E Hn. unfold evaluateTurn in E. apply bind_Ok_inv in E as (need & _ & E). destruct need.
  - unfold evaluateOnce in E. destruct (d_problem d);
      (apply bind_Ok_inv in E as (x & _ & E); apply bind_Ok_inv in E as (y & _ & E); apply bind_Ok_inv in E as (z & _ & E); apply bind_Ok_inv in E as (fi & _ & E); apply bind_Ok_inv in E as ((o, n) & Eo & E); apply bind_Ok_inv in E as (st & _ & E); injection E as <-; cbn in *; exact (predict_idle _ _ _ _ _ _ H Eo Hn)).
  - apply bind_Ok_inv in E as (x & _ & E). apply bind_Ok_inv in E as (fi & _ & E). apply bind_Ok_inv in E as ((o, n) & Eo & E). injection E as <-. cbn in *. exact (predict_idle _ _ _ _ _ _ H Eo Hn).
Qed.
Lemma eval_loop nan a d : forall rest s stop s', netrel a (sn_net s) -> evaluateLoop nan rest s d = Ok (stop, s') -> nn_nan (sn_net s') = false -> netrel a (sn_net s').
Proof.
  induction rest as [|rest IH]; intros s stop s' H E Hn; cbn [evaluateLoop] in E; [injection E as _ <-; exact H|].
  destruct (nn_nan (sn_net s)) eqn:En; [injection E as _ <-; cbn in *; congruence|]. apply bind_Ok_inv in E as (s1 & E1 & E).
  assert (Hn1 : nn_nan (sn_net s1) = false). { destruct (nn_nan (sn_net s1)) eqn:X; [|reflexivity]. apply evaluateLoop_keeps in E as ((_ & _ & _ & _ & K & _) & _). cbn in K. specialize (K X). congruence. }
  apply (IH (with_index s1 (S (sn_index s1))) stop s'); [cbn; exact (eval_turn a s d s1 H E1 Hn1)|exact E|exact Hn].
Qed.
Lemma evaluate_rel env b a a' : rel0 b a -> evaluate env a = Ok a' -> hasNan a' = false -> rel0 b a'.
Proof.
  intros (H & E1 & E2 & E3 & E5 & E6 & E7) E Hn. pose proof E as EE. apply evaluate_keeps in EE as ((K1 & K2 & _ & _ & _ & K6) & Kd & Kc & s & Kl & _). destruct (K6 Hn) as (Kw & _).
  split; [|repeat split; try congruence; rewrite E7; destruct Kl as [-> | ->]; rewrite steps_app; unfold steps at 3; cbn; now rewrite app_nil_r].
  unfold evaluate in E. apply bind_Ok_inv in E as ((stop, s1) & El & E). assert (X : sn_net (r_snn a') = sn_net s1). { destruct stop; [injection E as <-; reflexivity|]. destruct (_ && _); injection E as <-; reflexivity. }
  unfold hasNan in Hn. rewrite X in *. refine (eval_loop _ (sn_net (r_snn b)) _ _ _ _ _ _ El Hn); exact H.
Qed.
Lemma shuffled_rel env b a : rel0 b a -> orel rel1 (let* d := shuffle (e_rng env (r_checks b)) (r_data b) in Ok (mkRun (with_index (r_snn b) 0) d (r_checks b) (r_log b ++ [Shuffled])))
  (let* d := shuffle (e_rng env (r_checks a)) (r_data a) in Ok (mkRun (with_index (r_snn a) 0) d (r_checks a) (r_log a ++ [Shuffled]))).
Proof.
  intros (H & E1 & E2 & E3 & E5 & E6 & E7). rewrite <- E5, <- E6. eapply orel_bind; [apply orel_eq|]. intros d ? <-. split; [|reflexivity]. split; [exact H|]. repeat split; auto. cbn. rewrite !steps_app. unfold steps at 2 4. cbn. now rewrite !app_nil_r.
Qed.
Lemma loop_rel env w k f : ignores_results w -> forall fuel b a a', rel0 b a -> trainingLoop fuel env w k f a = Some (Ok a') -> hasNan a' = false ->
  exists b', trainingLoop fuel env w k 0 b = Some (Ok b') /\ rel0 b' a'.
Proof.
  intros Hw. induction fuel as [|fuel IH]; intros b a a' H E Hn; [discriminate|]. cbn [trainingLoop] in *.
  destruct (continue_rel env w b a Hw H) as ((C1 & C2) & _). destruct (continueTraining env w b) as [g1 b1], (continueTraining env w a) as [g2 a1]. cbn [fst snd] in C1, C2. subst g2. destruct g1.
  - assert (SR := shuffled_rel env b1 a1 C2). destruct (bind (shuffle _ (r_data b1)) _) as [b2| |], (bind (shuffle _ (r_data a1)) _) as [a2| |]; cbn in SR; try contradiction; cbn [andThen] in *; try discriminate.
    assert (ER := epoch_rel env w k Hw (S fuel) b2 a2 SR). destruct (epochLoop (S fuel) env w k b2) as [[[e1 b3]| |]|], (epochLoop (S fuel) env w k a2) as [[[e2 a3]| |]|]; cbn in ER; try contradiction; try discriminate.
    destruct ER as (Ee & ER0 & ERi). cbn in Ee, ER0, ERi. subst e2. destruct e1; [injection E as <-; exists b3; auto|]. cbn [Z.ltb Z.compare andb andThen].
    destruct (if (0 <? f)%Z && _ then evaluate env a3 else Ok a3) as [a4| |] eqn:Ev; cbn [andThen] in E; try discriminate.
    assert (Hn4 : hasNan a4 = false). { destruct (hasNan a4) eqn:X; [|reflexivity]. assert (Y := training_nan env w k f fuel _ _ E ltac:(unfold hasNan in *; cbn; exact X)). congruence. }
    assert (R4 : rel0 b3 a4). { destruct ((0 <? f)%Z && _); [exact (evaluate_rel env b3 a3 a4 ER0 Ev Hn4)|]. injection Ev as <-. exact ER0. }
    eapply IH; [|exact E|exact Hn]. destruct R4 as (K1 & K2 & K3 & K4 & K5 & K6 & K7). repeat split; cbn; auto; try apply K1. now rewrite K2.
  - injection E as <-. eexists. split; [reflexivity|]. destruct C2 as (K1 & K2 & K3 & K4 & K5 & K6 & K7). repeat split; cbn; auto; apply K1.
Qed.
(* train(), compared with train() without any evaluation *)
Lemma train_rel0 fuel env w k f s d r : netrel (sn_net s) (sn_net s) -> ignores_results w -> train fuel env w k f s d = Some (Ok r) -> hasNan r = false ->
  exists r0, train fuel env w k 0 s d = Some (Ok r0) /\ rel0 r0 r.
Proof.
  intros Hs Hw E Hn. unfold train in *. destruct (validData s d k); try discriminate. destruct (negb (sn_idle s)); [discriminate|]. unfold trainSync in *. cbn [Z.ltb Z.compare andThen].
  set (r1 := upd _ _) in *. assert (R1 : rel0 r1 r1) by (split; [exact Hs|repeat split]). clearbody r1.
  destruct (if (0 <? f)%Z then evaluate env r1 else Ok r1) as [r2| |] eqn:Ev; cbn [andThen] in E; try discriminate.
  assert (Hn2 : hasNan r2 = false). { destruct (hasNan r2) eqn:X; [|reflexivity]. assert (Y := training_nan env w (Z.to_nat k) f fuel _ _ E ltac:(unfold hasNan in *; cbn; exact X)). congruence. }
  assert (R2 : rel0 r1 r2). { destruct (0 <? f)%Z; [exact (evaluate_rel env r1 r1 r2 R1 Ev Hn2)|]. injection Ev as <-. exact R1. }
  eapply (loop_rel env w (Z.to_nat k) f Hw fuel); [|exact E|exact Hn]. destruct R2 as (K1 & K2 & K3 & K4 & K5 & K6 & K7). repeat split; cbn; auto; apply K1.
Qed.
Theorem C75_evaluation_frequency_partial : forall draws masks lr m net0 shape rest s fuel env w k f g d r,
  construct draws masks (Input (map Z.of_nat shape) :: rest) lr m = Ok net0 -> Forall (fun n => 0 < n) shape -> Forall sane_kernel rest -> Forall feed_forward rest ->
  later net0 (sn_net s) -> ignores_results w -> train fuel env w k f s d = Some (Ok r) -> hasNan r = false ->
  (exists r0, train fuel env w k 0 s d = Some (Ok r0) /\ net_weights (sn_net (r_snn r0)) = net_weights (sn_net (r_snn r)) /\ steps (r_log r0) = steps (r_log r) /\ indistinguishable (sn_net (r_snn r0)) (sn_net (r_snn r))) /\
  forall r2, train fuel env w k g s d = Some (Ok r2) -> hasNan r2 = false ->
    net_weights (sn_net (r_snn r2)) = net_weights (sn_net (r_snn r)) /\ steps (r_log r2) = steps (r_log r) /\ r_data r2 = r_data r.
Proof.
  intros draws masks lr m net0 shape rest s fuel env w k f g d r HC Hs Hk Hf HL Hw E Hn. assert (Self := later_self _ _ HL (constructed_self _ _ _ _ _ _ _ HC Hs Hk Hf)).
  destruct (train_rel0 fuel env w k f s d r Self Hw E Hn) as (r0 & E0 & R0). split.
  - exists r0. split; [exact E0|]. split; [apply netrel_weights, R0|]. split; [apply R0|]. apply netrel_indistinguishable, R0.
  - intros r2 E2 Hn2. destruct (train_rel0 fuel env w k g s d r2 Self Hw E2 Hn2) as (r3 & E3 & R3). assert (r3 = r0) as -> by congruence. destruct R0 as (K1 & _ & _ & _ & K5 & _ & K7), R3 as (J1 & _ & _ & _ & J5 & _ & J7).
    split; [rewrite <- (netrel_weights _ _ J1); now apply netrel_weights|]. split; congruence.
Qed.
(* the stopping rules made of epochs and durations *)
Lemma clocked_ignores w : fgeb (fofZ (-1)) fzero = false -> fltb (fofZ (-1)) fzero = true -> clocked w -> ignores_results w.
Proof.
  intros H1 H2 Hc. assert (G : w_accuracy w = fofZ (-1) /\ w_mae w = fofZ (-1)).
  { induction Hc as [n|n|n w E|n w E|a b w _ (A1 & A2) _ (B1 & B2) E|a b w _ (A1 & A2) _ (B1 & B2) E]; try (split; reflexivity).
    - unfold lit_s in E. apply bind_Ok_inv in E as (z & _ & E). injection E as <-. split; reflexivity.
    - unfold lit_min in E. apply bind_Ok_inv in E as (z & _ & E). apply bind_Ok_inv in E as (z' & _ & E). injection E as <-. split; reflexivity.
    - unfold wait_or in E. destruct (w_op a); try discriminate; injection E as <-; cbn; rewrite A1, A2, B1, B2; unfold fmin, fmax; split; repeat match goal with |- context [if ?c then _ else _] => destruct c end; reflexivity.
    - unfold wait_and in E. destruct (w_op a); try discriminate; injection E as <-; cbn; rewrite A1, A2, B1, B2; unfold fmin, fmax; split; repeat match goal with |- context [if ?c then _ else _] => destruct c end; reflexivity. }
  destruct G as (G1 & G2). intros el ep acc mae acc' mae'. unfold isOver. rewrite G1, G2, H1, H2. destruct (w_op w); rewrite ?orb_true_r, ?andb_false_r; reflexivity.
Qed.
(* C74 for a network that has already been used: only the trainings matter from there on, too *)
Theorem C74_used_network_partial : forall draws masks lr m net0 net shape rest cs answers net1,
  construct draws masks (Input (map Z.of_nat shape) :: rest) lr m = Ok net0 -> Forall (fun n => 0 < n) shape -> Forall sane_kernel rest -> Forall feed_forward rest -> later net0 net ->
  perform_all net cs = Ok (answers, net1) -> normal_answers answers ->
  exists answers' net2, perform_all net (trainings cs) = Ok (answers', net2) /\ net_weights net2 = net_weights net1 /\ nn_trainings net2 = nn_trainings net1 /\ indistinguishable net2 net1.
Proof.
  intros draws masks lr m net0 net shape rest cs answers net1 HC Hs Hk Hf HL E Hn. destruct (perform_trainings cs net net answers net1 (later_self _ _ HL (constructed_self _ _ _ _ _ _ _ HC Hs Hk Hf)) E Hn) as (r & net2 & E2 & H2).
  exists r, net2. split; [exact E2|]. split; [now apply netrel_weights|]. split; [apply H2|]. now apply netrel_indistinguishable.
Qed.
End P.
Print Assumptions C75_evaluation_frequency_partial.
Print Assumptions C74_used_network_partial.
(* the program's float32 numbers, stopping by epochs and durations: the two trainings end together with the same weights *)
Theorem C75_by_the_clock_partial : forall expf tanhf draws masks lr m net0 shape rest s fuel env w k f d r,
  @construct (Num32 expf tanhf) draws masks (Input (map Z.of_nat shape) :: rest) lr m = Ok net0 -> Forall (fun n => 0 < n) shape -> Forall sane_kernel rest -> Forall feed_forward rest ->
  later net0 (sn_net s) -> clocked w -> train fuel env w k f s d = Some (Ok r) -> hasNan r = false ->
  exists r0, train fuel env w k 0 s d = Some (Ok r0) /\ net_weights (sn_net (r_snn r0)) = net_weights (sn_net (r_snn r)) /\ steps (r_log r0) = steps (r_log r) /\ indistinguishable (sn_net (r_snn r0)) (sn_net (r_snn r)).
Proof.
  intros expf tanhf draws masks lr m net0 shape rest s fuel env w k f d r HC Hs Hk Hf HL Hw E Hn.
  exact (proj1 (C75_evaluation_frequency_partial draws masks lr m net0 shape rest s fuel env w k f 0%Z d r HC Hs Hk Hf HL (clocked_ignores w eq_refl eq_refl Hw) E Hn)).
Qed.
Print Assumptions C75_by_the_clock_partial.
(* with a recurrent layer, evaluating during the training changes what is learned *)
From Verif Require Import Witness FactoryProps DataProps TrainProps EvalCallProps.
Definition c75_check : bool :=
  run_check (@newSnn N32 draws_t nomasks demo_rec (b32q 1 100) (b32q 9 10)) (fun s0 =>
  run_check (@mkData4 N32 regression (rows32 [[1];[2]]%Z) (rows32 [[1];[0]]%Z) (rows32 [[1];[2]]%Z) (rows32 [[1];[2]]%Z) nonTemporal 0) (fun d =>
  snn_check (train 10 env_t (lit_ep 2) 1 0 s0 d) (fun r0 => snn_check (train 10 env_t (lit_ep 2) 1 1 s0 d) (fun r => negb (hasNan r) && negb (wl_eqb (net_weights (sn_net (r_snn r0))) (net_weights (sn_net (r_snn r)))))))).
Theorem C75_recurrent_refuted : exists s0 d r0 r, @newSnn N32 draws_t nomasks demo_rec (b32q 1 100) (b32q 9 10) = Ok s0 /\
  @mkData4 N32 regression (rows32 [[1];[2]]%Z) (rows32 [[1];[0]]%Z) (rows32 [[1];[2]]%Z) (rows32 [[1];[2]]%Z) nonTemporal 0 = Ok d /\
  train 10 env_t (lit_ep 2) 1 0 s0 d = Some (Ok r0) /\ train 10 env_t (lit_ep 2) 1 1 s0 d = Some (Ok r) /\ hasNan r = false /\ net_weights (sn_net (r_snn r0)) <> net_weights (sn_net (r_snn r)).
Proof.
  assert (H : c75_check = true) by (vm_compute; reflexivity). unfold c75_check in H. apply run_check_ex in H as (s0 & E & H). apply run_check_ex in H as (d & E0 & H). apply snn_check_ex in H as (r0 & E1 & H). apply snn_check_ex in H as (r & E2 & H). apply andb_prop in H as [H1 H2].
  exists s0, d, r0, r. do 4 (split; [assumption|]). split; [now apply negb_true_iff|]. intros W. rewrite W in H2. unfold wl_eqb in H2. rewrite (proj2 (list_eqb_eq _ (list_eqb_eq _ sfl_eqb_eq) _ _) eq_refl) in H2. discriminate.
Qed.
Print Assumptions C75_recurrent_refuted.
(* the demonstration run of C13: two epochs, evaluated before and after each, one batch of two samples per epoch *)
Example C75_hypotheses_met : exists s0 d r, @construct N32 draws_t nomasks demo_t (b32q 1 100) (b32q 9 10) = Ok (sn_net s0) /\ demo_t = @Input N32 (map Z.of_nat [2]) :: tl demo_t /\ Forall (fun n => 0 < n) [2] /\ Forall (@sane_kernel N32) (tl demo_t) /\ Forall (@feed_forward N32) (tl demo_t) /\
  @later N32 (sn_net s0) (sn_net (auto_on s0)) /\ @clocked N32 (lit_ep 2) /\ train 10 env_t (lit_ep 2) 2 1 (auto_on s0) d = Some (Ok r) /\ hasNan r = false /\ steps (r_log r) <> [].
Proof.
  destruct demo_run as (s0 & d & r & A & B & C & D & E & G & H & I & J & _). exists s0, d, r. split.
  { unfold newSnn in A. apply bind_Ok_inv in A as (n & A & X). apply bind_Ok_inv in X as (o & _ & X). injection X as <-. exact A. }
  split; [reflexivity|]. split; [repeat constructor|]. split; [repeat constructor|]. split; [repeat constructor|]. split; [apply later_none|]. split; [constructor|]. split; [exact H|]. split; [exact I|].
  intros X. clear - J X. assert (Y : forall l, steps l = [] -> existsb (fun m => match m with MStep _ => true | _ => false end) (@marks N32 l) = false).
  { clear. induction l as [|e l IH]; [reflexivity|]. intros X. destruct e; cbn in X |- *; try discriminate; auto. }
  specialize (Y _ X). clear X. destruct (marks (r_log r)) as [|? [|? [|[] ?]]]; cbn in J; try discriminate; rewrite ?andb_false_r in J; try discriminate; cbn in Y; rewrite ?orb_true_r in Y; discriminate.
Qed.

