(* C78: a training interrupted between two epochs and resumed goes on as if it had not been interrupted. *)
From Verif Require Import Base Num ActModel NeuronModel LayerModel NetModel StatModel WaitModel DataModel FactoryModel FactorySpec TrainModel TrainSpec TrainProofs TrainSafe HistProofs PureSpec AlikeProofs AlikeTrain LookSpec LookProofs LookProps FreqSpec FreqProps SaveModel SaveSpec EqProofs SaveProps NumOrder WaitProofs WaitProps ResumeSpec ResumeProofs ToolsModel.

Local Open Scope outcome_scope.

Section P.
Context {N : Num}.
Local Arguments FreqSpec.steps : simpl never.
Notation steps := FreqSpec.steps.
Lemma Ok_inv {A} (x y : A) : Ok x = Ok y -> x = y. Proof. congruence. Qed.
Lemma resume_l (ok : F -> Prop) : order_laws N ok -> forall env env2 n m b f p s d fuel1 fuel2 r1 r2,
  undisturbed env -> undisturbed env2 -> (f <= 0)%Z -> (Z.of_nat (n + m) <= int_max)%Z ->
  train fuel1 env (lit_ep (Z.of_nat n)) b f s d = Some (Ok r1) -> goes_on (r_checks r1 - 1) env env2 ->
  train fuel2 env2 (lit_ep (Z.of_nat m)) b f (with_path (r_snn r1) p) (r_data r1) = Some (Ok r2) ->
  exists fuel r, train fuel env (lit_ep (Z.of_nat (n + m))) b f s d = Some (Ok r) /\ same_but_epoch (with_path (r_snn r) p) (r_snn r2) /\ r_data r = r_data r2 /\
    steps (r_log r) = steps (r_log r1) ++ steps (r_log r2).
Proof.
  intros OL env env2 n m b f p s d fuel1 fuel2 r1 r2 Hu Hu2 Hf Hb E1 Hg E2. unfold train in *. destruct (validData s d b) as [u| |]; try discriminate.
  destruct (sn_idle s); cbn [negb] in *; [|discriminate]. destruct (validData (with_path (r_snn r1) p) (r_data r1) b) as [u2| |]; try discriminate.
  unfold trainSync in *. rewrite (proj2 (Z.ltb_ge 0 f) Hf) in *. cbn [andThen] in *. destruct (negb _) in E2; [discriminate|].
  assert (W1 := lit_ep_only ok (Z.of_nat n) OL ltac:(lia)). assert (W2 := lit_ep_only ok (Z.of_nat m) OL ltac:(lia)). assert (W3 := lit_ep_only ok (Z.of_nat (n + m)) OL ltac:(lia)).
  set (R0 := upd (upd _ _) _) in E1 |- *. destruct (split_at env _ _ _ _ (Z.to_nat b) f Hu W1 W3 ltac:(lia) Hf fuel1 R0 r1 E1 ltac:(cbn; lia) eq_refl eq_refl eq_refl) as (r' & -> & Hp & Hs & D & G).
  set (q0 := upd (upd _ _) _) in E2. destruct D as [Hn|(He & Hw & Hi)].
  - assert (X : trainingLoop 1 env (lit_ep (Z.of_nat (n + m))) (Z.to_nat b) f r' = Some (Ok (upd (ticked r') (resetTrainingValues (r_snn r'))))) by (cbn [trainingLoop]; rewrite (continue_un _ env _ r' Hu W3 Hp), Hn, andb_false_r; reflexivity).
    apply G in X. eexists _, _. split; [exact X|]. destruct fuel2 as [|fuel2]; [discriminate|]. cbn [trainingLoop] in E2. rewrite (continue_un _ env2 _ q0 Hu2 W2) in E2 by (cbn; lia).
    change (hasNan q0) with (hasNan r') in E2. rewrite Hn, andb_false_r in E2. injection E2 as <-. split; [|split; [reflexivity|cbn; now rewrite app_nil_r]].
    unfold same_but_epoch. cbn. unfold with_epoch, with_path, resetTrainingValues. cbn. now rewrite Hs.
  - assert (S0 : sim0 (r_checks r') (Z.of_nat n) (sn_path (r_snn r')) (steps (r_log r')) q0 r').
    { exists (r_log r'), (sn_index (r_snn r')). split; [|cbn; now rewrite app_nil_r]. cbn. rewrite Nat.add_0_r. destruct r' as [[net st wa id ix ep nt au pa] dd k l]. cbn in *. unfold with_index, with_epoch, with_path. cbn. unfold tsize in Hs. cbn in Hs. congruence. }
    assert (Hg' : goes_on (r_checks r') env env2) by (intros k; destruct (Hg k) as (A & B); cbn in A, B; rewrite Nat.sub_0_r in A, B; split; assumption).
    rewrite Nat2Z.inj_add in W3. assert (L := loop_sim _ _ _ _ env env2 _ _ _ (Z.to_nat b) f Hu Hu2 Hg' (Nat2Z.is_nonneg n) Hf W2 W3 fuel2 q0 r' ltac:(cbn; lia) S0).
    match type of E2 with ?t = _ => replace t with (trainingLoop fuel2 env2 (lit_ep (Z.of_nat m)) (Z.to_nat b) f q0) in E2 by reflexivity end.
    rewrite E2 in L. match type of L with opt_rel _ _ ?t => destruct t as [[r| |]|] eqn:E3; cbn in L; try contradiction end. destruct L as (l & -> & Hl).
    rewrite <- Nat2Z.inj_add in E3. apply G in E3. eexists _, _. split; [exact E3|]. split; [|split; [reflexivity|exact Hl]].
    assert (Pq : sn_path (r_snn r2) = p).
    { exact (loop_stays env2 _ _ f Hu2 Hf _ _ _ E2). }
    cbn. rewrite <- Pq. destruct r2 as [[? ? ? ? ? ? ? ? ?] ? ? ?]. reflexivity.
Qed.
(* Train for n epochs; then, when the network is ready again, for m epochs: the network, the data and everything that was done are those
   of a training of n + m epochs. Any layers, any optimizer, any data; without evaluations in between (f <= 0). *)
Theorem C78_resumed_partial : forall (ok : F -> Prop), order_laws N ok -> forall env env2 n m b f s d fuel1 fuel2 r1 r2,
  undisturbed env -> undisturbed env2 -> (f <= 0)%Z -> (Z.of_nat (n + m) <= int_max)%Z ->
  train fuel1 env (lit_ep (Z.of_nat n)) b f s d = Some (Ok r1) -> goes_on (r_checks r1 - 1) env env2 ->
  train fuel2 env2 (lit_ep (Z.of_nat m)) b f (r_snn r1) (r_data r1) = Some (Ok r2) ->
  exists fuel r, train fuel env (lit_ep (Z.of_nat (n + m))) b f s d = Some (Ok r) /\ same_but_epoch (r_snn r) (r_snn r2) /\ r_data r = r_data r2 /\
    steps (r_log r) = steps (r_log r1) ++ steps (r_log r2).
Proof.
  intros ok OL env env2 n m b f s d fuel1 fuel2 r1 r2 Hu Hu2 Hf Hb E1 Hg E2.
  assert (X : with_path (r_snn r1) (sn_path (r_snn r1)) = r_snn r1) by (destruct (r_snn r1); reflexivity). rewrite <- X in E2.
  destruct (resume_l ok OL env env2 n m b f _ s d fuel1 fuel2 r1 r2 Hu Hu2 Hf Hb E1 Hg E2) as (fuel & r & E & S & D & L). exists fuel, r. split; [exact E|]. split; [|auto].
  assert (P1 : sn_path (r_snn r1) = sn_path s). { unfold train in E1. destruct (validData s d b); try discriminate. destruct (negb _); [discriminate|]. unfold trainSync in E1. rewrite (proj2 (Z.ltb_ge 0 f) Hf) in E1. cbn [andThen] in E1. exact (loop_stays _ _ _ f Hu Hf _ _ _ E1). }
  assert (P3 : sn_path (r_snn r) = sn_path s). { unfold train in E. destruct (validData s d b); try discriminate. destruct (negb _); [discriminate|]. unfold trainSync in E. rewrite (proj2 (Z.ltb_ge 0 f) Hf) in E. cbn [andThen] in E. exact (loop_stays _ _ _ f Hu Hf _ _ _ E). }
  rewrite P1, <- P3 in S. destruct (r_snn r). exact S.
Qed.
(* Through a file: save after the first training, load the file in another program, train from there. *)
Theorem C78_through_a_file_partial : forall (ok : F -> Prop), order_laws N ok -> eq_laws N -> forall env env2 n m b f p s d fuel1 r1,
  undisturbed env -> undisturbed env2 -> (f <= 0)%Z -> (Z.of_nat (n + m) <= int_max)%Z ->
  train fuel1 env (lit_ep (Z.of_nat n)) b f s d = Some (Ok r1) -> hasNan r1 = false -> all_finite (snn_numbers (r_snn r1)) -> goes_on (r_checks r1 - 1) env env2 ->
  exists r1' s1, saveAs p r1 = Ok r1' /\ loadFrom (file_of (r_snn r1')) = Ok s1 /\
    forall fuel2 r2, train fuel2 env2 (lit_ep (Z.of_nat m)) b f s1 (r_data r1) = Some (Ok r2) ->
      exists fuel r, train fuel env (lit_ep (Z.of_nat (n + m))) b f s d = Some (Ok r) /\
        net_weights (sn_net (r_snn r)) = net_weights (sn_net (r_snn r2)) /\ results (sn_stats (r_snn r)) = results (sn_stats (r_snn r2)) /\ r_data r = r_data r2 /\
        presented (r_log r) = presented (r_log r1) ++ presented (r_log r2).
Proof.
  intros ok OL L env env2 n m b f p s d fuel1 r1 Hu Hu2 Hf Hb E1 Hn Hfin Hg.
  assert (Hi : sn_idle (r_snn r1) = true). { unfold train in E1. destruct (validData s d b); try discriminate. destruct (negb _); [discriminate|]. unfold trainSync in E1. rewrite (proj2 (Z.ltb_ge 0 f) Hf) in E1. cbn [andThen] in E1. exact (loop_idle _ _ _ f Hu _ _ _ E1). }
  destruct (C37_saved_loads_equal_partial N L p r1 Hi Hfin) as (r1' & s1 & E3 & E4 & _ & E5 & _ & _ & _ & _ & A). specialize (A Hn). exists r1', s1. split; [exact E3|]. split; [exact E5|].
  intros fuel2 r2 E2. specialize (A [Train fuel2 env2 (lit_ep (Z.of_nat m)) b f (r_data r1)]). cbn [lives] in A. rewrite E2, E4 in A. cbn [lives bind] in A.
  destruct (train fuel2 env2 (lit_ep (Z.of_nat m)) b f (with_path (r_snn r1) p) (r_data r1)) as [[r3| |]|] eqn:E6; cbn [bind] in A; try discriminate. apply Ok_inv in A. assert (A1 := f_equal (fun l => match l with Trained a _ _ _ _ :: _ => a | _ => [] end) A). assert (A2 := f_equal (fun l => match l with Trained _ a _ _ _ :: _ => a | _ => [] end) A).
  assert (A4 := f_equal (fun l => match l with Trained _ _ _ a _ :: _ => a | _ => r_data r1 end) A). assert (A5 := f_equal (fun l => match l with Trained _ _ _ _ a :: _ => a | _ => [] end) A). clear A. cbv beta iota in A1, A2, A4, A5.
  destruct (resume_l ok OL env env2 n m b f p s d fuel1 fuel2 r1 r3 Hu Hu2 Hf Hb E1 Hg E6) as (fuel & r & E & S & D & Q). exists fuel, r. split; [exact E|].
  assert (Sn : sn_net (r_snn r) = sn_net (r_snn r3)) by exact (f_equal sn_net S). assert (Ss : sn_stats (r_snn r) = sn_stats (r_snn r3)) by exact (f_equal sn_stats S).
  rewrite Sn, Ss, D. split; [now symmetry|]. split; [now symmetry|]. split; [now symmetry|].
  rewrite A5. clear - Q. assert (G : forall l, presented l = map (fun z : nat * bool * list F * list F * list (list (list F)) => match z with (i, _, x, y, _) => (i, x, y) end) (steps l)).
  { unfold FreqSpec.steps, presented. induction l as [|e l IH]; [reflexivity|]. cbn. rewrite map_app, IH. destruct e; reflexivity. }
  rewrite !G, Q, map_app. reflexivity.
Qed.
(* ---------- evaluations in between ---------- *)
Lemma netrel_valid a b d k : netrel (sn_net a) (sn_net b) -> validData a d k = validData b d k.
Proof.
  intros H. assert (W := netrel_weights _ _ H). destruct H as (H & _). unfold validData.
  assert (Eo : net_numberOfOutputs (sn_net a) = net_numberOfOutputs (sn_net b)).
  { unfold net_numberOfOutputs. rewrite (Forall2_len _ _ _ H). unfold net_weights in W. clear - W. revert W. generalize (Z.of_nat (List.length (nn_layers (sn_net b))) - 1)%Z. intros z W.
    unfold lgetZ. destruct (z <? 0)%Z; [reflexivity|]. unfold lget. generalize (Z.to_nat z). clear z. revert W. generalize (nn_layers (sn_net b)). induction (nn_layers (sn_net a)) as [|x l IH]; intros [|y l'] W k; try discriminate; [destruct k; reflexivity|].
    injection W as W1 W2. destruct k; [cbn; unfold getNumberOfNeurons; now rewrite W1|]. exact (IH _ W2 k). }
  assert (Ei : net_numberOfInputs (sn_net a) = net_numberOfInputs (sn_net b)). { unfold net_numberOfInputs, lget. destruct H as [|x y l l' (E & _) _]; [reflexivity|]. cbn. now rewrite E. }
  rewrite Eo, Ei. reflexivity.
Qed.
Lemma train_rel1 fuel env w k f s0 s d r : netrel (sn_net s0) (sn_net s) -> sn_idle s0 = true -> ignores_results w -> train fuel env w k f s d = Some (Ok r) -> hasNan r = false ->
  exists r0, train fuel env w k 0 s0 d = Some (Ok r0) /\ rel0 r0 r.
Proof.
  intros Hs Hi Hw E Hn. unfold train in *. rewrite (netrel_valid s0 s d k Hs). destruct (validData s d k); try discriminate. rewrite Hi. destruct (negb (sn_idle s)); [discriminate|]. unfold trainSync in *. cbn [negb Z.ltb Z.compare andThen].
  set (r1 := upd _ _) in E. set (q1 := upd (mkRun _ _ _ _) _). assert (R1 : rel0 q1 r1) by (split; [exact Hs|repeat split]). clearbody r1 q1.
  destruct (if (0 <? f)%Z then evaluate env r1 else Ok r1) as [r2| |] eqn:Ev; cbn [andThen] in E; try discriminate.
  assert (Hn2 : hasNan r2 = false). { destruct (hasNan r2) eqn:X; [|reflexivity]. assert (Y := training_nan env w (Z.to_nat k) f fuel _ _ E ltac:(unfold hasNan in *; cbn; exact X)). congruence. }
  assert (R2 : rel0 q1 r2). { destruct (0 <? f)%Z; [exact (evaluate_rel env q1 r1 r2 R1 Ev Hn2)|]. injection Ev as <-. exact R1. }
  eapply (loop_rel env w (Z.to_nat k) f Hw fuel); [|exact E|exact Hn]. destruct R2 as (K1 & K2 & K3 & K4 & K5 & K6 & K7). repeat split; cbn; auto; apply K1.
Qed.
Lemma lit_ep_ignores (ok : F -> Prop) n : order_laws N ok -> ignores_results (lit_ep n).
Proof.
  intros OL el ep acc mae acc' mae'. rewrite !isOver_any by discriminate. cbn [lit_ep w_epochs w_accuracy w_mae w_duration].
  rewrite !(cA_absent OL), !(cM_absent OL) by (apply (ok_m1 OL) || apply (m1_neg OL)). reflexivity.
Qed.
Lemma nan_before fuel env w k f s d r : train fuel env w k f s d = Some (Ok r) -> hasNan r = false -> nn_nan (sn_net s) = false.
Proof.
  intros E Hn. destruct (nn_nan (sn_net s)) eqn:X; [|reflexivity]. unfold train in E. destruct (validData s d k); try discriminate. destruct (negb (sn_idle s)); [discriminate|]. unfold trainSync in E.
  set (r1 := upd _ _) in E. assert (Y : hasNan r1 = true) by exact X. clearbody r1. destruct (if (0 <? f)%Z then evaluate env r1 else Ok r1) as [r2| |] eqn:Ev; cbn [andThen] in E; try discriminate.
  assert (Y2 : hasNan r2 = true). { destruct (0 <? f)%Z; [|injection Ev as <-; exact Y]. apply evaluate_keeps in Ev as ((_ & _ & _ & _ & K & _) & _). exact (K Y). }
  assert (Z := training_nan env w (Z.to_nat k) f fuel _ _ E ltac:(unfold hasNan in *; cbn; exact Y2)). congruence.
Qed.
Lemma same_end fuel fuel' env w k f s d r r' : train fuel env w k f s d = Some (Ok r) -> train fuel' env w k f s d = Some (Ok r') -> r = r'.
Proof.
  intros E E'. assert (A := train_more _ (max fuel fuel') _ _ _ _ _ _ _ E ltac:(lia)). assert (B := train_more _ (max fuel fuel') _ _ _ _ _ _ _ E' ltac:(lia)). congruence.
Qed.
(* With evaluations, of whatever frequencies, in the three trainings: the same weights for a feed-forward network (C75). *)
Theorem C78_with_evaluations_partial : forall (ok : F -> Prop), order_laws N ok -> forall draws masks lr mo net0 shape rest env env2 n m b f1 f2 s d fuel1 fuel2 r1 r2,
  construct draws masks (Input (map Z.of_nat shape) :: rest) lr mo = Ok net0 -> Forall (fun n => 0 < n) shape -> Forall sane_kernel rest -> Forall feed_forward rest -> later net0 (sn_net s) ->
  undisturbed env -> undisturbed env2 -> (Z.of_nat (n + m) <= int_max)%Z ->
  train fuel1 env (lit_ep (Z.of_nat n)) b f1 s d = Some (Ok r1) -> goes_on (r_checks r1 - 1) env env2 ->
  train fuel2 env2 (lit_ep (Z.of_nat m)) b f2 (r_snn r1) (r_data r1) = Some (Ok r2) -> hasNan r2 = false ->
  (exists fuel r, train fuel env (lit_ep (Z.of_nat (n + m))) b 0 s d = Some (Ok r) /\ hasNan r = false) /\
  forall f3 fuel r, train fuel env (lit_ep (Z.of_nat (n + m))) b f3 s d = Some (Ok r) -> hasNan r = false ->
    net_weights (sn_net (r_snn r)) = net_weights (sn_net (r_snn r2)) /\ r_data r = r_data r2 /\ steps (r_log r) = steps (r_log r1) ++ steps (r_log r2).
Proof.
  intros ok OL draws masks lr mo net0 shape rest env env2 n m b f1 f2 s d fuel1 fuel2 r1 r2 HC Hs Hk Hf HL Hu Hu2 Hb E1 Hg E2 Hn2.
  assert (Self := later_self _ _ HL (constructed_self _ _ _ _ _ _ _ HC Hs Hk Hf)). assert (Hn1 : hasNan r1 = false) by exact (nan_before _ _ _ _ _ _ _ _ E2 Hn2).
  destruct (train_rel0 fuel1 env _ b f1 s d r1 Self (lit_ep_ignores ok _ OL) E1 Hn1) as (q1 & F1 & Q1).
  assert (Hi : sn_idle (r_snn q1) = true). { unfold train in F1. destruct (validData s d b); try discriminate. destruct (negb _); [discriminate|]. unfold trainSync in F1. cbn [Z.ltb Z.compare andThen] in F1. exact (loop_idle _ _ _ _ Hu _ _ _ F1). }
  destruct Q1 as (J1 & J2 & J3 & J4 & J5 & J6 & J7). destruct (train_rel1 fuel2 env2 _ b f2 (r_snn q1) (r_snn r1) (r_data r1) r2 J1 Hi (lit_ep_ignores ok _ OL) E2 Hn2) as (q2 & F2 & (I1 & I2 & I3 & I4 & I5 & I6 & I7)).
  rewrite <- J5 in F2. rewrite <- J6 in Hg. destruct (C78_resumed_partial ok OL env env2 n m b 0 s d fuel1 fuel2 q1 q2 Hu Hu2 ltac:(lia) Hb F1 Hg F2) as (fuel & q & F3 & Sq & Dq & Lq).
  assert (Sn : sn_net (r_snn q) = sn_net (r_snn q2)) by exact (f_equal sn_net Sq). split.
  - exists fuel, q. split; [exact F3|]. unfold hasNan. rewrite Sn. destruct I1 as (_ & _ & X & _). rewrite X. exact Hn2.
  - intros f3 fuel' r E3 Hn3. destruct (train_rel0 fuel' env _ b f3 s d r Self (lit_ep_ignores ok _ OL) E3 Hn3) as (q' & F4 & (K1 & _ & _ & _ & K5 & _ & K7)).
    rewrite <- (same_end _ _ _ _ _ _ _ _ _ _ F3 F4) in *. split; [rewrite <- (netrel_weights _ _ K1), Sn; now apply netrel_weights|]. split; [congruence|]. rewrite <- K7, Lq. congruence.
Qed.
End P.
Print Assumptions C78_resumed_partial.
Print Assumptions C78_through_a_file_partial.
Print Assumptions C78_with_evaluations_partial.
From Verif Require Import Witness FactoryProps DataProps TrainProps EvalCallProps.
(* with a recurrent layer the evaluation that train() makes when it begins changes what is learned afterwards: one epoch and one epoch are
   not two epochs *)
Definition trIn_r := rows32 [[1];[2]]%Z.
Definition trLab_r := rows32 [[1];[0]]%Z.
Definition env_l (c : nat) : @Env N32 := @mkEnv N32 (fun k => e_clock env_t k) (fun _ => false) (fun k => e_rng env_t (c + k)) (fun k => e_rand env_t (c + k)) SpecFloat.S754_nan.
Definition c78_check : bool :=
  run_check (@newSnn N32 draws_t nomasks demo_rec (b32q 1 100) (b32q 9 10)) (fun s0 =>
  run_check (@mkData4 N32 regression trIn_r trLab_r trIn_r trIn_r nonTemporal 0) (fun d =>
  snn_check (train 10 env_t (lit_ep 1) 1 2 s0 d) (fun r1 => snn_check (train 10 (env_l (r_checks r1 - 1)) (lit_ep 1) 1 2 (r_snn r1) (r_data r1)) (fun r2 => snn_check (train 10 env_t (lit_ep 2) 1 2 s0 d) (fun r =>
    negb (hasNan r2) && negb (hasNan r) && negb (wl_eqb (net_weights (sn_net (r_snn r2))) (net_weights (sn_net (r_snn r))))))))).
Theorem C78_recurrent_refuted : exists s0 d r1 r2 r, @newSnn N32 draws_t nomasks demo_rec (b32q 1 100) (b32q 9 10) = Ok s0 /\
  @mkData4 N32 regression trIn_r trLab_r trIn_r trIn_r nonTemporal 0 = Ok d /\
  train 10 env_t (lit_ep 1) 1 2 s0 d = Some (Ok r1) /\ goes_on (r_checks r1 - 1) env_t (env_l (r_checks r1 - 1)) /\
  train 10 (env_l (r_checks r1 - 1)) (lit_ep 1) 1 2 (r_snn r1) (r_data r1) = Some (Ok r2) /\ train 10 env_t (lit_ep 2) 1 2 s0 d = Some (Ok r) /\ hasNan r2 = false /\ hasNan r = false /\
  net_weights (sn_net (r_snn r2)) <> net_weights (sn_net (r_snn r)).
Proof.
  assert (H : c78_check = true) by (vm_compute; reflexivity). unfold c78_check in H. apply run_check_ex in H as (s0 & E & H). apply run_check_ex in H as (d & E0 & H). apply snn_check_ex in H as (r1 & E1 & H). apply snn_check_ex in H as (r2 & E2 & H). apply snn_check_ex in H as (r & E3 & H). apply andb_prop in H as [H1 H3]. apply andb_prop in H1 as [H1 H2].
  exists s0, d, r1, r2, r. do 3 (split; [assumption|]). split; [split; reflexivity|]. do 2 (split; [assumption|]). split; [now apply negb_true_iff|]. split; [now apply negb_true_iff|]. intros W. rewrite W in H3. unfold wl_eqb in H3. rewrite (proj2 (list_eqb_eq _ (list_eqb_eq _ sfl_eqb_eq) _ _) eq_refl) in H3. discriminate.
Qed.
Print Assumptions C78_recurrent_refuted.
(* stopTrainingAsync() in the middle of an epoch: the rest of the epoch is lost. After one of the three samples of the only epoch, neither a
   training of no epoch nor one of one more epoch gives the network of the training that was not stopped *)
Definition env_stop : @Env N32 := @mkEnv N32 (e_clock env_t) (fun k => k =? 2) (e_rng env_t) (e_rand env_t) SpecFloat.S754_nan.
Local Notation c78_stop m := (
  run_check (@newSnn N32 draws_t nomasks demo_t (b32q 1 100) (b32q 9 10)) (fun s0 =>
  run_check (@mkData4 N32 classification trIn_t trLab_t teIn_t teLab_t nonTemporal 0) (fun d =>
  snn_check (train 10 env_stop (lit_ep 1) 1 0 s0 d) (fun r1 => snn_check (train 10 (env_l (r_checks r1 - 1)) (lit_ep m) 1 0 (r_snn r1) (r_data r1)) (fun r2 => snn_check (train 10 env_t (lit_ep 1) 1 0 s0 d) (fun r =>
    negb (hasNan r2) && (List.length (FreqSpec.steps (r_log r1)) =? 1) && (List.length (FreqSpec.steps (r_log r)) =? 3) && negb (wl_eqb (net_weights (sn_net (r_snn r2))) (net_weights (sn_net (r_snn r)))))))))) (only parsing).
Lemma c78_stop_0 : c78_stop 0 = true. Proof. vm_compute. reflexivity. Qed.
Lemma c78_stop_1 : c78_stop 1 = true. Proof. vm_compute. reflexivity. Qed.
Lemma stop_ex m : c78_stop m = true -> exists s0 d r1 r2 r, @newSnn N32 draws_t nomasks demo_t (b32q 1 100) (b32q 9 10) = Ok s0 /\
  @mkData4 N32 classification trIn_t trLab_t teIn_t teLab_t nonTemporal 0 = Ok d /\
  train 10 env_stop (lit_ep 1) 1 0 s0 d = Some (Ok r1) /\ List.length (FreqSpec.steps (r_log r1)) = 1 /\ 
  train 10 (env_l (r_checks r1 - 1)) (lit_ep m) 1 0 (r_snn r1) (r_data r1) = Some (Ok r2) /\ train 10 env_t (lit_ep 1) 1 0 s0 d = Some (Ok r) /\ List.length (FreqSpec.steps (r_log r)) = 3 /\ hasNan r2 = false /\
  net_weights (sn_net (r_snn r2)) <> net_weights (sn_net (r_snn r)).
Proof.
  intros H. apply run_check_ex in H as (s0 & E & H). apply run_check_ex in H as (d & E0 & H). apply snn_check_ex in H as (r1 & E1 & H). apply snn_check_ex in H as (r2 & E2 & H). apply snn_check_ex in H as (r & E3 & H).
  apply andb_prop in H as [H1 H4]. apply andb_prop in H1 as [H1 H3]. apply andb_prop in H1 as [H1 H2].
  apply Nat.eqb_eq in H2. apply Nat.eqb_eq in H3. exists s0, d, r1, r2, r. split; [exact E|]. split; [exact E0|]. split; [exact E1|]. split; [exact H2|]. split; [exact E2|]. split; [exact E3|]. split; [exact H3|]. split; [now apply negb_true_iff|].
  apply negb_true_iff in H4. clear - H4. intros W. rewrite W in H4. unfold wl_eqb in H4. rewrite (proj2 (list_eqb_eq _ (list_eqb_eq _ sfl_eqb_eq) _ _) eq_refl) in H4. discriminate.
Qed.
Theorem C78_stopped_refuted : forall m, m = 0%Z \/ m = 1%Z -> exists s0 d r1 r2 r, @newSnn N32 draws_t nomasks demo_t (b32q 1 100) (b32q 9 10) = Ok s0 /\
  @mkData4 N32 classification trIn_t trLab_t teIn_t teLab_t nonTemporal 0 = Ok d /\
  train 10 env_stop (lit_ep 1) 1 0 s0 d = Some (Ok r1) /\ List.length (FreqSpec.steps (r_log r1)) = 1 /\ 
  train 10 (env_l (r_checks r1 - 1)) (lit_ep m) 1 0 (r_snn r1) (r_data r1) = Some (Ok r2) /\ train 10 env_t (lit_ep 1) 1 0 s0 d = Some (Ok r) /\ List.length (FreqSpec.steps (r_log r)) = 3 /\ hasNan r2 = false /\
  net_weights (sn_net (r_snn r2)) <> net_weights (sn_net (r_snn r)).
Proof. intros m [-> | ->]; apply stop_ex; [exact c78_stop_0|exact c78_stop_1]. Qed.
Print Assumptions C78_stopped_refuted.
(* the demonstration run: one epoch and one more, with batches of two samples; the numbers are all finite after the first *)
Definition c78_demo : bool :=
  run_check (@newSnn N32 draws_t nomasks demo_t (b32q 1 100) (b32q 9 10)) (fun s0 =>
  run_check (@mkData4 N32 classification trIn_t trLab_t teIn_t teLab_t nonTemporal 0) (fun d =>
  snn_check (train 10 env_t (lit_ep 1) 2 0 s0 d) (fun r1 => snn_check (train 10 (env_l (r_checks r1 - 1)) (lit_ep 1) 2 0 (r_snn r1) (r_data r1)) (fun r2 =>
    negb (hasNan r2) && forallb ffinite (snn_numbers (r_snn r1)) && (List.length (FreqSpec.steps (r_log r1)) =? 1) && (List.length (FreqSpec.steps (r_log r2)) =? 1))))).
Example C78_hypotheses_met : exists s0 d r1 r2, @newSnn N32 draws_t nomasks demo_t (b32q 1 100) (b32q 9 10) = Ok s0 /\ @mkData4 N32 classification trIn_t trLab_t teIn_t teLab_t nonTemporal 0 = Ok d /\
  order_laws N32 not_nan /\ undisturbed env_t /\ undisturbed (env_l (r_checks r1 - 1)) /\ train 10 env_t (lit_ep (Z.of_nat 1)) 2 0 s0 d = Some (Ok r1) /\ goes_on (r_checks r1 - 1) env_t (env_l (r_checks r1 - 1)) /\
  train 10 (env_l (r_checks r1 - 1)) (lit_ep (Z.of_nat 1)) 2 0 (r_snn r1) (r_data r1) = Some (Ok r2) /\ hasNan r2 = false /\ all_finite (snn_numbers (r_snn r1)) /\ FreqSpec.steps (r_log r1) <> [] /\ FreqSpec.steps (r_log r2) <> [].
Proof.
  assert (H : c78_demo = true) by (vm_compute; reflexivity). unfold c78_demo in H. apply run_check_ex in H as (s0 & E & H). apply run_check_ex in H as (d & E0 & H). apply snn_check_ex in H as (r1 & E1 & H). apply snn_check_ex in H as (r2 & E2 & H). apply andb_prop in H as [H H4]. apply andb_prop in H as [H H3]. apply andb_prop in H as [H1 H2].
  apply Nat.eqb_eq in H3. apply Nat.eqb_eq in H4. exists s0, d, r1, r2. do 2 (split; [assumption|]). split; [exact StatProps.order_laws_N32|]. split; [intros k; reflexivity|]. split; [intros k; reflexivity|]. split; [exact E1|]. split; [split; reflexivity|]. split; [exact E2|]. split; [now apply negb_true_iff|].
  split; [apply Forall_forall; now apply forallb_forall|]. split; intros X; rewrite X in *; discriminate.
Qed.
