(* C84: with real arithmetic, an error multiplier on the last layer is a learning rate multiplied. *)
From Coq Require SpecFloat.
From Verif Require Import Base Num ActModel NeuronModel LayerModel NetModel StatModel WaitModel DataModel FactoryModel TrainModel SaveModel SaveSpec LookSpec.
From Verif Require Import Float32 DataProps Witness TrainProps BuildProofs FactoryProps NeutralSpec NeutralTrainSpec RateSpec RateBuilt RateUsers.
From Coq Require Import Reals Lia Lra.
Local Open Scope outcome_scope.
Local Open Scope list_scope.

(* The network whose last layer has ErrorMultiplier(c) after its other options, described with the rate l, and the one without this option
   described with the rate c * l, whose regularizations before the last layer have factors c times smaller: the same calls (trainings,
   predictions, inspections) give the same answers, the same weights, the same failures. *)
Theorem C84_multiplier_is_rate : forall (c : Rdefinitions.R) draws masks masks' d0 ds dl (l m : Rdefinitions.R) n n',
  same_draws (one_more (List.length ds) (List.length (d_opts dl))) masks masks' ->
  @construct RNum draws masks (d0 :: ds ++ [dl]) (c * l)%R m = Ok n ->
  @construct RNum draws masks' (d0 :: map (@regularized RNum c) ds ++ [with_last_option (@d_mult RNum c) dl]) l m = Ok n' ->
  forall cs cs', Forall2 (same_call (one_more (List.length ds) (List.length (d_opts dl)))) cs cs' -> same_end (perform_all n cs) (perform_all n' cs').
Proof. exact rate_ends. Qed.
Print Assumptions C84_multiplier_is_rate.
(* without regularization before the last layer, nothing but the rate changes *)
Theorem C84_without_regularization : forall (c : Rdefinitions.R) draws masks masks' d0 ds dl (l m : Rdefinitions.R) n n',
  Forall no_regularization ds -> same_draws (one_more (List.length ds) (List.length (d_opts dl))) masks masks' ->
  @construct RNum draws masks (d0 :: ds ++ [dl]) (c * l)%R m = Ok n ->
  @construct RNum draws masks' (d0 :: ds ++ [with_last_option (@d_mult RNum c) dl]) l m = Ok n' ->
  forall cs cs', Forall2 (same_call (one_more (List.length ds) (List.length (d_opts dl)))) cs cs' -> same_end (perform_all n cs) (perform_all n' cs').
Proof. intros c draws masks masks' d0 ds dl l m n n' Hn Hd E E'. apply (rate_ends c draws masks masks' d0 ds dl l m n n' Hd E). rewrite (regularized_all c ds Hn). exact E'. Qed.
Print Assumptions C84_without_regularization.
(* and whatever is done with the two StraightforwardNeuralNetworks shows the same *)
Theorem C84_trainings : forall (c : Rdefinitions.R) draws masks masks' d0 ds dl (l m : Rdefinitions.R) s s',
  same_draws (one_more (List.length ds) (List.length (d_opts dl))) masks masks' ->
  @newSnn RNum draws masks (d0 :: ds ++ [dl]) (c * l)%R m = Ok s ->
  @newSnn RNum draws masks' (d0 :: map (@regularized RNum c) ds ++ [with_last_option (@d_mult RNum c) dl]) l m = Ok s' ->
  forall acts acts', Forall2 (same_action (one_more (List.length ds) (List.length (d_opts dl)))) acts acts' -> lives s acts = lives s' acts'.
Proof. exact rate_users. Qed.
Print Assumptions C84_trainings.

(* three layers, a dropout and a regularization, the rate doubled *)
Definition rate_specs (v : Rdefinitions.R) (more : list (@odesc RNum)) : list (Z * activation * list (@odesc RNum)) :=
  [(3%Z, a_tanh, [@d_l2 RNum v]); (4%Z, a_sigmoid, []); (2%Z, a_identity, @d_dropout RNum (1 / 2)%R :: @d_l1 RNum (1 / 10)%R :: more)].
Definition rate_descs v more : list (@LDesc RNum) := map (fun p => @FullyConnected RNum (fst (fst p)) (snd (fst p)) (snd p)) (rate_specs v more).
Definition rate_draws : nat -> nat -> nat -> bool := fun l o i => match l, o with 2, 0 => Nat.even i | _, _ => true end.
Lemma rate_last v : exists ds dl, rate_descs v [] = ds ++ [dl] /\ List.length ds = 2 /\ List.length (d_opts dl) = 2 /\
  rate_descs (2 * v)%R [@d_mult RNum 2%R] = map (@regularized RNum 2%R) ds ++ [with_last_option (@d_mult RNum 2%R) dl].
Proof. exists (firstn 2 (rate_descs v [])), (nth 2 (rate_descs v []) (@Input RNum [])). repeat split. Qed.
Lemma rate_same : same_draws (one_more 2 2) rate_draws rate_draws.
Proof.
  intros l o i. destruct l as [|[|[|l]]]; cbn [one_more Nat.eqb fst snd rate_draws]; repeat split; auto; intros H; try lia; destruct o as [|[|o]]; try lia; reflexivity.
Qed.
Lemma rate_net v more (l : Rdefinitions.R) : (0 < l < 1)%R -> exists n, @construct RNum (fun _ _ _ _ => (1 / 10)%R) rate_draws (@Input RNum [3]%Z :: rate_descs v more) l (9 / 10)%R = Ok n.
Proof.
  intros Hl. apply C26_dense_accepted; auto; try discriminate; try (intros; lra); try (cbn; lia).
  - repeat constructor; lia.
  - repeat constructor; cbn; lia.
Qed.
Example C84_hypotheses : exists ds dl n n', List.length ds = 2 /\ d_opts dl <> [] /\ (exists d v, In d ds /\ In (@d_l2 RNum v) (d_opts d)) /\
  same_draws (one_more (List.length ds) (List.length (d_opts dl))) rate_draws rate_draws /\
  @construct RNum (fun _ _ _ _ => (1 / 10)%R) rate_draws (@Input RNum [3]%Z :: ds ++ [dl]) (2 * (1 / 100))%R (9 / 10)%R = Ok n /\
  @construct RNum (fun _ _ _ _ => (1 / 10)%R) rate_draws (@Input RNum [3]%Z :: map (@regularized RNum 2%R) ds ++ [with_last_option (@d_mult RNum 2%R) dl]) (1 / 100)%R (9 / 10)%R = Ok n' /\
  Forall2 (same_call (one_more (List.length ds) (List.length (d_opts dl)))) [@Training RNum rate_draws [1%R; 0%R; 2%R] [0%R; 1%R] false; @Prediction RNum [2%R; 0%R; 1%R] true]
    [@Training RNum rate_draws [1%R; 0%R; 2%R] [0%R; 1%R] false; @Prediction RNum [2%R; 0%R; 1%R] true].
Proof.
  destruct (rate_net (1 / 100)%R [] (2 * (1 / 100))%R) as (n & E); [lra|]. destruct (rate_net (2 * (1 / 100))%R [@d_mult RNum 2%R] (1 / 100)%R) as (n' & E'); [lra|].
  exists (firstn 2 (rate_descs (1 / 100)%R [])), (nth 2 (rate_descs (1 / 100)%R []) (@Input RNum [])), n, n'.
  split; [reflexivity|]. split; [discriminate|]. split; [eexists; eexists; split; [left; reflexivity|left; reflexivity]|]. split; [exact rate_same|]. split; [exact E|]. split; [exact E'|].
  repeat constructor; auto; apply rate_same.
Qed.
Lemma new_of_construct {N : Num} draws masks ds lr m n : construct draws masks ds lr m = Ok n -> exists s, newSnn draws masks ds lr m = Ok s.
Proof.
  intros E. pose proof (construct_inv _ _ _ _ _ _ E) as (d0 & rest & _ & _ & _ & _ & Hne & _). unfold newSnn. rewrite E. cbn [bind].
  assert (H : exists o, net_numberOfOutputs n = Ok o).
  { unfold net_numberOfOutputs, lgetZ, lget. destruct (nn_layers n) as [|a ls]; [congruence|]. replace (_ <? 0)%Z with false by (symmetry; apply Z.ltb_ge; cbn [List.length]; lia).
    destruct (nth_error _ _) as [x|] eqn:X; [cbn; eauto|]. apply nth_error_None in X. cbn [List.length] in X. lia. }
  destruct H as (o & ->). cbn. eauto.
Qed.
Example C84_trainings_hypotheses : exists ds dl s s', List.length ds = 2 /\
  same_draws (one_more (List.length ds) (List.length (d_opts dl))) rate_draws rate_draws /\
  @newSnn RNum (fun _ _ _ _ => (1 / 10)%R) rate_draws (@Input RNum [3]%Z :: ds ++ [dl]) (2 * (1 / 100))%R (9 / 10)%R = Ok s /\
  @newSnn RNum (fun _ _ _ _ => (1 / 10)%R) rate_draws (@Input RNum [3]%Z :: map (@regularized RNum 2%R) ds ++ [with_last_option (@d_mult RNum 2%R) dl]) (1 / 100)%R (9 / 10)%R = Ok s' /\
  forall fuel w b f (d : @Data RNum), Forall2 (same_action (one_more (List.length ds) (List.length (d_opts dl))))
    [Train fuel (@mkEnv RNum (fun k => Z.of_nat k) (fun _ => false) (fun _ => rev_rng) (fun _ => rate_draws) 0%R) w b f d]
    [Train fuel (@mkEnv RNum (fun k => Z.of_nat k) (fun _ => false) (fun _ => rev_rng) (fun _ => rate_draws) 0%R) w b f d].
Proof.
  destruct C84_hypotheses as (ds & dl & n & n' & L & _ & _ & D & E & E' & _). apply new_of_construct in E as (s & E). apply new_of_construct in E' as (s' & E').
  exists ds, dl, s, s'. split; [exact L|]. split; [exact D|]. split; [exact E|]. split; [exact E'|]. intros. constructor; [|constructor]. cbn [same_action]. do 9 (split; [reflexivity|]). intros j; exact D.
Qed.

(* With floats the product is rounded at another place. *)
Definition third_descs (more : list (@odesc N32)) : list (@LDesc N32) := [@Input N32 [2]%Z; @FullyConnected N32 2 a_identity []; @FullyConnected N32 1 a_identity more].
Definition third_calls : list (@call N32) := [@Training N32 (fun _ _ _ => true) [b32 1; b32 2] [b32 1] true; @Training N32 (fun _ _ _ => true) [b32q 1 3; b32 2] [b32 5] true].
Theorem C84_binary32_refuted : exists n n' a a' m m',
  @construct N32 draws_t nomasks (third_descs []) (@fmul N32 (b32q 7 10) (b32q 3 100)) (b32 0) = Ok n /\
  @construct N32 draws_t nomasks (third_descs [@d_mult N32 (b32q 7 10)]) (b32q 3 100) (b32 0) = Ok n' /\
  perform_all n third_calls = Ok (a, m) /\ perform_all n' third_calls = Ok (a', m') /\ net_weights m <> net_weights m'.
Proof.
  assert (H : run_check (@construct N32 draws_t nomasks (third_descs []) (@fmul N32 (b32q 7 10) (b32q 3 100)) (b32 0)) (fun n =>
    run_check (@construct N32 draws_t nomasks (third_descs [@d_mult N32 (b32q 7 10)]) (b32q 3 100) (b32 0)) (fun n' =>
    run_check (perform_all n third_calls) (fun p => run_check (perform_all n' third_calls) (fun p' =>
      negb (sfl_eqb (concat (concat (net_weights (snd p)))) (concat (concat (net_weights (snd p')))))))) ) = true) by (vm_compute; reflexivity).
  apply run_check_ex in H as (n & E1 & H). apply run_check_ex in H as (n' & E2 & H). apply run_check_ex in H as ((a & m) & E3 & H). apply run_check_ex in H as ((a' & m') & E4 & H).
  exists n, n', a, a', m, m'. repeat (split; [assumption|]). intros X. cbn [snd] in H. rewrite X in H. apply negb_true_iff in H. rewrite (proj2 (sfl_eqb_eq _ _) eq_refl) in H. discriminate.
Qed.
Print Assumptions C84_binary32_refuted.
