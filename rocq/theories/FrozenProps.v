(* C85: with real arithmetic, a network whose last layer ends with ErrorMultiplier(0) does not learn: its weights stay, or the bias is lost. *)
From Coq Require SpecFloat.
From Verif Require Import Base Num ActModel NeuronModel LayerModel NetModel StatModel WaitModel DataModel FactoryModel TrainModel SaveModel SaveSpec LookSpec.
From Verif Require Import Float32 DataProps Witness TrainProps BuildProofs FactoryProps NeutralSpec NeutralTrainSpec RateSpec RateProps FrozenSpec FrozenProofs FrozenUsers FrozenLayers.
From Coq Require Import Reals Lia Lra.
Local Open Scope outcome_scope.
Local Open Scope list_scope.

(* any layers (without regularization before the last), any options in the last one before the multiplier, any calls *)
Theorem C85_zero_multiplier : forall draws masks d0 ds dl (l m : Rdefinitions.R) n,
  Forall no_regularization ds ->
  @construct RNum draws masks (d0 :: ds ++ [with_last_option (@d_mult RNum 0%R) dl]) l m = Ok n ->
  forall cs answers n', perform_all n cs = Ok (answers, n') -> Forall2 (Forall2 unlearned) (net_weights n) (net_weights n').
Proof. exact multiplied_by_zero. Qed.
Print Assumptions C85_zero_multiplier.
(* and whatever trainings and predictions a StraightforwardNeuralNetwork lives through: the weights after each training *)
Theorem C85_trainings : forall draws masks d0 ds dl (l m : Rdefinitions.R) s,
  Forall no_regularization ds ->
  @newSnn RNum draws masks (d0 :: ds ++ [with_last_option (@d_mult RNum 0%R) dl]) l m = Ok s ->
  forall acts shown, lives s acts = Ok shown -> forall w r b d p, In (SaveSpec.Trained w r b d p) shown -> Forall2 (Forall2 unlearned) (net_weights (sn_net s)) w.
Proof. exact zero_users. Qed.
Print Assumptions C85_trainings.

Example C85_hypotheses : exists ds dl n, List.length ds = 2 /\ d_opts dl <> [] /\ Forall (@no_regularization RNum) ds /\
  @construct RNum (fun _ _ _ _ => (1 / 10)%R) rate_draws (@Input RNum [3]%Z :: ds ++ [with_last_option (@d_mult RNum 0%R) dl]) (1 / 100)%R (9 / 10)%R = Ok n.
Proof.
  assert (H : exists n, @construct RNum (fun _ _ _ _ => (1 / 10)%R) rate_draws (@Input RNum [3]%Z :: map (fun p => @FullyConnected RNum (fst (fst p)) (snd (fst p)) (snd p))
    [(3%Z, a_tanh, []); (4%Z, a_sigmoid, []); (2%Z, a_identity, [@d_dropout RNum (1 / 2)%R; @d_l1 RNum (1 / 10)%R; @d_mult RNum 0%R])]) (1 / 100)%R (9 / 10)%R = Ok n).
  { apply C26_dense_accepted; auto; try discriminate; try (intros; lra); try (cbn; lia); repeat constructor; cbn; lia. }
  destruct H as (n & E).
  exists [@FullyConnected RNum 3 a_tanh []; @FullyConnected RNum 4 a_sigmoid []], (@FullyConnected RNum 2 a_identity [@d_dropout RNum (1 / 2)%R; @d_l1 RNum (1 / 10)%R]), n.
  split; [reflexivity|]. split; [discriminate|]. split; [repeat constructor; intros o []|exact E].
Qed.
Example C85_trainings_hypotheses : exists ds dl s, List.length ds = 2 /\ Forall (@no_regularization RNum) ds /\
  @newSnn RNum (fun _ _ _ _ => (1 / 10)%R) rate_draws (@Input RNum [3]%Z :: ds ++ [with_last_option (@d_mult RNum 0%R) dl]) (1 / 100)%R (9 / 10)%R = Ok s.
Proof. destruct C85_hypotheses as (ds & dl & n & L & _ & H & E). apply new_of_construct in E as (s & E). exists ds, dl, s. auto. Qed.

(* The multiplier on any layer stops this layer and those before it; the layers after it, whatever they are, learn. *)
Theorem C85_layers_before : forall draws masks d0 ds dl ts (l m : Rdefinitions.R) n,
  Forall no_regularization ds ->
  @construct RNum draws masks (d0 :: ds ++ with_last_option (@d_mult RNum 0%R) dl :: ts) l m = Ok n ->
  forall cs answers n', perform_all n cs = Ok (answers, n') ->
  Forall2 (Forall2 unlearned) (firstn (S (List.length ds)) (net_weights n)) (firstn (S (List.length ds)) (net_weights n')).
Proof. exact stopped_layers. Qed.
Print Assumptions C85_layers_before.
Theorem C85_layers_trainings : forall draws masks d0 ds dl ts (l m : Rdefinitions.R) s,
  Forall no_regularization ds ->
  @newSnn RNum draws masks (d0 :: ds ++ with_last_option (@d_mult RNum 0%R) dl :: ts) l m = Ok s ->
  forall acts shown, lives s acts = Ok shown -> forall w r b d p, In (SaveSpec.Trained w r b d p) shown ->
  Forall2 (Forall2 unlearned) (firstn (S (List.length ds)) (net_weights (sn_net s))) (firstn (S (List.length ds)) w).
Proof. exact stopped_users. Qed.
Print Assumptions C85_layers_trainings.
Example C85_layers_hypotheses : exists ds dl ts n s, List.length ds = 1 /\ List.length ts = 1 /\ Forall (@no_regularization RNum) ds /\ ~ Forall (@no_regularization RNum) ts /\
  @construct RNum (fun _ _ _ _ => (1 / 10)%R) rate_draws (@Input RNum [3]%Z :: ds ++ with_last_option (@d_mult RNum 0%R) dl :: ts) (1 / 100)%R (9 / 10)%R = Ok n /\
  @newSnn RNum (fun _ _ _ _ => (1 / 10)%R) rate_draws (@Input RNum [3]%Z :: ds ++ with_last_option (@d_mult RNum 0%R) dl :: ts) (1 / 100)%R (9 / 10)%R = Ok s.
Proof.
  assert (H : exists n, @construct RNum (fun _ _ _ _ => (1 / 10)%R) rate_draws (@Input RNum [3]%Z :: map (fun p => @FullyConnected RNum (fst (fst p)) (snd (fst p)) (snd p))
    [(3%Z, a_tanh, []); (4%Z, a_sigmoid, [@d_l1 RNum (1 / 10)%R; @d_mult RNum 0%R]); (2%Z, a_identity, [@d_l2 RNum (1 / 10)%R])]) (1 / 100)%R (9 / 10)%R = Ok n).
  { apply C26_dense_accepted; auto; try discriminate; try (intros; lra); try (cbn; lia); repeat constructor; cbn; lia. }
  destruct H as (n & E). pose proof (new_of_construct _ _ _ _ _ _ E) as (s & E').
  exists [@FullyConnected RNum 3 a_tanh []], (@FullyConnected RNum 4 a_sigmoid [@d_l1 RNum (1 / 10)%R]), [@FullyConnected RNum 2 a_identity [@d_l2 RNum (1 / 10)%R]], n, s.
  split; [reflexivity|]. split; [reflexivity|]. split; [repeat constructor; intros o []|]. split; [|split; [exact E|exact E']].
  intros F. inversion F as [|x l Hx _]; subst. exact (Hx (@d_l2 RNum (1 / 10)%R) (or_introl eq_refl)).
Qed.

(* Not even the predictions stay what they were: the first training takes the bias of every neuron that learns to 0 (two neurons, in binary32). *)
Definition zero_descs : list (@LDesc N32) := [@Input N32 [1]%Z; @FullyConnected N32 1 a_identity []; @FullyConnected N32 1 a_identity [@d_mult N32 (b32 0)]].
Theorem C85_predictions_kept_refuted : exists n a a' n1 n2 n3,
  @construct N32 draws_t nomasks zero_descs (b32q 1 10) (b32 0) = Ok n /\
  net_output n [b32 1] false = Ok (a, n1) /\ trainOnce (fun _ _ _ => true) n [b32 1] [b32 1] false = Ok n2 /\ net_output n2 [b32 1] false = Ok (a', n3) /\ a <> a'.
Proof.
  assert (H : run_check (@construct N32 draws_t nomasks zero_descs (b32q 1 10) (b32 0)) (fun n =>
    run_check (net_output n [b32 1] false) (fun p => run_check (trainOnce (fun _ _ _ => true) n [b32 1] [b32 1] false) (fun n2 => run_check (net_output n2 [b32 1] false) (fun p' =>
      negb (sfl_eqb (fst p) (fst p')))))) = true) by (vm_compute; reflexivity).
  apply run_check_ex in H as (n & E1 & H). apply run_check_ex in H as ((a & n1) & E2 & H). apply run_check_ex in H as (n2 & E3 & H). apply run_check_ex in H as ((a' & n3) & E4 & H).
  exists n, a, a', n1, n2, n3. repeat (split; [assumption|]). intros X. cbn [fst] in H. rewrite X in H. apply negb_true_iff in H. rewrite (proj2 (sfl_eqb_eq _ _) eq_refl) in H. discriminate.
Qed.
Print Assumptions C85_predictions_kept_refuted.
