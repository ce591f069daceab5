(* C83: options of layers that have no effect, trainings and evaluations. *)
From Coq Require Import Reals Lia Lra.
From Coq Require SpecFloat.
From Verif Require Import Base Num ActModel NeuronModel LayerModel NetModel StatModel WaitModel DataModel FactoryModel TrainModel SaveModel SaveSpec LookSpec.
From Verif Require Import Float32 DataProps Witness TrainProps NeutralSpec NeutralTrainSpec NeutralProofs NeutralFloat NeutralProps NeutralTrain.
Local Open Scope outcome_scope.

(* what the users of StraightforwardNeuralNetwork see is the same with ErrorMultiplier(1) and Dropout(0) put anywhere among the options of any
   layers: predictions, and for every training the weights, the results of the evaluations, the order of the data and what is presented *)
Theorem C83_trainings : forall (N : Num), (forall x : F, fmul x fone = x) ->
  forall draws masks masks' d0 ds (ms : addition) lr m, places ms ds -> (forall i, Forall one_option (snd (ms i))) -> same_draws (counts ms) masks masks' ->
  same_users (newSnn draws masks (d0 :: ds) lr m) (newSnn draws masks' (d0 :: with_more ms 0 ds) lr m) (counts ms).
Proof. intros N one draws masks masks' d0 ds ms lr m Hp Ho Hd. apply new_users; auto. intros i n. now apply build_one. Qed.
Print Assumptions C83_trainings.
Theorem C83_trainings_binary32 : forall expf tanhf draws masks masks' d0 ds (ms : @addition (NumB expf tanhf)) lr m, places ms ds ->
  (forall i o, In o (snd (ms i)) -> o = d_mult fone \/ o = d_dropout fzero) -> same_draws (counts ms) masks masks' ->
  same_users (newSnn draws masks (d0 :: ds) lr m) (newSnn draws masks' (d0 :: with_more ms 0 ds) lr m) (counts ms).
Proof.
  intros ex th draws masks masks' d0 ds ms lr m Hp Ho Hd. apply C83_trainings; auto; [apply mult_one|].
  intros i. apply Forall_forall. intros o Hi. destruct (Ho i o Hi) as [->| ->]; [reflexivity|apply minus_zero].
Qed.
Print Assumptions C83_trainings_binary32.
Theorem C83_trainings_zero_partial : forall draws masks masks' d0 ds (ms : @addition RNum) (lr m : @F RNum), places ms ds ->
  (forall i o, In o (snd (ms i)) -> o = @d_mult RNum 1%R \/ o = @d_dropout RNum 0%R \/ o = @d_l1 RNum 0%R \/ o = @d_l2 RNum 0%R) -> same_draws (counts ms) masks masks' ->
  same_users (@newSnn RNum draws masks (d0 :: ds) lr m) (newSnn draws masks' (d0 :: with_more ms 0 ds) lr m) (counts ms).
Proof. intros draws masks masks' d0 ds ms lr m Hp Ho Hd. apply new_users; auto. intros i n. apply real_idle. intros o. apply Ho. Qed.
Print Assumptions C83_trainings_zero_partial.

(* a network with a dropout of its own, five options added, trained in binary32 *)
Definition NB : Num := NumB (fun x => x) (fun x => x).
Definition q32 (n : Z) (d : positive) : @F NB := bf_of (b32q n d).
Definition nb_more : @addition NB := fun i => match i with 0 => (0, [@d_mult NB fone; @d_dropout NB fzero]) | 1 => (1, [@d_dropout NB fzero; @d_mult NB fone; @d_mult NB fone]) | _ => (0, []) end.
Definition nb_ds : list (@LDesc NB) := [@FullyConnected NB 3 a_ReLU []; @FullyConnected NB 2 a_identity [@d_dropout NB (q32 1 2)]].
Definition nb_draws : nat -> nat -> nat -> nat -> @F NB := fun _ n _ i => q32 (Z.of_nat (1 + n + i)) 8.
Definition nb_rand : nat -> nat -> nat -> bool := fun l o i => match l, o with 1, 0 => Nat.even i | _, _ => true end.
Definition nb_env : @Env NB := @mkEnv NB (fun k => Z.of_nat k) (fun _ => false) (fun _ => rev_rng) (fun _ => nb_rand) (bf_of SpecFloat.S754_nan).
Definition nb_rows := map (map (fun z => q32 z 1)) [[1;2];[3;4];[5;6]]%Z.
Definition nb_weights (s : @Snn NB) := concat (concat (map (map (map (fun b : bf => BinarySingleNaN.B2SF b))) (@net_weights NB (sn_net s)))).
Example C83_trainings_hypotheses : exists s s' d r, @newSnn NB nb_draws nb_rand (@Input NB [2]%Z :: nb_ds) (q32 1 100) (q32 9 10) = Ok s /\
  newSnn nb_draws nb_rand (@Input NB [2]%Z :: with_more nb_more 0 nb_ds) (q32 1 100) (q32 9 10) = Ok s' /\
  places nb_more nb_ds /\ (forall i, Forall one_option (snd (nb_more i))) /\ same_draws (counts nb_more) nb_rand nb_rand /\
  @mkData4 NB regression nb_rows nb_rows nb_rows nb_rows nonTemporal 0 = Ok d /\ train 10 nb_env (lit_ep 2) 1 1 s d = Some (Ok r) /\ nb_weights (r_snn r) <> nb_weights s /\
  Forall2 (same_action (counts nb_more)) [Train 10 nb_env (lit_ep 2) 1 1 d; Predict [q32 1 1; q32 1 1] true] [Train 10 nb_env (lit_ep 2) 1 1 d; Predict [q32 1 1; q32 1 1] true].
Proof.
  assert (D : same_draws (counts nb_more) nb_rand nb_rand).
  { intros l o i. destruct l as [|[|l]]; cbn [counts nb_more fst snd List.length nb_rand].
    - repeat split; auto.
    - repeat split; intros H; destruct o as [|o]; try lia; reflexivity.
    - repeat split; auto. }
  assert (H : run_check (@newSnn NB nb_draws nb_rand (@Input NB [2]%Z :: nb_ds) (q32 1 100) (q32 9 10)) (fun s =>
    run_check (newSnn nb_draws nb_rand (@Input NB [2]%Z :: with_more nb_more 0 nb_ds) (q32 1 100) (q32 9 10)) (fun _ =>
    run_check (@mkData4 NB regression nb_rows nb_rows nb_rows nb_rows nonTemporal 0) (fun d =>
    snn_check (train 10 nb_env (lit_ep 2) 1 1 s d) (fun r => negb (sfl_eqb (nb_weights (r_snn r)) (nb_weights s)))))) = true) by (vm_compute; reflexivity).
  apply run_check_ex in H as (s & E1 & H). apply run_check_ex in H as (s' & E2 & H). apply run_check_ex in H as (d & E3 & H). apply snn_check_ex in H as (r & E4 & H).
  exists s, s', d, r. split; [exact E1|]. split; [exact E2|]. split; [|split; [|split; [exact D|split; [exact E3|split; [exact E4|split]]]]].
  - intros i l X. destruct i as [|[|i]]; cbn in X; try (injection X as <-); cbn; lia.
  - intros i. destruct i as [|[|i]]; cbn [nb_more snd]; repeat constructor; apply minus_zero.
  - intros X. apply negb_true_iff in H. rewrite (proj2 (sfl_eqb_eq _ _) X) in H. discriminate.
  - repeat constructor; auto; apply D.
Qed.
