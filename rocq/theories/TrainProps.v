(* C13, C56, C21 (during a training), C42: what train() does. *)
From Coq Require Import String Permutation.
From Verif Require Import Base Num NumOrder NeuronModel LayerModel NetModel StatModel ToolsModel WaitModel WaitSpec WaitProofs DataModel DataSpec DataProofs Witness.
From Verif Require Import ActModel FactoryModel FactorySpec PureSpec PureProps StatProps FactoryProps DataProps TrainModel TrainSpec TrainProofs TrainSafe TrainUser TrainLogs TrainPresent.
Local Open Scope outcome_scope.
Local Open Scope nat_scope.

(* ===== C13 ===== *)
(* A network built from an accepted description (in the scope of C25), after any history of predictions, trainings and saves, trained
   with an epoch criterion n on any data of its format: train() terminates without error, the network is idle again, and unless an
   abnormal number came out of the network, what happened is exactly the expected schedule. *)
Theorem C13_train_exact : forall (N : Num) (ok : F -> Prop), order_laws N ok -> forall draws masks ds lr mo s0 s d env k m n b f,
  newSnn draws masks ds lr mo = Ok s0 -> sane_descriptions ds -> Forall supported_pooling (nn_layers (sn_net s0)) -> trainable (sn_net s0) ->
  product (d_shape (hd (Input []) ds)) = Ok (Z.of_nat k) -> net_numberOfOutputs (sn_net s0) = Ok m ->
  lived k m s0 s -> user_data k m d -> fair env -> undisturbed env ->
  (1 <= b <= Z.of_nat (s_size (d_train d)))%Z -> (d_nature d <> nonTemporal -> b = 1%Z) -> 0 < n -> (Z.of_nat n < int_max)%Z ->
  exists r, (forall fuel, s_size (d_train d) + n + 1 <= fuel -> train fuel env (lit_ep (Z.of_nat n)) b f s d = Some (Ok r)) /\
    sn_idle (r_snn r) = true /\ sn_want (r_snn r) = false /\
    (hasNan r = false -> marks (r_log r) = expected (s_size (d_train d)) (Z.to_nat b) n f /\ sn_epoch (r_snn r) = Z.of_nat (n + 1)).
Proof.
  intros N ok OL draws masks ds lr mo s0 s d env k m n b f HN Hs HP HT Hk Hm HL HD Hf Hu Hb Ht Hn Hn2.
  destruct (newSnn_ok _ _ _ _ _ _ k HN Hs HP HT Hk) as (m' & O0 & Em & I0). rewrite Hm in Em. injection Em as <-.
  destruct (lived_ok k m s0 s O0 I0 HL) as (O & I). pose proof (user_data_ready k m d HD) as R.
  set (w := lit_ep (Z.of_nat n)). set (F0 := s_size (d_train d) + n + 1).
  assert (Hw : ends_after w (Z.of_nat n)).
  { intros el ep acc mae Hep. rewrite (lit_ep_only ok (Z.of_nat n) OL); [|lia|lia]. apply Z.ltb_lt. exact Hep. }
  destruct (train_ok F0 env w b f k m s d O I R Hf Hb Ht) as [E|(r & E & _ & E1 & E2 & E3)].
  { exfalso. revert E. apply (train_ends (Z.of_nat n)); [exact Hw|lia|unfold F0; lia]. }
  exists r. split; [intros fuel Hfu; now apply (train_more F0)|]. split; [exact E1|]. split; [exact E3|]. intros Hnan.
  destruct (train_exact_l ok OL env n f F0 b s d r Hu ltac:(lia) E Hnan) as (A & B & _). auto.
Qed.
Print Assumptions C13_train_exact.
(* the schedule holds for any network and any data whatsoever, as soon as train() comes back *)
Theorem C13_schedule : forall (N : Num) (ok : F -> Prop), order_laws N ok -> forall env n f fuel (b : Z) s d r,
  undisturbed env -> (Z.of_nat n < int_max)%Z -> train fuel env (lit_ep (Z.of_nat n)) b f s d = Some (Ok r) -> hasNan r = false ->
  marks (r_log r) = expected (s_size (d_train d)) (Z.to_nat b) n f /\
  sn_epoch (r_snn r) = Z.of_nat (n + 1) /\ sn_index (r_snn r) = 0 /\ sn_want (r_snn r) = false /\ sn_idle (r_snn r) = true.
Proof. intros N ok OL env n f fuel b s d r Hu Hn. apply (train_exact_l ok OL env n f fuel b s d r Hu). lia. Qed.
Print Assumptions C13_schedule.

(* "never evaluates when f = 0; floor(N/b) steps in each epoch" are read off [expected] *)
Theorem C13_counts : forall size b n f, 0 < b ->
  let l := expected size b n f in
  List.length (filter (fun e => match e with MShuffle => true | _ => false end) l) = n /\
  List.length (filter (fun e => match e with MStep _ => true | _ => false end) l) = n * (size / b) /\
  List.length (filter (fun e => match e with MEvaluate => true | _ => false end) l) = (if (0 <? f)%Z then 1 + n / Z.to_nat f else 0) /\
  (forall p, In (MStep p) l -> p + b <= size /\ exists q, p = q * b).
Proof.
  intros size b n f Hb l. unfold l, expected.
  assert (FM : forall (g : mark -> bool) xs, List.length (filter g (flat_map (one_epoch size b f) xs)) = list_sum (map (fun e => List.length (filter g (one_epoch size b f e))) xs)).
  { intros g. induction xs as [|x xs IH]; [reflexivity|]. cbn [flat_map map list_sum fold_right]. rewrite filter_app, app_length, IH. reflexivity. }
  assert (SC : forall g c xs, (forall e, List.length (filter g (one_epoch size b f e)) = c) -> list_sum (map (fun e => List.length (filter g (one_epoch size b f e))) xs) = List.length xs * c).
  { intros g c xs H. induction xs as [|x xs IH]; [reflexivity|]. change (List.length (filter g (one_epoch size b f x)) + list_sum (map (fun e => List.length (filter g (one_epoch size b f e))) xs) = c + List.length xs * c). now rewrite H, IH. }
  assert (ST : forall g, (forall p, g (MStep p) = false) -> filter g (map MStep (positions size b)) = []).
  { intros g H. induction (positions size b) as [|x xs IH]; [reflexivity|]. cbn. now rewrite H. }
  split; [|split; [|split]].
  - rewrite filter_app, app_length, FM, (SC _ 1), seq_length.
    + destruct (0 <? f)%Z; cbn; lia.
    + intros e. unfold one_epoch. cbn [filter List.length]. rewrite filter_app, app_length, ST by reflexivity. now destruct (_ && _).
  - rewrite filter_app, app_length, FM, (SC _ (size / b)), seq_length.
    + destruct (0 <? f)%Z; cbn; lia.
    + intros e. unfold one_epoch. cbn [filter]. rewrite filter_app, app_length.
      replace (filter _ (map MStep _)) with (map MStep (positions size b)). 2: { clear. induction (positions size b) as [|x xs IH]; [reflexivity|]. cbn [map filter]. f_equal. exact IH. }
      unfold positions. rewrite !map_length, seq_length. destruct (_ && _); cbn; lia.
  - rewrite filter_app, app_length, FM. destruct (Z.ltb_spec 0 f) as [Hf|Hf].
    + cbn [filter List.length]. f_equal. clear l. destruct (Z_of_nat_complete f ltac:(lia)) as (g & ->). rewrite Nat2Z.id. assert (Hg : 0 < g) by lia. induction n as [|n IH]; [rewrite Nat.div_0_l by lia; reflexivity|]. rewrite seq_S, map_app, list_sum_app, IH. cbn [map list_sum fold_right]. unfold one_epoch. cbn [filter]. rewrite filter_app, ST by reflexivity.
      cbn [app]. change (1 + n) with (S n). replace (0 <? Z.of_nat g)%Z with true by (symmetry; now apply Z.ltb_lt). cbn [andb].
      rewrite <- Nat2Z.inj_mod. destruct (Z.eqb_spec (Z.of_nat (S n mod g)) 0) as [E|E]; cbn [filter List.length].
      * assert (E' : S n mod g = 0) by lia. apply Nat.mod_divides in E' as (q & Eq); [|lia]. assert (Hq : 1 <= q) by (destruct q; lia).
        assert (E1 : q = S n / g) by (apply (Nat.div_unique (S n) g q 0); lia). assert (E2 : q - 1 = n / g) by (apply (Nat.div_unique n g (q - 1) (g - 1)); nia). lia.
      * pose proof (Nat.div_mod (S n) g ltac:(lia)). pose proof (Nat.mod_upper_bound (S n) g ltac:(lia)).
        assert (S n / g = n / g); [|cbn; lia]. apply (Nat.div_unique n g (S n / g) (S n mod g - 1)); lia.
    + assert (E : (0 <? f)%Z = false) by (apply Z.ltb_ge; lia). cbn [filter List.length]. rewrite (SC _ 0); [lia|]. intros e. unfold one_epoch. cbn [filter]. rewrite filter_app, ST, E by reflexivity. reflexivity.
  - intros p Hp. apply in_app_iff in Hp as [Hp|Hp]; [destruct (0 <? f)%Z; cbn in Hp; [destruct Hp as [Hp|[]]; discriminate|contradiction]|].
    apply in_flat_map in Hp as (e & _ & Hp). unfold one_epoch in Hp. destruct Hp as [Hp|Hp]; [discriminate|]. apply in_app_iff in Hp as [Hp|Hp]; [|destruct (_ && _); cbn in Hp; [destruct Hp as [Hp|[]]; discriminate|contradiction]].
    apply in_map_iff in Hp as (x & Ex & Hx). injection Ex as ->. unfold positions in Hx. apply in_map_iff in Hx as (q & <- & Hq). apply in_seq in Hq. split; [|eauto].
    pose proof (Nat.mul_div_le size b ltac:(lia)). nia.
Qed.
Print Assumptions C13_counts.

(* a small classification on binary32: 3 samples of 2 values, 2 epochs, batches of 2, an evaluation after each epoch *)
Definition demo_t : list (@LDesc N32) := [@Input N32 [2]%Z; @FullyConnected N32 3 a_sigmoid []; @FullyConnected N32 2 a_sigmoid []].
Definition demo_id2 : list (@LDesc N32) := [@Input N32 [1]%Z; @FullyConnected N32 1 a_identity []].
Definition draws_t : nat -> nat -> nat -> nat -> @F N32 := fun _ n _ i => b32q (Z.of_nat (1 + n + i)) 8.
Definition env_t : @Env N32 := @mkEnv N32 (fun k => Z.of_nat k) (fun _ => false) (fun _ => rev_rng) (fun _ _ _ _ => true) SpecFloat.S754_nan.
Definition trIn_t := rows32 [[1;2];[3;4];[5;6]]%Z.
Definition trLab_t := rows32 [[1;0];[0;1];[1;0]]%Z.
Definition teIn_t := rows32 [[7;8]]%Z.
Definition teLab_t := rows32 [[0;1]]%Z.
Definition mark_eqb (a b : mark) : bool :=
  match a, b with MShuffle, MShuffle => true | MStep p, MStep q => p =? q | MEvaluate, MEvaluate => true | _, _ => false end.
Definition snn_check {A} (x : option (outcome A)) (k : A -> bool) : bool := match x with Some x => run_check x k | None => false end.
Lemma snn_check_ex {A} (x : option (outcome A)) k : snn_check x k = true -> exists a, x = Some (Ok a) /\ k a = true.
Proof. destruct x as [[]|]; cbn; intros; try discriminate; eauto. Qed.
Definition auto_on (s : @Snn N32) : @Snn N32 := @mkSnn N32 (sn_net s) (sn_stats s) (sn_want s) (sn_idle s) (sn_index s) (sn_epoch s) (sn_ntrain s) true "best.snn"%string.

Definition not_nanb (x : @F N32) : bool := match x with SpecFloat.S754_nan => false | _ => true end.
Lemma not_nanb_ok l : forallb not_nanb l = true -> Forall not_nan l.
Proof. intros H. rewrite forallb_forall in H. apply Forall_forall. intros x Hx E. apply H in Hx. subst. discriminate. Qed.
Definition demo_check : bool :=
  run_check (@newSnn N32 draws_t nomasks demo_t (b32q 1 100) (b32q 9 10)) (fun s0 =>
  run_check (@mkData4 N32 classification trIn_t trLab_t teIn_t teLab_t nonTemporal 0) (fun d =>
    forallb pool_okb (nn_layers (sn_net s0)) && nat_is (net_numberOfOutputs (sn_net s0)) 2 &&
    match nn_layers (sn_net s0) with a :: b :: t => getNumberOfNeurons (last (b :: t) a) =? cell_count (getShapeOfOutput (last (b :: t) a)) | _ => false end &&
    (s_size (d_train d) =? 3) &&
    snn_check (train 10 env_t (lit_ep 2) 2 1 (auto_on s0) d) (fun r => negb (hasNan r) &&
      list_eqb mark_eqb (marks (r_log r)) [MEvaluate; MShuffle; MStep 0; MEvaluate; MShuffle; MStep 0; MEvaluate] &&
      existsb (fun e => match e with Saved _ _ => true | _ => false end) (r_log r) && forallb not_nanb (st_rateMax (sn_stats (auto_on s0)) :: rates (r_log r))))).
Lemma demo_run : exists s0 d r, @newSnn N32 draws_t nomasks demo_t (b32q 1 100) (b32q 9 10) = Ok s0 /\
  @mkData4 N32 classification trIn_t trLab_t teIn_t teLab_t nonTemporal 0 = Ok d /\
  Forall (@supported_pooling N32) (nn_layers (sn_net s0)) /\ net_numberOfOutputs (sn_net s0) = Ok 2 /\ trainable (sn_net s0) /\ s_size (d_train d) = 3 /\
  train 10 env_t (lit_ep 2) 2 1 (auto_on s0) d = Some (Ok r) /\ hasNan r = false /\ list_eqb mark_eqb (marks (r_log r)) [MEvaluate; MShuffle; MStep 0; MEvaluate; MShuffle; MStep 0; MEvaluate] = true /\
  (exists p s, In (Saved p s) (r_log r)) /\ Forall not_nan (st_rateMax (sn_stats (auto_on s0)) :: rates (r_log r)).
Proof.
  assert (H : demo_check = true) by (vm_compute; reflexivity). unfold demo_check in H. unpack_all.
  match goal with H : snn_check _ _ = true |- _ => apply snn_check_ex in H as (r & Er & H) end. unpack_all.
  exists w, w0, r. split; [exact E|]. split; [exact E0|]. split; [now apply pool_okb_ok|]. split; [now apply nat_is_ok|]. split.
  { unfold trainable. destruct (nn_layers (sn_net w)) as [|a [|b t]]; auto. left. now apply Nat.eqb_eq. }
  split; [now apply Nat.eqb_eq|]. split; [exact Er|]. split; [now apply Bool.negb_true_iff|]. split; [assumption|]. split; [|now apply not_nanb_ok].
  match goal with H : existsb _ _ = true |- _ => apply existsb_exists in H as (e & He & H) end. destruct e; try discriminate. eauto.
Qed.
Lemma demo_user d : @mkData4 N32 classification trIn_t trLab_t teIn_t teLab_t nonTemporal 0 = Ok d -> user_data 2 2 d.
Proof.
  intros H. eapply ud_plain; [exact H|reflexivity|reflexivity|repeat constructor|repeat constructor|repeat constructor|repeat constructor|].
  intros _. constructor; [|constructor]. exists (b32 1). split; [right; left; reflexivity|reflexivity].
Qed.
Example C13_hypotheses : exists s0 d, @newSnn N32 draws_t nomasks demo_t (b32q 1 100) (b32q 9 10) = Ok s0 /\ sane_descriptions demo_t /\
  Forall (@supported_pooling N32) (nn_layers (sn_net s0)) /\ trainable (sn_net s0) /\ product (d_shape (hd (Input []) demo_t)) = Ok (Z.of_nat 2) /\ net_numberOfOutputs (sn_net s0) = Ok 2 /\
  lived 2 2 s0 (auto_on s0) /\ user_data 2 2 d /\ fair env_t /\ undisturbed env_t /\ s_size (d_train d) = 3 /\
  exists r, train 10 env_t (lit_ep 2) 2 1 (auto_on s0) d = Some (Ok r) /\ hasNan r = false.
Proof.
  destruct demo_run as (s0 & d & r & A & B & C & D & E & G & H & I & _). exists s0, d. split; [exact A|].
  split; [split; [repeat constructor|]; repeat constructor; cbn; lia|]. split; [exact C|]. split; [exact E|]. split; [reflexivity|]. split; [exact D|].
  split; [apply lv_auto, lv_none|]. split; [now apply demo_user|]. split; [intros k; apply rev_rng_fair|]. split; [intros k; reflexivity|]. split; [exact G|]. eauto.
Qed.

(* A classification test label without a 1 makes train() stop with an exception, although the data were accepted *)
Theorem C13_label_without_one_throws : exists s0 d, @newSnn N32 draws_t nomasks demo_t (b32q 1 100) (b32q 9 10) = Ok s0 /\
  @mkData4 N32 classification trIn_t trLab_t teIn_t (rows32 [[0;0]]%Z) nonTemporal 0 = Ok d /\
  exists msg, train 10 env_t (lit_ep 2) 2 1 s0 d = Some (Throw msg).
Proof.
  by_compute (run_check (@newSnn N32 draws_t nomasks demo_t (b32q 1 100) (b32q 9 10)) (fun s0 =>
    run_check (@mkData4 N32 classification trIn_t trLab_t teIn_t (rows32 [[0;0]]%Z) nonTemporal 0) (fun d =>
    match train 10 env_t (lit_ep 2) 2 1 s0 d with Some (Throw _) => true | _ => false end))).
  exists w, w0. split; [exact E|]. split; [exact E0|]. destruct (train 10 env_t (lit_ep 2) 2 1 w w0) as [[]|]; try discriminate. eauto.
Qed.

(* ===== C56 ===== *)
(* On plain data, shuffled, unshuffled or used for trainings before: in every epoch of a training the steps take the samples in some
   order of all the samples, each once, b at a time, and each step is exactly one trainOnce on the batch (its mean); between the steps
   the network is only asked for outputs. *)
Theorem C56_epochs_present_each_sample_once : forall (N : Num) k m p trIn trLab teIn teLab rec d0 d fuel env w b f s r,
  mkData4 p trIn trLab teIn teLab nonTemporal rec = Ok d0 -> List.length trIn = List.length trLab -> List.length teIn = List.length teLab ->
  rect k trIn -> rect m trLab -> rect k teIn -> rect m teLab -> labels_ok p teLab ->
  reused d0 d -> fair env -> train fuel env w b f s d = Some (Ok r) ->
  exists orders n, presents k (Z.to_nat b) (combine trIn trLab) (sn_net s) (r_log r) orders n (sn_net (r_snn r)).
Proof.
  intros N k m p trIn trLab teIn teLab rec d0 d fuel env w b f s r H L1 L2 R1 R2 R3 R4 HL HR Hf HT.
  assert (P0 : pinv k m trIn trLab d0). { split; [eapply mkData4_nontemporal_inv; eauto|]. eapply user_data_ready, ud_plain; eauto. }
  assert (P : pinv k m trIn trLab d).
  { clear HT. induction HR as [|d o d' _ IH Ho E|fuel' env' w' b' f' s' d r' _ IH Hf' E]; [exact P0| |].
    - destruct IH as (A & B). destruct (run_op_nontemporal trIn trLab d o Ho A) as (x & E1 & A'). destruct (ready_op k m d o Ho B) as (y & E2 & B' & _).
      rewrite E in E1, E2. injection E1 as <-. injection E2 as <-. now split.
    - exact (proj2 (train_presents k m trIn trLab _ _ _ _ _ _ _ _ L1 IH Hf' E)). }
  exact (proj1 (train_presents k m trIn trLab _ _ _ _ _ _ _ _ L1 P Hf HT)).
Qed.
Print Assumptions C56_epochs_present_each_sample_once.
(* the mean of all the batches of an epoch uses no sample twice and, if b divides the number of samples, leaves none out *)
Theorem C56_batches_partition : forall (N : Num) (order : list sample) b, 0 < b ->
  concat (map (fun n => firstn b (skipn (n * b) order)) (seq 0 (List.length order / b))) = firstn (List.length order / b * b) order.
Proof.
  intros N order b Hb. set (q := List.length order / b). assert (Hq : q * b <= List.length order) by (unfold q; rewrite Nat.mul_comm; apply Nat.mul_div_le; lia). clearbody q.
  induction q as [|q IH]; [reflexivity|]. rewrite seq_S, map_app, concat_app, IH by (cbn in Hq; lia). cbn [map concat]. rewrite app_nil_r. cbn [Nat.add].
  rewrite <- (firstn_skipn (q * b) (firstn (S q * b) order)). f_equal.
  - rewrite firstn_firstn. f_equal. cbn. lia.
  - rewrite skipn_firstn_comm. f_equal. cbn. lia.
Qed.
Print Assumptions C56_batches_partition.
Example C56_hypotheses : exists s0 d r, @newSnn N32 draws_t nomasks demo_t (b32q 1 100) (b32q 9 10) = Ok s0 /\
  @mkData4 N32 classification trIn_t trLab_t teIn_t teLab_t nonTemporal 0 = Ok d /\ @rect N32 2 trIn_t /\ rect 2 trLab_t /\ rect 2 teIn_t /\ rect 2 teLab_t /\ labels_ok classification teLab_t /\
  reused d d /\ fair env_t /\ train 10 env_t (lit_ep 2) 2 1 (auto_on s0) d = Some (Ok r) /\ marks (r_log r) <> [].
Proof.
  destruct demo_run as (s0 & d & r & A & B & C & D & E & G & H & I & J & _). exists s0, d, r. split; [exact A|]. split; [exact B|].
  do 4 (split; [repeat constructor|]). split; [intros _; constructor; [|constructor]; exists (b32 1); split; [right; left; reflexivity|reflexivity]|].
  split; [constructor|]. split; [intros k; apply rev_rng_fair|]. split; [exact H|]. intros Q. rewrite Q in J. discriminate.
Qed.

(* ===== C21, during a training ===== *)
(* Once the network has produced an abnormal number during a training (in a step or in an evaluation), no further learning step is made
   and the data are not shuffled again; if it had before the training, nothing is learned at all. *)
Theorem C21_training_stops : forall (N : Num) fuel env w b f s d r, train fuel env w b f s d = Some (Ok r) ->
  (forall before e after, r_log r = before ++ e :: after -> raised_by e -> Forall (fun e => ~ is_learning e) after) /\
  (nn_nan (sn_net s) = true -> Forall (fun e => ~ is_learning e) (r_log r)).
Proof. intros N fuel env w b f s d r H. exact (train_quiet fuel env w b f s d r H). Qed.
Print Assumptions C21_training_stops.
(* a training in which the flag is raised, by samples with infinite inputs *)
Example C21_training_hypotheses : exists s0 d r, @newSnn N32 draws_t nomasks demo_id2 (b32q 1 100) (b32q 9 10) = Ok s0 /\
  @mkData4 N32 regression [[SpecFloat.S754_infinity false]; [b32 1]] [[b32 1]; [b32 2]] [[b32 1]] [[b32 1]] nonTemporal 0 = Ok d /\
  train 10 env_t (lit_ep 2) 1 1 s0 d = Some (Ok r) /\ exists e, In e (r_log r) /\ raised_by e.
Proof.
  assert (H : run_check (@newSnn N32 draws_t nomasks demo_id2 (b32q 1 100) (b32q 9 10)) (fun s0 =>
    run_check (@mkData4 N32 regression [[SpecFloat.S754_infinity false]; [b32 1]] [[b32 1]; [b32 2]] [[b32 1]] [[b32 1]] nonTemporal 0) (fun d =>
    snn_check (train 10 env_t (lit_ep 2) 1 1 s0 d) (fun r => existsb (fun e => match e with Stepped _ _ _ _ s => nn_nan (sn_net s) | _ => false end) (r_log r)))) = true) by (vm_compute; reflexivity).
  unpack_all. apply snn_check_ex in H as (r & Er & H). exists w, w0, r. split; [exact E|]. split; [exact E0|]. split; [exact Er|].
  apply existsb_exists in H as (e & He & H). exists e. split; [exact He|]. destruct e; try discriminate. exact H.
Qed.

(* ===== C42 ===== *)
(* the numbers compared are not NaN (on the reals: always) *)
Theorem C42_saved_exactly_when_better_partial : forall (N : Num) (ok : F -> Prop), order_laws N ok -> forall fuel env w b f s d r,
  train fuel env w b f s d = Some (Ok r) -> hasNan r = false -> ok (st_rateMax (sn_stats s)) -> Forall ok (rates (r_log r)) ->
  autosaved (st_rateMax (sn_stats s)) (r_log r).
Proof. intros N ok OL fuel env w b f s d r. exact (train_autosaved ok OL fuel env w b f s d r). Qed.
Print Assumptions C42_saved_exactly_when_better_partial.
(* ... but every network written by the automatic save during a training takes itself for training: whoever loads it can neither train
   nor save it *)
Theorem C42_saved_network_unusable_refuted : forall (N : Num) fuel env w b f s d r p s1, train fuel env w b f s d = Some (Ok r) -> In (Saved p s1) (r_log r) ->
  sn_idle s1 = false /\
  (forall fuel' env' w' b' f' d' u, validData s1 d' b' = Ok u -> train fuel' env' w' b' f' s1 d' = Some (Throw "Neural network is already training"%string)) /\
  (forall p' d' log, exists msg, saveAs p' (mkRun s1 d' 0 log) = Throw msg).
Proof.
  intros N fuel env w b f s d r p s1 H Hin. pose proof (train_busy _ _ _ _ _ _ _ _ H) as HB. rewrite Forall_forall in HB. specialize (HB _ Hin). cbn in HB.
  split; [exact HB|]. split.
  - intros fuel' env' w' b' f' d' u V. unfold train. rewrite V, HB. reflexivity.
  - intros p' d' log. unfold saveAs. cbn. rewrite HB. eexists. reflexivity.
Qed.
Print Assumptions C42_saved_network_unusable_refuted.
Example C42_hypotheses : exists s0 d r p s1, train 10 env_t (lit_ep 2) 2 1 (auto_on s0) d = Some (Ok r) /\ hasNan r = false /\
  not_nan (st_rateMax (sn_stats (auto_on s0))) /\ Forall not_nan (rates (r_log r)) /\ order_laws N32 not_nan /\ In (Saved p s1) (r_log r).
Proof.
  destruct demo_run as (s0 & d & r & A & B & C & D & E & G & H & I & J & (p & s1 & K) & L). exists s0, d, r, p, s1. inversion L as [|? ? L1 L2]. do 4 (split; [assumption|]). split; [exact order_laws_N32|exact K].
Qed.
