(* C77: training with a batch size above 1. *)
From Coq Require Import Reals Lra Lia Permutation.
From Verif Require Import Base Num NumOrder ActModel ActProofs NeuronModel LayerModel NetModel NetSpec NeuronProofs LayerProofs GradProofs DenseProofs GradProps StatReal
  FactoryModel FactorySpec FactoryProofs PureSpec PureProps LearnSpec LearnProofs LearnProps BuildProofs ToolsModel StatModel WaitModel TrainModel TrainSpec TrainProofs TrainSafe TrainUser TrainProps MiniSpec MiniProofs MiniStill MiniLin DataModel DataSpec DataProps.
Local Open Scope R_scope.

(* Training on a batch is one trainOnce() on the mean of its samples (C56).  When all the samples of the batch have the same inputs
   this is gradient descent on the mean error of the batch: every input weight moves by -learningRate times its derivative. *)
Theorem C77_same_inputs_partial : forall rand (net : @Net RNum) k samples x0 x d reset,
  dense_network k net -> nn_nan net = false -> o_m (nn_opt net) = 0 -> List.length x0 = k -> differentiable_at net x0 ->
  Forall (fun s => fst s = x0 /\ @net_numberOfOutputs RNum net = Ok (List.length (snd s))) samples ->
  @mean_of RNum (map fst samples) x -> @mean_of RNum (map snd samples) d ->
  exists net', @trainOnce RNum rand net x d reset = Ok net' /\
  forall l n neuron w, @neuron_at RNum net l n = Some neuron -> (w < n_in neuron)%nat ->
  exists old new g, @weight_at RNum net l n w = Some old /\ @weight_at RNum net' l n w = Some new /\
    derivable_pt_lim (fun t => batch_error (@set_weight RNum net l n w t) samples) old g /\ new = old - o_lr (nn_opt net) * g.
Proof.
  intros rand net k samples x0 x d reset Hd Hnan Hm Hx Hdiff HF Mx Md.
  assert (x = x0) as ->. { apply (mean_same _ _ _ Mx). apply Forall_map. eapply Forall_impl; [|exact HF]. cbn. tauto. }
  assert (Ne : exists s0 rest, samples = s0 :: rest) by (destruct samples; [contradiction|eauto]).
  assert (Ho : @net_numberOfOutputs RNum net = Ok (List.length d)).
  { destruct Ne as (s0 & rest & ->). inversion HF as [|? ? (_ & A) _]. destruct Md as (B & _). etransitivity; [exact A|]. f_equal. symmetry. exact B. }
  destruct (C22_step_is_gradient_descent rand net k x0 d reset Hd Hnan Hm Hx Ho Hdiff) as (net' & E & _ & _ & _ & G). exists net'. split; [exact E|].
  intros l n neuron w Hn Hw. destruct (G l n neuron w Hn Hw) as (old & new & g & A & B & C & D). exists old, new, g. split; [exact A|]. split; [exact B|]. split; [|exact D].
  eapply derive_shift; [|exact C]. intros t. destruct (set_output net k (List.length d) l n neuron x0 Hd Hn Hx Ho w t) as (o & net1 & E1 & L1).
  unfold batch_error. change (@F RNum) with R in *.
  assert (Q : map (fun s => squared_error (@set_weight RNum net l n w t) (fst s) (snd s)) samples = map (fun y => sum_of_squares y o) (map snd samples)).
  { rewrite map_map. apply map_ext_in. intros s Hs. rewrite Forall_forall in HF. destruct (HF s Hs) as (-> & _). unfold squared_error. change (@F RNum) with R in *. now rewrite E1. }
  rewrite Q, <- (map_length snd samples). etransitivity; [apply (mean_distance (map snd samples) d o Md)|].
  - apply Forall_map. eapply Forall_impl; [|exact HF]. cbn. intros s (_ & A'). rewrite A' in Ho. injection Ho as Ho. etransitivity; [exact Ho|]. symmetry. exact L1.
  - unfold squared_error at 1. change (@F RNum) with R in *. rewrite E1. reflexivity.
Qed.
Print Assumptions C77_same_inputs_partial.
Example C77_same_inputs_hypotheses : let samples := [([1; 1], [1]); ([1; 1], [3])] in
  dense_network 2 (ex_net 0) /\ nn_nan (ex_net 0) = false /\ o_m (nn_opt (ex_net 0)) = 0 /\ differentiable_at (ex_net 0) [1; 1] /\
  Forall (fun s => fst s = [1; 1] /\ @net_numberOfOutputs RNum (ex_net 0) = Ok (List.length (snd s))) samples /\
  @mean_of RNum (map fst samples) [1; 1] /\ @mean_of RNum (map snd samples) [2].
Proof.
  destruct C22_hypotheses_met as (A & B & C & D & E). intros samples. do 4 (split; [assumption|]). split; [repeat constructor; exact D|].
  assert (T : @fofnat RNum 2 = 2) by (unfold fofnat; rewrite RNum_fofZ; reflexivity).
  split; (split; [reflexivity|]); intros [|[|k]] Hk; cbn in Hk; try lia; cbn [nth_error map fst snd samples]; f_equal; cbn [fold_left nth List.length]; rewrite T; cbn [fdiv fadd RNum]; try (change (@eq R 1 ((1 + 1) / 2)); lra); change (@eq R 2 ((1 + 3) / 2)); lra.
Qed.

(* In general it is not.  On one linear layer the step on the mean sample misses gradient descent on the mean error by
   2 * learningRate * the covariance, over the batch, of the input and of the error. *)
Theorem C77_linear_exact_partial : forall rand (net : @Net RNum) k m samples x d reset,
  linear_network k m net -> 0 < o_lr (nn_opt net) -> Forall (fun s => List.length (fst s) = k /\ List.length (snd s) = m) samples ->
  @mean_of RNum (map fst samples) x -> @mean_of RNum (map snd samples) d ->
  exists net', @trainOnce RNum rand net x d reset = Ok net' /\
  forall n w, (n < m)%nat -> (w < k)%nat ->
  exists old new g, @weight_at RNum net 0 n w = Some old /\ @weight_at RNum net' 0 n w = Some new /\
    derivable_pt_lim (fun t => batch_error (@set_weight RNum net 0 n w t) samples) old g /\
    new = old - o_lr (nn_opt net) * g
          - 2 * o_lr (nn_opt net) * covariance (fun s => nth w (fst s) 0) (fun s => nth n (snd s) 0 - nth n (prediction net (fst s)) 0) samples.
Proof.
  intros rand net k m samples x d reset HL Hr HF Mx Md. destruct (linear_lin k m net HL) as (ns & H).
  assert (Ne : samples <> []) by (destruct samples; [contradiction|discriminate]).
  assert (Len : List.length x = k /\ List.length d = m).
  { destruct samples as [|s0 rest]; [contradiction|]. inversion HF as [|? ? (A & B) _]. destruct Mx as (C & _). destruct Md as (D & _). split; [exact (eq_trans C A)|exact (eq_trans D B)]. }
  destruct Len as (Lx & Ld). destruct (lin_step k m net ns rand x d reset H Lx Ld) as (net' & E & S'). exists net'. split; [exact E|].
  intros n w Hn Hw. destruct (S' n w Hn Hw) as (A & B). eexists _, _, _. split; [exact A|]. split; [exact B|].
  set (X := fun s : list R * list R => nth w (fst s) 0). set (Er := fun s : list R * list R => terr (nth n (snd s) 0) (nth n ns n0) (fst s)).
  assert (Ln : (n < List.length ns)%nat) by (destruct H as (_ & _ & L & _); lia).
  assert (Pn : plain k (nth n ns n0)) by (destruct H as (_ & Hf & _); rewrite Forall_forall in Hf; apply Hf; now apply nth_In).
  assert (HE : forall s, In s samples -> nth n (snd s) 0 - nth n (prediction net (fst s)) 0 = Er s).
  { intros s Hs. rewrite Forall_forall in HF. rewrite (lin_prediction k m net ns (fst s) H (proj1 (HF s Hs))). exact (out_err ns (fst s) (snd s) n Ln). }
  split.
  - unfold batch_error. apply (average_derive (fun s t => squared_error (@set_weight RNum net 0 n w t) (fst s) (snd s)) (fun s => -2 * (X s * Er s) + 0 * 0)).
    apply Forall_forall. intros s Hs. pose proof HF as HF'. rewrite Forall_forall in HF'. destruct (HF' s Hs) as (A1 & A2).
    assert (G := lin_deriv k m net ns (fst s) (snd s) n w H Hr A1 A2 Hn Hw). rewrite (out_err ns (fst s) (snd s) n Ln) in G. replace (-2 * (X s * Er s) + 0 * 0) with (-2 * (X s * Er s)) by ring. exact G.
  - rewrite (average_lin (-2) 0 (fun s => X s * Er s) (fun _ => 0)).
    assert (Cv : covariance X (fun s => nth n (snd s) 0 - nth n (prediction net (fst s)) 0) samples = covariance X Er samples).
    { unfold covariance. pose proof (average_ext _ Er samples HE) as AE. apply average_ext. intros s Hs. exact (f_equal2 (fun u v => (X s - average X samples) * (u - v)) (HE s Hs) AE). }
    change (fun s : list R * list R => nth w (fst s) 0) with X. rewrite Cv, (covariance_alt X Er samples Ne).
    pose proof (mean_error k (nth n ns n0) samples x d n m Pn HF Mx Md ltac:(rewrite Ld; exact Hn) Lx) as Me. fold Er in Me.
    pose proof (mean_average samples fst x w Mx ltac:(rewrite Lx; exact Hw)) as Mw. fold X in Mw. change (@F RNum) with R in *. rewrite Me, Mw. unfold X. ring.
Qed.
Print Assumptions C77_linear_exact_partial.

Lemma still_start k m (net : @Net RNum) : dense_network k net -> nn_nan net = false -> net_numberOfOutputs net = Ok m ->
  exists nss, dchain k (nn_layers net) nss /\ nn_layers net <> [] /\ still k (nn_opt net) nss net /\ last (lens nss) 0%nat = m.
Proof.
  intros [Hne Hd] Hn Ho. destruct (dense_dchain _ _ Hd) as (nss & D). exists nss. split; [exact D|]. split; [exact Hne|]. split.
  - split; [exact Hn|]. split; [reflexivity|]. exists nss. split; [exact D|]. split; [reflexivity|apply kept_refl].
  - unfold net_numberOfOutputs in Ho. apply bind_Ok_inv in Ho as (l0 & Hl & E). injection E as E. rewrite <- (net_val_len nss (repeat 0 k)) by (now apply (dchain_ne _ _ _ D)).
    destruct (nn_layers net) as [|a t0] eqn:El; [congruence|]. change (@F RNum) with R in *. rewrite (last_neurons _ _ _ _ D (repeat 0 k) (repeat_length _ _)).
    rewrite <- E. f_equal. symmetry. apply (last_lgetZ (a :: t0)). exact Hl.
Qed.
Lemma still_weights k opt nss0 (net0 net : @Net RNum) : dchain k (nn_layers net0) nss0 -> still k opt nss0 net -> forall n i, (i < k)%nat -> @weight_at RNum net 0 n i = @weight_at RNum net0 0 n i.
Proof.
  intros D0 (_ & _ & nss & D & L & K) n i Hi. unfold weight_at. rewrite (neuron_at_dense _ _ _ _ _ D0), (neuron_at_dense _ _ _ _ _ D). pose proof (hd_len _ _ L) as Hl.
  destruct nss0 as [|ns0 t0], nss as [|ns t]; try discriminate; [reflexivity|]. cbn [nth_error hd] in *.
  destruct (nth_error ns n) as [a|] eqn:Ea, (nth_error ns0 n) as [b|] eqn:Eb; auto.
  2: { apply nth_error_None in Eb. assert (n < List.length ns)%nat by (apply nth_error_Some; congruence). lia. }
  2: { apply nth_error_None in Ea. assert (n < List.length ns0)%nat by (apply nth_error_Some; congruence). lia. }
  assert (Hn : (n < List.length ns0)%nat) by (apply nth_error_Some; congruence). destruct (K n Hn) as (_ & _ & W). specialize (W i Hi). rewrite (nth_error_nth _ _ _ Ea), (nth_error_nth _ _ _ Eb) in W.
  assert (Q : forall ls nss c, dchain k ls nss -> In c (hd [] nss) -> (i < List.length (n_w c))%nat). { clear -Hi. intros [|l ls] [|c0 nss] c D Hc; try contradiction. destruct D as (_ & F0 & _). rewrite Forall_forall in F0. destruct (F0 c Hc) as ((W & _) & Wi & _). lia. }
  rewrite (nth_error_nth' (n_w a) 0) by (eapply (Q _ (ns :: t) a D), nth_error_In, Ea). rewrite (nth_error_nth' (n_w b) 0) by (eapply (Q _ (ns0 :: t0) b D0), nth_error_In, Eb). f_equal. exact W.
Qed.
Lemma map_fst_combine {A B} (a : list A) : forall b : list B, List.length a = List.length b -> map fst (combine a b) = a.
Proof. induction a as [|x t IH]; intros [|y u] H; try discriminate; [reflexivity|]. cbn. f_equal. apply IH. cbn in H. lia. Qed.

(* So a whole training can teach nothing.  With momentum 0 and batches as large as a training set whose inputs have mean 0 in every
   coordinate, train() never changes an input weight of the first layer, whatever the labels. *)
Theorem C77_centred_batch_refuted : forall k m p trIn trLab teIn teLab rec d0 d fuel env w f s r,
  dense_network k (sn_net s) -> @nn_nan RNum (sn_net s) = false -> o_m (@nn_opt RNum (sn_net s)) = 0 -> net_numberOfOutputs (sn_net s) = Ok m ->
  @mkData4 RNum p trIn trLab teIn teLab nonTemporal rec = Ok d0 -> List.length trIn = List.length trLab -> List.length teIn = List.length teLab ->
  @rect RNum k trIn -> @rect RNum m trLab -> @rect RNum k teIn -> @rect RNum m teLab -> @labels_ok RNum p teLab -> reused d0 d -> fair env ->
  (2 <= List.length trIn)%nat -> (forall i, (i < k)%nat -> Rsum (map (fun x => @nth R i x 0) trIn) = 0) ->
  train fuel env w (Z.of_nat (List.length trIn)) f s d = Some (Ok r) ->
  forall n i, (i < k)%nat -> @weight_at RNum (sn_net (r_snn r)) 0 n i = @weight_at RNum (sn_net s) 0 n i.
Proof.
  intros k m p trIn trLab teIn teLab rec d0 d fuel env w f s r Hd Hnan Hm Ho HD L1 L2 R1 R2 R3 R4 HL HR Hf H2 HZ HT.
  destruct (C56_epochs_present_each_sample_once RNum k m p trIn trLab teIn teLab rec d0 d fuel env w _ f s r HD L1 L2 R1 R2 R3 R4 HL HR Hf HT) as (orders & q & P).
  destruct (still_start k m (sn_net s) Hd Hnan Ho) as (nss & D & Hne & St & Hl). rewrite Nat2Z.id in P.
  assert (Lc : List.length (combine trIn trLab) = List.length trIn) by (rewrite combine_length; lia). rewrite <- Lc in P.
  destruct (presents_still k m (nn_opt (sn_net s)) nss (combine trIn trLab) _ _ _ _ _ P) as (_ & St' & _); auto.
  - exact (eq_ind_r (fun v => (2 <= v)%nat) H2 Lc).
  - apply Forall_forall. intros (a, b) Hab. pose proof (in_combine_l _ _ _ _ Hab) as Ha. pose proof (in_combine_r _ _ _ _ Hab) as Hb. unfold rect in R1, R2. rewrite Forall_forall in R1, R2. split; [exact (R1 a Ha)|exact (R2 b Hb)].
  - intros i Hi. etransitivity; [|exact (HZ i Hi)]. rewrite <- (map_fst_combine trIn trLab L1) at 2. rewrite map_map. reflexivity.
  - exact (still_weights k _ nss _ _ D St').
Qed.
Print Assumptions C77_centred_batch_refuted.

(* Then a linear network can only learn a constant: the difference between its predictions for two inputs stays what it was. *)
Lemma still_lin k m net0 net ns0 : lin k m net0 ns0 -> still k (nn_opt net0) [ns0] net -> exists ns, lin k m net ns /\ kept k ns0 ns.
Proof.
  intros (_ & Hf & Hl & _ & Hm) (A & B & nss & D & L & K). destruct nss as [|ns [|? ?]]; try discriminate. cbn [hd] in K. exists ns. split; [|exact K]. injection L as L.
  destruct (nn_layers net) as [|l [|? ?]] eqn:El; try contradiction; [|destruct D as (_ & _ & D); contradiction]. destruct D as (-> & D & _).
  split; [exact El|]. split; [|split; [lia|split; [exact A|now rewrite B]]]. apply Forall_forall. intros n Hi. apply In_nth_error in Hi as (j & Hj). assert (Lj : (j < List.length ns0)%nat) by (rewrite <- L; apply nth_error_Some; congruence).
  destruct (K j Lj) as (K1 & K2 & _). rewrite (nth_error_nth _ _ _ Hj) in K1, K2. assert (Pj : plain k (nth j ns0 n0)) by (rewrite Forall_forall in Hf; apply Hf; now apply nth_In). destruct Pj as (_ & _ & _ & Pa & Pb).
  rewrite Forall_forall in D. destruct (D n (nth_error_In _ _ Hj)) as (W1 & W2 & W3). unfold plain. rewrite K1, K2. auto.
Qed.
Lemma diff_kept k (ns0 ns : list RNeu) x x' j : Forall (plain k) ns0 -> Forall (plain k) ns -> kept k ns0 ns -> List.length ns = List.length ns0 -> List.length x = k -> List.length x' = k -> (j < List.length ns0)%nat ->
  nth j (layer_val ns x) 0 - nth j (layer_val ns x') 0 = nth j (layer_val ns0 x) 0 - nth j (layer_val ns0 x') 0.
Proof.
  intros F0 F1 K L Hx Hx' Hj. rewrite !nth_layer_val by lia. rewrite Forall_forall in F0, F1. pose proof (F0 _ (nth_In ns0 n0 Hj)) as P0. pose proof (F1 (nth j ns n0) ltac:(apply nth_In; lia)) as P1.
  destruct (K j Hj) as (_ & _ & W). pose proof (value_plain k _ x P0 Hx) as A. pose proof (value_plain k _ x' P0 Hx') as B. pose proof (value_plain k _ x P1 Hx) as C. pose proof (value_plain k _ x' P1 Hx') as D.
  assert (E : forall z, sumn k (fun i => nth i z 0 * @nth R i (n_w (nth j ns n0)) 0) = sumn k (fun i => nth i z 0 * @nth R i (n_w (nth j ns0 n0)) 0)) by (intros z; apply sumn_ext; intros i Hi; now rewrite (W i Hi)).
  change (@F RNum) with R in *. rewrite (E x) in C. rewrite (E x') in D. lra.
Qed.
Theorem C77_only_a_constant_refuted : forall k m p trIn trLab teIn teLab rec d0 d fuel env w f s r,
  linear_network k m (sn_net s) ->
  @mkData4 RNum p trIn trLab teIn teLab nonTemporal rec = Ok d0 -> List.length trIn = List.length trLab -> List.length teIn = List.length teLab ->
  @rect RNum k trIn -> @rect RNum m trLab -> @rect RNum k teIn -> @rect RNum m teLab -> @labels_ok RNum p teLab -> reused d0 d -> fair env ->
  (2 <= List.length trIn)%nat -> (forall i, (i < k)%nat -> Rsum (map (fun x => @nth R i x 0) trIn) = 0) ->
  train fuel env w (Z.of_nat (List.length trIn)) f s d = Some (Ok r) ->
  forall x x' before before' after after', List.length x = k -> List.length x' = k ->
  predicts (sn_net s) x before -> predicts (sn_net s) x' before' -> predicts (sn_net (r_snn r)) x after -> predicts (sn_net (r_snn r)) x' after' ->
  forall j, (j < m)%nat -> nth j after 0 - nth j after' 0 = nth j before 0 - nth j before' 0.
Proof.
  intros k m p trIn trLab teIn teLab rec d0 d fuel env w f s r HL HD L1 L2 R1 R2 R3 R4 Hlab HR Hf H2 HZ HT x x' b b' a a' Hx Hx' B B' A A' j Hj.
  destruct (linear_lin k m _ HL) as (ns0 & H). pose proof (lin_dense _ _ _ _ H) as Hd. pose proof (lin_outputs _ _ _ _ H) as Ho. pose proof (lin_dchain _ _ _ _ H) as D.
  destruct (C56_epochs_present_each_sample_once RNum k m p trIn trLab teIn teLab rec d0 d fuel env w _ f s r HD L1 L2 R1 R2 R3 R4 Hlab HR Hf HT) as (orders & q & P). rewrite Nat2Z.id in P.
  assert (Lc : List.length (combine trIn trLab) = List.length trIn) by (rewrite combine_length; lia). rewrite <- Lc in P.
  assert (St : still k (nn_opt (sn_net s)) [ns0] (sn_net s)). { split; [apply H|]. split; [reflexivity|]. exists [ns0]. split; [exact D|]. split; [reflexivity|apply kept_refl]. }
  assert (Ln : List.length ns0 = m) by apply H.
  destruct (presents_still k m (nn_opt (sn_net s)) [ns0] (combine trIn trLab) _ _ _ _ _ P) as (_ & St' & _).
  - exact (eq_ind_r (fun v => (2 <= v)%nat) H2 Lc).
  - apply Forall_forall. intros (u, v) Hab. pose proof (in_combine_l _ _ _ _ Hab) as Ha. pose proof (in_combine_r _ _ _ _ Hab) as Hb. unfold rect in R1, R2. rewrite Forall_forall in R1, R2. split; [exact (R1 u Ha)|exact (R2 v Hb)].
  - intros i Hi. etransitivity; [|exact (HZ i Hi)]. rewrite <- (map_fst_combine trIn trLab L1) at 2. rewrite map_map. reflexivity.
  - apply H.
  - exact Ln.
  - apply Hd.
  - exact St.
  - destruct (still_lin k m _ _ _ H St') as (ns & H' & K). assert (Ln' : List.length ns = m) by apply H'.
    rewrite (predicts_lin _ _ _ _ _ _ H Hx B), (predicts_lin _ _ _ _ _ _ H Hx' B'), (predicts_lin _ _ _ _ _ _ H' Hx A), (predicts_lin _ _ _ _ _ _ H' Hx' A').
    apply (diff_kept k); auto; try lia; [apply H|apply H'].
Qed.
Print Assumptions C77_only_a_constant_refuted.

(* these networks are the ones the constructor makes *)
Lemma dense_rest draws masks specs : forall l k (ls : list RLay), (0 < k)%nat -> Forall (fun p : Z * activation => (0 < fst p)%Z) specs ->
  @build_rest RNum draws masks l (map (fun p => @FullyConnected RNum (fst p) (snd p) []) specs) [Z.of_nat k] = Ok ls -> dense_layers k ls.
Proof.
  induction specs as [|[z a] t IH]; intros l k ls Hk Hs H; cbn [map build_rest] in H; [injection H as <-; exact I|].
  apply bind_Ok_inv in H as (la & Hl & H). apply bind_Ok_inv in H as (r & Hr & H). injection H as <-. inversion Hs as [|? ? Hz Ht].
  change [Z.of_nat k] with (map Z.of_nat [k]) in Hl. apply build_layer_built in Hl; [|repeat constructor; exact Hk|exact I].
  inversion Hl as [n ns Et Hn Hbn E| | | | | | | | ]; try discriminate. cbn [d_neurons FullyConnected fst snd] in Hn, Hz. subst z.
  pose proof (build_neurons_inv _ _ _ Hbn) as (Ln & Hi).
  assert (P : Forall (fun nn => neuron_shape 1 nn /\ n_in nn = k /\ n_batch nn = 1%nat) ns).
  { apply Forall_forall. intros nn Hin. apply In_nth_error in Hin as (i & Hin). assert (Ei := Hi i nn Hin). change (cell_count [k]) with (k + 0)%nat in Ei. rewrite Nat.add_0_r in Ei. unfold mk_full in Ei.
    destruct (neuron_init_wf k 1 1 (@d_bias RNum (@FullyConnected RNum (Z.of_nat n) a [])) a (draws l i 0%nat) ltac:(lia) ltac:(lia)) as (n2 & E2 & W & A & B & C & D). cbn [d_act FullyConnected fst snd] in Ei. assert (X : @Ok RNeu n2 = Ok nn) by (etransitivity; [symmetry; exact E2|exact Ei]). assert (n2 = nn) as -> by congruence. repeat split; auto; apply W. }
  assert (En : @getNumberOfNeurons RNum la = n) by (rewrite <- E; unfold getNumberOfNeurons, layer_weights; cbn; rewrite map_length; exact Ln).
  assert (Es : getShapeOfOutput la = [n]) by (transitivity [@getNumberOfNeurons RNum la]; [rewrite <- E; reflexivity|now rewrite En]). rewrite Es in Hr.
  rewrite <- E in En. cbn [dense_layers]. split; [cbn; lia|]. split; [reflexivity|]. split; [exists ns; split; [reflexivity|exact P]|]. rewrite En. apply (IH (S l)); [lia|exact Ht|exact Hr].
Qed.
Theorem C77_constructed : forall draws masks k specs (lr mo : R) s, (0 < k)%nat -> Forall (fun p : Z * activation => (0 < fst p)%Z) specs ->
  @newSnn RNum draws masks (@Input RNum [Z.of_nat k] :: map (fun p => @FullyConnected RNum (fst p) (snd p) []) specs) lr mo = Ok s ->
  dense_network k (sn_net s) /\ @nn_nan RNum (sn_net s) = false /\ o_m (@nn_opt RNum (sn_net s)) = mo /\ o_lr (@nn_opt RNum (sn_net s)) = lr.
Proof.
  intros draws masks k specs lr mo s Hk Hs H. unfold newSnn in H. apply bind_Ok_inv in H as (net & H & H1). apply bind_Ok_inv in H1 as (o & _ & H1). injection H1 as <-. cbn [sn_net].
  apply construct_inv in H as (d0 & rest & E & _ & Hb & _ & Hne & En). injection E as <- <-. cbn [d_shape Input] in Hb. apply dense_rest in Hb; [|exact Hk|exact Hs].
  split; [split; [exact Hne|exact Hb]|]. rewrite En. auto.
Qed.
Print Assumptions C77_constructed.
(* one input, one linear neuron, the samples 1 -> 1 and -1 -> -1 in batches of 2: whatever the number of epochs *)
Definition two_rows : list (list R) := [[1]; [-1]].
Example C77_hypotheses : forall n, (0 < n)%nat -> (Z.of_nat n < int_max)%Z -> exists s d r, 
  @newSnn RNum (fun _ _ _ _ => 1 / 2) (fun _ _ _ => true) [@Input RNum [1%Z]; @FullyConnected RNum 1 a_identity []] (1 / 10) 0 = Ok s /\ linear_network 1 1 (sn_net s) /\
  @mkData4 RNum regression two_rows two_rows two_rows two_rows nonTemporal 0 = Ok d /\ @rect RNum 1 two_rows /\ reused d d /\ (forall i, (i < 1)%nat -> Rsum (map (fun x => @nth R i x 0) two_rows) = 0) /\
  train (2 + n + 1) (@mkEnv RNum (fun k => Z.of_nat k) (fun _ => false) (fun _ => rev_rng) (fun _ _ _ _ => true) 0) (lit_ep (Z.of_nat n)) (Z.of_nat (List.length two_rows)) 1 s d = Some (Ok r).
Proof.
  intros n Hn Hn2. set (ds := [@Input RNum [1%Z]; @FullyConnected RNum 1 a_identity []]).
  destruct (FactoryProps.C26_dense_accepted (fun _ _ _ _ => 1 / 2) (fun _ _ _ => true) [1%Z] [(1%Z, a_identity, [])] (1/10) 0) as (net & E);
    [discriminate|apply Forall_cons; [lia|apply Forall_nil]|cbn; lia|discriminate|cbn; lia|apply Forall_cons; [cbn; lia|apply Forall_nil]|intros; lra|lra|lra|].
  destruct (C72_constructed _ _ 1 1 (1/10) net ltac:(lia) E) as (L & _). destruct (linear_lin _ _ _ L) as (ns & H). pose proof (lin_outputs _ _ _ _ H) as Ho.
  assert (HN : @newSnn RNum (fun _ _ _ _ => 1 / 2) (fun _ _ _ => true) ds (1/10) 0 = Ok (mkSnn net (initialStats 1) false true 0 0 0 false "AutoSave.snn")).
  { unfold newSnn, ds. cbn [map fst snd] in E. rewrite E. cbn [bind]. rewrite Ho. reflexivity. }
  assert (HD : exists d, @mkData4 RNum regression two_rows two_rows two_rows two_rows nonTemporal 0 = Ok d /\ s_size (d_train d) = 2%nat /\ d_nature d = nonTemporal) by (eexists; split; [reflexivity|split; reflexivity]).
  destruct HD as (d & HD & Hsz & Hnat).
  assert (R1 : @rect RNum 1 two_rows) by (repeat constructor).
  set (s0 := mkSnn net (initialStats 1) false true 0 0 0 false "AutoSave.snn") in *.
  edestruct (C13_train_exact RNum (fun _ => True) order_laws_R _ _ ds (1/10) 0 s0 s0 d (@mkEnv RNum (fun k => Z.of_nat k) (fun _ => false) (fun _ => rev_rng) (fun _ _ _ _ => true) 0) 1%nat 1%nat n (Z.of_nat (List.length two_rows)) 1%Z HN) as (r & HR & _).
  - split; [repeat constructor|]. repeat constructor.
  - unfold s0. cbn [sn_net]. destruct H as (El & _). rewrite El. constructor; [exact I|constructor].
  - unfold s0, trainable. cbn [sn_net]. destruct H as (El & _). rewrite El. exact I.
  - reflexivity.
  - exact Ho.
  - apply lv_none.
  - eapply ud_plain; [exact HD|reflexivity|reflexivity|exact R1|exact R1|exact R1|exact R1|discriminate].
  - intros q. apply rev_rng_fair.
  - intros q. reflexivity.
  - rewrite Hsz. cbn. lia.
  - intros Q. congruence.
  - exact Hn.
  - exact Hn2.
  - exists s0, d, r. split; [exact HN|]. split; [exact L|]. split; [exact HD|]. split; [exact R1|]. split; [constructor|]. split.
    + intros [|i] Hi; [|lia]. unfold two_rows, Rsum. cbn. lra.
    + apply HR. rewrite Hsz. lia.
Qed.
