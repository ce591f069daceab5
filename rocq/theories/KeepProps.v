(* C81: a network that is already right. *)
From Coq Require Import Reals Lra Lia Permutation.
From Verif Require FactoryProps.
From Verif Require Import Base Num NumOrder ActModel ActProofs NeuronModel LayerModel NetModel NetSpec NeuronProofs LayerProofs GradProofs DenseProofs GradProps StatReal
  FactoryModel FactorySpec FactoryProofs PureSpec PureProps LearnSpec LearnProofs LearnProps BuildProofs ToolsModel StatModel WaitModel TrainModel TrainSpec TrainProofs TrainSafe TrainUser TrainProps MiniSpec MiniProofs MiniStill MiniLin DataModel DataSpec DataProps MiniProps KeepSpec KeepProofs.
Local Open Scope R_scope.

(* reading a step with no error in the weights of the networks *)
Lemma step_weights (net net' : @Net RNum) k nss nss' o : dchain k (nn_layers net) nss -> dchain k (nn_layers net') nss' -> Forall2 (layer0 o) nss nss' ->
  forall l n w v, @weight_at RNum net l n w = Some v -> exists a b v', @neuron_at RNum net l n = Some a /\ @neuron_at RNum net' l n = Some b /\ step0 o a b /\
    List.length (n_w a) = S (n_in a) /\ List.length (n_w b) = S (n_in b) /\ @nth R w (n_w a) 0 = v /\ @weight_at RNum net' l n w = Some v' /\ @nth R w (n_w b) 0 = v' /\ (w <= n_in a)%nat.
Proof.
  intros D D' U l n w v H. destruct (weight_at_inv net k nss l n w v D H) as (ns & El & Hn & Hw & Ev).
  destruct (F2_nth _ _ _ U l ns El) as (ns' & El' & L & Us). specialize (Us n Hn). assert (Hn' : (n < List.length ns')%nat) by lia.
  pose proof (dchain_neuron k _ nss l ns n D El Hn) as La. pose proof (dchain_neuron k _ nss' l ns' n D' El' Hn') as Lb. assert (Ei : n_in (nth n ns' n0) = n_in (nth n ns n0)) by apply Us.
  exists (nth n ns n0), (nth n ns' n0), (@nth R w (n_w (nth n ns' n0)) 0).
  split; [rewrite (neuron_at_dense _ _ _ _ _ D), El; now apply nth_error_nth'|]. split; [rewrite (neuron_at_dense _ _ _ _ _ D'), El'; now apply nth_error_nth'|].
  split; [exact Us|]. split; [exact La|]. split; [exact Lb|]. split; [exact Ev|]. assert (Hw' : (w <= n_in (nth n ns n0))%nat) by (change (@F RNum) with R in *; lia). split; [|split; [reflexivity|exact Hw']].
  rewrite (weight_at_nth net' k nss' l n w ns' D' El' Hn'). apply nth_error_nth'. change (@F RNum) with R in *. lia.
Qed.
Lemma right_step rand (net : @Net RNum) k nss x d reset net' : nn_layers net <> [] -> dchain k (nn_layers net) nss -> nn_nan net = false -> List.length x = k -> predicts net x d -> @trainOnce RNum rand net x d reset = Ok net' ->
  exists nss', dchain k (nn_layers net') nss' /\ Forall2 (layer0 (nn_opt net)) nss nss' /\ nn_nan net' = false /\ nn_opt net' = nn_opt net /\ nn_layers net' <> [].
Proof.
  intros Hne D A Hx P E. apply (predicts_dense net k nss x d Hne D Hx) in P.
  destruct (trainOnce_dense rand net k nss x d reset Hne D A Hx) as (net2 & nss' & E2 & D' & U & N' & O'). { rewrite P. apply le_n. }
  change (@F RNum) with R in *. rewrite E2 in E. injection E as <-. apply upd_net_0 in U; [|exact P]. exists nss'. repeat (split; [assumption|]).
  apply (dchain_ne _ _ _ D'). apply (dchain_ne _ _ _ D) in Hne. inversion U; subst; congruence.
Qed.

(* Without momentum, training on a sample that is predicted exactly moves no weight, but sets every bias weight of the network to zero. *)
Theorem C81_right_sample_partial : forall rand (net net' : @Net RNum) k x d reset,
  dense_network k net -> nn_nan net = false -> o_m (nn_opt net) = 0 -> List.length x = k -> predicts net x d -> @trainOnce RNum rand net x d reset = Ok net' ->
  forall l n w v, @weight_at RNum net l n w = Some v ->
  (bias_weight net l n w -> @weight_at RNum net' l n w = Some 0) /\ (~ bias_weight net l n w -> @weight_at RNum net' l n w = Some v).
Proof.
  intros rand net net' k x d reset [Hne Hd] A Hm Hx P E l n w v Hv. destruct (dense_dchain _ _ Hd) as (nss & D).
  destruct (right_step rand net k nss x d reset net' Hne D A Hx P E) as (nss' & D' & U & _).
  destruct (step_weights net net' k nss nss' _ D D' U l n w v Hv) as (a & b & v' & Ha & Hb & (S1 & _ & _ & _ & S2 & S3 & _) & La & Lb & Ev & Hv' & Ev' & Hw). split.
  - intros (c & Hc & Lc). assert (c = a) as -> by congruence. assert (w = n_in a) as -> by (change (@F RNum) with R in *; lia). rewrite Hv', <- Ev'. f_equal. rewrite S3, Hm. apply Rmult_0_l.
  - intros Hnb. assert (Hlt : (w < n_in a)%nat). { destruct (Nat.eq_dec w (n_in a)) as [->|]; [|lia]. exfalso. apply Hnb. exists a. auto. }
    rewrite Hv', <- Ev'. f_equal. assert (G := S2 w Hlt). change (@F RNum) with R in *. rewrite G, Hm, Ev. ring.
Qed.
Print Assumptions C81_right_sample_partial.

(* With momentum m: each weight goes on by m times its last change, and each bias weight becomes m times what it was. *)
Theorem C81_momentum_goes_on_partial : forall rand rand' (net0 net1 net2 : @Net RNum) k m x0 d0 x d reset reset',
  dense_network k net0 -> nn_nan net0 = false -> net_numberOfOutputs net0 = Ok m -> List.length x0 = k -> List.length d0 = m -> @trainOnce RNum rand net0 x0 d0 reset = Ok net1 ->
  List.length x = k -> predicts net1 x d -> @trainOnce RNum rand' net1 x d reset' = Ok net2 ->
  forall l n w a, @weight_at RNum net0 l n w = Some a -> exists b c, @weight_at RNum net1 l n w = Some b /\ @weight_at RNum net2 l n w = Some c /\
  (bias_weight net0 l n w -> c = o_m (nn_opt net0) * b) /\ (~ bias_weight net0 l n w -> c = b + o_m (nn_opt net0) * (b - a)).
Proof.
  intros rand rand' net0 net1 net2 k m x0 d0 x d reset reset' HN A Ho Hx0 Hd0 E1 Hx P E2 l n w a Ha.
  destruct (still_start k m net0 HN A Ho) as (nss & D & Hne & _ & Hl).
  destruct (trainOnce_dense rand net0 k nss x0 d0 reset Hne D A Hx0) as (net1' & nss1 & E1' & D1 & U & N1 & O1).
  { rewrite (net_val_len nss x0) by (now apply (dchain_ne _ _ _ D)). unfold lens in Hl |- *. change (@F RNum) with R in *. lia. }
  change (@F RNum) with R in *. rewrite E1' in E1. injection E1 as <-. rename net1' into net1.
  assert (Hne1 : nn_layers net1 <> []). { apply (dchain_ne _ _ _ D1). apply (dchain_ne _ _ _ D) in Hne. destruct nss, nss1; try congruence; contradiction. }
  destruct (right_step rand' net1 k nss1 x d reset' net2 Hne1 D1 N1 Hx P E2) as (nss2 & D2 & U2 & _).
  destruct (weight_at_inv net0 k nss l n w a D Ha) as (ns & El & Hn & Hw & Ev).
  assert (U1 : exists ns1 z e, nth_error nss1 l = Some ns1 /\ List.length ns1 = List.length ns /\ DenseProofs.upd (nn_opt net0) e z (nth n ns n0) (nth n ns1 n0)).
  { clear -U El Hn. revert l nss1 x0 U El. induction nss as [|q t IH]; intros l nss1 z U El; [destruct l; discriminate|]. destruct nss1 as [|q1 t1]; [contradiction|]. destruct U as ((L & U) & Ut). destruct l as [|l]; cbn [nth_error] in *.
    - injection El as ->. exists q1. eexists _, _. split; [reflexivity|]. split; [exact L|]. exact (U n Hn).
    - exact (IH l t1 _ Ut El). }
  destruct U1 as (ns1 & z & e & El1 & L1 & (I1 & _ & _ & _ & _ & _ & Q & Qb)). assert (Hn1 : (n < List.length ns1)%nat) by lia.
  pose proof (dchain_neuron k _ nss l ns n D El Hn) as La. pose proof (dchain_neuron k _ nss1 l ns1 n D1 El1 Hn1) as Lb. assert (Hw' : (w <= n_in (nth n ns n0))%nat) by (change (@F RNum) with R in *; lia).
  assert (Hb : @weight_at RNum net1 l n w = Some (@nth R w (n_w (nth n ns1 n0)) 0)). { rewrite (weight_at_nth net1 k nss1 l n w ns1 D1 El1 Hn1). apply nth_error_nth'. change (@F RNum) with R in *. lia. }
  destruct (step_weights net1 net2 k nss1 nss2 _ D1 D2 U2 l n w _ Hb) as (a1 & b1 & v' & Ha1 & _ & (S1 & _ & _ & _ & S2 & S3 & _) & _ & _ & _ & Hv' & Ev' & _).
  assert (a1 = nth n ns1 n0) as ->. { rewrite (neuron_at_dense _ _ _ _ _ D1), El1, (nth_error_nth' ns1 n0 Hn1) in Ha1. congruence. }
  exists (@nth R w (n_w (nth n ns1 n0)) 0), v'. split; [exact Hb|]. split; [exact Hv'|]. rewrite O1 in *.
  assert (Hat : @neuron_at RNum net0 l n = Some (nth n ns n0)) by (rewrite (neuron_at_dense _ _ _ _ _ D), El; now apply nth_error_nth'). split.
  - intros (c & Hc & Lc). assert (c = nth n ns n0) as -> by congruence. assert (w = n_in (nth n ns n0)) as -> by (change (@F RNum) with R in *; lia). rewrite <- Ev', <- I1. rewrite S3. f_equal. rewrite I1. exact Qb.
  - intros Hnb. assert (Hlt : (w < n_in (nth n ns n0))%nat). { destruct (Nat.eq_dec w (n_in (nth n ns n0))) as [->|]; [|lia]. exfalso. apply Hnb. exists (nth n ns n0). auto. }
    assert (G := S2 w ltac:(lia)). assert (G2 := Q w Hlt). change (@F RNum) with R in *. rewrite <- Ev', G, G2, Ev. reflexivity.
Qed.
Print Assumptions C81_momentum_goes_on_partial.

(* So a network all of whose bias weights are zero and that is right about every sample of the training set is left as it is by train(),
   however long it lasts: the same weights, and the same prediction for every input. *)
Lemma unbiased_of (net : @Net RNum) k nss : dchain k (nn_layers net) nss -> biases_zero net -> unbiased nss.
Proof.
  intros D H. apply Forall_forall. intros ns Hin. apply In_nth_error in Hin as (l & El). apply Forall_forall. intros nn Hi. apply In_nth_error in Hi as (n & En).
  assert (Hn : (n < List.length ns)%nat) by (apply nth_error_Some; congruence). pose proof (dchain_neuron k _ nss l ns n D El Hn) as L. rewrite (nth_error_nth _ _ n0 En) in L.
  assert (Hat : @neuron_at RNum net l n = Some nn) by (now rewrite (neuron_at_dense _ _ _ _ _ D), El).
  apply (H (S l) l n (n_in nn)); [lia|exists nn; auto|]. unfold weight_at. rewrite Hat. apply nth_error_nth'. change (@F RNum) with R in *. lia.
Qed.
Lemma calms_refl (o : @SGD RNum) nss : o_m o = 0 -> calms o nss nss.
Proof. intros H. induction nss as [|a t IH]; constructor; [|exact IH]. clear IH. induction a as [|n a IH]; constructor; [|exact IH]. unfold calm. auto 6. Qed.
Lemma calms_weights o k (net0 net : @Net RNum) nss0 nss : dchain k (nn_layers net0) nss0 -> dchain k (nn_layers net) nss -> calms o nss0 nss -> same_weights net0 net.
Proof.
  intros D0 D C l n w. unfold weight_at. rewrite (neuron_at_dense _ _ _ _ _ D0), (neuron_at_dense _ _ _ _ _ D).
  assert (E : forall l, match nth_error nss0 l, nth_error nss l with Some a, Some b => Forall2 (calm o) a b | None, None => True | _, _ => False end).
  { clear -C. induction C as [|a b ? ? H _ IH]; intros [|j]; cbn; auto. apply IH. }
  specialize (E l). destruct (nth_error nss0 l) as [a|], (nth_error nss l) as [b|]; try contradiction; [|reflexivity].
  assert (E2 : forall n, match nth_error a n, nth_error b n with Some u, Some v => calm o u v | None, None => True | _, _ => False end).
  { clear -E. induction E as [|u v ? ? H _ IH]; intros [|j]; cbn; auto. apply IH. }
  specialize (E2 n). destruct (nth_error a n) as [u|], (nth_error b n) as [v|]; try contradiction; [|reflexivity]. destruct E2 as (_ & _ & _ & -> & _). reflexivity.
Qed.
Theorem C81_right_network_kept_partial : forall k m p trIn trLab teIn teLab rec d0 d fuel env w f s r,
  dense_network k (sn_net s) -> @nn_nan RNum (sn_net s) = false -> o_m (@nn_opt RNum (sn_net s)) = 0 -> biases_zero (sn_net s) -> right_about (sn_net s) (combine trIn trLab) ->
  @mkData4 RNum p trIn trLab teIn teLab nonTemporal rec = Ok d0 -> List.length trIn = List.length trLab -> List.length teIn = List.length teLab ->
  @rect RNum k trIn -> @rect RNum m trLab -> @rect RNum k teIn -> @rect RNum m teLab -> @labels_ok RNum p teLab -> reused d0 d -> fair env ->
  train fuel env w 1 f s d = Some (Ok r) ->
  same_weights (sn_net s) (sn_net (r_snn r)) /\ (forall x o, List.length x = k -> predicts (sn_net s) x o -> predicts (sn_net (r_snn r)) x o).
Proof.
  intros k m p trIn trLab teIn teLab rec d0 d fuel env w f s r [Hne Hd] A Hm HB HP HD L1 L2 R1 R2 R3 R4 HL HR Hf HT.
  destruct (C56_epochs_present_each_sample_once RNum k m p trIn trLab teIn teLab rec d0 d fuel env w _ f s r HD L1 L2 R1 R2 R3 R4 HL HR Hf HT) as (orders & q & P).
  destruct (dense_dchain _ _ Hd) as (nss & D). change (Z.to_nat 1) with 1%nat in P.
  destruct (presents_rest k (nn_opt (sn_net s)) nss _ _ _ _ _ _ P) as (_ & Hne' & _ & _ & nss' & D' & C).
  - eapply dchain_sized; eauto.
  - eapply unbiased_of; eauto.
  - intros x y Hxy. assert (Hx : List.length x = k). { pose proof (in_combine_l _ _ _ _ Hxy) as Ha. unfold rect in R1. rewrite Forall_forall in R1. exact (R1 x Ha). }
    split; [exact Hx|]. exact (proj1 (predicts_dense _ k nss x y Hne D Hx) (HP x y Hxy)).
  - split; [exact Hne|]. split; [exact A|]. split; [reflexivity|]. exists nss. split; [exact D|now apply calms_refl].
  - split; [eapply calms_weights; eauto|]. intros x o Hx Ho. apply (predicts_dense _ k nss' x o Hne' D' Hx). apply (predicts_dense _ k nss x o Hne D Hx) in Ho. rewrite <- Ho. eapply calms_val; eauto.
Qed.
Print Assumptions C81_right_network_kept_partial.

(* But a bias weight that is not zero is lost.  Take a network right about a sample, with hidden layers without bias and a linear last layer:
   one training on that sample, and every output is wrong by the bias it had, for that input and for every other. *)
Lemma dchain_last pre ns : forall k ls, dchain k ls (pre ++ [ns]) -> List.length ls = S (List.length pre) /\ forall z, List.length z = k -> Forall (fun n : RNeu => wf_neuron 1 n /\ n_in n = List.length (net_val pre z)) ns.
Proof.
  induction pre as [|a t IH]; intros k [|l ls] D; try contradiction; destruct D as (_ & Fa & D).
  - destruct ls; [|contradiction]. split; [reflexivity|]. intros z Hz. eapply Forall_impl; [|exact Fa]. cbn. intros n (W & I1 & _). split; [exact W|]. exact (eq_trans I1 (eq_sym Hz)).
  - destruct (IH _ _ D) as (L & H). split; [cbn; lia|]. intros z Hz. apply (H (layer_val a z)). apply layer_val_length.
Qed.
Lemma F2_last {A B} (P : A -> B -> Prop) pre x : forall b, Forall2 P (pre ++ [x]) b -> exists pre' x', b = pre' ++ [x'] /\ Forall2 P pre pre' /\ P x x'.
Proof.
  induction pre as [|a t IH]; intros b H; inversion H as [|? y ? bt Hy Ht]; subst.
  - inversion Ht; subst. exists [], y. auto.
  - destruct (IH _ Ht) as (p' & x' & -> & Hp & Hx). exists (y :: p'), x'. split; [reflexivity|]. split; [now constructor|exact Hx].
Qed.
Theorem C81_right_network_spoiled_refuted : forall rand (net net' : @Net RNum) k last x d reset,
  dense_network k net -> nn_nan net = false -> o_m (nn_opt net) = 0 -> List.length (nn_layers net) = S last -> biases_zero_before last net ->
  (forall j neuron, @neuron_at RNum net last j = Some neuron -> n_act neuron = a_identity) ->
  List.length x = k -> predicts net x d -> @trainOnce RNum rand net x d reset = Ok net' ->
  forall y before after, List.length y = k -> predicts net y before -> predicts net' y after ->
  forall j neuron w b, @neuron_at RNum net last j = Some neuron -> bias_weight net last j w -> @weight_at RNum net last j w = Some b ->
  nth j before 0 - nth j after 0 = b * n_bias neuron.
Proof.
  intros rand net net' k last x d reset [Hne Hd] A Hm Hlast HB Hid Hx P E y before after Hy Hb Ha j neuron w b Hat (c & Hc & Lc) Hw. assert (c = neuron) as -> by congruence.
  destruct (dense_dchain _ _ Hd) as (nss & D). destruct (right_step rand net k nss x d reset net' Hne D A Hx P E) as (nss' & D' & U & _ & _ & Hne').
  apply (predicts_dense net k nss y before Hne D Hy) in Hb. apply (predicts_dense net' k nss' y after Hne' D' Hy) in Ha.
  destruct (exists_last (proj1 (dchain_ne _ _ _ D) Hne)) as (pre & ns & ->). destruct (F2_last _ _ _ _ U) as (pre' & ns' & -> & Up & (Ln & Us)).
  destruct (dchain_last pre ns k _ D) as (Ll & Fn). destruct (dchain_last pre' ns' k _ D') as (Ll' & Fn'). assert (Lp : List.length pre = last) by lia. specialize (Fn y Hy). specialize (Fn' y Hy).
  assert (Sz := dchain_sized _ _ _ D). assert (Sz' := dchain_sized _ _ _ D'). apply Forall_app in Sz as (Sz & _). apply Forall_app in Sz' as (Sz' & _).
  assert (Un : unbiased pre).
  { apply Forall_forall. intros q Hin. apply In_nth_error in Hin as (l & El). apply Forall_forall. intros nn Hi. apply In_nth_error in Hi as (n & En).
    assert (Hl : (l < List.length pre)%nat) by (apply nth_error_Some; congruence). assert (Hn : (n < List.length q)%nat) by (apply nth_error_Some; congruence).
    assert (El' : nth_error (pre ++ [ns]) l = Some q) by (rewrite nth_error_app1 by exact Hl; exact El).
    pose proof (dchain_neuron k _ _ l q n D El' Hn) as L. rewrite (nth_error_nth _ _ n0 En) in L.
    assert (Hnn : @neuron_at RNum net l n = Some nn) by (now rewrite (neuron_at_dense _ _ _ _ _ D), El').
    apply (HB l n (n_in nn)); [lia|exists nn; auto|]. unfold weight_at. rewrite Hnn. apply nth_error_nth'. change (@F RNum) with R in *. lia. }
  pose proof (step_calms _ pre pre pre' Sz Sz' Un (calms_refl _ pre Hm) Up) as C. pose proof (calms_val _ _ _ y C) as V.
  rewrite net_val_app in Hb, Ha. rewrite V in Ha. rewrite V in Fn'. set (z := net_val pre y) in *. change (layer_val ns z = before) in Hb. change (layer_val ns' z = after) in Ha. subst before after.
  rewrite (neuron_at_dense _ _ _ _ _ D), nth_error_app2, Lp, Nat.sub_diag in Hat by lia. cbn [nth_error] in Hat. assert (Hj : (j < List.length ns)%nat) by (apply nth_error_Some; congruence).
  assert (En : nth j ns n0 = neuron) by (now apply nth_error_nth). rewrite nth_layer_val by exact Hj. rewrite nth_layer_val by lia. specialize (Us j Hj). rewrite En in *.
  assert (Fj : wf_neuron 1 neuron /\ n_in neuron = List.length z). { rewrite Forall_forall in Fn. apply Fn. rewrite <- En. now apply nth_In. }
  assert (Fj' : wf_neuron 1 (nth j ns' n0) /\ n_in (nth j ns' n0) = List.length z). { rewrite Forall_forall in Fn'. apply Fn'. apply nth_In. lia. }
  destruct Us as (S1 & _ & S2 & S3 & S4 & S5 & _). assert (Ea : n_act neuron = a_identity) by (eapply Hid; eauto).
  unfold neuron_value. rewrite S2, Ea. cbn [act]. rewrite (nsum_R neuron z) by (try apply Fj; symmetry; apply Fj). rewrite (nsum_R (nth j ns' n0) z) by (try apply Fj'; symmetry; apply Fj').
  rewrite S1, S3. assert (Es : sumn (n_in neuron) (fun i => nth i z 0 * @nth R i (n_w (nth j ns' n0)) 0) = sumn (n_in neuron) (fun i => nth i z 0 * @nth R i (n_w neuron) 0)).
  { apply sumn_ext. intros i Hi. assert (G := S4 i Hi). rewrite Hm in G. change (@F RNum) with R in *. rewrite G. ring. }
  unfold weight_at in Hw. rewrite Hc in Hw. assert (w = n_in neuron) as ->. { destruct Fj as ((W & _) & _). change (@F RNum) with R in *. lia. }
  apply nth_error_nth with (d := 0) in Hw. rewrite Hm, Rmult_0_l in S5. change (@F RNum) with R in *. rewrite Es, S5, Hw. ring.
Qed.
Print Assumptions C81_right_network_spoiled_refuted.

(* two linear layers of one neuron, the weights 1, no bias in the first layer, the bias b in the last *)
Definition keep_draws (b : R) : nat -> nat -> nat -> nat -> R := fun l _ _ w => match w with O => 1 | _ => match l with O => 0 | _ => b end end.
Definition keep_desc : list (@LDesc RNum) := [@Input RNum [1%Z]; @FullyConnected RNum 1 a_identity []; @FullyConnected RNum 1 a_identity []].
Definition linear_one (b : R) (n : RNeu) : Prop := n_in n = 1%nat /\ n_w n = [1; b] /\ n_act n = a_identity /\ n_bias n = 1.
Lemma linear_one_value b n t : linear_one b n -> @neuron_value RNum n [t] = t + b.
Proof. intros (_ & A & B & C). unfold neuron_value, neuron_sum. rewrite A, B, C. cbn [act dotp combine fold_left List.length nth fadd fmul RNum fst snd]. rewrite !fzero_R. change (@F RNum) with R in *. ring. Qed.
Lemma keep_net b masks : 0 <= b <= 1 -> exists net n1 n2, @construct RNum (keep_draws b) masks keep_desc (1 / 10) 0 = Ok net /\ dense_network 1 net /\ nn_nan net = false /\ o_m (nn_opt net) = 0 /\ net_numberOfOutputs net = Ok 1%nat /\
  List.length (nn_layers net) = 2%nat /\ dchain 1 (nn_layers net) [[n1]; [n2]] /\ linear_one 0 n1 /\ linear_one b n2.
Proof.
  intros B. destruct (FactoryProps.C26_dense_accepted (keep_draws b) masks [1%Z] [(1%Z, a_identity, []); (1%Z, a_identity, [])] (1 / 10) 0) as (net & E);
    [discriminate|repeat (apply Forall_cons; [lia|]); apply Forall_nil|cbn; lia|discriminate|cbn; lia|repeat (apply Forall_cons; [cbn; lia|]); apply Forall_nil| |lra|lra|].
  - intros [|l] i g [|w]; cbn; lra.
  - cbn [map fst snd] in E. fold keep_desc in E. pose proof E as E0. apply construct_inv in E as (d0 & rest & E & _ & Hb & _ & Hne & En). unfold keep_desc in E. injection E as <- <-. cbn [d_shape Input] in Hb.
    assert (Hd : dense_layers 1 (nn_layers net)). { apply (dense_rest (keep_draws b) masks [(1%Z, a_identity); (1%Z, a_identity)] 0%nat 1%nat); [lia|repeat (apply Forall_cons; [cbn; lia|]); apply Forall_nil|exact Hb]. }
    destruct (dense_dchain _ _ Hd) as (nss & D). remember (nn_layers net) as L eqn:EL. cbv in Hb.
    assert (J : forall a c : list RLay, Ok a = Ok c -> a = c) by (intros a c J; congruence). apply J in Hb.
    match type of Hb with [mkLayer _ (BFull [?a]) _; mkLayer _ (BFull [?c]) _] = _ => set (n1 := a) in *; set (n2 := c) in * end.
    assert (nss = [[n1]; [n2]]) as ->. { rewrite <- Hb in D. destruct nss as [|q1 [|q2 [|? ?]]]; cbn [dchain] in D; try tauto. destruct D as (D1 & _ & D2 & _). assert (K : forall i j a c, @mkLayer RNum i (BFull a) [] = mkLayer j (BFull c) [] -> a = c) by (intros i j a c K; congruence). apply K in D1, D2. now subst. }
    exists net, n1, n2. subst L. split; [exact E0|]. split; [split; [exact Hne|exact Hd]|]. split; [now rewrite En|]. split; [now rewrite En|].
    split; [unfold net_numberOfOutputs; rewrite <- Hb; reflexivity|]. split; [now rewrite <- Hb|]. split; [exact D|]. split; (split; [reflexivity|split; [|split; [reflexivity|]]]).
    + unfold n1. cbn [n_w]. destruct (Rcase_abs R0) as [Q|Q]; [exfalso; exact (Rlt_irrefl _ Q)|reflexivity].
    + unfold n1. cbn [n_bias]. change (1 * / 1 = 1). lra.
    + unfold n2. cbn [n_w]. destruct (Rcase_abs b) as [Q|Q]; [exfalso; lra|reflexivity].
    + unfold n2. cbn [n_bias]. change (1 * / 1 = 1). lra.
Qed.
Lemma keep_predicts b net n1 n2 t : nn_layers net <> [] -> dchain 1 (nn_layers net) [[n1]; [n2]] -> linear_one 0 n1 -> linear_one b n2 -> predicts net [t] [t + b].
Proof.
  intros Hne D H1 H2. apply (predicts_dense net 1 _ [t] _ Hne D eq_refl). change ([@neuron_value RNum n2 [@neuron_value RNum n1 [t]]] = [t + b]). f_equal. eapply eq_trans; [apply (linear_one_value b n2 _ H2)|]. exact (f_equal (fun v : R => v + b) (eq_trans (linear_one_value 0 n1 t H1) (Rplus_0_r t))).
Qed.
(* right about everything; a bias of 1/2 in the last layer *)
Example C81_spoiled_hypotheses : forall masks, exists net neuron, @construct RNum (keep_draws (1 / 2)) masks keep_desc (1 / 10) 0 = Ok net /\ dense_network 1 net /\ nn_nan net = false /\ o_m (nn_opt net) = 0 /\ List.length (nn_layers net) = 2%nat /\ biases_zero_before 1 net /\
  (forall j neuron, @neuron_at RNum net 1 j = Some neuron -> n_act neuron = a_identity) /\ predicts net [2] [2 + 1 / 2] /\ @neuron_at RNum net 1 0 = Some neuron /\ n_bias neuron = 1 /\ bias_weight net 1 0 1 /\ @weight_at RNum net 1 0 1 = Some (1 / 2).
Proof.
  intros masks. destruct (keep_net (1 / 2) masks ltac:(lra)) as (net & n1 & n2 & E & Hd & A & Hm & _ & Hl & D & H1 & H2). exists net, n2.
  assert (At : forall l j nn, @neuron_at RNum net l j = Some nn -> (l = 0%nat /\ nn = n1) \/ (l = 1%nat /\ nn = n2)).
  { intros l j nn H. rewrite (neuron_at_dense _ _ _ _ _ D) in H. destruct l as [|[|[|l]]]; cbn [nth_error] in H; try discriminate; destruct j as [|[|j]]; cbn [nth_error] in H; try discriminate; injection H as <-; auto. }
  assert (A1 : @neuron_at RNum net 1 0 = Some n2) by (rewrite (neuron_at_dense _ _ _ _ _ D); reflexivity).
  split; [exact E|]. split; [exact Hd|]. split; [exact A|]. split; [exact Hm|]. split; [exact Hl|]. split; [|split; [|split; [|split; [exact A1|split; [apply H2|split]]]]].
  - intros l n w v L (nn & Hn & Lw) Hv. destruct (At l n nn Hn) as [(-> & ->)|(-> & _)]; [|lia]. unfold weight_at in Hv. rewrite Hn in Hv. destruct H1 as (_ & W & _). rewrite W in Hv, Lw. injection Lw as <-. cbn in Hv. congruence.
  - intros j nn Hn. destruct (At 1%nat j nn Hn) as [(Q & _)|(_ & ->)]; [discriminate|apply H2].
  - eapply keep_predicts; eauto. apply Hd.
  - exists n2. split; [exact A1|]. destruct H2 as (_ & W & _). now rewrite W.
  - unfold weight_at. rewrite A1. destruct H2 as (_ & W & _). now rewrite W.
Qed.
(* no bias, and samples of the identity: any number of epochs *)
Example C81_kept_hypotheses : forall n, (0 < n)%nat -> (Z.of_nat n < int_max)%Z -> exists s d r,
  @newSnn RNum (keep_draws 0) (fun _ _ _ => true) keep_desc (1 / 10) 0 = Ok s /\ dense_network 1 (sn_net s) /\ @nn_nan RNum (sn_net s) = false /\ o_m (@nn_opt RNum (sn_net s)) = 0 /\ biases_zero (sn_net s) /\ right_about (sn_net s) (combine two_rows two_rows) /\
  @mkData4 RNum regression two_rows two_rows two_rows two_rows nonTemporal 0 = Ok d /\ reused d d /\
  train (2 + n + 1) (@mkEnv RNum (fun k => Z.of_nat k) (fun _ => false) (fun _ => rev_rng) (fun _ _ _ _ => true) 0) (lit_ep (Z.of_nat n)) 1 1 s d = Some (Ok r).
Proof.
  intros n Hn Hn2. destruct (keep_net 0 (fun _ _ _ => true) ltac:(lra)) as (net & n1 & n2 & E & Hd & A & Hm & Ho & Hl & D & H1 & H2).
  set (s0 := mkSnn net (initialStats 1) false true 0 0 0 false "AutoSave.snn").
  assert (HN : @newSnn RNum (keep_draws 0) (fun _ _ _ => true) keep_desc (1/10) 0 = Ok s0). { unfold newSnn. rewrite E. cbn [bind]. rewrite Ho. reflexivity. }
  assert (HD : exists d, @mkData4 RNum regression two_rows two_rows two_rows two_rows nonTemporal 0 = Ok d /\ s_size (d_train d) = 2%nat /\ d_nature d = nonTemporal) by (eexists; split; [reflexivity|split; reflexivity]).
  destruct HD as (d & HD & Hsz & Hnat). assert (R1 : @rect RNum 1 two_rows) by (repeat constructor).
  assert (Ls : exists a c, nn_layers net = [mkLayer 1 (BFull [a]) []; mkLayer 1 (BFull [c]) []]). { destruct (nn_layers net) as [|a [|c [|? ?]]]; try discriminate. destruct D as (-> & _ & -> & _). eauto. }
  destruct Ls as (la & lc & Ls).
  edestruct (C13_train_exact RNum (fun _ => True) order_laws_R _ _ keep_desc (1/10) 0 s0 s0 d (@mkEnv RNum (fun k => Z.of_nat k) (fun _ => false) (fun _ => rev_rng) (fun _ _ _ _ => true) 0) 1%nat 1%nat n 1%Z 1%Z HN) as (r & HR & _).
  - split; [repeat constructor|]. repeat constructor.
  - unfold s0. cbn [sn_net]. rewrite Ls. repeat constructor.
  - unfold s0, trainable. cbn [sn_net]. rewrite Ls. left. reflexivity.
  - reflexivity.
  - exact Ho.
  - apply lv_none.
  - eapply ud_plain; [exact HD|reflexivity|reflexivity|exact R1|exact R1|exact R1|exact R1|discriminate].
  - intros q. apply rev_rng_fair.
  - intros q. reflexivity.
  - rewrite Hsz. cbn. lia.
  - intros Q. congruence.
  - exact Hn.
  - exact Hn2.
  - exists s0, d, r. split; [exact HN|]. split; [exact Hd|]. split; [exact A|]. split; [exact Hm|]. split; [|split; [|split; [exact HD|split; [constructor|apply HR; rewrite Hsz; lia]]]].
    + intros last l i w v _ (nn & Hat & Lw) Hv. unfold s0 in *. cbn [sn_net] in *. unfold weight_at in Hv. rewrite Hat in Hv. rewrite (neuron_at_dense _ _ _ _ _ D) in Hat.
      assert (W : n_w nn = [1; 0]). { destruct l as [|[|[|l]]]; cbn [nth_error] in Hat; try discriminate; destruct i as [|[|i]]; cbn [nth_error] in Hat; try discriminate; injection Hat as <-; [apply H1|apply H2]. }
      rewrite W in Hv, Lw. injection Lw as <-. cbn in Hv. congruence.
    + intros x y Hxy. assert (Q : exists t, x = [t] /\ y = [t + 0]). { cbn in Hxy. destruct Hxy as [Hxy|[Hxy|[]]]; injection Hxy as <- <-; eexists; (split; [reflexivity|]); f_equal; ring. }
      destruct Q as (t & -> & ->). unfold s0. cbn [sn_net]. eapply keep_predicts; eauto. apply Hd.
Qed.
