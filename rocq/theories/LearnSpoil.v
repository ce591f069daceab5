(* C72, second part: what a training does to a network that is already right about the sample. *)
From Coq Require Import Reals Lra Lia.
From Verif Require FactoryProps.
From Verif Require Import Base Num NumOrder ActModel ActProofs NeuronModel LayerModel NetModel NetSpec NeuronProofs LayerProofs GradProofs DenseProofs GradProps StatReal FactoryModel FactorySpec FactoryProofs SafeProofs BuildProofs LearnSpec LearnProofs LearnProps.
Local Open Scope R_scope.

(* the network predicts the label exactly; one training on that very sample, and every output is wrong by the bias weight it had *)
Theorem C72_perfect_network_spoiled_refuted k m net x d rand reset net' o : linear_network k m net -> List.length x = k -> List.length d = m ->
  predicts net x d -> @trainOnce RNum rand net x d reset = Ok net' -> predicts net' x o ->
  forall j, (j < m)%nat -> exists b, @weight_at RNum net 0 j k = Some b /\ @weight_at RNum net' 0 j k = Some 0 /\ nth j d 0 - nth j o 0 = b.
Proof.
  intros Hn Hx Hd Hp Ht Ho j Hj. destruct (linear_lin k m net Hn) as (ns & Hl).
  destruct (lin_train k m net ns rand x d reset Hl Hx Hd) as (net1 & ns1 & E & L1 & O1 & S1). assert (net1 = net') as -> by congruence.
  assert (E0 := predicts_lin k m net ns x d Hl Hx Hp). assert (E1 := predicts_lin k m net' ns1 x o L1 Hx Ho).
  assert (Ln : List.length ns = m) by apply Hl. assert (Ln1 : List.length ns1 = m) by apply L1.
  assert (T1 := S1 j Hj). cbv zeta in T1. destruct T1 as (T1 & T2).
  assert (Z : terr (nth j d 0) (nth j ns n0) x = 0). { eapply eq_trans; [symmetry; apply out_err; lia|]. rewrite <- E0. change (@F RNum) with R. lra. }
  assert (P0 : plain k (nth j ns n0)). { destruct Hl as (_ & Hf & _). rewrite Forall_forall in Hf. apply Hf, nth_In. lia. }
  assert (P1 : plain k (nth j ns1 n0)). { destruct L1 as (_ & Hf & _). rewrite Forall_forall in Hf. apply Hf, nth_In. lia. }
  assert (W : forall net2 ns2, lin k m net2 ns2 -> plain k (nth j ns2 n0) -> @weight_at RNum net2 0 j k = Some (bias_w (nth j ns2 n0))).
  { intros net2 ns2 H2 P2. assert (A : @neuron_at RNum net2 0 j = Some (nth j ns2 n0)). { unfold neuron_at. rewrite (proj1 H2). cbn. apply nth_error_nth'. destruct H2 as (_ & _ & -> & _). exact Hj. }
    eapply eq_trans; [apply (weight_at_intro net2 0 j k _ A)|].
    - destruct P2 as (W2 & I2 & _). assert (Lw : (List.length (n_w (nth j ns2 n0)) = n_in (nth j ns2 n0) + 1)%nat) by apply W2. lia.
    - assert (I2 : n_in (nth j ns2 n0) = k) by apply P2. unfold bias_w. rewrite I2. reflexivity. }
  exists (bias_w (nth j ns n0)). split; [exact (W net ns Hl P0)|]. split.
  - rewrite (W net' ns1 L1 P1). apply (f_equal Some). eapply eq_trans; [exact T2|]. eapply eq_trans; [exact (f_equal (Rmult (2 * o_lr (nn_opt net))) Z)|]. apply Rmult_0_r.
  - rewrite E1. eapply eq_trans; [apply out_err; lia|]. eapply eq_trans; [exact T1|]. eapply eq_trans; [exact (f_equal (fun e => gain (o_lr (nn_opt net)) x * e + bias_w (nth j ns n0)) Z)|]. cbv beta. ring.
Qed.
Print Assumptions C72_perfect_network_spoiled_refuted.
(* a network predicting (a + 1) exactly for the input a: one identity neuron of weight 1 and bias weight 1 *)
Example C72_spoiled_hypotheses_met : forall masks, exists net, @construct RNum (fun _ _ _ _ => 1) masks [@Input RNum [1%Z]; @FullyConnected RNum 1 a_identity []] (1 / 10) 0 = Ok net /\ linear_network 1 1 net /\ predicts net [2] [3] /\ @weight_at RNum net 0 0 1 = Some 1.
Proof.
  intros masks. destruct (FactoryProps.C26_dense_accepted (fun _ _ _ _ => 1) masks [1%Z] [(1%Z, a_identity, [])] (1 / 10) 0) as (net & E); [discriminate|apply Forall_cons; [lia|apply Forall_nil]|cbn; lia|discriminate|cbn; lia|apply Forall_cons; [cbn; lia|apply Forall_nil]| |lra|lra|].
  - intros l i g w. lra.
  - exists net. split; [exact E|]. destruct (C72_constructed _ masks 1 1 (1 / 10) net ltac:(lia) E) as (L & Er). split; [exact L|].
    destruct (linear_lin 1 1 net L) as (ns & Hl). assert (En : exists nn, ns = [nn] /\ @neuron_init RNum 1 1 2 1 a_identity (fun _ => 1) = Ok nn).
    { apply construct_inv in E as (d0 & rest & E & _ & Hb & _). injection E as <- <-. cbn [build_rest d_shape Input] in Hb.
      apply bind_Ok_inv in Hb as (l & Hl' & Hb). apply bind_Ok_inv in Hb as (r & Hr & Hb). assert (r = []) as -> by (cbn in Hr; congruence). assert (El : [l] = nn_layers net) by congruence.
      change [1%Z] with (map Z.of_nat [1%nat]) in Hl'. apply build_layer_built in Hl'; [|repeat constructor|exact I].
      inversion Hl' as [n ns' Et Hn Hbn E| | | | | | | | ]; try discriminate. cbn [d_neurons FullyConnected] in Hn. assert (n = 1%nat) as -> by lia.
      assert (ns' = ns) as ->. { destruct Hl as (Hl & _). rewrite <- El, <- E in Hl. injection Hl. auto. }
      pose proof (build_neurons_inv _ _ _ Hbn) as (Ln & Hi). destruct ns as [|nn [|? ?]]; try discriminate. exists nn. split; [reflexivity|]. etransitivity; [|exact (Hi 0%nat nn eq_refl)]. unfold mk_full. apply (f_equal (fun b : R => @neuron_init RNum 1 1 2 b a_identity (fun _ => 1))). symmetry. apply RNum_one. }
    destruct En as (nn & -> & En). assert (Ew : n_w nn = [1; 1]). { cbv in En. assert (J : forall a b : @Neuron RNum, Ok a = Ok b -> a = b) by (intros a b J; congruence). apply J in En. rewrite <- En. cbn [n_w]. destruct (Rcase_abs R1) as [B|B]; [change R1 with 1 in B; lra|reflexivity]. }
    assert (P : plain 1 nn) by (destruct Hl as (_ & Hf & _); now inversion Hf).
    assert (V : @neuron_value RNum nn [2] = 3). { eapply eq_trans; [apply (value_plain 1 nn [2] P eq_refl)|]. unfold bias_w. rewrite (proj1 (proj2 P)), Ew. cbn [sumn nth]. change (@F RNum) with R. lra. }
    split; [destruct (lin_predict 1 1 net [nn] [2] true Hl eq_refl) as (net' & Ep); exists net'; eapply eq_trans; [exact Ep|]; unfold layer_val; cbn [map]; apply (f_equal (fun v : R => @Ok (list R * @Net RNum) ([v], net'))); exact V|].
    assert (A : @neuron_at RNum net 0 0 = Some nn) by (unfold neuron_at; rewrite (proj1 Hl); reflexivity). unfold weight_at. rewrite A, Ew. reflexivity.
Qed.
