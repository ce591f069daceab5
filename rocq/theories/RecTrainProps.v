(* C68: which weights of recurrent and GRU layers training follows the gradient with: not those of the biases, of the previous outputs, of the gates. *)
From Coq Require Import Reals Lra.
From Coquelicot Require Import Coquelicot.
From Verif Require Import Base Num NumOrder ActModel ActProofs NeuronModel LayerModel NetModel NetSpec NeuronProofs LayerProofs SafeProofs GradProofs SafeLayers FactoryModel FactorySpec FactoryProofs SafeNet BuildProofs FilterSpec HistProofs MixSpec MixProps RecTrainSpec RecFrozen.
Local Open Scope nat_scope.

Section A.
Context {N : Num}.
Lemma rest_at draws masks ds : forall i shape ls l d lay, build_rest draws masks i ds shape = Ok ls -> nth_error ds l = Some d -> nth_error ls l = Some lay ->
  exists shape', build_layer (draws (i + l)) (masks (i + l)) d shape' = Ok lay.
Proof.
  induction ds as [|d0 t IH]; intros i shape ls l d lay H Hd Hl; [destruct l; discriminate|]. cbn [build_rest] in H. apply bind_Ok_inv in H as (a & Ha & H). apply bind_Ok_inv in H as (r & Hr & H). injection H as <-.
  destruct l as [|l]; cbn [nth_error] in *.
  - injection Hd as <-. injection Hl as <-. rewrite Nat.add_0_r. eauto.
  - rewrite Nat.add_succ_r. exact (IH (S i) _ _ l d lay Hr Hd Hl).
Qed.
Lemma rinit_spec k b bias a dr r : rneuron_init k b (k + 2) bias a dr = Ok r -> n_in (r_n r) = k /\ List.length (n_w (r_n r)) = k + 2 /\ r_recErr r = fzero /\ q_data (n_prev (r_n r)) = repeat (repeat fzero (k + 2)) b.
Proof.
  unfold rneuron_init. rewrite Nat.add_succ_r. cbn [neuron_init bind]. injection 1 as <-. cbn [r_n n_in n_w r_recErr n_prev circ_init q_data]. rewrite app_length, map_length, seq_length. cbn. repeat split; auto. lia.
Qed.
Lemma rec_built dr ms d sh lay : build_layer dr ms d sh = Ok lay -> d_type d = t_rec ->
  exists ns, l_body lay = BRec ns /\ forall j r, nth_error ns j = Some r -> n_in (r_n r) = l_in lay /\ List.length (n_w (r_n r)) = l_in lay + 2.
Proof.
  unfold build_layer. intros H Ht. apply bind_Ok_inv in H as (inputs & _ & H). destruct sh as [|z sh]; [discriminate|]. destruct (1000000 <? inputs)%Z; [discriminate|]. rewrite Ht in H.
  apply bind_Ok_inv in H as (n & _ & H). apply bind_Ok_inv in H as (ni & _ & H). apply bind_Ok_inv in H as (ns & E & H). injection H as <-. exists ns. split; [reflexivity|]. intros j r Hj.
  apply build_neurons_inv in E as [_ Hi]. specialize (Hi j r Hj). apply rinit_spec in Hi as (A & B & _). auto.
Qed.
Lemma gru_built dr ms d sh lay : build_layer dr ms d sh = Ok lay -> d_type d = t_gru ->
  exists ns, l_body lay = BGru ns /\ forall j g, nth_error ns j = Some g -> g_prevOut g = fzero /\
    Forall (fun r => n_in (r_n r) = l_in lay /\ List.length (n_w (r_n r)) = l_in lay + 2 /\ r_recErr r = fzero /\ q_data (n_prev (r_n r)) = [repeat fzero (l_in lay + 2)]) [g_reset g; g_update g; g_output g].
Proof.
  unfold build_layer. intros H Ht. apply bind_Ok_inv in H as (inputs & _ & H). destruct sh as [|z sh]; [discriminate|]. destruct (1000000 <? inputs)%Z; [discriminate|]. rewrite Ht in H.
  apply bind_Ok_inv in H as (n & _ & H). apply bind_Ok_inv in H as (ni & _ & H). apply bind_Ok_inv in H as (ns & E & H). injection H as <-. exists ns. split; [reflexivity|]. intros j r Hj.
  apply build_neurons_inv in E as [_ Hi]. specialize (Hi j r Hj). unfold gru_init in Hi. apply bind_Ok_inv in Hi as (a & Ha & Hi). apply bind_Ok_inv in Hi as (b & Hb & Hi). apply bind_Ok_inv in Hi as (c & Hc & Hi). injection Hi as <-.
  split; [reflexivity|]. cbn [g_reset g_update g_output finish l_in]. repeat constructor; apply rinit_spec in Ha as (A1 & A2 & A3 & A4); apply rinit_spec in Hb as (B1 & B2 & B3 & B4); apply rinit_spec in Hc as (C1 & C2 & C3 & C4); assumption.
Qed.
(* every layer of the network in its present state comes from the layer the factory made *)
Lemma layer_history draws masks shape rest lr m net0 net l d : construct draws masks (Input (map Z.of_nat shape) :: rest) lr m = Ok net0 ->
  Forall (fun n => 0 < n) shape -> Forall sane_kernel rest -> Forall supported_pooling (nn_layers net0) -> uses (cell_count shape) net0 net -> nth_error rest l = Some d ->
  exists sh lay0 lay, nth_error (nn_layers net0) l = Some lay0 /\ nth_error (nn_layers net) l = Some lay /\ build_layer (draws l) (masks l) d sh = Ok lay0 /\ same_layer lay0 lay.
Proof.
  intros H Hs Hk HP U Hd.
  assert (Hsane : sane_descriptions (Input (map Z.of_nat shape) :: rest)).
  { split; [|exact Hk]. cbn [d_shape Input]. clear -Hs. induction Hs; cbn; constructor; auto; lia. }
  destruct (construct_wf _ _ _ _ _ _ H Hsane HP) as (k & mm & W & Hp). apply construct_inv in H as (d0 & r & E & _ & Hb & HV & _ & _). injection E as <- <-.
  assert (Ek : k = cell_count shape).
  { cbn [hd d_shape Input] in Hp. unfold product in Hp. apply product_inv in Hp. change 1%Z with (Z.of_nat 1) in Hp. rewrite fold_mul_nat in Hp. apply Nat2Z.inj in Hp. exact Hp. }
  subst k. destruct (uses_wf _ _ _ _ W U) as [_ SF].
  assert (HL : exists lay0, nth_error (nn_layers net0) l = Some lay0).
  { assert (G : forall ds i sh ls l d, build_rest draws masks i ds sh = Ok ls -> nth_error ds l = Some d -> exists lay, nth_error ls l = Some lay).
    { clear. induction ds as [|d0 t IH]; intros i sh ls l d H Hd; [destruct l; discriminate|]. cbn [build_rest] in H. apply bind_Ok_inv in H as (a & Ha & H). apply bind_Ok_inv in H as (r & Hr & H). injection H as <-. destruct l; cbn [nth_error] in *; eauto. }
    eapply G; eauto. }
  destruct HL as (lay0 & HL). destruct (rest_at _ _ _ _ _ _ _ _ _ Hb Hd HL) as (sh & HB).
  assert (HF : exists lay, nth_error (nn_layers net) l = Some lay /\ same_layer lay0 lay).
  { clear -SF HL. revert l HL. induction SF as [|a b t t' Hab _ IH]; intros [|l] HL; cbn [nth_error] in *; try discriminate; eauto. injection HL as ->. eauto. }
  destruct HF as (lay & HF & SL). exists sh, lay0, lay. auto.
Qed.
Lemma tail_bias k (w : list F) t : skipn (S k) w = t -> List.length t = 1 -> List.length w = k + 2 /\ nth_error w (k + 1) = nth_error t 0.
Proof.
  intros H L. split.
  - assert (Q := skipn_length (S k) w). rewrite H, L in Q. lia.
  - subst t. rewrite <- (firstn_skipn (S k) w) at 1. assert (Q := skipn_length (S k) w). rewrite L in Q. rewrite nth_error_app2 by (rewrite firstn_length; lia). f_equal. rewrite firstn_length. lia.
Qed.

(* However a network is used, the bias weights of its recurrent layers are those drawn by the constructor. *)
Theorem C68_recurrent_bias_never_learns_refuted : forall draws masks shape rest lr m net0 net l d lay0 n,
  construct draws masks (Input (map Z.of_nat shape) :: rest) lr m = Ok net0 ->
  Forall (fun n => 0 < n) shape -> Forall sane_kernel rest -> Forall supported_pooling (nn_layers net0) -> uses (cell_count shape) net0 net ->
  nth_error rest l = Some d -> d_type d = t_rec -> nth_error (nn_layers net0) l = Some lay0 -> n < getNumberOfNeurons lay0 ->
  let i := l_in lay0 in exists c, weight_of net0 l n (i + 1) = Some c /\ weight_of net l n (i + 1) = Some c.
Proof.
  intros draws masks shape rest lr m net0 net l d lay0 n H Hs Hk HP U Hd Ht Hl Hn i. subst i. destruct (layer_history _ _ _ _ _ _ _ _ _ _ H Hs Hk HP U Hd) as (sh & lay0' & lay & E0 & E1 & HB & (_ & SK & HW)).
  rewrite Hl in E0. injection E0 as <-. destruct (rec_built _ _ _ _ _ HB Ht) as (ns & Eb & Hns). apply works_tails in HW. rewrite Eb in HW, SK. destruct (l_body lay) as [|ns'| |] eqn:Eb'; try (destruct SK as [_ SK]; contradiction). cbn [tails] in HW.
  unfold getNumberOfNeurons, layer_weights in Hn. rewrite Eb in Hn. cbn [body_weights] in Hn. rewrite map_length in Hn. destruct (nth_error ns n) as [r|] eqn:Er; [|apply nth_error_None in Er; lia].
  assert (Hr' : exists r', nth_error ns' n = Some r' /\ rtail r' = rtail r).
  { assert (Q : nth_error (map (fun r => [rtail r]) ns') n = Some [rtail r]) by (rewrite HW, nth_error_map, Er; reflexivity). rewrite nth_error_map in Q. destruct (nth_error ns' n) as [r'|]; [|discriminate]. exists r'. split; [reflexivity|]. clear -Q. cbn [option_map] in Q. congruence. }
  destruct Hr' as (r' & Er' & Ht'). destruct (Hns n r Er) as [Hin Hlen]. unfold rtail in Ht'. assert (Q1 : n_in (r_n r') = n_in (r_n r)) by congruence. assert (Q2 : skipn (S (n_in (r_n r'))) (n_w (r_n r')) = skipn (S (n_in (r_n r))) (n_w (r_n r))) by congruence. rewrite Q1, Hin in Q2.
  assert (L1 : List.length (skipn (S (l_in lay0)) (n_w (r_n r))) = 1) by (rewrite skipn_length; lia).
  destruct (tail_bias _ _ _ eq_refl L1) as [_ T1]. destruct (tail_bias _ _ _ Q2 L1) as [_ T2].
  unfold weight_of, net_weights. rewrite !nth_error_map, Hl, E1. cbn [option_map]. unfold layer_weights. rewrite Eb, Eb'. cbn [body_weights]. rewrite !nth_error_map, Er, Er'. cbn [option_map]. rewrite T1, T2.
  destruct (skipn (S (l_in lay0)) (n_w (r_n r))) as [|c t] eqn:Es; [cbn [List.length] in L1; discriminate L1|]. exists c. split; reflexivity.
Qed.

(* The same for the three gates of GRU layers. *)
Theorem C68_gru_biases_never_learn_refuted : forall draws masks shape rest lr m net0 net l d lay0 n,
  construct draws masks (Input (map Z.of_nat shape) :: rest) lr m = Ok net0 ->
  Forall (fun n => 0 < n) shape -> Forall sane_kernel rest -> Forall supported_pooling (nn_layers net0) -> uses (cell_count shape) net0 net ->
  nth_error rest l = Some d -> d_type d = t_gru -> nth_error (nn_layers net0) l = Some lay0 -> n < getNumberOfNeurons lay0 ->
  let i := l_in lay0 in forall gate, gate < 3 -> exists c, weight_of net0 l n (gate * (i + 2) + i + 1) = Some c /\ weight_of net l n (gate * (i + 2) + i + 1) = Some c.
Proof.
  intros draws masks shape rest lr m net0 net l d lay0 n H Hs Hk HP U Hd Ht Hl Hn i. subst i. destruct (layer_history _ _ _ _ _ _ _ _ _ _ H Hs Hk HP U Hd) as (sh & lay0' & lay & E0 & E1 & HB & (_ & SK & HW)).
  rewrite Hl in E0. injection E0 as <-. destruct (gru_built _ _ _ _ _ HB Ht) as (ns & Eb & Hns). apply works_tails in HW. rewrite Eb in HW, SK. destruct (l_body lay) as [| |ns'|] eqn:Eb'; try (destruct SK as [_ SK]; contradiction). cbn [tails] in HW.
  unfold getNumberOfNeurons, layer_weights in Hn. rewrite Eb in Hn. cbn [body_weights] in Hn. rewrite map_length in Hn. destruct (nth_error ns n) as [r|] eqn:Er; [|apply nth_error_None in Er; lia].
  assert (Hr' : exists r', nth_error ns' n = Some r' /\ gtail r' = gtail r).
  { assert (Q : nth_error (map gtail ns') n = Some (gtail r)) by (rewrite HW, nth_error_map, Er; reflexivity). rewrite nth_error_map in Q. destruct (nth_error ns' n) as [r'|]; [|discriminate]. exists r'. split; [reflexivity|]. clear -Q. cbn [option_map] in Q. congruence. }
  destruct Hr' as (r' & Er' & Ht'). destruct (Hns n r Er) as [_ Hg]. inversion Hg as [|? ? (A1 & A2 & _) Hg1]. inversion Hg1 as [|? ? (B1 & B2 & _) Hg2]. inversion Hg2 as [|? ? (C1 & C2 & _) _]. clear Hg Hg1 Hg2.
  unfold gtail, rtail in Ht'. assert (P1 : n_in (r_n (g_reset r')) = l_in lay0) by congruence. assert (P2 : n_in (r_n (g_update r')) = l_in lay0) by congruence. assert (P3 : n_in (r_n (g_output r')) = l_in lay0) by congruence.
  rewrite P1, P2, P3, A1, B1, C1 in Ht'. set (k := l_in lay0) in *.
  assert (Q1 : skipn (S k) (n_w (r_n (g_reset r'))) = skipn (S k) (n_w (r_n (g_reset r)))) by congruence. assert (Q2 : skipn (S k) (n_w (r_n (g_update r'))) = skipn (S k) (n_w (r_n (g_update r)))) by congruence. assert (Q3 : skipn (S k) (n_w (r_n (g_output r'))) = skipn (S k) (n_w (r_n (g_output r)))) by congruence. clear Ht'.
  assert (L1 : forall w : list F, List.length w = k + 2 -> List.length (skipn (S k) w) = 1) by (intros; rewrite skipn_length; lia).
  destruct (tail_bias _ _ _ eq_refl (L1 _ A2)) as [_ T1]. destruct (tail_bias _ _ _ Q1 (L1 _ A2)) as [M1 T1']. destruct (tail_bias _ _ _ eq_refl (L1 _ B2)) as [_ T2]. destruct (tail_bias _ _ _ Q2 (L1 _ B2)) as [M2 T2']. destruct (tail_bias _ _ _ eq_refl (L1 _ C2)) as [_ T3]. destruct (tail_bias _ _ _ Q3 (L1 _ C2)) as [M3 T3'].
  assert (W : forall w, weight_of net0 l n w = nth_error (gru_weights r) w /\ weight_of net l n w = nth_error (gru_weights r') w).
  { intros w. unfold weight_of, net_weights. rewrite !nth_error_map, Hl, E1. cbn [option_map]. unfold layer_weights. rewrite Eb, Eb'. cbn [body_weights]. rewrite !nth_error_map, Er, Er'. split; reflexivity. }
  intros gate Hgate. rewrite (proj1 (W _)), (proj2 (W _)). unfold gru_weights.
  assert (Z : forall w : list F, List.length w = k + 2 -> exists c, nth_error (skipn (S k) w) 0 = Some c).
  { intros w Lw. destruct (skipn (S k) w) as [|c t] eqn:Es; [|exists c; reflexivity]. apply L1 in Lw. rewrite Es in Lw. discriminate Lw. }
  destruct gate as [|[|[|g]]]; [| | |lia].
  - destruct (Z _ A2) as (c & Ec). exists c. rewrite !nth_error_app1 by lia. cbn [Nat.mul Nat.add]. rewrite T1, T1'. auto.
  - destruct (Z _ B2) as (c & Ec). exists c. rewrite !(nth_error_app2 (n_w (r_n (g_reset _)))) by lia. rewrite !nth_error_app1 by lia. rewrite A2, M1. replace (1 * (k + 2) + k + 1 - (k + 2)) with (k + 1) by lia. rewrite T2, T2'. auto.
  - destruct (Z _ C2) as (c & Ec). exists c. rewrite !(nth_error_app2 (n_w (r_n (g_reset _)))) by lia. rewrite !(nth_error_app2 (n_w (r_n (g_update _)))) by lia. rewrite A2, M1, B2, M2. replace (2 * (k + 2) + k + 1 - (k + 2) - (k + 2)) with (k + 1) by lia. rewrite T3, T3'. auto.
Qed.
End A.
Print Assumptions C68_recurrent_bias_never_learns_refuted.
Print Assumptions C68_gru_biases_never_learn_refuted.

(* Over the reals the reset gate keeps all its weights. *)
Theorem C68_reset_gate_never_learns_refuted : forall draws masks shape (rest : list (@LDesc RNum)) lr m (net0 net : @Net RNum) l d lay0 n,
  construct draws masks (Input (map Z.of_nat shape) :: rest) lr m = Ok net0 ->
  Forall (fun n => 0 < n) shape -> Forall sane_kernel rest -> Forall supported_pooling (nn_layers net0) -> uses (cell_count shape) net0 net ->
  nth_error rest l = Some d -> d_type d = t_gru -> nth_error (nn_layers net0) l = Some lay0 -> n < getNumberOfNeurons lay0 ->
  forall w, w < l_in lay0 + 2 -> exists c, weight_of net0 l n w = Some c /\ weight_of net l n w = Some c.
Proof.
  intros draws masks shape rest lr m net0 net l d lay0 n H Hs Hk HP U Hd Ht Hl Hn w Hw. destruct (layer_history _ _ _ _ _ _ _ _ _ _ H Hs Hk HP U Hd) as (sh & lay0' & lay & E0 & E1 & HB & (_ & SK & HW)).
  rewrite Hl in E0. injection E0 as <-. destruct (gru_built _ _ _ _ _ HB Ht) as (ns & Eb & Hns). apply works_keeps in HW. rewrite Eb in HW, SK. destruct (l_body lay) as [| |ns'|] eqn:Eb'; try (destruct SK as [_ SK]; contradiction). cbn [gkeeps] in HW.
  unfold getNumberOfNeurons, layer_weights in Hn. rewrite Eb in Hn. cbn [body_weights] in Hn. rewrite map_length in Hn. destruct (nth_error ns n) as [r|] eqn:Er; [|apply nth_error_None in Er; lia].
  assert (Hr' : exists r', nth_error ns' n = Some r' /\ keeps r r').
  { clear -HW Er. revert n Er. induction HW as [|a b t t' Hab _ IH]; intros [|n] Er; cbn [nth_error] in *; try discriminate; eauto. injection Er as ->. eauto. }
  destruct Hr' as (r' & Er' & HK). destruct (Hns n r Er) as [Hp Hg]. inversion Hg as [|? ? (A1 & A2 & A3 & A4) _].
  destruct HK as [_ HK].
  { assert (Z : @fzero RNum = 0%R) by exact fzero_R. split; [now rewrite Hp|]. split; [now rewrite A3|]. split; [|congruence]. rewrite A4. constructor; [|constructor]. apply Forall_forall. intros q Hq. apply repeat_spec in Hq. now rewrite Hq. }
  assert (W : forall w, weight_of net0 l n w = nth_error (gru_weights r) w /\ weight_of net l n w = nth_error (gru_weights r') w).
  { intros w0. unfold weight_of, net_weights. rewrite !nth_error_map, Hl, E1. cbn [option_map]. unfold layer_weights. rewrite Eb, Eb'. cbn [body_weights]. rewrite !nth_error_map, Er, Er'. split; reflexivity. }
  rewrite (proj1 (W _)), (proj2 (W _)). unfold gru_weights. rewrite !nth_error_app1 by (rewrite ?HK, A2; lia). rewrite HK. destruct (nth_error (n_w (r_n (g_reset r))) w) as [c|] eqn:Ec; [eauto|]. apply nth_error_None in Ec. rewrite A2 in Ec. lia.
Qed.
Print Assumptions C68_reset_gate_never_learns_refuted.

(* ---------- one recurrent neuron, every weight drawn as 1, learning 0 from 1 ---------- *)
Definition r1_rest : list (@LDesc RNum) := [@Recurrence RNum 1 a_identity []].
Definition r1_neuron : @Neuron RNum := @mkNeuron RNum 1 1 [1; 1; Rabs 1]%R fone (circ_init 1 3) (circ_init 1 1) (repeat fzero 1) fzero a_identity.
Definition r1_layers : list (@Layer RNum) := [@mkLayer RNum 1 (BRec [@mkRNeuron RNum r1_neuron fzero fzero fzero fzero]) []].
Definition r1_net (lr mom : R) : @Net RNum := @mkNet RNum r1_layers (@mkSGD RNum lr mom) false 0.
Lemma sgd_fine (lr mom : R) : (0 < lr < 1)%R -> (0 <= mom < 1)%R -> sgd_isValid (@mkSGD RNum lr mom) = 0%Z.
Proof.
  intros Hl Hm. unfold sgd_isValid, fgeb, fleb, fgtb, fltb. cbn. unfold Rleb, Rltb. destruct (Rle_dec lr (0 / 1)); [lra|]. destruct (Rle_dec (1 / 1) lr); [lra|]. destruct (Rlt_dec mom (0 / 1)); [lra|]. destruct (Rlt_dec (1 / 1) mom); [lra|]. reflexivity.
Qed.
Lemma r1_built (lr mom : R) : (0 < lr < 1)%R -> (0 <= mom < 1)%R -> @construct RNum (fun _ _ _ _ => 1%R) (fun _ _ _ => true) (Input (map Z.of_nat [1]) :: r1_rest) lr mom = Ok (r1_net lr mom).
Proof.
  intros Hl Hm. unfold construct. replace (@build_all RNum (fun _ _ _ _ => 1%R) (fun _ _ _ => true) (Input (map Z.of_nat [1]) :: r1_rest)) with (Ok r1_layers) by reflexivity. cbn [bind].
  assert (H3 : (-1 <= @fone RNum <= 1)%R) by (replace (@fone RNum) with (1 / 1)%R by reflexivity; lra).
  assert (V2 : neuron_isValid r1_neuron = 0%Z) by (apply (ones_valid r1_neuron (@fone RNum) eq_refl H3); auto).
  assert (E : @net_isValid RNum (@mkNet RNum r1_layers (@mkSGD RNum lr mom) false 0) = (if negb (sgd_isValid (@mkSGD RNum lr mom) =? 0)%Z then Ok (sgd_isValid (@mkSGD RNum lr mom)) else Ok (firstError [neurons_isValid [neuron_isValid r1_neuron]]))) by reflexivity.
  change (@F RNum) with R in *. rewrite E, V2, (sgd_fine lr mom Hl Hm). reflexivity.
Qed.
Lemma r1_error (lr mom : R) w (f : R -> R) : (forall t, squared_error (@with_weight_at RNum (r1_net lr mom) 0 0 w t) [1%R] [0%R] = f t) -> forall g, derivable_pt_lim f 1%R g ->
  derivable_pt_lim (fun t => squared_error (@with_weight_at RNum (r1_net lr mom) 0 0 w t) [1%R] [0%R]) 1%R g.
Proof. intros H g Hg. eapply derivable_pt_lim_ext; [|exact Hg]. intros t. symmetry. apply H. Qed.
Lemma d_square : derivable_pt_lim (fun t => (1 + t) * (1 + t))%R 1%R 4%R.
Proof. auto_derive; [exact I|ring]. Qed.
Lemma d_four : derivable_pt_lim (fun _ => 4)%R 1%R 0%R.
Proof. apply derivable_pt_lim_const. Qed.
(* With the learning rate lr, the weight of the bias, whose derivative is 4, should move by -4 lr and stays; the weight of the previous output,
   whose derivative is 0, should stay and moves by -4 lr. *)
Theorem C68_recurrent_step_refuted : forall (lr mom : R) rand reset, (0 < lr < 1)%R -> (0 <= mom < 1)%R ->
  exists net net' : @Net RNum, @construct RNum (fun _ _ _ _ => 1%R) (fun _ _ _ => true) (Input [1%Z] :: r1_rest) lr mom = Ok net /\ @trainOnce RNum rand net [1%R] [0%R] reset = Ok net' /\
  derivable_pt_lim (fun t => squared_error (@with_weight_at RNum net 0 0 2 t) [1%R] [0%R]) 1%R 4%R /\
  @weight_of RNum net 0 0 2 = Some 1%R /\ @weight_of RNum net' 0 0 2 = Some 1%R /\
  derivable_pt_lim (fun t => squared_error (@with_weight_at RNum net 0 0 1 t) [1%R] [0%R]) 1%R 0%R /\
  @weight_of RNum net 0 0 1 = Some 1%R /\ @weight_of RNum net' 0 0 1 = Some (1 - 4 * lr)%R.
Proof.
  intros lr mom rand reset Hl Hm. exists (r1_net lr mom). 
  assert (E : exists net', @trainOnce RNum rand (r1_net lr mom) [1%R] [0%R] reset = Ok net' /\ exists a b, @weight_of RNum net' 0 0 2 = Some a /\ @weight_of RNum net' 0 0 1 = Some b /\ a = 1%R /\ (b = 1 - 4 * lr)%R).
  { destruct reset; eexists; (split; [cbv -[IZR Rplus Rmult Rdiv Rabs Rminus Ropp Rltb]; reflexivity|]). all: eexists _, _; (split; [reflexivity|]); (split; [reflexivity|]). all: rewrite ?Rabs_R1; split; try lra. all: field_simplify; lra. }
  destruct E as (net' & E & a & b & Ha & Hb & -> & ->). exists net'. split; [exact (r1_built lr mom Hl Hm)|]. split; [exact E|].
  split. { apply (r1_error lr mom 2 (fun t => (1 + t) * (1 + t))%R); [|exact d_square]. intros t. cbv -[IZR Rplus Rmult Rdiv Rabs Rminus Ropp]. lra. }
  split; [cbv -[IZR Rabs]; now rewrite Rabs_R1|]. split; [exact Ha|].
  split. { apply (r1_error lr mom 1 (fun _ => 4)%R); [|exact d_four]. intros t. cbv -[IZR Rplus Rmult Rdiv Rabs Rminus Ropp]. rewrite ?Rabs_R1. lra. }
  split; [reflexivity|exact Hb].
Qed.
Print Assumptions C68_recurrent_step_refuted.

(* ---------- one GRU neuron, every weight drawn as 1 ---------- *)
Definition g1_rest : list (@LDesc RNum) := [@GruLayer RNum 1 []].
Definition g1_gate (a : activation) : @RNeuron RNum := @mkRNeuron RNum (@mkNeuron RNum 1 1 [1; 1; Rabs 1]%R fone (circ_init 1 3) (circ_init 1 1) (repeat fzero 1) fzero a) fzero fzero fzero fzero.
Definition g1_layers : list (@Layer RNum) := [@mkLayer RNum 1 (BGru [@mkGNeuron RNum 1 [] fzero fzero fzero fzero (g1_gate a_sigmoid) (g1_gate a_sigmoid) (g1_gate a_tanh)]) []].
Definition g1_net (lr mom : R) : @Net RNum := @mkNet RNum g1_layers (@mkSGD RNum lr mom) false 0.
Lemma g1_try : @build_all RNum (fun _ _ _ _ => 1%R) (fun _ _ _ => true) (Input (map Z.of_nat [1]) :: g1_rest) = Ok g1_layers.
Proof. cbv -[IZR Rplus Rmult Rdiv Rabs Rminus Ropp]. reflexivity. Qed.
Lemma g1_built (lr mom : R) : (0 < lr < 1)%R -> (0 <= mom < 1)%R -> @construct RNum (fun _ _ _ _ => 1%R) (fun _ _ _ => true) (Input (map Z.of_nat [1]) :: g1_rest) lr mom = Ok (g1_net lr mom).
Proof.
  intros Hl Hm. unfold construct. rewrite g1_try. cbn [bind].
  assert (H3 : (-1 <= @fone RNum <= 1)%R) by (replace (@fone RNum) with (1 / 1)%R by reflexivity; lra).
  assert (V1 : neuron_isValid (r_n (g1_gate a_sigmoid)) = 0%Z) by (apply (ones_valid (r_n (g1_gate a_sigmoid)) (@fone RNum) eq_refl H3); auto).
  assert (V2 : neuron_isValid (r_n (g1_gate a_tanh)) = 0%Z) by (apply (ones_valid (r_n (g1_gate a_tanh)) (@fone RNum) eq_refl H3); auto).
  assert (E : @net_isValid RNum (@mkNet RNum g1_layers (@mkSGD RNum lr mom) false 0) = (if negb (sgd_isValid (@mkSGD RNum lr mom) =? 0)%Z then Ok (sgd_isValid (@mkSGD RNum lr mom)) else Ok (firstError [neurons_isValid [gru_isValid (@mkGNeuron RNum 1 [] fzero fzero fzero fzero (g1_gate a_sigmoid) (g1_gate a_sigmoid) (g1_gate a_tanh))]]))) by reflexivity.
  assert (V3 : gru_isValid (@mkGNeuron RNum 1 [] fzero fzero fzero fzero (g1_gate a_sigmoid) (g1_gate a_sigmoid) (g1_gate a_tanh)) = 0%Z).
  { unfold gru_isValid. cbn [g_reset g_update g_output]. change (@rec_isValid RNum (g1_gate a_sigmoid)) with (neuron_isValid (r_n (g1_gate a_sigmoid))). change (@rec_isValid RNum (g1_gate a_tanh)) with (neuron_isValid (r_n (g1_gate a_tanh))). now rewrite V1, V2. }
  change (@F RNum) with R in *. rewrite E, V3, (sgd_fine lr mom Hl Hm). reflexivity.
Qed.

Lemma tanh_low (x : R) : (-1 / 2 < x)%R -> (1 - 2 / (2 + 2 * x) <= tanh x)%R.
Proof.
  intros H. rewrite tanh_exp. assert (G := exp_ineq1_le (2 * x)). assert (0 < 2 + 2 * x)%R by lra.
  assert (2 / (exp (2 * x) + 1) <= 2 / (2 + 2 * x))%R; [|lra]. apply Rmult_le_compat_l; [lra|]. apply Rinv_le_contravar; lra.
Qed.
Lemma tanh_neg (x : R) : (x < 0)%R -> (tanh x < 0)%R.
Proof.
  intros H. rewrite tanh_exp. assert (G : (exp (2 * x) < 1)%R). { rewrite <- exp_0. apply exp_increasing. lra. }
  assert (P := exp_pos (2 * x)). assert (1 < 2 / (exp (2 * x) + 1))%R; [|lra]. apply (Rmult_lt_reg_r (exp (2 * x) + 1)); [lra|]. field_simplify; lra.
Qed.
(* the error, as a function of the weight of the input in the update gate *)
Definition g1_f (t : R) : R := (0 - (tanh ((- (5 / 4) * t + 1) / 2) + 1) / 2 * tanh (- (1 / 4)))^2.
Lemma g1_derive : derivable_pt_lim g1_f 1%R (2 * ((tanh (- (1 / 8)) + 1) / 2) * (tanh (- (1 / 4)))^2 * ((1 - (tanh (- (1 / 8)))^2) / 4) * - (5 / 4))%R.
Proof.
  apply is_derive_Reals. unfold g1_f. auto_derive; [eexists; apply tanh_derive|]. rewrite (is_derive_unique _ _ _ (tanh_derive _)).
  replace ((- (5 / 4) * 1 + 1) * / 2)%R with (- (1 / 8))%R by lra. field.
Qed.
Ltac tidy := rewrite ?Rabs_R1; repeat match goal with
  | |- context [tanh ?a] => lazymatch a with - (1 / 4) => fail | - (1 / 8) => fail | _ => first [replace a with (- (1 / 4))%R by lra | replace a with (- (1 / 8))%R by lra] end
  end.
(* The derivative with respect to the weight of the input in the update gate is negative, so this weight should grow: it decreases. *)
Theorem C68_update_gate_refuted : forall (lr mom : R) rand reset, (0 < lr < 1)%R -> (0 <= mom < 1)%R ->
  exists net net' : @Net RNum, @construct RNum (fun _ _ _ _ => 1%R) (fun _ _ _ => true) (Input [1%Z] :: g1_rest) lr mom = Ok net /\ @trainOnce RNum rand net [- (5 / 4)]%R [0%R] reset = Ok net' /\
  exists g new, derivable_pt_lim (fun t => squared_error (@with_gate_weight RNum net 0 0 3 t) [- (5 / 4)]%R [0%R]) 1%R g /\ (g < 0)%R /\
    @weight_of RNum net 0 0 3 = Some 1%R /\ @weight_of RNum net' 0 0 3 = Some new /\ (new < 1)%R.
Proof.
  intros lr mom rand reset Hl Hm. exists (g1_net lr mom).
  assert (E : exists net', @trainOnce RNum rand (g1_net lr mom) [- (5 / 4)]%R [0%R] reset = Ok net' /\ exists b, @weight_of RNum net' 0 0 3 = Some b /\
    (b = 1 + lr * (2 * (0 - (tanh (- (1 / 8)) + 1) / 2 * tanh (- (1 / 4))) * (tanh (- (1 / 4)) + (tanh (- (1 / 8)) + 1) / 2) * ((1 - (tanh (- (1 / 8)))^2) / 4)) * - (5 / 4))%R).
  { destruct reset; eexists; (split; [cbv -[IZR Rplus Rmult Rdiv Rabs Rminus Ropp Rltb tanh]; reflexivity|]). all: eexists; (split; [reflexivity|]).
    all: change (@F RNum) with R. all: tidy. all: field. }
  destruct E as (net' & E & b & Hb & Eb). exists net'. split; [exact (g1_built lr mom Hl Hm)|]. split; [exact E|].
  eexists _, b. split. { eapply derivable_pt_lim_ext; [|exact g1_derive]. intros t. unfold g1_f. cbv -[IZR Rplus Rmult Rdiv Rabs Rminus Ropp tanh]. tidy. change (@F RNum) with R. replace ((0 / 1 + - (5 / 4) * t + 0 / 1 * 1 + 1 / 1 * 1) / (2 / 1))%R with ((- (5 / 4) * t + 1) / 2)%R by field. field. }
  assert (A := tanh_low (- (1 / 8)) ltac:(lra)). assert (B := tanh_low (- (1 / 4)) ltac:(lra)). assert (C := tanh_neg (- (1 / 4)) ltac:(lra)). assert (D := tanh_bound (- (1 / 8))).
  replace (1 - 2 / (2 + 2 * - (1 / 8)))%R with (-1 / 7)%R in A by field. replace (1 - 2 / (2 + 2 * - (1 / 4)))%R with (-1 / 3)%R in B by field.
  set (p := tanh (- (1 / 8))) in *. set (q := tanh (- (1 / 4))) in *. clearbody p q. clear E. rename Hb into Hb0.
  assert (P1 : (0 < (p + 1) / 2)%R) by lra. assert (P2 : (0 < (1 - p ^ 2) / 4)%R) by nra. assert (P3 : (0 < q ^ 2)%R) by nra. assert (P4 : (0 < q + (p + 1) / 2)%R) by lra. assert (P5 : (0 < - q)%R) by lra.
  split. { assert (P := Rmult_lt_0_compat _ _ (Rmult_lt_0_compat _ _ P1 P3) P2). nra. }
  split; [reflexivity|]. split; [exact Hb0|]. rewrite Eb. assert (P := Rmult_lt_0_compat _ _ (Rmult_lt_0_compat _ _ (Rmult_lt_0_compat _ _ P1 P5) P4) P2). destruct Hl as [Hl _]. assert (Q := Rmult_lt_0_compat _ _ Hl P). nra.
Qed.
Print Assumptions C68_update_gate_refuted.
(* the error on the second input, as a function of the weight of the input in the reset gate; y is the first output *)
Definition sg (x : R) : R := ((tanh (x / 2) + 1) / 2)%R.
Definition g2_y : R := (sg 2 * tanh 2)%R.
Definition g2_f (t : R) : R := ((sg (2 + g2_y) * tanh (2 + g2_y * sg (t + g2_y + 1)))^2)%R.
Lemma sg_pos x : (0 < sg x < 1)%R.
Proof. unfold sg. assert (H := tanh_bound (x / 2)). lra. Qed.
Lemma sg_derive x : is_derive sg x ((1 - (tanh (x / 2))^2) / 4)%R.
Proof. unfold sg. auto_derive; [eexists; apply tanh_derive|]. rewrite (is_derive_unique _ _ _ (tanh_derive _)). change (x * / 2)%R with (x / 2)%R. field. Qed.
Lemma tanh_pos (x : R) : (0 < x)%R -> (0 < tanh x)%R.
Proof.
  intros H. rewrite tanh_exp. assert (G : (1 < exp (2 * x))%R). { rewrite <- exp_0. apply exp_increasing. lra. }
  assert (2 / (exp (2 * x) + 1) < 1)%R; [|lra]. apply (Rmult_lt_reg_r (exp (2 * x) + 1)); [lra|]. field_simplify; lra.
Qed.
Lemma g2_derive : exists g, derivable_pt_lim g2_f 1%R g /\ (0 < g)%R.
Proof.
  set (T := tanh (2 + g2_y * sg (1 + g2_y + 1))). set (d := ((1 - (tanh ((1 + g2_y + 1) / 2))^2) / 4)%R).
  assert (Y : (0 < g2_y)%R) by (unfold g2_y; apply Rmult_lt_0_compat; [apply sg_pos|apply tanh_pos; lra]).
  assert (HT : (0 < T < 1)%R). { split; [apply tanh_pos|apply tanh_bound]. assert (P := Rmult_lt_0_compat _ _ Y (proj1 (sg_pos (1 + g2_y + 1)))). lra. }
  assert (Hd : (0 < d)%R). { unfold d. assert (P := tanh_bound ((1 + g2_y + 1) / 2)). nra. }
  exists (2 * (sg (2 + g2_y) * T) * sg (2 + g2_y) * (1 - T ^ 2) * g2_y * d)%R. split.
  - apply is_derive_Reals. unfold g2_f. set (y := g2_y) in *. set (c := sg (2 + y)).
    auto_derive; [repeat split; first [exact I | eexists; apply tanh_derive | eexists; apply sg_derive]|]. rewrite (is_derive_unique _ _ _ (tanh_derive _)), (is_derive_unique _ _ _ (sg_derive _)). fold T. unfold d. ring.
  - assert (P := proj1 (sg_pos (2 + g2_y))). assert (Q : (0 < 1 - T ^ 2)%R) by nra. destruct HT as [HT _]. exact (Rmult_lt_0_compat _ _ (Rmult_lt_0_compat _ _ (Rmult_lt_0_compat _ _ (Rmult_lt_0_compat _ _ (Rmult_lt_0_compat _ _ Rlt_0_2 (Rmult_lt_0_compat _ _ P HT)) P) Q) Y) Hd).
Qed.
Lemma one_one : (1 / 1 = 1)%R. Proof. field. Qed.
Lemma two_one : (2 / 1 = 2)%R. Proof. field. Qed.
Lemma zero_one : (0 / 1 = 0)%R. Proof. field. Qed.
Lemma two_eq : (1 + 1 = 2)%R. Proof. ring. Qed.
Lemma swap_one y : (1 + y + 1 = 2 + y)%R. Proof. ring. Qed.
Ltac neat := rewrite ?Rabs_R1, ?one_one, ?two_one, ?zero_one; 
  repeat first [rewrite Rmult_0_l | rewrite Rmult_0_r | rewrite Rmult_1_l | rewrite Rmult_1_r | rewrite Rplus_0_l | rewrite Rplus_0_r | rewrite two_eq | rewrite swap_one].
(* On a second input the derivative with respect to the weight of the input in the reset gate is positive, yet this weight stays. *)
Theorem C68_reset_gate_refuted : forall (lr mom : R) rand reset, (0 < lr < 1)%R -> (0 <= mom < 1)%R ->
  exists (net net1 net' : @Net RNum) o, @construct RNum (fun _ _ _ _ => 1%R) (fun _ _ _ => true) (Input [1%Z] :: g1_rest) lr mom = Ok net /\ @net_output RNum net [1%R] reset = Ok (o, net1) /\
  @trainOnce RNum rand net1 [1%R] [0%R] false = Ok net' /\
  exists g, derivable_pt_lim (fun t => squared_error (@with_gate_weight RNum net1 0 0 0 t) [1%R] [0%R]) 1%R g /\ (0 < g)%R /\
    @weight_of RNum net1 0 0 0 = Some 1%R /\ @weight_of RNum net' 0 0 0 = Some 1%R.
Proof.
  intros lr mom rand reset Hl Hm. destruct g2_derive as (g & Dg & Pg).
  assert (E : exists (net1 net' : @Net RNum) o, @net_output RNum (g1_net lr mom) [1%R] reset = Ok (o, net1) /\ @trainOnce RNum rand net1 [1%R] [0%R] false = Ok net' /\
    (forall t, g2_f t = squared_error (@with_gate_weight RNum net1 0 0 0 t) [1%R] [0%R]) /\ @weight_of RNum net1 0 0 0 = Some 1%R /\ exists b, @weight_of RNum net' 0 0 0 = Some b /\ b = 1%R).
  { destruct reset; eexists _, _, _; (split; [cbv -[IZR Rplus Rmult Rdiv Rabs Rminus Ropp Rltb tanh]; reflexivity|]); (split; [cbv -[IZR Rplus Rmult Rdiv Rabs Rminus Ropp Rltb tanh]; reflexivity|]).
   all: split; [|split; [reflexivity|]].
   2, 4: eexists; split; [reflexivity|]; change (@F RNum) with R; lra.
   all: intros t; unfold g2_f, g2_y, sg; cbv -[IZR Rplus Rmult Rdiv Rabs Rminus Ropp tanh]; change (@F RNum) with R; neat; field. }
  destruct E as (net1 & net' & o & E1 & E2 & Ef & W1 & b & W2 & ->). exists (g1_net lr mom), net1, net', o. split; [exact (g1_built lr mom Hl Hm)|]. split; [exact E1|]. split; [exact E2|].
  exists g. split; [|split; [exact Pg|split; [exact W1|exact W2]]]. eapply derivable_pt_lim_ext; [exact Ef|exact Dg].
Qed.
Print Assumptions C68_reset_gate_refuted.

Example C68_hypotheses_met : forall (lr mom : R) (rand : nat -> nat -> nat -> bool), (0 < lr < 1)%R -> (0 <= mom < 1)%R -> exists net' net2 : @Net RNum,
  (@construct RNum (fun _ _ _ _ => 1%R) (fun _ _ _ => true) (Input (map Z.of_nat [1]) :: r1_rest) lr mom = Ok (r1_net lr mom) /\ Forall (fun n => 0 < n) [1] /\ Forall sane_kernel r1_rest /\ Forall supported_pooling (nn_layers (r1_net lr mom)) /\
   uses (cell_count [1]) (r1_net lr mom) net' /\ net' <> r1_net lr mom) /\
  (@construct RNum (fun _ _ _ _ => 1%R) (fun _ _ _ => true) (Input (map Z.of_nat [1]) :: g1_rest) lr mom = Ok (g1_net lr mom) /\ Forall sane_kernel g1_rest /\ Forall supported_pooling (nn_layers (g1_net lr mom)) /\
   uses (cell_count [1]) (g1_net lr mom) net2 /\ net2 <> g1_net lr mom).
Proof.
  intros lr mom rand Hl Hm. destruct (C68_recurrent_step_refuted lr mom rand false Hl Hm) as (n & n' & B & T & _ & _ & _ & _ & W1 & W1').
  destruct (C68_update_gate_refuted lr mom rand false Hl Hm) as (m & m' & B2 & T2 & g & new & _ & _ & W2 & W2' & Hnew).
  assert (R1 := r1_built lr mom Hl Hm). assert (G1 := g1_built lr mom Hl Hm). cbn [map Z.of_nat Pos.of_succ_nat] in R1, G1.
  assert (n = r1_net lr mom) as -> by (change (@F RNum) with R in *; congruence). assert (m = g1_net lr mom) as -> by (change (@F RNum) with R in *; congruence).
  exists n', m'. split.
  - split; [exact R1|]. split; [repeat constructor|]. split; [repeat constructor; unfold sane_kernel; cbn; lia|]. split; [repeat constructor|]. split.
    + eapply uses_train; [| | |exact T|apply uses_none]; [reflexivity|reflexivity|exact I].
    + intros ->. assert (Some 1 = Some (1 - 4 * lr))%R as Q by (etransitivity; [symmetry; exact W1|exact W1']). injection Q as Q. lra.
  - split; [exact G1|]. split; [repeat constructor; unfold sane_kernel; cbn; lia|]. split; [repeat constructor|]. split.
    + eapply uses_train; [| | |exact T2|apply uses_none]; [reflexivity|reflexivity|exact I].
    + intros ->. assert (Some 1 = Some new)%R as Q by (etransitivity; [symmetry; exact W2|exact W2']). injection Q as Q. lra.
Qed.
