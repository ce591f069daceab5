(* C72: training again and again on one sample, in exact arithmetic. *)
From Coq Require Import Reals Lra Lia.
From Verif Require FactoryProps.
From Verif Require Import Base Num NumOrder ActModel ActProofs NeuronModel LayerModel NetModel NetSpec NeuronProofs LayerProofs GradProofs DenseProofs StatReal FactoryModel FactorySpec FactoryProofs SafeProofs BuildProofs LearnSpec LearnProofs.
Local Open Scope R_scope.

(* ---------- n trainings are n steps of the recurrence ---------- *)
Definition stepr (h q : R) (s : R * R) : R * R := (h * fst s + snd s, q * fst s).
Fixpoint runr (h q : R) (n : nat) (s : R * R) : R * R := match n with O => s | S k => stepr h q (runr h q k s) end.
Lemma runr_front h q n s : runr h q n (stepr h q s) = runr h q (S n) s.
Proof. induction n as [|n IH]; [reflexivity|]. cbn [runr] in *. now rewrite IH. Qed.
Notation gain lr x := (1 - 2 * lr * (squares x + 1)).
Lemma repeated_runs k m net ns x d n net' : repeated x d n net net' -> lin k m net ns -> List.length x = k -> List.length d = m ->
  exists ns', lin k m net' ns' /\ nn_opt net' = nn_opt net /\
    forall j, (j < m)%nat -> (terr (nth j d 0) (nth j ns' n0) x, bias_w (nth j ns' n0)) = runr (gain (o_lr (nn_opt net)) x) (2 * o_lr (nn_opt net)) n (terr (nth j d 0) (nth j ns n0) x, bias_w (nth j ns n0)).
Proof.
  intros H. revert ns. induction H as [net|n net rand reset net1 net2 Ht _ IH]; intros ns Hl Hx Hd; [exists ns; auto|].
  destruct (lin_train k m net ns rand x d reset Hl Hx Hd) as (net1' & ns1 & E & L1 & O1 & S1). assert (net1' = net1) as -> by congruence.
  destruct (IH ns1 L1 Hx Hd) as (ns' & L2 & O2 & S2). exists ns'. split; [exact L2|]. split; [congruence|]. intros j Hj. assert (T1 := S1 j Hj). cbv zeta in T1. destruct T1 as (T1 & T2). eapply eq_trans; [exact (S2 j Hj)|]. eapply eq_trans; [|apply runr_front]. rewrite O1. apply f_equal. unfold stepr. cbn [fst snd]. exact (f_equal2 pair T1 T2).
Qed.
Lemma repeated_exists k m net ns x d n : lin k m net ns -> List.length x = k -> List.length d = m -> exists net', repeated x d n net net'.
Proof.
  revert net ns. induction n as [|n IH]; intros net ns Hl Hx Hd; [exists net; constructor|].
  destruct (lin_train k m net ns (fun _ _ _ => false) x d true Hl Hx Hd) as (net1 & ns1 & E & L1 & _). destruct (IH net1 ns1 L1 Hx Hd) as (net' & H). exists net'. econstructor; eassumption.
Qed.
Lemma predicts_lin k m net ns x o : lin k m net ns -> List.length x = k -> predicts net x o -> o = layer_val ns x.
Proof.
  intros Hl Hx (net' & E). destruct (lin_predict k m net ns x true Hl Hx) as (net2 & E2). rewrite E2 in E. assert (H : forall (a b c d : _), @Ok (list (@F RNum) * @Net RNum) (a, b) = Ok (c, d) -> c = a) by (intros; congruence). exact (H _ _ _ _ E).
Qed.
Lemma out_err (ns : list RNeu) x d j : (j < List.length ns)%nat -> nth j d 0 - nth j (layer_val ns x) 0 = terr (nth j d 0) (nth j ns n0) x.
Proof. intros Hj. unfold terr. rewrite nth_layer_val by exact Hj. reflexivity. Qed.

Definition rate (net : @Net RNum) : R := o_lr (@nn_opt RNum net).
Lemma squares_nonneg x : 0 <= squares x.
Proof. unfold squares. induction x as [|a x IH]; [cbn; lra|]. change (0 <= a * a + Rsum (map (fun v => v * v) x)). assert (0 <= a * a) by nra. lra. Qed.
Lemma err_runs k m net x d : linear_network k m net -> List.length x = k -> List.length d = m ->
  exists ns, lin k m net ns /\ forall n net' o, repeated x d n net net' -> predicts net' x o -> List.length o = m /\
    forall j, (j < m)%nat -> nth j d 0 - nth j o 0 = fst (runr (gain (rate net) x) (2 * rate net) n (terr (nth j d 0) (nth j ns n0) x, bias_w (nth j ns n0))).
Proof.
  intros Hn Hx Hd. destruct (linear_lin k m net Hn) as (ns & Hl). exists ns. split; [exact Hl|]. intros n net' o Hr Hp.
  destruct (repeated_runs k m net ns x d n net' Hr Hl Hx Hd) as (ns' & L' & _ & S'). assert (Eo := predicts_lin k m net' ns' x o L' Hx Hp). assert (Len : List.length ns' = m) by apply L'. split; [rewrite Eo, layer_val_length; exact Len|].
  intros j Hj. rewrite Eo. eapply eq_trans; [apply out_err; lia|]. exact (f_equal fst (S' j Hj)).
Qed.

(* the trainings never fail, and neither do the predictions *)
Theorem C72_always_trains k m net x d n net' rand reset : linear_network k m net -> List.length x = k -> List.length d = m -> repeated x d n net net' ->
  (exists net2, @trainOnce RNum rand net' x d reset = Ok net2) /\ (exists o, predicts net' x o).
Proof.
  intros Hn Hx Hd Hr. destruct (linear_lin k m net Hn) as (ns & Hl). destruct (repeated_runs k m net ns x d n net' Hr Hl Hx Hd) as (ns' & L' & _).
  split; [destruct (lin_train k m net' ns' rand x d reset L' Hx Hd) as (net2 & _ & E & _); eauto|]. destruct (lin_predict k m net' ns' x true L' Hx) as (n2 & E). eexists. eexists. exact E.
Qed.
Print Assumptions C72_always_trains.

(* a small enough learning rate: the prediction converges geometrically to the label *)
Theorem C72_one_sample_learned k m net x d : linear_network k m net -> List.length x = k -> List.length d = m ->
  0 < squares x -> 0 < rate net -> rate net * (squares x + 2) < 1 ->
  exists rho, 0 <= rho < 1 /\ exists C, forall n net' o, repeated x d n net net' -> predicts net' x o -> List.length o = m /\ forall j, (j < m)%nat -> Rabs (nth j d 0 - nth j o 0) <= C * rho ^ n.
Proof.
  intros Hn Hx Hd HS Hlr Hst. destruct (err_runs k m net x d Hn Hx Hd) as (ns & _ & He). set (lr := rate net) in *. set (h := gain lr x) in *. set (q := 2 * lr) in *.
  assert (Hq : 0 <= q) by (unfold q; lra). assert (Hc : Rabs h + q < 1) by (unfold Rabs; destruct (Rcase_abs h); unfold h, q; nra).
  set (s j := (terr (nth j d 0) (nth j ns n0) x, bias_w (nth j ns n0))).
  destruct (contracts_uniform h q Hq Hc) as (rho & Hr & Hcu). exists rho. split; [exact Hr|].
  assert (G : forall u, exists C, forall j, (j < u)%nat -> forall n, Rabs (fst (runr h q n (s j))) <= C * rho ^ n).
  { induction u as [|u (C & IH)]; [exists 0; intros; lia|]. destruct (Hcu (fun n => fst (runr h q n (s u))) (fun n => snd (runr h q n (s u))) ltac:(reflexivity) ltac:(reflexivity)) as (C' & HC'). exists (Rmax C C'). intros j Hj n. assert (P : 0 <= rho ^ n) by (apply pow_le; lra).
    destruct (Nat.eq_dec j u) as [->|Hne]; [eapply Rle_trans; [apply HC'|]; apply Rmult_le_compat_r; [exact P|apply Rmax_r]|]. eapply Rle_trans; [apply (IH j ltac:(lia))|]. apply Rmult_le_compat_r; [exact P|apply Rmax_l]. }
  destruct (G m) as (C & HC). exists C. intros n net' o Hr' Hp. destruct (He n net' o Hr' Hp) as (Lo & E). split; [exact Lo|]. intros j Hj. rewrite (E j Hj). apply (HC j Hj).
Qed.
Print Assumptions C72_one_sample_learned.
(* ... so any accuracy is reached and kept *)
Theorem C72_any_accuracy k m net x d eps : linear_network k m net -> List.length x = k -> List.length d = m -> 0 < squares x -> 0 < rate net -> rate net * (squares x + 2) < 1 -> 0 < eps ->
  exists n0, forall n net' o, (n0 <= n)%nat -> repeated x d n net net' -> predicts net' x o -> forall j, (j < m)%nat -> Rabs (nth j d 0 - nth j o 0) < eps.
Proof.
  intros Hn Hx Hd HS Hlr Hst He. destruct (C72_one_sample_learned k m net x d Hn Hx Hd HS Hlr Hst) as (rho & Hr & C & HC).
  destruct (pow_lt_1_zero rho ltac:(rewrite Rabs_pos_eq; lra) (eps / (Rabs C + 1)) ltac:(apply Rdiv_lt_0_compat; [exact He|assert (P := Rabs_pos C); lra])) as (N0 & HN). exists N0. intros n net' o Hge Hrp Hp j Hj.
  destruct (HC n net' o Hrp Hp) as (_ & HE). specialize (HE j Hj). specialize (HN n Hge). assert (P : 0 <= rho ^ n) by (apply pow_le; lra). rewrite Rabs_pos_eq in HN by exact P.
  assert (PC := Rabs_pos C). assert (AC := Rle_abs C). apply (Rmult_lt_compat_r (Rabs C + 1)) in HN; [|lra]. replace (eps / (Rabs C + 1) * (Rabs C + 1)) with eps in HN by (field; lra). nra.
Qed.
Print Assumptions C72_any_accuracy.

(* an input of zeros is never learned: the prediction converges to 2 lr / (1 + 2 lr) of the label, because the update of a bias weight replaces it *)
Theorem C72_zero_input_refuted k m net x d n net' o0 o : linear_network k m net -> List.length x = k -> List.length d = m -> Forall (fun v => v = 0) x -> 0 < rate net ->
  predicts net x o0 -> repeated x d n net net' -> predicts net' x o -> forall j, (j < m)%nat ->
  let limit := 2 * rate net / (1 + 2 * rate net) * nth j d 0 in
  Rabs (nth j o 0 - limit) = (2 * rate net) ^ n * Rabs (nth j o0 0 - limit) /\ Rabs (nth j d 0 - limit) = Rabs (nth j d 0) / (1 + 2 * rate net).
Proof.
  intros Hn Hx Hd Hz Hlr Hp0 Hr Hp j Hj limit. destruct (err_runs k m net x d Hn Hx Hd) as (ns & Hl & He). set (lr := rate net) in *.
  assert (Sz : squares x = 0). { clear - Hz. unfold squares. induction Hz as [|a x Ha _ IH]; [reflexivity|]. change (a * a + Rsum (map (fun v => v * v) x) = 0). rewrite IH, Ha. ring. }
  assert (Sv : forall nn, plain k nn -> @neuron_value RNum nn x = bias_w nn).
  { intros nn Pn. eapply eq_trans; [exact (value_plain k nn x Pn Hx)|]. assert (Z : sumn k (fun i => nth i x 0 * @nth R i (n_w nn) 0) = 0). { rewrite (sumn_ext k _ (fun _ => 0 * 0)). - rewrite sumn_scal. ring. - intros i _. assert (nth i x 0 = 0) as ->; [|ring]. clear - Hz. revert i. induction Hz as [|a x Ha _ IH]; intros [|i]; cbn; auto. } change (@F RNum) with R in *. rewrite Z. ring. }
  assert (P1 : plain k (nth j ns n0)). { destruct Hl as (_ & Hf & Hlen & _). rewrite Forall_forall in Hf. apply Hf, nth_In. lia. }
  assert (G : forall i, nth j d 0 - fst (runr (gain lr x) (2 * lr) i (terr (nth j d 0) (nth j ns n0) x, bias_w (nth j ns n0))) = snd (runr (gain lr x) (2 * lr) i (terr (nth j d 0) (nth j ns n0) x, bias_w (nth j ns n0)))).
  { induction i as [|i IH]; [cbn [runr fst snd]; unfold terr; rewrite (Sv _ P1); change (@F RNum) with R; ring|]. cbn [runr]. unfold stepr at 1 2. cbn [fst snd]. rewrite <- IH, Sz. ring. }
  destruct (He 0%nat net o0 (repeated_0 x d net) Hp0) as (_ & E0). specialize (E0 j Hj). destruct (He n net' o Hr Hp) as (_ & En). specialize (En j Hj).
  set (s := (terr (nth j d 0) (nth j ns n0) x, bias_w (nth j ns n0))) in *. set (dj := nth j d 0) in *.
  assert (L : limit = 2 * lr * (dj - limit)) by (unfold limit; field; lra).
  assert (K : forall i, snd (runr (gain lr x) (2 * lr) i s) - limit = (- (2 * lr)) ^ i * (snd s - limit)).
  { induction i as [|i IH]; [cbn; ring|]. assert (Gi := G i). replace ((- (2 * lr)) ^ S i * (snd s - limit)) with (- (2 * lr) * ((- (2 * lr)) ^ i * (snd s - limit))) by (cbn [pow]; ring). rewrite <- IH. cbn [runr]. unfold stepr at 1. cbn [fst snd]. set (ri := runr (gain lr x) (2 * lr) i s) in *. replace (fst ri) with (dj - snd ri) by lra. rewrite L at 1. ring. }
  assert (B : snd s = nth j o0 0). { assert (G0 := G 0%nat). cbn [runr] in G0, E0. lra. }
  assert (C : nth j o 0 = snd (runr (gain lr x) (2 * lr) n s)). { assert (Gn := G n). lra. }
  split.
  - rewrite C, K, B, Rabs_mult. f_equal. rewrite <- RPow_abs. rewrite Rabs_Ropp, Rabs_pos_eq by lra. reflexivity.
  - replace (dj - limit) with (dj / (1 + 2 * lr)) by (unfold limit; field; lra). unfold Rdiv. rewrite Rabs_mult. f_equal. apply Rabs_pos_eq. left. apply Rinv_0_lt_compat. lra.
Qed.
Print Assumptions C72_zero_input_refuted.

(* a learning rate that is too large: for every output there is at most one label for which the error stays bounded *)
Theorem C72_too_fast_diverges k m net x j : linear_network k m net -> List.length x = k -> (j < m)%nat -> 1 < rate net * (squares x + 2) ->
  exists safe, forall d, List.length d = m -> nth j d 0 <> safe -> forall K, exists n, (exists net', repeated x d n net net') /\
    forall net' o, repeated x d n net net' -> predicts net' x o -> K < Rabs (nth j d 0 - nth j o 0).
Proof.
  intros Hn Hx Hj Hst. set (lr := rate net) in *. assert (SP := squares_nonneg x). assert (Hlr : 0 < lr). { apply Rnot_le_lt. intros Hle. nra. }
  set (h := gain lr x). set (q := 2 * lr). assert (Hq : 0 < q) by (unfold q; lra).
  assert (Hd2 : 0 <= h * h + 4 * q) by nra. set (l := (h - sqrt (h * h + 4 * q)) / 2). assert (Sq := sqrt_sqrt _ Hd2). assert (Sp := sqrt_pos (h * h + 4 * q)).
  assert (Hl : l * l = h * l + q). { unfold l. set (r := sqrt (h * h + 4 * q)) in *. nra. }
  assert (L1 : l < -1). { unfold l. set (r := sqrt (h * h + 4 * q)) in *. apply Rnot_le_lt. intros Hle. assert (r <= h + 2) by lra. assert (r * r <= (h + 2) * (h + 2)) by nra. unfold h, q in *. nra. }
  destruct (linear_lin k m net Hn) as (ns & Hln). exists (@neuron_value RNum (nth j ns n0) x - bias_w (nth j ns n0) / l). intros d Hd Hne K.
  set (s := (terr (nth j d 0) (nth j ns n0) x, bias_w (nth j ns n0))).
  destruct (grows h q (fun n => fst (runr h q n s)) (fun n => snd (runr h q n s)) ltac:(reflexivity) ltac:(reflexivity) l Hl L1 ltac:(lra)) with (K := K) as (n & HK).
  { cbn [runr fst snd s]. unfold terr. intros Hz. apply Hne. change (@F RNum) with R in *. lra. }
  exists n. split; [exact (repeated_exists k m net ns x d n Hln Hx Hd)|]. intros net' o Hr Hp. destruct (repeated_runs k m net ns x d n net' Hr Hln Hx Hd) as (ns' & L' & _ & S'). assert (Eo := predicts_lin k m net' ns' x o L' Hx Hp). assert (Len : List.length ns' = m) by apply L'.
  assert (E : nth j d 0 - nth j o 0 = fst (runr h q n s)). { rewrite Eo. eapply eq_trans; [apply out_err; lia|]. exact (f_equal fst (S' j Hj)). } rewrite E. exact HK.
Qed.
Print Assumptions C72_too_fast_diverges.

(* ---------- these networks are the ones the constructor makes ---------- *)
Theorem C72_constructed draws masks k m (lr : R) net : (0 < k)%nat -> @construct RNum draws masks [@Input RNum [Z.of_nat k]; @FullyConnected RNum (Z.of_nat m) a_identity []] lr 0 = Ok net -> linear_network k m net /\ rate net = lr.
Proof.
  intros Hk H. apply construct_inv in H as (d0 & rest & E & _ & Hb & _ & Hne & En). injection E as <- <-. cbn [build_rest d_shape Input] in Hb.
  apply bind_Ok_inv in Hb as (l & Hl & Hb). apply bind_Ok_inv in Hb as (r & Hr & Hb). assert (r = []) as -> by (cbn in Hr; congruence). assert (El : [l] = nn_layers net) by congruence.
  change [Z.of_nat k] with (map Z.of_nat [k]) in Hl. apply build_layer_built in Hl; [|repeat constructor; exact Hk|exact I].
  inversion Hl as [n ns Et Hn Hbn E| | | | | | | | ]; try discriminate. cbn [d_neurons FullyConnected] in Hn. apply Nat2Z.inj in Hn. subst n.
  pose proof (build_neurons_inv _ _ _ Hbn) as (Ln & Hi).
  assert (P : Forall (plain k) ns). { apply Forall_forall. intros nn Hin. apply In_nth_error in Hin as (i & Hin). assert (Ei := Hi i nn Hin). change (cell_count [k]) with (k + 0)%nat in Ei. rewrite Nat.add_0_r in Ei. unfold mk_full in Ei. destruct (neuron_init_wf k 1 1 (@d_bias RNum (@FullyConnected RNum (Z.of_nat m) a_identity [])) a_identity (draws 0%nat i 0%nat) ltac:(lia) ltac:(lia)) as (n2 & E2 & W & A & B & C & D). assert (X : @Ok RNeu n2 = Ok nn) by (etransitivity; [symmetry; exact E2|exact Ei]). assert (n2 = nn) as -> by congruence. repeat split; auto; try apply W. rewrite D. cbn. apply RNum_one. }
  split; [|rewrite En; reflexivity]. unfold linear_network. split; [|split; [rewrite En; reflexivity|split; [rewrite En; reflexivity|]]].
  - split; [exact Hne|]. rewrite <- El, <- E. cbn [dense_layers]. split; [cbn; lia|]. split; [reflexivity|]. split; [|exact I]. exists ns. split; [reflexivity|]. eapply Forall_impl; [|exact P]. intros nn (W & A & B & _). auto.
  - exists l, ns. split; [now rewrite <- El|]. split; [now rewrite <- E|]. split; [exact Ln|]. eapply Forall_impl; [|exact P]. intros nn (_ & _ & _ & A & B). auto.
Qed.
Print Assumptions C72_constructed.
(* two inputs, three outputs, the input (1, 2): learned at the rate 1/10, not at the rate 1/5 *)
Example C72_hypotheses_met : forall masks lr, lr = 1 / 10 \/ lr = 1 / 5 -> exists net, @construct RNum (fun _ i _ w => INR (Nat.min (i + w) 5) / 10) masks [@Input RNum [2%Z]; @FullyConnected RNum 3 a_identity []] lr 0 = Ok net /\ linear_network 2 3 net /\
  0 < squares [1; 2] /\ 0 < rate net /\ (lr = 1 / 10 -> rate net * (squares [1; 2] + 2) < 1) /\ (lr = 1 / 5 -> 1 < rate net * (squares [1; 2] + 2)).
Proof.
  intros masks lr Hlr. assert (B1 : 0 < lr < 1) by (destruct Hlr; lra). destruct (FactoryProps.C26_dense_accepted (fun _ i _ w => INR (Nat.min (i + w) 5) / 10) masks [2%Z] [(3%Z, a_identity, [])] lr 0) as (net & E); [discriminate|apply Forall_cons; [lia|apply Forall_nil]|cbn; lia|discriminate|cbn; lia|apply Forall_cons; [cbn; lia|apply Forall_nil]| |lra|lra|].
  - intros l i g w. assert (A := pos_INR (Nat.min (i + w) 5)). assert (B := le_INR (Nat.min (i + w) 5) 5 ltac:(lia)). cbn [INR] in B. lra.
  - exists net. split; [exact E|]. destruct (C72_constructed _ masks 2 3 lr net ltac:(lia) E) as (L & Er). split; [exact L|]. rewrite Er. unfold squares. cbn. split; [lra|]. split; [lra|]. split; lra.
Qed.
