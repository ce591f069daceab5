(* C72: the recurrence one sample obeys. *)
From Coq Require Import Reals Lra Lia.
From Verif Require Import Base Num NumOrder ActModel ActProofs NeuronModel LayerModel NetModel NetSpec NeuronProofs LayerProofs GradProofs DenseProofs StatReal LearnSpec.
Local Open Scope R_scope.

(* ---------- the recurrence e' = h e + b, b' = q e ---------- *)
Section Rec.
Variables h q : R.
Variables e b : nat -> R.
Hypothesis He : forall n, e (S n) = h * e n + b n.
Hypothesis Hb : forall n, b (S n) = q * e n.
Definition mid : R := (q + 1 - Rabs h) / 2.
Definition ratio : R := Rmax (Rabs h + mid) (q / mid).
Lemma contracts : 0 <= q -> Rabs h + q < 1 -> 0 <= ratio < 1 /\ exists C, forall n, Rabs (e n) <= C * ratio ^ n.
Proof.
  intros Hq Hs. unfold ratio, mid. set (t := (q + 1 - Rabs h) / 2). assert (Ht : q < t /\ Rabs h + t < 1 /\ 0 < t) by (unfold t; assert (P := Rabs_pos h); lra). destruct Ht as (T1 & T2 & T3).
  set (rho := Rmax (Rabs h + t) (q / t)). assert (Qt : 0 <= q / t < 1). { split; [apply Rmult_le_pos; [lra|left; now apply Rinv_0_lt_compat]|]. apply Rmult_lt_reg_r with t; [exact T3|]. unfold Rdiv. rewrite Rmult_assoc, Rinv_l by lra. lra. }
  assert (R1 : 0 <= rho < 1) by (unfold rho; split; [eapply Rle_trans; [apply Qt|apply Rmax_r]|apply Rmax_lub_lt; lra]).
  set (V := Rmax (Rabs (e 0%nat)) (Rabs (b 0%nat) / t)). assert (V0 : 0 <= V) by (unfold V; eapply Rle_trans; [apply Rabs_pos|apply Rmax_l]).
  split; [exact R1|]. exists V. assert (G : forall n, Rabs (e n) <= V * rho ^ n /\ Rabs (b n) <= t * (V * rho ^ n)).
  { induction n as [|n (I1 & I2)].
    - cbn [pow]. rewrite Rmult_1_r. split; [apply Rmax_l|]. assert (M : Rabs (b 0%nat) / t <= V) by apply Rmax_r. apply (Rmult_le_compat_l t) in M; [|lra]. replace (t * (Rabs (b 0%nat) / t)) with (Rabs (b 0%nat)) in M by (field; lra). exact M.
    - rewrite He, Hb. set (X := V * rho ^ n) in *. assert (X0 : 0 <= X) by (unfold X; apply Rmult_le_pos; [exact V0|apply pow_le; lra]). cbn [pow]. replace (V * (rho * rho ^ n)) with (rho * X) by (unfold X; ring). split.
      + eapply Rle_trans; [apply Rabs_triang|]. rewrite Rabs_mult. assert (Rabs h * Rabs (e n) <= Rabs h * X) by (apply Rmult_le_compat_l; [apply Rabs_pos|exact I1]). assert ((Rabs h + t) * X <= rho * X) by (apply Rmult_le_compat_r; [exact X0|apply Rmax_l]). lra.
      + rewrite Rabs_mult, (Rabs_pos_eq q) by exact Hq. assert (q * Rabs (e n) <= q * X) by (apply Rmult_le_compat_l; [exact Hq|exact I1]). assert (M : q / t * X <= rho * X) by (apply Rmult_le_compat_r; [exact X0|apply Rmax_r]). apply (Rmult_le_compat_l t) in M; [|lra]. replace (t * (q / t * X)) with (q * X) in M by (field; lra). lra. }
  intros n. apply G.
Qed.
(* a root l of l^2 = h l + q beyond -1: the error grows without bound, unless the start is on one line *)
Lemma grows l : l * l = h * l + q -> l < -1 -> 0 <= q -> e 0%nat + b 0%nat / l <> 0 -> forall K, exists n, K < Rabs (e n).
Proof.
  intros Hl L1 Hq H0 K. assert (Y : forall n, e n + b n / l = l ^ n * (e 0%nat + b 0%nat / l)).
  { induction n as [|n IH]; [cbn; ring|]. rewrite He, Hb. cbn [pow]. rewrite Rmult_assoc, <- IH. replace (h * e n + b n + q * e n / l) with ((h * l + q) / l * e n + b n) by (field; lra). rewrite <- Hl. field. lra. }
  set (y := e 0%nat + b 0%nat / l) in *. assert (Py : 0 < Rabs y) by (apply Rabs_pos_lt; exact H0).
  assert (Big : forall c, exists n, c < Rabs (l ^ n)). { intros c. destruct (Pow_x_infinity l ltac:(rewrite Rabs_left by lra; lra) (c + 1)) as (N0 & HN). exists N0. specialize (HN N0 ltac:(lia)). lra. }
  destruct (Big ((Rabs K + Rabs (b 0%nat) + 1) * (1 + q) / Rabs y)) as (n & Hn).
  assert (Hy : Rabs (e n) + Rabs (b n) >= Rabs (l ^ n) * Rabs y). { rewrite <- Rabs_mult, <- Y. apply Rle_ge. eapply Rle_trans; [apply Rabs_triang|]. apply Rplus_le_compat_l. unfold Rdiv. rewrite Rabs_mult. rewrite <- (Rmult_1_r (Rabs (b n))) at 2. apply Rmult_le_compat_l; [apply Rabs_pos|]. rewrite Rabs_inv. rewrite <- Rinv_1. apply Rinv_le_contravar; [lra|]. rewrite Rabs_left by lra. lra. }
  assert (Hb2 : (Rabs K + Rabs (b 0%nat) + 1) * (1 + q) < Rabs (l ^ n) * Rabs y). { apply (Rmult_lt_compat_r (Rabs y)) in Hn; [|exact Py]. replace ((Rabs K + Rabs (b 0%nat) + 1) * (1 + q) / Rabs y * Rabs y) with ((Rabs K + Rabs (b 0%nat) + 1) * (1 + q)) in Hn by (field; lra). exact Hn. }
  assert (AK := Rle_abs K). assert (AK0 := Rabs_pos K). assert (Ab := Rabs_pos (b 0%nat)). assert (W : (Rabs K + Rabs (b 0%nat) + 1) * (1 + q) = (Rabs K + 1) + Rabs (b 0%nat) + q * (Rabs K + Rabs (b 0%nat) + 1)) by ring.
  destruct (Rlt_dec K (Rabs (e n))) as [|Hk]; [eauto|]. destruct n as [|n].
  - exfalso. assert (0 <= q * (Rabs K + Rabs (b 0%nat) + 1)) by (apply Rmult_le_pos; lra). lra.
  - exists n. apply Rnot_le_lt. intros Hk2. rewrite Hb, Rabs_mult, (Rabs_pos_eq q) in Hy by exact Hq. assert (q * Rabs (e n) <= q * (Rabs K + Rabs (b 0%nat) + 1)) by (apply Rmult_le_compat_l; lra). lra.
Qed.
End Rec.
Lemma contracts_uniform h q : 0 <= q -> Rabs h + q < 1 -> exists rho, 0 <= rho < 1 /\ forall e b : nat -> R, (forall n, e (S n) = h * e n + b n) -> (forall n, b (S n) = q * e n) -> exists C, forall n, Rabs (e n) <= C * rho ^ n.
Proof.
  intros Hq Hs. exists (ratio h q). split; [exact (proj1 (contracts h q (fun n => 0) (fun n => 0) ltac:(intros; cbv beta; lra) ltac:(intros; cbv beta; lra) Hq Hs))|]. intros e b He Hb. exact (proj2 (contracts h q e b He Hb Hq Hs)).
Qed.

(* ---------- one training step ---------- *)
Definition terr (dj : R) (n : RNeu) (x : list R) : R := dj - @neuron_value RNum n x.
Definition bias_w (n : RNeu) : R := @nth R (n_in n) (n_w n) 0.
Definition plain (k : nat) (n : RNeu) : Prop := wf_neuron 1 n /\ n_in n = k /\ n_batch n = 1%nat /\ n_act n = a_identity /\ n_bias n = 1.
Lemma value_plain k n x : plain k n -> List.length x = k -> @neuron_value RNum n x = sumn k (fun i => nth i x 0 * @nth R i (n_w n) 0) + bias_w n.
Proof.
  intros (W & Ei & _ & Ea & Eb) Hx. unfold neuron_value. rewrite Ea. cbn [act]. rewrite nsum_R; [|exact W|exact (eq_trans Hx (eq_sym Ei))]. unfold bias_w. rewrite Ei, Eb. rewrite Rmult_1_r. reflexivity.
Qed.
Lemma squares_sumn x : sumn (List.length x) (fun i => nth i x 0 * nth i x 0) = squares x.
Proof.
  induction x as [|a x IH]; [reflexivity|]. cbn [List.length]. rewrite sumn_S. cbn [nth]. rewrite IH. reflexivity.
Qed.
Lemma step_plain (o : @SGD RNum) k n n' x dj : plain k n -> plain k n' -> List.length x = k -> o_m o = 0 -> upd o (2 * terr dj n x) x n n' ->
  terr dj n' x = (1 - 2 * o_lr o * (squares x + 1)) * terr dj n x + bias_w n /\ bias_w n' = 2 * o_lr o * terr dj n x.
Proof.
  intros P P' Hx Hm (U1 & U2 & U3 & U4 & U5 & U6 & _). assert (Ei : n_in n = k) by apply P. assert (Eb : n_bias n = 1) by apply P. set (E := terr dj n x) in *.
  assert (Bw : bias_w n' = 2 * o_lr o * E). { unfold bias_w. rewrite U1. etransitivity; [exact U6|]. rewrite Hm, Eb. change (@F RNum) with R in *. ring. }
  split; [|exact Bw]. assert (V' := value_plain k n' x P' Hx). rewrite Bw in V'.
  assert (Sw : sumn k (fun i => nth i x 0 * @nth R i (n_w n') 0) = sumn k (fun i => nth i x 0 * @nth R i (n_w n) 0) + o_lr o * (2 * E) * squares x).
  { rewrite <- squares_sumn, Hx. rewrite <- sumn_scal, <- sumn_add. apply sumn_ext. intros i Hi. rewrite U5 by lia. rewrite Hm. change (@F RNum) with R in *. ring. }
  assert (V := value_plain k n x P Hx). change (@F RNum) with R in *. unfold terr at 1. rewrite V'. change (@F RNum) with R. rewrite Sw. assert (Ed : sumn k (fun i => nth i x 0 * @nth R i (n_w n) 0) = dj - E - bias_w n) by (unfold E, terr; rewrite V; change (@F RNum) with R; ring). rewrite Ed. ring.
Qed.
(* the neurons of a linear network, and what a training does to them *)
Definition lin (k m : nat) (net : @Net RNum) (ns : list RNeu) : Prop := nn_layers net = [mkLayer k (BFull ns) []] /\ Forall (plain k) ns /\ List.length ns = m /\ nn_nan net = false /\ o_m (nn_opt net) = 0.
Lemma linear_lin k m net : linear_network k m net -> exists ns, lin k m net ns.
Proof.
  intros ((Hne & Hd) & Hn & Hm & l & ns & El & Eb & Hl & Hf). exists ns. rewrite El in Hd. cbn [dense_layers] in Hd. destruct Hd as (H1 & H2 & (ns' & Eb' & Hs) & _). assert (ns' = ns) as -> by congruence.
  unfold lin. split; [rewrite El; destruct l; cbn in *; subst; reflexivity|]. split; [|split; [exact Hl|split; [exact Hn|exact Hm]]]. rewrite Forall_forall in *. intros n Hi. destruct (Hs n Hi) as (A1 & A2 & A3). destruct (Hf n Hi) as (A4 & A5). exact (conj A1 (conj A2 (conj A3 (conj A4 A5)))).
Qed.
Lemma lin_dchain k m net ns : lin k m net ns -> dchain k (nn_layers net) [ns].
Proof.
  intros (-> & Hf & _). cbn [dchain]. split; [reflexivity|]. split; [|exact I]. eapply Forall_impl; [|exact Hf]. intros n (A & B & C & _). auto.
Qed.
Lemma lin_predict k m net ns x reset : lin k m net ns -> List.length x = k -> exists net', @net_output RNum net x reset = Ok (layer_val ns x, net').
Proof.
  intros H Hx. destruct (net_output_dense net k [ns] x reset ltac:(destruct H as (-> & _); discriminate) (lin_dchain _ _ _ _ H) Hx) as (ls & E & _). eauto.
Qed.
Lemma lin_train k m net ns rand x d reset : lin k m net ns -> List.length x = k -> List.length d = m -> exists net' ns', @trainOnce RNum rand net x d reset = Ok net' /\ lin k m net' ns' /\ nn_opt net' = nn_opt net /\
  forall j, (j < m)%nat -> let E := terr (nth j d 0) (nth j ns n0) x in
    terr (nth j d 0) (nth j ns' n0) x = (1 - 2 * o_lr (nn_opt net) * (squares x + 1)) * E + bias_w (nth j ns n0) /\ bias_w (nth j ns' n0) = 2 * o_lr (nn_opt net) * E.
Proof.
  intros H Hx Hd. destruct H as (El & Hf & Hl & Hn & Hm) eqn:EH. clear EH.
  destruct (trainOnce_dense rand net k [ns] x d reset ltac:(rewrite El; discriminate) (lin_dchain _ _ _ _ H) Hn Hx) as (net' & nss' & E & D & U & Hn' & Ho').
  { change (net_val [ns] x) with (layer_val ns x). rewrite layer_val_length. lia. }
  destruct nss' as [|ns' [|]]; try contradiction; [|destruct U as (_ & U); contradiction]. destruct U as ((Lu & U) & _). 
  assert (P' : Forall (plain k) ns' /\ nn_layers net' = [mkLayer k (BFull ns') []]).
  { destruct (nn_layers net') as [|l' [|]]; try contradiction; [|destruct D as (_ & _ & D); contradiction]. destruct D as (-> & D & _). split; [|reflexivity]. apply Forall_forall. intros n Hi. apply In_nth_error in Hi as (j & Hj). assert (Lj : (j < List.length ns)%nat) by (rewrite <- Lu; apply nth_error_Some; congruence).
    destruct (U j Lj) as (_ & _ & U3 & U4 & _). rewrite (nth_error_nth _ _ n0 Hj) in U3, U4. assert (Pj : plain k (nth j ns n0)) by (rewrite Forall_forall in Hf; apply Hf; now apply nth_In). destruct Pj as (_ & _ & _ & Pa & Pb).
    rewrite Forall_forall in D. destruct (D n (nth_error_In _ _ Hj)) as (A & B & C). unfold plain. rewrite U3, U4. auto. }
  destruct P' as (P' & El'). exists net', ns'. split; [exact E|]. split; [unfold lin; rewrite Ho'; repeat split; auto; lia|]. split; [exact Ho'|]. intros j Hj E0. subst E0.
  assert (Lj : (j < List.length ns)%nat) by lia. assert (Pj : plain k (nth j ns n0)) by (rewrite Forall_forall in Hf; apply Hf; now apply nth_In). assert (Pj' : plain k (nth j ns' n0)) by (rewrite Forall_forall in P'; apply P'; apply nth_In; lia).
  apply step_plain with (k := k); auto. specialize (U j Lj). unfold nerr in U. cbn [back_err] in U. rewrite layer_val_length in U. rewrite nth_map_seq in U by lia. rewrite nth_layer_val in U by exact Lj.
  assert (Ea : @actd RNum (n_act (nth j ns n0)) (@neuron_sum RNum (nth j ns n0) x) = 1). { destruct Pj as (_ & _ & _ & -> & _). cbn [actd]. unfold fone. rewrite RNum_fofZ. reflexivity. } rewrite Ea, Rmult_1_r in U. exact U.
Qed.
