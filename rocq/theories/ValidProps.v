(* C64: what a network announces about itself does not change over its life, and isValid() tells exactly whether its weights are in range. *)
From Coq Require Import Lia.
From Verif Require Import Base Num Float32 ActModel NeuronModel LayerModel FactoryModel NetModel FactorySpec FilterSpec NeuronProofs SafeProofs SafeLayers SafeNet BuildProofs HistProofs PoolProofs FactoryProofs FactoryProps PureProps LOptProps StatModel WaitModel DataModel DataSpec Witness TrainModel TrainSpec TrainSafe TrainUser TrainUses TrainProps SummaryProofs SummaryProps.
From Verif Require Import DataProps.
Local Open Scope nat_scope.

Section P.
Context {N : Num}.
(* outside [-100000, 10000] *)
Definition out_of_range (x : F) : bool := fltb x (fofZ (-100000)) || fgtb x (fofZ 10000).

Lemma find_codes {A} (f : A -> Z) (g : A -> bool) l : (forall x, In x l -> f x = if g x then 303%Z else 0%Z) -> firstError (map f l) = if existsb g l then 303%Z else 0%Z.
Proof.
  unfold firstError. induction l as [|a t IH]; intros H; [reflexivity|]. cbn [map find existsb]. rewrite (H a) by now left. destruct (g a); cbn [negb Z.eqb orb]; [reflexivity|]. apply IH. intros x Hx. apply H. now right.
Qed.
Lemma first_zero l : firstError l = 0%Z -> Forall (fun e => e = 0%Z) l.
Proof. unfold firstError. induction l as [|a t IH]; cbn [find]; intros H; [constructor|]. destruct (Z.eqb_spec a 0); cbn [negb] in H; [|contradiction]. constructor; auto. Qed.

(* a neuron with the bias and the number of weights of a valid one *)
Lemma neuron_code n0 n : neuron_isValid n0 = 0%Z -> nset n = nset n0 -> List.length (n_w n) = List.length (n_w n0) -> neuron_isValid n = if existsb out_of_range (n_w n) then 303%Z else 0%Z.
Proof.
  unfold neuron_isValid. intros V S L. unfold nset in S. injection S as _ Eb. rewrite L, Eb.
  destruct (fltb (n_bias n0) _ || _); [discriminate|]. destruct (_ || (1000000 <? _)%Z); [discriminate|]. reflexivity.
Qed.
Lemma rec_code k r0 r : rec_isValid r0 = 0%Z -> wf_rneuron k r0 -> wf_rneuron k r -> nset (r_n r) = nset (r_n r0) -> rec_isValid r = if existsb out_of_range (n_w (r_n r)) then 303%Z else 0%Z.
Proof.
  unfold rec_isValid. intros V [(W0 & _) E0] [(W & _) E] S. rewrite W0 in V. rewrite W. rewrite Nat.eqb_refl in *. apply (neuron_code _ _ V S). lia.
Qed.
Lemma gru_code k r0 r : gru_isValid r0 = 0%Z -> wf_gneuron k r0 -> wf_gneuron k r -> nset (r_n (g_reset r)) = nset (r_n (g_reset r0)) -> nset (r_n (g_update r)) = nset (r_n (g_update r0)) -> nset (r_n (g_output r)) = nset (r_n (g_output r0)) ->
  gru_isValid r = if existsb out_of_range (gru_weights r) then 303%Z else 0%Z.
Proof.
  unfold gru_isValid. intros V (_ & A0 & B0 & C0) (_ & A & B & C) S1 S2 S3. cbv zeta in *.
  destruct (Z.eqb_spec (rec_isValid (g_reset r0)) 0) as [V1|]; cbn [negb] in V; [|contradiction]. destruct (Z.eqb_spec (rec_isValid (g_update r0)) 0) as [V2|]; cbn [negb] in V; [|contradiction]. destruct (Z.eqb_spec (rec_isValid (g_output r0)) 0) as [V3|]; cbn [negb] in V; [|contradiction].
  rewrite (rec_code k _ _ V1 A0 A S1), (rec_code k _ _ V2 B0 B S2), (rec_code k _ _ V3 C0 C S3). unfold gru_weights. rewrite !existsb_app.
  destruct (existsb out_of_range (n_w (r_n (g_reset r)))), (existsb out_of_range (n_w (r_n (g_update r)))), (existsb out_of_range (n_w (r_n (g_output r)))); reflexivity.
Qed.
Lemma same_in (k : nat) A (f : A -> nat) ns : Forall (fun n => f n = k) ns -> existsb (fun n => negb (f n =? k)) ns = false.
Proof. induction 1 as [|n t E _ IH]; [reflexivity|]. cbn. now rewrite E, Nat.eqb_refl, IH. Qed.

Lemma neurons_code {A} (f : A -> Z) (w : A -> list F) l0 l : List.length l = List.length l0 -> neurons_isValid (map f l0) = 0%Z ->
  (forall i a0 a, nth_error l0 i = Some a0 -> nth_error l i = Some a -> f a0 = 0%Z -> f a = if existsb out_of_range (w a) then 303%Z else 0%Z) ->
  neurons_isValid (map f l) = if existsb (existsb out_of_range) (map w l) then 303%Z else 0%Z.
Proof.
  unfold neurons_isValid. rewrite !map_length. intros L V H. rewrite L. destruct (_ || _); [discriminate|]. apply first_zero in V.
  rewrite (find_codes f (fun a => existsb out_of_range (w a))).
  - clear. enough (E : existsb (fun a => existsb out_of_range (w a)) l = existsb (existsb out_of_range) (map w l)) by now rewrite E. induction l; cbn; congruence.
  - intros a Ha. apply In_nth_error in Ha as (i & Ha). assert (i < List.length l0) by (rewrite <- L; apply nth_error_Some; congruence). destruct (nth_error l0 i) as [a0|] eqn:E0; [|apply nth_error_None in E0; lia].
    eapply H; eauto. rewrite Forall_forall in V. apply V. apply in_map. eapply nth_error_In; eauto.
Qed.
Lemma nsets l0 l i n0 n : map nset l = map nset l0 -> nth_error l0 i = Some n0 -> nth_error l i = Some n -> nset n = nset n0.
Proof. intros H A B. apply (map_nth_error nset) in A, B. rewrite H in B. congruence. Qed.
Lemma plain_length k n : wf_plain k n -> List.length (n_w n) = k + 1.
Proof. intros [(W & _) <-]. exact W. Qed.

Lemma Forall_at {A} (P : A -> Prop) l i a : Forall P l -> nth_error l i = Some a -> P a.
Proof. intros H E. rewrite Forall_forall in H. apply H. eapply nth_error_In; eauto. Qed.
Lemma layer_code k m l0 l : wf_layer k l0 m -> wf_layer k l m -> layer_isValid l0 = 0%Z -> same_layer l0 l -> settings (l_body l) = settings (l_body l0) ->
  layer_isValid l = if existsb (existsb out_of_range) (layer_weights l) then 303%Z else 0%Z.
Proof.
  intros (I0 & _ & _ & W0 & _) (I1 & _ & _ & W & _) V (_ & (L & SK) & _) SS. unfold layer_isValid, layer_weights in *. rewrite I0 in V. rewrite I1.
  destruct (l_body l0) as [ns0|ns0|ns0|kd f0 ns0], (l_body l) as [ns|ns|ns|kd' f ns]; try contradiction; cbn [body_weights settings wf_body] in *.
  - destruct W0 as (_ & W0), W as (_ & W). rewrite !map_length in L. rewrite (same_in k _ n_in ns0) in V by (eapply Forall_impl; [|exact W0]; intros ? [_ ?]; assumption). rewrite (same_in k _ n_in ns) by (eapply Forall_impl; [|exact W]; intros ? [_ ?]; assumption).
    apply (neurons_code _ n_w ns0); [exact L|exact V|]. intros i a0 a A B V0. apply (neuron_code a0 a V0); [eapply nsets; eauto|]. rewrite (plain_length k a), (plain_length k a0); [reflexivity|exact (Forall_at _ _ _ _ W0 A)|exact (Forall_at _ _ _ _ W B)].
  - destruct W0 as (_ & W0), W as (_ & W). rewrite !map_length in L. rewrite (same_in k _ (fun n => n_in (r_n n)) ns0) in V by (eapply Forall_impl; [|exact W0]; intros ? [_ ?]; assumption). rewrite (same_in k _ (fun n => n_in (r_n n)) ns) by (eapply Forall_impl; [|exact W]; intros ? [_ ?]; assumption).
    apply (neurons_code _ (fun r => n_w (r_n r)) ns0); [exact L|exact V|]. intros i a0 a A B V0. apply (rec_code k a0 a V0); [exact (Forall_at _ _ _ _ W0 A)|exact (Forall_at _ _ _ _ W B)|].
    apply (map_nth_error (fun r => nset (r_n r))) in A, B. rewrite SS in B. congruence.
  - destruct W0 as (_ & W0), W as (_ & W). rewrite !map_length in L. rewrite (same_in k _ g_in ns0) in V by (eapply Forall_impl; [|exact W0]; intros ? [? _]; assumption). rewrite (same_in k _ g_in ns) by (eapply Forall_impl; [|exact W]; intros ? [? _]; assumption).
    apply (neurons_code _ gru_weights ns0); [exact L|exact V|]. intros i a0 a A B V0.
    assert (G : nset (r_n (g_reset a)) = nset (r_n (g_reset a0)) /\ nset (r_n (g_update a)) = nset (r_n (g_update a0)) /\ nset (r_n (g_output a)) = nset (r_n (g_output a0))).
    { clear -SS L A B. revert ns L SS i A B. induction ns0 as [|b0 t0 IH]; intros [|b t] L SS i A B; try discriminate; [destruct i; discriminate|]. cbn [flat_map app] in SS. injection SS as S1 S2 S3 S4 S5 S6 SS. unfold nset. destruct i as [|i]; cbn in A, B.
      - injection A as ->. injection B as ->. rewrite S1, S2, S3, S4, S5, S6. auto.
      - apply (IH t) with (i := i); auto. }
    destruct G as (G1 & G2 & G3). exact (gru_code k a0 a V0 (Forall_at _ _ _ _ W0 A) (Forall_at _ _ _ _ W B) G1 G2 G3).
  - destruct SK as (-> & Ef). destruct W0 as (K0 & W0), W as (K1 & W). 
    assert (En : f_nin f = f_nin f0 /\ f_shapeOut f = f_shapeOut f0 /\ f_kernels f = f_kernels f0 /\ f_outputs f = f_outputs f0) by (rewrite Ef; auto). destruct En as (En & Es & Ek & Eo). rewrite Es, Ek, Eo.
    assert (P : forall ns, Forall (wf_plain (f_nin f0)) ns -> existsb (fun n => negb (n_in n =? f_nin f0)) ns = false) by (intros; apply same_in; eapply Forall_impl; [|eassumption]; intros ? [_ ?]; assumption).
    rewrite !map_length in L. destruct kd; cbn [wf_filter] in W0, W.
    5,6: destruct W0 as (_ & _ & _ & M0 & _ & ->), W as (_ & _ & _ & M1 & _ & ->); cbn [map existsb]; rewrite <- M0 in V; rewrite <- M1; destruct (_ && _); [discriminate|reflexivity].
    all: pose proof (filter_plain k Conv1D f0 ns0) as _; assert (W0' : Forall (wf_plain (f_nin f0)) ns0) by (repeat match type of W0 with _ /\ _ => destruct W0 as [_ W0] end; exact W0); assert (W' : Forall (wf_plain (f_nin f0)) ns) by (rewrite <- En; repeat match type of W with _ /\ _ => destruct W as [_ W] end; exact W);
      rewrite En; rewrite (P ns0) in V by assumption; rewrite (P ns) by assumption; destruct (negb (_ =? _)); [discriminate|]; (apply (neurons_code _ n_w ns0); [exact L|exact V|]); intros i a0 a A B V0; (apply (neuron_code a0 a V0); [eapply nsets; eauto|]);
      (rewrite (plain_length (f_nin f0) a), (plain_length (f_nin f0) a0); [reflexivity|exact (Forall_at _ _ _ _ W0' A)|exact (Forall_at _ _ _ _ W' B)]).
Qed.
End P.

Section Q.
Context {N : Num}.
Lemma chain_code ls : forall k m ls', wf_chain k ls m -> wf_chain k ls' m -> Forall (fun l => layer_isValid l = 0%Z) ls -> Forall2 same_layer ls ls' ->
  firstError (map layer_isValid ls') = (if existsb (existsb (existsb out_of_range)) (map layer_weights ls') then 303%Z else 0%Z) /\ map layer_parameters ls' = map layer_parameters ls.
Proof.
  intros k m ls' W W' V F. enough (G : Forall (fun l => layer_isValid l = if existsb (existsb out_of_range) (layer_weights l) then 303%Z else 0%Z) ls' /\ map layer_parameters ls' = map layer_parameters ls).
  { destruct G as (G & P). split; [|exact P]. rewrite (find_codes layer_isValid (fun l => existsb (existsb out_of_range) (layer_weights l))).
    - clear. enough (E : existsb (fun l => existsb (existsb out_of_range) (layer_weights l)) ls' = existsb (existsb (existsb out_of_range)) (map layer_weights ls')) by now rewrite E. induction ls'; cbn; congruence.
    - rewrite Forall_forall in G. exact G. }
  revert k m W W' V. induction F as [|l l' t t' Sl St IH]; intros k m W W' V; [split; [constructor|reflexivity]|]. destruct W as (h & Wl & Wt). destruct W' as (h' & Wl' & Wt'). inversion V; subst.
  destruct (same_layer_shape _ _ Sl) as (ES & _). assert (h' = h). { destruct Wl as (_ & _ & _ & _ & ->), Wl' as (_ & _ & _ & _ & ->). now rewrite ES. } subst h'.
  destruct (IH h m Wt Wt') as (A & B); auto. destruct (works_wf _ _ _ _ Wl (proj2 (proj2 Sl))) as (_ & _ & SS).
  split; [constructor; [|exact A]|]; [exact (layer_code k h l l' Wl Wl' ltac:(assumption) Sl SS)|]. cbn [map]. rewrite B. f_equal. exact (kept_parameters k h h l l' Wl Wl' Sl).
Qed.
(* what is left of a layer when the weights and the memories are forgotten *)
Definition same_settings (l l' : Layer) : Prop :=
  l_in l' = l_in l /\ getNumberOfNeurons l' = getNumberOfNeurons l /\ getShapeOfOutput l' = getShapeOfOutput l /\ layer_parameters l' = layer_parameters l /\ Forall2 same_opt (l_opts l) (l_opts l').
End Q.

Theorem C64_announced_for_life : forall (N : Num) draws masks ds lr mo s0 s k m,
  newSnn draws masks ds lr mo = Ok s0 -> sane_descriptions ds -> Forall supported_pooling (nn_layers (sn_net s0)) -> trainable (sn_net s0) -> product (d_shape (hd (Input []) ds)) = Ok (Z.of_nat k) ->
  net_numberOfOutputs (sn_net s0) = Ok m -> lived k m s0 s ->
  net_numberOfInputs (sn_net s) = Ok k /\ net_numberOfOutputs (sn_net s) = Ok m /\ net_numberOfParameters (sn_net s) = net_numberOfParameters (sn_net s0) /\ nn_opt (sn_net s) = mkSGD lr mo /\
  Forall2 same_settings (nn_layers (sn_net s0)) (nn_layers (sn_net s)) /\
  net_isValid (sn_net s) = Ok (if existsb (existsb (existsb out_of_range)) (net_weights (sn_net s)) then 303%Z else 0%Z).
Proof.
  intros N draws masks ds lr mo s0 s k m HN Hs HP HT Hk Hm HL.
  destruct (newSnn_ok _ _ _ _ _ _ _ HN Hs HP HT Hk) as (m' & O0 & Hm' & I0). rewrite Hm in Hm'. injection Hm' as <-. destruct (lived_ok k m s0 s O0 I0 HL) as (Os & Is).
  pose proof (lived_uses k m s0 s O0 I0 HL) as U. unfold newSnn in HN. apply bind_Ok_inv in HN as (net & Hc & HN). apply bind_Ok_inv in HN as (m2 & _ & HN). injection HN as <-. cbn [sn_net] in *.
  destruct (construct_wf _ _ _ _ _ _ Hc Hs HP) as (k' & mm & W & Hp). rewrite Hk in Hp. injection Hp as Hp. apply Nat2Z.inj in Hp. subst k'. destruct (uses_wf _ _ _ _ W U) as (W' & SF).
  pose proof (uses_opt _ _ _ U) as Eo. pose proof Hc as Hv. apply construct_inv in Hc as (d0 & r & -> & Ht & Hb & HV & Hne & En).
  destruct W as (_ & W), W' as (Hne' & W'). destruct (chain_code _ _ _ _ W W' HV SF) as (C1 & C2).
  assert (EI : net_numberOfInputs (sn_net s) = Ok k). { unfold net_numberOfInputs. destruct (nn_layers (sn_net s)) as [|a t]; [congruence|]. destruct W' as (h & (E & _) & _). unfold lget. cbn [nth_error bind]. now rewrite E. }
  assert (EI0 : net_numberOfInputs net = Ok k). { unfold net_numberOfInputs. destruct (nn_layers net) as [|a t]; [congruence|]. destruct W as (h & (E & _) & _). unfold lget. cbn [nth_error bind]. now rewrite E. }
  split; [exact EI|]. split.
  { rewrite <- Hm. unfold net_numberOfOutputs. destruct (nn_layers net) as [|a t], (nn_layers (sn_net s)) as [|a' t']; try congruence; try (inversion SF; fail). rewrite !lget_last. cbn [bind]. inversion SF; subst. f_equal. now apply same_layer_shape, same_last. }
  split. { unfold net_numberOfParameters. now rewrite C2. }
  split; [rewrite Eo, En; reflexivity|]. split.
  { clear -SF C2. induction SF as [|l l' t t' Sl _ IH]; constructor; cbn [map] in C2; injection C2 as E1 E2; [|now apply IH]. destruct (same_layer_shape _ _ Sl) as (A & B). split; [apply Sl|]. split; [exact B|]. split; [exact A|]. split; [exact E1|]. apply works_opts, Sl. }
  unfold construct in Hv. apply bind_Ok_inv in Hv as (ls & _ & Hv). apply bind_Ok_inv in Hv as (e & He & Hv). destruct (Z.eqb_spec e 0) as [->|]; [|discriminate]. injection Hv as Hv. rewrite Hv in He.
  unfold net_isValid in *. unfold net_numberOfInputs in EI, EI0. apply bind_Ok_inv in EI as (l1 & E1 & EI). apply bind_Ok_inv in EI0 as (l2 & E2 & EI0). rewrite E2 in He. rewrite E1. cbn [bind] in *. injection EI as ->. injection EI0 as EI0. rewrite EI0 in He.
  rewrite Eo, <- (Forall2_len _ _ _ SF). destruct (_ || _); [discriminate|]. destruct (_ || _); [discriminate|]. destruct (negb _) eqn:Eg; [injection He as He; rewrite He in Eg; discriminate|]. rewrite C1. reflexivity.
Qed.
Print Assumptions C64_announced_for_life.
(* isValid() does not see a parameter that is not a number: a network all of whose parameters have become NaN in a training is reported as valid, although every output it computes is NaN *)
Theorem C64_nan_is_valid_refuted : exists s0 d r, @newSnn N32 draws_t nomasks demo_id2 (b32q 1 100) (b32q 9 10) = Ok s0 /\ @mkData4 N32 regression [[b32 1]] [[SpecFloat.S754_nan]] [[b32 1]] [[b32 1]] nonTemporal 0 = Ok d /\
  train 10 env_t (lit_ep 1) 1 0 s0 d = Some (Ok r) /\ net_isValid (sn_net (r_snn r)) = Ok 0%Z /\ net_weights (sn_net (r_snn r)) = [[[SpecFloat.S754_nan; SpecFloat.S754_nan]]].
Proof.
  by_compute (run_check (@newSnn N32 draws_t nomasks demo_id2 (b32q 1 100) (b32q 9 10)) (fun s0 => run_check (@mkData4 N32 regression [[b32 1]] [[SpecFloat.S754_nan]] [[b32 1]] [[b32 1]] nonTemporal 0) (fun d =>
    snn_check (train 10 env_t (lit_ep 1) 1 0 s0 d) (fun r => run_check (@net_isValid N32 (sn_net (r_snn r))) (fun e => (e =? 0)%Z) && list_eqb (list_eqb sfl_eqb) (net_weights (sn_net (r_snn r))) [[[SpecFloat.S754_nan; SpecFloat.S754_nan]]])))).
  match goal with H : snn_check _ _ = true |- _ => apply snn_check_ex in H as (r & Er & H) end. unpack_all. exists w, w0, r. split; [exact E|]. split; [exact E0|]. split; [exact Er|].
  split; [|apply (list_eqb_eq _ (list_eqb_eq _ sfl_eqb_eq)); assumption]. match goal with H : net_isValid _ = Ok ?e, K : (?e =? 0)%Z = true |- _ => rewrite H; apply Z.eqb_eq in K; now rewrite K end.
Qed.
Print Assumptions C64_nan_is_valid_refuted.
(* a training after which a parameter is out of range *)
Example C64_hypotheses : exists s0 d r, @newSnn N32 draws_t nomasks demo_id2 (b32q 1 100) (b32q 9 10) = Ok s0 /\ sane_descriptions demo_id2 /\ Forall (@supported_pooling N32) (nn_layers (sn_net s0)) /\ trainable (sn_net s0) /\
  product (d_shape (hd (@Input N32 []) demo_id2)) = Ok (Z.of_nat 1) /\ net_numberOfOutputs (sn_net s0) = Ok 1 /\ @mkData4 N32 regression [[b32 1]] [[b32 100000000]] [[b32 1]] [[b32 1]] nonTemporal 0 = Ok d /\
  train 10 env_t (lit_ep 1) 1 0 s0 d = Some (Ok r) /\ lived 1 1 s0 (r_snn r) /\ hasNan r = false /\ net_isValid (sn_net s0) = Ok 0%Z /\ net_isValid (sn_net (r_snn r)) = Ok 303%Z.
Proof.
  by_compute (run_check (@newSnn N32 draws_t nomasks demo_id2 (b32q 1 100) (b32q 9 10)) (fun s0 => forallb pool_okb (nn_layers (sn_net s0)) && (List.length (nn_layers (sn_net s0)) =? 1) && run_check (@net_numberOfOutputs N32 (sn_net s0)) (fun o => o =? 1) && run_check (@net_isValid N32 (sn_net s0)) (fun e => (e =? 0)%Z) &&
    run_check (@mkData4 N32 regression [[b32 1]] [[b32 100000000]] [[b32 1]] [[b32 1]] nonTemporal 0) (fun d =>
    snn_check (train 10 env_t (lit_ep 1) 1 0 s0 d) (fun r => negb (hasNan r) && run_check (@net_isValid N32 (sn_net (r_snn r))) (fun e => (e =? 303)%Z))))).
  match goal with H : snn_check _ _ = true |- _ => apply snn_check_ex in H as (r & Er & H) end. unpack_all.
  repeat match goal with H : (_ =? _)%Z = true |- _ => apply Z.eqb_eq in H; subst end. repeat match goal with H : (_ =? _) = true |- _ => apply Nat.eqb_eq in H end.
  match goal with H : mkData4 _ _ _ _ _ _ _ = Ok ?d |- _ => exists w, d, r end.
  split; [exact E|]. split; [split; repeat constructor; cbn; lia|]. split; [now apply pool_okb_ok|]. split; [unfold trainable; destruct (nn_layers (sn_net w)) as [|? [|? ?]]; auto; discriminate|].
  split; [reflexivity|]. split; [match goal with H : net_numberOfOutputs _ = Ok _ |- _ => rewrite H end; congruence|]. split; [assumption|]. split; [exact Er|]. split.
  { eapply lv_train; [apply lv_none| | |exact Er]; [|intros j; apply rev_rng_fair]. eapply ud_plain; [eassumption|reflexivity|reflexivity|repeat constructor|repeat constructor|repeat constructor|repeat constructor|discriminate]. }
  split; [now apply Bool.negb_true_iff|]. split; assumption.
Qed.
