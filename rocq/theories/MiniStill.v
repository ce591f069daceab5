(* C77: steps on the zero vector never move the input weights of the first layer. *)
From Coq Require Import Reals Lra Lia Permutation.
From Verif Require Import Base Num NumOrder ActModel ActProofs NeuronModel LayerModel NetModel NetSpec NeuronProofs LayerProofs GradProofs DenseProofs GradProps StatReal
  DataModel DataSpec FactorySpec PureSpec PureProps TrainModel TrainSpec MiniSpec MiniProofs.
Local Open Scope R_scope.

Definition lens (nss : list (list RNeu)) : list nat := map (@List.length RNeu) nss.
Lemma net_val_len nss : forall x, nss <> [] -> List.length (net_val nss x) = last (lens nss) 0%nat.
Proof.
  induction nss as [|a t IH]; intros x H; [congruence|]. change (net_val (a :: t) x) with (net_val t (layer_val a x)). destruct t as [|b t].
  - cbn. rewrite layer_val_length. reflexivity.
  - rewrite IH by discriminate. reflexivity.
Qed.
Lemma fed_lens nss : forall z, lens (fed_nss nss z) = lens nss.
Proof. induction nss as [|a t IH]; intros z; cbn [lens fed_nss map]; [reflexivity|]. unfold lens in IH. now rewrite IH, map_length. Qed.
Lemma upd_lens o d nss : forall z nss', upd_net o d nss z nss' -> lens nss' = lens nss.
Proof.
  induction nss as [|a t IH]; intros z [|a' t'] H; try contradiction; [reflexivity|]. destruct H as ((L & _) & H). cbn [lens map]. apply IH in H. unfold lens in H. now rewrite H, L.
Qed.
Lemma dchain_ne k ls nss : dchain k ls nss -> (ls <> [] <-> nss <> []).
Proof. destruct ls, nss; cbn; intros H; try contradiction; split; congruence. Qed.

(* the neurons of a layer keep their activation, their bias and their first k weights *)
Definition kept (k : nat) (ns0 ns : list RNeu) : Prop := forall n, (n < List.length ns0)%nat ->
  n_act (nth n ns n0) = n_act (nth n ns0 n0) /\ n_bias (nth n ns n0) = n_bias (nth n ns0 n0) /\ forall w, (w < k)%nat -> @nth R w (n_w (nth n ns n0)) 0 = @nth R w (n_w (nth n ns0 n0)) 0.
Definition still (k : nat) (opt : @SGD RNum) (nss0 : list (list RNeu)) (net : @Net RNum) : Prop :=
  nn_nan net = false /\ nn_opt net = opt /\ exists nss, dchain k (nn_layers net) nss /\ lens nss = lens nss0 /\ kept k (hd [] nss0) (hd [] nss).
Lemma kept_refl k ns : kept k ns ns. Proof. intros n _. auto. Qed.
Lemma hd_len a b : lens a = lens b -> List.length (hd [] a) = List.length (hd [] b).
Proof. destruct a, b; cbn; intros H; try discriminate; auto. now injection H. Qed.
Lemma kept_fed k ns0 nss z : kept k ns0 (hd [] nss) -> List.length ns0 = List.length (hd [] nss) -> kept k ns0 (hd [] (fed_nss nss z)).
Proof.
  intros H L n Hn. destruct (H n Hn) as (A & B & C). destruct nss as [|a t]; [exact (conj A (conj B C))|]. cbn [fed_nss hd] in *.
  assert (E : nth n (map (fed z) a) n0 = fed z (nth n a n0)). { rewrite nth_indep with (d' := fed z n0) by (rewrite map_length; lia). apply map_nth. }
  rewrite E. auto.
Qed.
Lemma still_fed k opt nss0 nss net ls z : still k opt nss0 net -> dchain k (nn_layers net) nss -> lens nss = lens nss0 -> kept k (hd [] nss0) (hd [] nss) -> dchain k ls (fed_nss nss z) ->
  forall t, still k opt nss0 (mkNet ls (nn_opt net) (nn_nan net) t).
Proof.
  intros (A & B & _) D L K D' t. split; [exact A|]. split; [exact B|]. exists (fed_nss nss z). split; [exact D'|]. split; [now rewrite fed_lens|]. apply kept_fed; [exact K|]. symmetry. now apply hd_len.
Qed.
Lemma chain_outputs_dense nss : forall k ls x, dchain k ls nss -> List.length x = k -> exists r ls', @chain_outputs RNum ls x = Ok (r, ls') /\ dchain k ls' (fed_nss nss x).
Proof.
  induction nss as [|ns nt IH]; intros k [|a t] x D Hx; try contradiction; [exists [], []; split; [reflexivity|exact I]|].
  destruct D as (-> & Hn & Dt). cbn [chain_outputs]. unfold layer_output. cbn [l_body l_opts l_in]. rewrite (body_full_fed k ns x true Hn Hx). unfold opts_testing. cbn [bind ofold].
  destruct (IH (List.length ns) t (layer_val ns x) Dt) as (r & ls' & E & D'); [apply layer_val_length|].
  change (@F RNum) with R in *. rewrite E. cbn [bind]. eexists _, _. split; [reflexivity|]. cbn [dchain fed_nss]. split; [reflexivity|]. split; [now apply fed_forall|]. now rewrite map_length.
Qed.
Lemma looks_still k opt nss0 net net' : @looks RNum k net net' -> nn_layers net <> [] -> still k opt nss0 net -> still k opt nss0 net' /\ nn_layers net' <> [].
Proof.
  induction 1 as [|net x reset o net1 net2 Hx E _ IH|net rand x reset o net1 net2 Hx E _ IH|net x o net1 net2 Hx E _ IH]; intros Hne S0; [auto| | |]; pose proof S0 as (A & B & nss & D & L & K); apply IH; clear IH.
  - destruct (net_output_dense net k nss x reset Hne D Hx) as (ls & E1 & D1). rewrite E1 in E. injection E as _ <-. cbn [nn_layers]. apply (dchain_ne _ _ _ D1). intros Q. apply (dchain_ne _ _ _ D) in Hne. destruct nss; [congruence|discriminate].
  - destruct (net_output_dense net k nss x reset Hne D Hx) as (ls & E1 & D1). rewrite E1 in E. injection E as _ <-. eapply still_fed; eauto.
  - unfold net_outputForTraining in E. destruct (nn_layers net) as [|l0 lt] eqn:El; [discriminate|].
    destruct (chain_dense (fun i l v => @layer_outputForTraining RNum (rand i) l v reset) nss (chain_train_ok rand reset) k (l0 :: lt) O x D Hx) as (ls' & E' & D'). change (@F RNum) with R in *. rewrite E' in E. cbn [bind] in E. injection E as _ <-. cbn [nn_layers].
    apply (dchain_ne _ _ _ D'). intros Q. apply (dchain_ne _ _ _ D) in Hne. destruct nss; [congruence|discriminate].
  - unfold net_outputForTraining in E. destruct (nn_layers net) as [|l0 lt] eqn:El; [discriminate|].
    destruct (chain_dense (fun i l v => @layer_outputForTraining RNum (rand i) l v reset) nss (chain_train_ok rand reset) k (l0 :: lt) O x D Hx) as (ls' & E' & D'). change (@F RNum) with R in *. rewrite E' in E. cbn [bind] in E. injection E as _ <-. rewrite anyAbnormal_R, orb_false_r.
    eapply still_fed; eauto. now rewrite El.
  - unfold getLayerOutputs in E. destruct (nn_layers net) as [|l0 lt] eqn:El; [discriminate|]. destruct (chain_outputs_dense nss k (l0 :: lt) x D Hx) as (r & ls' & E' & D'). rewrite E' in E. cbn [bind] in E. injection E as _ <-. cbn [nn_layers].
    apply (dchain_ne _ _ _ D'). intros Q. apply (dchain_ne _ _ _ D) in Hne. destruct nss; [congruence|discriminate].
  - unfold getLayerOutputs in E. destruct (nn_layers net) as [|l0 lt] eqn:El; [discriminate|]. destruct (chain_outputs_dense nss k (l0 :: lt) x D Hx) as (r & ls' & E' & D'). rewrite E' in E. cbn [bind] in E. injection E as _ <-. eapply still_fed; eauto. now rewrite El.
Qed.
Lemma train_still k (opt : @SGD RNum) nss0 net rand x d reset net' : o_m opt = 0 -> nn_layers net <> [] -> still k opt nss0 net -> List.length x = k -> (forall i, nth i x 0 = 0) -> List.length d = last (lens nss0) 0%nat ->
  @trainOnce RNum rand net x d reset = Ok net' -> still k opt nss0 net' /\ nn_layers net' <> [].
Proof.
  intros Hm Hne (A & B & nss & D & L & K) Hx Hz Hd E. assert (Nn : nss <> []) by (now apply (dchain_ne _ _ _ D)).
  destruct (trainOnce_dense rand net k nss x d reset Hne D A Hx) as (net2 & nss' & E2 & D' & U & N' & O').
  { rewrite (net_val_len nss x Nn), L. lia. }
  rewrite E2 in E. injection E as <-. assert (L' := upd_lens _ _ _ _ _ U). split.
  - split; [exact N'|]. split; [congruence|]. exists nss'. split; [exact D'|]. split; [congruence|]. destruct nss as [|ns nt]; [congruence|]. destruct nss' as [|ns' nt']; [contradiction|]. destruct U as ((Lu & U) & _). cbn [hd] in *.
    intros n Hn. destruct (K n Hn) as (K1 & K2 & K3). assert (Hn' : (n < List.length ns)%nat). { pose proof (hd_len _ _ L) as Q. cbn [hd] in Q. lia. }
    destruct (U n Hn') as (U1 & _ & U3 & U4 & U5 & _). split; [now rewrite U3|]. split; [now rewrite U4|]. intros w Hw.
    assert (Hi : n_in (nth n ns n0) = k). { destruct (nn_layers net) as [|l0 lt]; [contradiction|]. destruct D as (_ & F & _). rewrite Forall_forall in F. now apply (F (nth n ns n0) (nth_In _ _ Hn')). }
    rewrite U5 by lia. rewrite (Hz w), B, Hm, <- (K3 w Hw). change (@F RNum) with R in *. ring.
  - apply (dchain_ne _ _ _ D'). destruct nss, nss'; try congruence; contradiction.
Qed.
(* the mean of all the samples *)
Lemma mean_zero (rows : list (list R)) k m : @mean_of RNum rows m -> Forall (fun r => List.length r = k) rows -> (forall i, (i < k)%nat -> Rsum (map (fun r => nth i r 0) rows) = 0) -> List.length m = k /\ forall i, nth i m 0 = 0.
Proof.
  intros H A Z. assert (L : List.length m = k). { destruct rows as [|r0 rest]; [contradiction|]. inversion A as [|? ? A1 A2 X1]. destruct H as [L _]. exact (eq_trans L A1). }
  split; [exact L|]. intros i. destruct (Nat.lt_ge_cases i k) as [Hi|Hi]; [|apply nth_overflow; lia].
  pose proof (mean_coordinate rows m i H ltac:(lia)) as E. rewrite Z in E by exact Hi. assert (P : INR (List.length rows) <> 0) by (apply not_0_INR; destruct rows; [contradiction|discriminate]).
  destruct (Rmult_integral _ _ (eq_sym E)); [contradiction|assumption].
Qed.
Lemma Rsum_perm (a b : list R) : Permutation a b -> Rsum a = Rsum b.
Proof. induction 1; rewrite ?Rsum_cons; try lra; auto. Qed.
Lemma presents_still k m (opt : @SGD RNum) nss0 (samples : list (@sample RNum)) net log orders n net' : @presents RNum k (List.length samples) samples net log orders n net' -> (2 <= List.length samples)%nat ->
  Forall (fun s => List.length (fst s) = k /\ List.length (snd s) = m) samples -> (forall i, (i < k)%nat -> Rsum (map (fun s => @nth R i (fst s) 0) samples) = 0) ->
  o_m opt = 0 -> last (lens nss0) 0%nat = m -> nn_layers net <> [] -> still k opt nss0 net -> (Forall (fun o => Permutation o samples) orders /\ still k opt nss0 net' /\ nn_layers net' <> []).
Proof.
  intros H H2 HF HZ Hm HL Hne HS. induction H as [|log orders n net' order _ IH P|log orders order n net' x y rand s _ IH B E|log orders n net' s _ IH L|log orders n net' p s _ IH E].
  - auto.
  - destruct IH as (I1 & I2 & I3). split; [|auto]. apply Forall_app. auto.
  - destruct IH as (I1 & I2 & I3). split; [exact I1|]. apply Forall_app in I1 as (_ & I1). inversion I1 as [|? ? P _]. destruct B as (BL & B).
    assert (Hb : (List.length samples =? 1)%nat = false) by (apply Nat.eqb_neq; lia). rewrite Hb in B. destruct B as (B1 & B2).
    assert (Lo := Permutation_length P). rewrite firstn_length, skipn_length in BL.
    assert (n = 0)%nat as -> by (destruct n; [reflexivity|]; cbn in BL; lia). cbn [Nat.mul skipn] in B1, B2. rewrite <- Lo, firstn_all in B1, B2.
    assert (PF : Forall (fun s => List.length (fst s) = k /\ List.length (snd s) = m) order). { rewrite Forall_forall in *. intros q Hq. apply HF. now apply (Permutation_in _ P). }
    destruct (mean_zero (map fst order) k x B1) as (X1 & X2).
    { apply Forall_map. eapply Forall_impl; [|exact PF]. cbn. tauto. }
    { intros i Hi. rewrite map_map. etransitivity; [|exact (HZ i Hi)]. apply Rsum_perm. exact (Permutation_map (fun s => @nth R i (fst s) 0) P). }
    eapply train_still; eauto. rewrite HL. destruct (map snd order) as [|r0 rest] eqn:Em; [contradiction|]. destruct B2 as (B2 & _). etransitivity; [exact B2|].
    assert (Q : Forall (fun r => List.length r = m) (map snd order)) by (apply Forall_map; eapply Forall_impl; [|exact PF]; cbn; tauto). rewrite Em in Q. now inversion Q.
  - destruct IH as (I1 & I2 & I3). split; [exact I1|]. eapply looks_still; eauto.
  - auto.
Qed.
