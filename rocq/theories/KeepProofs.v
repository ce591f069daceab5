(* C81: what one training does to a network that is right about the sample, and what a whole training does. *)
From Coq Require Import Reals Lra Lia Permutation.
From Verif Require Import Base Num NumOrder ActModel ActProofs NeuronModel LayerModel NetModel NetSpec NeuronProofs LayerProofs GradProofs DenseProofs GradProps StatReal
  DataModel DataSpec FactoryModel FactorySpec PureSpec PureProps TrainModel TrainSpec LearnSpec MiniProofs MiniStill KeepSpec.
Local Open Scope R_scope.

(* no error at the outputs, no error anywhere *)
Lemma nerr_0 e n nn z : nth n e 0 = 0 -> nerr e n nn z = 0.
Proof. intros H. unfold nerr. rewrite H. apply Rmult_0_l. Qed.
Lemma back_err_right nss : forall z d, net_val nss z = d -> forall i, nth i (back_err nss z d) 0 = 0.
Proof.
  induction nss as [|ns t IH]; intros z d H i.
  - change (z = d) in H. subst z. cbn [back_err]. destruct (Nat.lt_ge_cases i (List.length d)) as [L|L]; [|apply nth_overflow; now rewrite map_length, seq_length].
    rewrite nth_map_seq by exact L. ring.
  - change (net_val t (layer_val ns z) = d) in H. cbn [back_err]. destruct (Nat.lt_ge_cases i (List.length z)) as [L|L]; [|apply nth_overflow; now rewrite map_length, seq_length].
    rewrite nth_map_seq by exact L. apply sumn_0. intros n Hn. rewrite nerr_0 by (apply IH; exact H). apply Rmult_0_l.
Qed.

(* one step with no error *)
Definition step0 (o : @SGD RNum) (n n' : RNeu) : Prop :=
  n_in n' = n_in n /\ n_batch n' = n_batch n /\ n_act n' = n_act n /\ n_bias n' = n_bias n /\
  (forall w, (w < n_in n)%nat -> @nth R w (n_w n') 0 = nth w (n_w n) 0 + o_m o * nth w (prow n) 0) /\
  @nth R (n_in n) (n_w n') 0 = o_m o * nth (n_in n) (prow n) 0 /\
  (forall w, (w < n_in n)%nat -> @nth R w (prow n') 0 = nth w (n_w n') 0 - nth w (n_w n) 0) /\
  @nth R (n_in n) (prow n') 0 = nth (n_in n) (n_w n') 0.
Definition layer0 (o : @SGD RNum) (ns ns' : list RNeu) : Prop := List.length ns' = List.length ns /\ forall n, (n < List.length ns)%nat -> step0 o (nth n ns n0) (nth n ns' n0).
Lemma upd_0 o e z (n n' : RNeu) : e = 0 -> DenseProofs.upd o e z n n' -> step0 o n n'.
Proof.
  intros -> (A & B & C & D & W & Wb & P & Pb). unfold step0. repeat (split; [assumption|]). split; [|split; [|split; assumption]].
  - intros w Hw. rewrite (W w Hw). ring.
  - rewrite Wb. ring.
Qed.
Lemma upd_net_0 o d nss : forall z nss', upd_net o d nss z nss' -> net_val nss z = d -> Forall2 (layer0 o) nss nss'.
Proof.
  induction nss as [|ns t IH]; intros z [|ns' t'] U H; try contradiction; [constructor|]. destruct U as ((L & U) & Ut). change (net_val t (layer_val ns z) = d) in H. constructor.
  - split; [exact L|]. intros n Hn. apply (upd_0 o _ z _ _ (nerr_0 _ _ _ _ (back_err_right t (layer_val ns z) d H n)) (U n Hn)).
  - eapply IH; eauto.
Qed.
(* reading the weights *)
Lemma weight_at_nth (net : @Net RNum) k nss l n w ns : dchain k (nn_layers net) nss -> nth_error nss l = Some ns -> (n < List.length ns)%nat -> @weight_at RNum net l n w = nth_error (n_w (nth n ns n0)) w.
Proof. intros D H L. unfold weight_at. rewrite (neuron_at_dense _ _ _ _ _ D), H, (nth_error_nth' ns n0 L). reflexivity. Qed.
Lemma weight_at_inv (net : @Net RNum) k nss l n w v : dchain k (nn_layers net) nss -> @weight_at RNum net l n w = Some v ->
  exists ns, nth_error nss l = Some ns /\ (n < List.length ns)%nat /\ (w < List.length (n_w (nth n ns n0)))%nat /\ @nth R w (n_w (nth n ns n0)) 0 = v.
Proof.
  intros D H. unfold weight_at in H. rewrite (neuron_at_dense _ _ _ _ _ D) in H. destruct (nth_error nss l) as [ns|] eqn:E; [|discriminate]. destruct (nth_error ns n) as [nn|] eqn:En; [|discriminate].
  exists ns. split; [reflexivity|]. assert (L : (n < List.length ns)%nat) by (apply nth_error_Some; congruence). split; [exact L|]. rewrite (nth_error_nth _ _ _ En). split; [apply nth_error_Some; congruence|]. exact (nth_error_nth _ _ 0 H).
Qed.
Lemma dchain_neuron k ls nss : forall l ns n, dchain k ls nss -> nth_error nss l = Some ns -> (n < List.length ns)%nat -> List.length (n_w (nth n ns n0)) = S (n_in (nth n ns n0)).
Proof.
  revert k nss. induction ls as [|a t IH]; intros k [|b nt] l ns n D H L; try contradiction; [destruct l; discriminate|]. destruct D as (_ & Fa & D). destruct l as [|l]; cbn [nth_error] in H.
  - injection H as ->. rewrite Forall_forall in Fa. destruct (Fa _ (nth_In ns n0 L)) as ((W & _) & _). lia.
  - exact (IH _ _ l ns n D H L).
Qed.
Lemma F2_nth {A B} (P : A -> B -> Prop) a b : Forall2 P a b -> forall i x, nth_error a i = Some x -> exists y, nth_error b i = Some y /\ P x y.
Proof.
  induction 1 as [|u v a b Hh _ IH]; intros j x E.
  - destruct j; discriminate.
  - destruct j as [|j]; cbn [nth_error] in *; [injection E as <-; eauto|]. exact (IH j x E).
Qed.
Lemma predicts_dense (net : @Net RNum) k nss x o : nn_layers net <> [] -> dchain k (nn_layers net) nss -> List.length x = k -> (predicts net x o <-> net_val nss x = o).
Proof.
  intros Hne D Hx. destruct (net_output_dense net k nss x true Hne D Hx) as (ls & E & _). split.
  - intros (n' & E'). change (@F RNum) with R in *. congruence.
  - intros <-. eexists. exact E.
Qed.

(* a neuron that has come to rest: the weights of n0 again, and nothing left of the last changes *)
Definition calm (o : @SGD RNum) (a b : RNeu) : Prop :=
  n_in b = n_in a /\ n_act b = n_act a /\ n_bias b = n_bias a /\ n_w b = n_w a /\ (o_m o = 0 \/ forall w, (w <= n_in a)%nat -> @nth R w (prow b) 0 = 0).
Definition calms (o : @SGD RNum) (a b : list (list RNeu)) : Prop := Forall2 (Forall2 (calm o)) a b.
Lemma step0_calm (o : @SGD RNum) (a b b' : RNeu) : List.length (n_w a) = S (n_in a) -> List.length (n_w b') = S (n_in b') -> @nth R (n_in a) (n_w a) 0 = 0 -> calm o a b -> step0 o b b' -> calm o a b'.
Proof.
  intros La Lb Z (A & B & C & D & P) (A' & _ & B' & C' & W & Wb & Q & Qb). rewrite A in *. rewrite D in *.
  assert (M : forall w, (w <= n_in a)%nat -> o_m o * nth w (prow b) 0 = 0). { intros w Hw. destruct P as [->|P]; [apply Rmult_0_l|]. rewrite (P w Hw). apply Rmult_0_r. }
  assert (E : n_w b' = n_w a).
  { apply nth_ext with (d := 0) (d' := 0); [change (@F RNum) with R in *; lia|]. intros w Hw. assert (Hw' : (w < S (n_in a))%nat) by (change (@F RNum) with R in *; lia).
    destruct (Nat.eq_dec w (n_in a)) as [->|Hne].
    - change (@F RNum) with R in *. rewrite Wb, (M _ (le_n _)), Z. reflexivity.
    - rewrite W by lia. rewrite M by lia. change (@F RNum) with R in *. ring. }
  unfold calm. rewrite A', B', C', E. repeat (split; [assumption || reflexivity|]). destruct P as [P|P]; [now left|]. right. intros w Hw. destruct (Nat.eq_dec w (n_in a)) as [->|Hne].
  - rewrite Qb, E. exact Z.
  - rewrite Q by lia. rewrite E. change (@F RNum) with R in *. ring.
Qed.
(* the sizes and the bias weights, layer by layer *)
Definition sized (nss : list (list RNeu)) : Prop := Forall (Forall (fun n : RNeu => List.length (n_w n) = S (n_in n))) nss.
Definition unbiased (nss : list (list RNeu)) : Prop := Forall (Forall (fun n : RNeu => @nth R (n_in n) (n_w n) 0 = 0)) nss.
Lemma dchain_sized ls : forall k nss, dchain k ls nss -> sized nss.
Proof.
  induction ls as [|a t IH]; intros k [|b nt] D; try contradiction; [constructor|]. destruct D as (_ & Fa & D). constructor; [|eapply IH; eauto]. eapply Forall_impl; [|exact Fa]. cbn. intros n ((W & _) & _). etransitivity; [exact W|lia].
Qed.
Lemma layer_calm o a : forall b b', Forall (fun n : RNeu => List.length (n_w n) = S (n_in n)) a -> Forall (fun n : RNeu => List.length (n_w n) = S (n_in n)) b' -> Forall (fun n : RNeu => @nth R (n_in n) (n_w n) 0 = 0) a ->
  Forall2 (calm o) a b -> layer0 o b b' -> Forall2 (calm o) a b'.
Proof.
  induction a as [|x a IH]; intros b b' Sa Sb Za H (L & U).
  - inversion H; subst. destruct b'; [constructor|discriminate].
  - inversion H as [|? y ? bt Hx Ht]; subst. destruct b' as [|y' bt']; [discriminate|]. inversion Sa; inversion Sb; inversion Za; subst. constructor.
    + eapply step0_calm; eauto. apply (U 0%nat). cbn. lia.
    + eapply IH; eauto. split; [now injection L|]. intros n Hn. apply (U (S n)). cbn. lia.
Qed.
Lemma step_calms o a : forall b b', sized a -> sized b' -> unbiased a -> calms o a b -> Forall2 (layer0 o) b b' -> calms o a b'.
Proof.
  induction a as [|x a IH]; intros b b' Sa Sb Za H U.
  - inversion H; subst. inversion U. constructor.
  - inversion H as [|? y ? bt Hx Ht]; subst. inversion U as [|? y' ? bt' Uy Ut]; subst. inversion Sa; inversion Sb; inversion Za; subst. constructor; [eapply layer_calm; eauto|]. eapply IH; eauto.
Qed.
Lemma fed_calms o a : forall b z, calms o a b -> calms o a (fed_nss b z).
Proof.
  induction a as [|x a IH]; intros b z H; inversion H as [|? y ? bt Hx Ht]; subst; cbn [fed_nss]; [constructor|]. constructor; [|now apply IH].
  clear - Hx. induction Hx as [|u v ? ? Hu _ IHx]; cbn [map]; constructor; [exact Hu|exact IHx].
Qed.
Lemma calm_value o (a b : RNeu) x : calm o a b -> @neuron_value RNum b x = @neuron_value RNum a x.
Proof. intros (_ & A & B & C & _). unfold neuron_value, neuron_sum. now rewrite A, B, C. Qed.
Lemma calms_val o a : forall b x, calms o a b -> net_val b x = net_val a x.
Proof.
  induction a as [|u a IH]; intros b x H; inversion H as [|? v ? bt Hu Ht]; subst; [reflexivity|]. change (net_val bt (layer_val v x) = net_val a (layer_val u x)). rewrite (IH bt _ Ht). f_equal.
  clear - Hu. induction Hu as [|p q ? ? Hp _ IHu]; [reflexivity|]. cbn. f_equal; [eapply calm_value; eauto|exact IHu].
Qed.
(* a network at rest *)
Definition at_rest (k : nat) (o : @SGD RNum) (nss0 : list (list RNeu)) (net : @Net RNum) : Prop :=
  nn_layers net <> [] /\ nn_nan net = false /\ nn_opt net = o /\ exists nss, dchain k (nn_layers net) nss /\ calms o nss0 nss.
Lemma chain_ne_fed k (ls ls' : list RLay) nss z : dchain k ls nss -> dchain k ls' (fed_nss nss z) -> ls <> [] -> ls' <> [].
Proof. intros D D' H. apply (dchain_ne _ _ _ D'). intros Q. apply (dchain_ne _ _ _ D) in H. destruct nss; [congruence|discriminate]. Qed.
Lemma looks_rest k o nss0 net net' : @looks RNum k net net' -> at_rest k o nss0 net -> at_rest k o nss0 net'.
Proof.
  induction 1 as [|net x reset r net1 net2 Hx E _ IH|net rand x reset r net1 net2 Hx E _ IH|net x r net1 net2 Hx E _ IH]; intros H; [exact H| | |]; destruct H as (Hne & A & B & nss & D & C); apply IH; clear IH.
  - destruct (net_output_dense net k nss x reset Hne D Hx) as (ls & E1 & D1). change (@F RNum) with R in *. rewrite E1 in E. injection E as _ <-. split; [exact (chain_ne_fed _ _ _ _ _ D D1 Hne)|]. split; [exact A|]. split; [exact B|]. eexists. split; [exact D1|]. now apply fed_calms.
  - unfold net_outputForTraining in E. destruct (nn_layers net) as [|l0 lt] eqn:El; [discriminate|].
    destruct (chain_dense (fun i l v => @layer_outputForTraining RNum (rand i) l v reset) nss (chain_train_ok rand reset) k (l0 :: lt) O x D Hx) as (ls' & E' & D'). change (@F RNum) with R in *. rewrite E' in E. cbn [bind] in E. injection E as _ <-. rewrite anyAbnormal_R, orb_false_r.
    split; [exact (chain_ne_fed _ _ _ _ _ D D' Hne)|]. split; [exact A|]. split; [exact B|]. eexists. split; [exact D'|]. now apply fed_calms.
  - unfold getLayerOutputs in E. destruct (nn_layers net) as [|l0 lt] eqn:El; [discriminate|]. destruct (chain_outputs_dense nss k (l0 :: lt) x D Hx) as (r' & ls' & E' & D'). change (@F RNum) with R in *. rewrite E' in E. cbn [bind] in E. injection E as _ <-.
    split; [exact (chain_ne_fed _ _ _ _ _ D D' Hne)|]. split; [exact A|]. split; [exact B|]. eexists. split; [exact D'|]. now apply fed_calms.
Qed.
Lemma train_rest k o nss0 net rand x d reset net' : sized nss0 -> unbiased nss0 -> at_rest k o nss0 net -> List.length x = k -> net_val nss0 x = d -> @trainOnce RNum rand net x d reset = Ok net' -> at_rest k o nss0 net'.
Proof.
  intros Sz Un (Hne & A & B & nss & D & C) Hx Hd E. rewrite <- (calms_val o nss0 nss x C) in Hd.
  destruct (trainOnce_dense rand net k nss x d reset Hne D A Hx) as (net2 & nss' & E2 & D' & U & N' & O'). { rewrite Hd. apply le_n. }
  change (@F RNum) with R in *. rewrite E2 in E. injection E as <-. apply upd_net_0 in U; [|exact Hd]. rewrite B in U. split; [|split; [exact N'|split; [congruence|]]].
  - apply (dchain_ne _ _ _ D'). apply (dchain_ne _ _ _ D) in Hne. inversion U; subst; congruence.
  - exists nss'. split; [exact D'|]. apply (step_calms o nss0 nss nss'); auto. eapply dchain_sized; eauto.
Qed.
Lemma presents_rest k o nss0 (samples : list (@sample RNum)) net log orders n net' : @presents RNum k 1 samples net log orders n net' -> sized nss0 -> unbiased nss0 ->
  (forall x d, In (x, d) samples -> List.length x = k /\ net_val nss0 x = d) -> at_rest k o nss0 net -> Forall (fun l => Permutation l samples) orders /\ at_rest k o nss0 net'.
Proof.
  intros H Sz Un HS HR. induction H as [|log orders n net' order _ IH P|log orders order n net' x y rand s _ IH B E|log orders n net' s _ IH L|log orders n net' p s _ IH E].
  - auto.
  - destruct IH as (I1 & I2). split; [|exact I2]. apply Forall_app. auto.
  - destruct IH as (I1 & I2). split; [exact I1|]. apply Forall_app in I1 as (_ & I1). inversion I1 as [|? ? P _]; subst. destruct B as (_ & B). cbn [Nat.eqb] in B.
    assert (Hin : In (x, y) samples). { apply (Permutation_in _ P). assert (I3 : In (x, y) (firstn 1 (skipn (n * 1) order))) by (rewrite B; now left). rewrite <- (firstn_skipn (n * 1) order). apply in_or_app. right. rewrite <- (firstn_skipn 1 (skipn (n * 1) order)). apply in_or_app. now left. }
    destruct (HS x y Hin) as (Hx & Hd). exact (train_rest k o nss0 net' rand x y true _ Sz Un I2 Hx Hd E).
  - destruct IH as (I1 & I2). split; [exact I1|]. eapply looks_rest; eauto.
  - exact IH.
Qed.
