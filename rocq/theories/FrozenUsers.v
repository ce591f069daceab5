(* Trainings of networks whose last layer multiplies the errors by 0. *)
From Verif Require Import Base Num ActModel NeuronModel LayerModel NetModel StatModel DataModel FactoryModel TrainModel SaveModel SaveSpec LookSpec LookProofs PoolProofs AlikeProofs AlikeTrain BuildProofs.
From Verif Require Import NeutralSpec NeutralTrainSpec NeutralProofs RateSpec RateProofs RateNet RateBuilt RateTrain RateUsers FrozenSpec FrozenProofs.
From Coq Require Import Reals Lia Lra.
Local Open Scope outcome_scope.
Local Open Scope list_scope.
Local Existing Instance RNum.
Local Open Scope nat_scope.

Section Users.
Variables o o' : SGD.
Hypothesis H0 : o_lr o = 0%R.
Hypothesis Hlr : o_lr o = (0 * o_lr o')%R.
Hypothesis Hm : o_m o' = o_m o.
Variables L k : nat.
Variable wss : list (list (list (@F RNum))).
Notation zrel := (RateNet.nrel 0%R o o' L k).
(* the network with the rate 0, which keeps the weights, and the network with the multiplier *)
Definition held (n n' : Net) : Prop := zrel n n' /\ frozenNet o wss n.
Lemma out_held {B} (p p' : outcome (B * Net)) : orel (with_out zrel) p p' -> post (fun q => frozenNet o wss (snd q)) p -> orel (with_out held) p p'.
Proof. destruct p as [(b & n)| |], p' as [(b' & n')| |]; cbn; auto. intros (E & H) Hf. repeat split; auto; apply H || apply Hf. Qed.
Lemma net_held (p p' : outcome Net) : orel zrel p p' -> post (frozenNet o wss) p -> orel held p p'.
Proof. destruct p as [n| |], p' as [n'| |]; cbn; auto. intros H Hf. now split. Qed.
Definition still (l : nat) : nat * nat := (0, 0).
Lemma still_draws r r' : same_draws still r r' -> (forall i, i <> L -> forall j y, r' i j y = r i j y) /\ (forall j y, j < k -> r' L j y = r L j y).
Proof.
  intros H. assert (G : forall i j y, r' i j y = r i j y) by (intros i j y; destruct (H i j y) as (_ & X & _); cbn in X; specialize (X (Nat.le_0_l j)); now rewrite Nat.add_0_r in X).
  split; intros; apply G.
Qed.
Lemma still_same r : same_draws still r r.
Proof. intros l p i. cbn. repeat split; [|lia]. intros _. now rewrite Nat.add_0_r. Qed.
Lemma held_weights n n' : held n n' -> Forall2 (Forall2 unlearned) wss (net_weights n').
Proof.
  intros (H & Hf). apply frozen_weights in Hf. assert (E : net_weights n' = net_weights n) by (destruct H as (H & _); unfold net_weights; eapply csc_weights; exact H). rewrite E.
  assert (S0 : forall w w' : list (@F RNum), spared w w' -> unlearned w w').
  { intros w w' [X|X]; [now left|right]. assert (E0 : (0%R : @F RNum) = fofZ 0) by (change (0 = 0 / 1)%R; lra). rewrite <- E0. exact X. }
  revert Hf. generalize (net_weights n). clear - S0. intros v W. induction W as [|x y u v Hxy _ IH]; constructor; auto. clear - S0 Hxy. induction Hxy; constructor; auto.
Qed.
Lemma train_held fuel env w b f s s' d : opted held s s' -> opt_rel (orel (run_opted held)) (train fuel env w b f s d) (train fuel env w b f s' d).
Proof.
  apply (train_opted held still); auto.
  - intros n n' ((_ & _ & _ & E & _) & _). exact E.
  - intros n n' (H & _). eapply rel_ins. exact H.
  - intros n n' (H & _). eapply rel_outs. exact H.
  - intros n n' x t (H & Hf). apply out_held; [now apply net_output_sc|now apply net_output_frozen].
  - intros r r' n n' x t Hd (H & Hf). apply still_draws in Hd as (R1 & R2). apply out_held; [now apply net_training_sc|now apply net_training_frozen].
  - intros r r' n n' x y t Hd (H & Hf). apply still_draws in Hd as (R1 & R2). apply net_held; [now apply (trainOnce_sc 0%R o o' Hlr Hm)|now apply trainOnce_frozen].
  - intros j. apply still_same.
Qed.
Lemma output_held s s' x t : opted held s s' -> orel (with_out (opted held)) (computeOutput s x t) (computeOutput s' x t).
Proof.
  apply output_opted.
  - intros n n' ((_ & _ & _ & E & _) & _). exact E.
  - intros n n' y u (H & Hf). apply out_held; [now apply net_output_sc|now apply net_output_frozen].
Qed.
Lemma lives_held acts : forall s s', opted held s s' -> post (Forall (fun e => match e with SaveSpec.Trained w _ _ _ _ => Forall2 (Forall2 unlearned) wss w | _ => True end)) (lives s' acts).
Proof.
  induction acts as [|[x t|fuel env w b f d] acts IH]; intros s s' H; cbn [lives]; [constructor| |].
  - pose proof (output_held s s' x t H) as X. destruct (computeOutput s x t) as [(q & a)| |], (computeOutput s' x t) as [(q' & a')| |]; cbn in X; try contradiction; try exact I. cbn [bind].
    eapply post_bind; [apply (IH a a'); apply X|]. intros l Hl. cbn. now constructor.
  - pose proof (train_held fuel env w b f s s' d H) as X. destruct (train fuel env w b f s d) as [[r|m|]|], (train fuel env w b f s' d) as [[r'|m'|]|]; cbn in X; try contradiction; try exact I.
    + destruct X as (X & _). cbv zeta. eapply post_bind; [apply (IH _ _ X)|]. intros l Hl. cbn. constructor; [|exact Hl]. apply (held_weights _ _ (proj2 X)).
    + repeat constructor.
Qed.
End Users.
Lemma zero_users draws masks d0 ds dl l m s : Forall no_regularization ds -> newSnn draws masks (d0 :: ds ++ [with_last_option (@d_mult RNum 0%R) dl]) l m = Ok s ->
  forall acts sn, lives s acts = Ok sn -> forall w r b d p, In (SaveSpec.Trained w r b d p) sn -> Forall2 (Forall2 unlearned) (net_weights (sn_net s)) w.
Proof.
  intros Hr E acts sn HL w r b d p Hin. unfold newSnn in E. apply bind_Ok_inv in E as (n & En & E). apply bind_Ok_inv in E as (q & Eq & E). injection E as <-.
  pose proof (construct_inv _ _ _ _ _ _ En) as (a0 & rest & X & Ht & Hb & _ & _ & Enet). injection X as <- <-.
  pose proof (build_rest_csc 0%R draws masks masks dl (List.length ds) (fun _ _ _ _ => eq_refl) (fun _ _ _ => eq_refl) ds 0 (d_shape d0) eq_refl) as X.
  rewrite (regularized_all 0%R ds Hr), Hb in X. pose proof (build_rest_frozen draws masks (ds ++ [dl]) 0 (d_shape d0)) as Z.
  destruct (build_rest draws masks 0 (ds ++ [dl]) (d_shape d0)) as [ls|e|]; cbn [orel post] in X, Z; try contradiction.
  assert (Hlr : o_lr (@mkSGD RNum 0%R m) = (0 * o_lr (@mkSGD RNum l m))%R) by (symmetry; apply Rmult_0_l).
  assert (N0 : held (@mkSGD RNum 0%R m) (@mkSGD RNum l m) (List.length ds) (List.length (d_opts dl)) (map layer_weights ls) (mkNet ls (@mkSGD RNum 0%R m) false 0) n).
  { split; [|split; [exact Z|reflexivity]]. rewrite Enet. split; [exact X|]. cbn. auto. }
  assert (W : net_weights n = map layer_weights ls) by (unfold net_weights; eapply csc_weights; exact X).
  match type of HL with lives ?s _ = _ => assert (HS : opted (held (@mkSGD RNum 0%R m) (@mkSGD RNum l m) (List.length ds) (List.length (d_opts dl)) (map layer_weights ls)) (with_net s (mkNet ls (@mkSGD RNum 0%R m) false 0)) s) by (split; [reflexivity|exact N0]) end.
  pose proof (lives_held (@mkSGD RNum 0%R m) (@mkSGD RNum l m) eq_refl Hlr eq_refl _ _ _ acts _ _ HS) as P. rewrite HL in P. cbn [post] in P. rewrite Forall_forall in P. specialize (P _ Hin). cbn in P. cbn [sn_net]. rewrite W. exact P.
Qed.
