(* Networks whose last layer multiplies the errors, and networks whose rate is multiplied. *)
From Coq Require Import Reals Lia Lra.
From Verif Require Import Base Num ActModel NeuronModel LayerModel NetModel FactoryModel LookSpec PoolProofs AlikeProofs AlikeTrain BuildProofs NeutralSpec NeutralProofs RateSpec RateProofs.
Local Open Scope outcome_scope.
Local Open Scope list_scope.
Local Existing Instance RNum.
Local Open Scope nat_scope.

Section Net.
Variable c : R.
Variables o o' : SGD.
Hypothesis Hlr : o_lr o = (c * o_lr o')%R.
Hypothesis Hm : o_m o' = o_m o.
Variables L k : nat.
Notation lsc := (lsc c).
Notation last_sc := (lsc_last c k).
Notation scs := (scs c).
(* the layers from one to the last; how many follow the first of them *)
Inductive csc : nat -> list Layer -> list Layer -> Prop :=
| csc_last a b : last_sc a b -> csc 0 [a] [b]
| csc_cons n a b t t' : lsc a b -> csc n t t' -> csc (S n) (a :: t) (b :: t').
Lemma chain_sc f g : (forall i a b x, i <> L -> lsc a b -> orel (with_out lsc) (f i a x) (g i b x)) -> (forall a b x, last_sc a b -> orel (with_out last_sc) (f L a x) (g L b x)) ->
  forall n ls ls', csc n ls ls' -> forall i x, i + n = L -> orel (with_out (csc n)) (chain f i ls x) (chain g i ls' x).
Proof.
  intros H1 H2 n ls ls' H. induction H as [a b Hab|n a b t t' Hab Ht IH]; intros i x Hi; cbn [chain].
  - rewrite Nat.add_0_r in Hi. subst i. eapply orel_bind; [apply H2; exact Hab|]. intros (q1 & k1) (q2 & k2) (E & Hk). cbn in E, Hk. subst q2. cbn. split; [reflexivity|now constructor].
  - eapply orel_bind; [apply H1; [lia|exact Hab]|]. intros (q1 & k1) (q2 & k2) (E & Hk). cbn in E, Hk. subst q2. eapply orel_bind; [apply IH; lia|].
    intros (q3 & k3) (q4 & k4) (E & Hk'). cbn in E, Hk'. subst q4. split; [reflexivity|now constructor].
Qed.
Lemma chain_outputs_sc n ls ls' : csc n ls ls' -> forall x, orel (with_out (csc n)) (chain_outputs ls x) (chain_outputs ls' x).
Proof.
  intros H. induction H as [a b Hab|n a b t t' Hab Ht IH]; intros x; cbn [chain_outputs].
  - eapply orel_bind; [apply last_output; exact Hab|]. intros (q1 & k1) (q2 & k2) (E & Hk). cbn in E, Hk. subst q2. cbn. split; [reflexivity|now constructor].
  - eapply orel_bind; [apply lsc_output; exact Hab|]. intros (q1 & k1) (q2 & k2) (E & Hk). cbn in E, Hk. subst q2. eapply orel_bind; [apply IH|].
    intros (q3 & k3) (q4 & k4) (E & Hk'). cbn in E, Hk'. subst q4. split; [reflexivity|now constructor].
Qed.
Lemma chain_back_sc n ls ls' : csc n ls ls' -> forall e, orel (both scs (csc n)) (chain_back o ls e) (chain_back o' ls' e).
Proof.
  intros H. induction H as [a b Hab|n a b t t' Hab Ht IH]; intros e; cbn [chain_back].
  - cbn [bind]. eapply orel_bind; [apply (last_back c o o' Hlr Hm); exact Hab|]. intros (q1 & k1) (q2 & k2) (E & Hk). split; [exact E|now constructor].
  - eapply orel_bind; [apply IH|]. intros (q1 & k1) (q2 & k2) (E & Hk). cbn in E, Hk. eapply orel_bind; [apply (lsc_back c o o' Hlr Hm); eassumption|].
    intros (q3 & k3) (q4 & k4) (E' & Hk'). split; [exact E'|now constructor].
Qed.
Lemma csc_weights n ls ls' : csc n ls ls' -> map layer_weights ls' = map layer_weights ls.
Proof. induction 1 as [a b Hab|n a b t t' Hab Ht IH]; cbn; f_equal; auto; [eapply lsc_last_w|eapply lsc_w]; eassumption. Qed.
Lemma last_map {A B} (f : A -> B) l d : f (last l d) = last (map f l) (f d).
Proof. induction l as [|a [|b l] IH]; cbn in *; auto. Qed.
Lemma last_def {A} (l : list A) d d' : l <> [] -> last l d = last l d'.
Proof. induction l as [|a [|b l] IH]; cbn in *; intros H; auto; [contradiction|]. apply IH. discriminate. Qed.
Lemma csc_number n ls ls' d d' : csc n ls ls' -> getNumberOfNeurons (last ls' d') = getNumberOfNeurons (last ls d).
Proof.
  intros H. pose proof (csc_weights _ _ _ H) as W. unfold getNumberOfNeurons. rewrite 2 (last_map layer_weights), W. f_equal. apply last_def. destruct H; discriminate.
Qed.
Definition nrel (n n' : Net) : Prop := csc L (nn_layers n) (nn_layers n') /\ nn_opt n = o /\ nn_opt n' = o' /\ nn_nan n' = nn_nan n /\ nn_trainings n' = nn_trainings n.
Lemma net_output_sc n n' x t : nrel n n' -> orel (with_out nrel) (net_output n x t) (net_output n' x t).
Proof.
  intros (H & E1 & E2 & E3 & E4). unfold net_output.
  assert (X : orel (with_out (csc L)) (chain (fun _ l v => layer_output l v t) 0 (nn_layers n) x) (chain (fun _ l v => layer_output l v t) 0 (nn_layers n') x)).
  { apply chain_sc; auto; intros; [now apply lsc_output|now apply last_output]. }
  destruct (nn_layers n) as [|a la]; [inversion H|]. destruct (nn_layers n') as [|b lb]; [inversion H|].
  eapply orel_bind; [exact X|]. intros (q1 & k1) (q2 & k2) (E & Hk). cbn in E, Hk. subst q2. split; [reflexivity|]. cbn. repeat split; auto. cbn. now rewrite E3.
Qed.
Lemma net_training_sc r r' n n' x t : (forall i, i <> L -> forall j y, r' i j y = r i j y) -> (forall j y, j < k -> r' L j y = r L j y) ->
  nrel n n' -> orel (with_out nrel) (net_outputForTraining r n x t) (net_outputForTraining r' n' x t).
Proof.
  intros R1 R2 (H & E1 & E2 & E3 & E4). unfold net_outputForTraining.
  assert (X : orel (with_out (csc L)) (chain (fun i l v => layer_outputForTraining (r i) l v t) 0 (nn_layers n) x) (chain (fun i l v => layer_outputForTraining (r' i) l v t) 0 (nn_layers n') x)).
  { apply chain_sc; auto; intros; [apply lsc_training|apply last_training]; auto. }
  destruct (nn_layers n) as [|a la]; [inversion H|]. destruct (nn_layers n') as [|b lb]; [inversion H|].
  eapply orel_bind; [exact X|]. intros (q1 & k1) (q2 & k2) (E & Hk). cbn in E, Hk. subst q2. split; [reflexivity|]. cbn. repeat split; auto. cbn. now rewrite E3.
Qed.
Lemma trainOnce_sc r r' n n' x d t : (forall i, i <> L -> forall j y, r' i j y = r i j y) -> (forall j y, j < k -> r' L j y = r L j y) ->
  nrel n n' -> orel nrel (trainOnce r n x d t) (trainOnce r' n' x d t).
Proof.
  intros R1 R2 H. unfold trainOnce. eapply (orel_bind nrel).
  2:{ intros a b (H1 & E1 & E2 & E3 & E4). cbn. repeat split; auto. cbn. now rewrite E4. }
  unfold backpropagation. eapply orel_bind; [apply net_training_sc; eassumption|]. intros (out & n1) (out' & n2) (E & H1). cbn in E, H1. subst out'.
  pose proof H1 as (Hc & E1 & E2 & E3 & E4). rewrite E3. destruct (nn_nan n1); [exact H1|]. rewrite E1, E2.
  destruct (nn_layers n1) as [|a la] eqn:A1; [inversion Hc|]. destruct (nn_layers n2) as [|b lb] eqn:A2; [inversion Hc|].
  rewrite (csc_number L (a :: la) (b :: lb) a b Hc). eapply orel_bind; [apply orel_eq|]. intros e ? <-.
  inversion Hc as [a' b' Hab X1 X2 X3|m a' b' t1 t2 Hab Ht X1 X2 X3]; subst.
  - cbn [chain_back bind]. eapply orel_bind; [apply (last_train c _ _ Hlr Hm); exact Hab|]. intros a1 b1 Hl. cbn. repeat split; auto. cbn. rewrite <- X1. now constructor.
  - eapply orel_bind; [apply chain_back_sc; exact Ht|]. intros (e1 & l1) (e2 & l2) (He & Hl). cbn in He, Hl. eapply orel_bind; [apply (lsc_train c _ _ Hlr Hm); eassumption|].
    intros a1 b1 Ha. cbn. repeat split; auto. cbn. rewrite <- X1. now constructor.
Qed.
Lemma inspect_sc n n' x : nrel n n' -> orel (with_out nrel) (getLayerOutputs n x) (getLayerOutputs n' x).
Proof.
  intros (H & E1 & E2 & E3 & E4). unfold getLayerOutputs. pose proof (chain_outputs_sc L (nn_layers n) (nn_layers n') H x) as X.
  destruct (nn_layers n) as [|a la]; [inversion H|]. destruct (nn_layers n') as [|b lb]; [inversion H|].
  eapply orel_bind; [exact X|]. intros (q1 & k1) (q2 & k2) (E & Hk). cbn in E, Hk. subst q2. split; [reflexivity|]. cbn. repeat split; auto.
Qed.
Lemma draws_more r r' : same_draws (one_more L k) r r' -> (forall i, i <> L -> forall j y, r' i j y = r i j y) /\ (forall j y, j < k -> r' L j y = r L j y).
Proof.
  intros H. split.
  - intros i Hi j y. pose proof (H i j y) as X. unfold one_more in X. apply Nat.eqb_neq in Hi. rewrite Hi in X. cbn in X. destruct X as (_ & X & _). specialize (X (Nat.le_0_l j)). now rewrite Nat.add_0_r in X.
  - intros j y Hj. pose proof (H L j y) as X. unfold one_more in X. rewrite Nat.eqb_refl in X. cbn in X. now apply X.
Qed.
Lemma perform_sc n n' q q' : same_call (one_more L k) q q' -> nrel n n' -> orel (with_out nrel) (perform n q) (perform n' q').
Proof.
  intros Hq H. destruct q as [r x d t|x t|x], q' as [r' x' d' t'|x' t'|x']; cbn in Hq; try contradiction.
  - destruct Hq as (-> & -> & -> & Hr). apply draws_more in Hr as (R1 & R2). cbn [perform]. eapply orel_bind; [apply trainOnce_sc; eassumption|]. intros a b Hab. now split.
  - destruct Hq as (-> & ->). cbn [perform]. eapply orel_bind; [apply net_output_sc; eassumption|]. intros (q1 & k1) (q2 & k2) (E & Hk). cbn in E, Hk. subst q2. now split.
  - subst x'. cbn [perform]. eapply orel_bind; [apply inspect_sc; eassumption|]. intros (q1 & k1) (q2 & k2) (E & Hk). cbn in E, Hk. subst q2. now split.
Qed.
Lemma perform_all_sc cs cs' : Forall2 (same_call (one_more L k)) cs cs' -> forall n n', nrel n n' -> orel (with_out nrel) (perform_all n cs) (perform_all n' cs').
Proof.
  induction 1 as [|q q' t t' Hq _ IH]; intros n n' H; cbn [perform_all]; [now split|]. eapply orel_bind; [apply perform_sc; eassumption|].
  intros (q1 & k1) (q2 & k2) (E & Hk). cbn in E, Hk. subst q2. eapply orel_bind; [apply IH; exact Hk|]. intros (q3 & k3) (q4 & k4) (E & Hk'). cbn in E, Hk'. subst q4. now split.
Qed.
Lemma nrel_same_end p p' : orel (with_out nrel) p p' -> same_end p p'.
Proof.
  destruct p as [(a & n)| |], p' as [(a' & n')| |]; cbn; auto. intros (E & H & _ & _ & E3 & E4). cbn in *. repeat split; auto. unfold net_weights. eapply csc_weights. exact H.
Qed.
End Net.
