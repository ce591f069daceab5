(* Trainings of networks whose last layer multiplies the errors, and of networks whose rate is multiplied. *)
From Verif Require Import Base Num ActModel NeuronModel LayerModel NetModel StatModel DataModel FactoryModel TrainModel SaveModel SaveSpec LookSpec LookProofs PoolProofs AlikeProofs AlikeTrain BuildProofs.
From Verif Require Import NeutralSpec NeutralTrainSpec NeutralProofs RateSpec RateProofs RateNet RateBuilt RateTrain.
From Coq Require Import Reals Lia Lra.
Local Open Scope outcome_scope.
Local Open Scope list_scope.
Local Existing Instance RNum.
Local Open Scope nat_scope.

Section Users.
Variable c : R.
Variables o o' : SGD.
Hypothesis Hlr : o_lr o = (c * o_lr o')%R.
Hypothesis Hm : o_m o' = o_m o.
Variables L k : nat.
Notation rel := (RateNet.nrel c o o' L k).
Lemma rel_ins n n' : rel n n' -> net_numberOfInputs n' = net_numberOfInputs n.
Proof. intros (H & _). unfold net_numberOfInputs. destruct H as [a b (E & _)|m a b t t' (E & _) _]; cbn; now rewrite E. Qed.
Lemma lget_map {A B} (f : A -> B) l i : lget (map f l) i = bind (lget l i) (fun a => Ok (f a)).
Proof. unfold lget. rewrite nth_error_map. destruct (nth_error l i); reflexivity. Qed.
Lemma rel_outs n n' : rel n n' -> net_numberOfOutputs n' = net_numberOfOutputs n.
Proof.
  intros (H & _). pose proof (csc_weights c k L _ _ H) as W.
  assert (G : forall ls : list Layer, (let* l := lgetZ ls (Z.of_nat (List.length ls) - 1) in Ok (getNumberOfNeurons l)) =
    (let* w := lgetZ (map layer_weights ls) (Z.of_nat (List.length (map layer_weights ls)) - 1) in Ok (List.length w))).
  { intros ls. rewrite map_length. unfold lgetZ. destruct (_ <? _)%Z; [reflexivity|]. rewrite lget_map. destruct (lget ls _); reflexivity. }
  unfold net_numberOfOutputs. now rewrite 2 G, W.
Qed.
Lemma rate_lives acts acts' : Forall2 (same_action (one_more L k)) acts acts' -> forall a b : Snn, opted rel a b -> lives a acts = lives b acts'.
Proof.
  intros HA. apply (lives_opted rel (one_more L k)); auto.
  - intros n n' (_ & _ & _ & E & _). exact E.
  - intros n n' (H & _). unfold net_weights. eapply csc_weights. exact H.
  - apply rel_ins.
  - apply rel_outs.
  - intros n n' x t H. now apply net_output_sc.
  - intros r r' n n' x t Hd H. apply draws_more in Hd as (R1 & R2). now apply net_training_sc.
  - intros r r' n n' x d t Hd H. apply draws_more in Hd as (R1 & R2). now apply (trainOnce_sc c o o' Hlr Hm).
Qed.
End Users.
Lemma rate_users c draws masks masks' d0 ds dl l m s s' :
  same_draws (one_more (List.length ds) (List.length (d_opts dl))) masks masks' ->
  newSnn draws masks (d0 :: ds ++ [dl]) (c * l)%R m = Ok s -> newSnn draws masks' (d0 :: map (regularized c) ds ++ [with_last_option (@d_mult RNum c) dl]) l m = Ok s' ->
  forall acts acts', Forall2 (same_action (one_more (List.length ds) (List.length (d_opts dl)))) acts acts' -> lives s acts = lives s' acts'.
Proof.
  intros Hd E E' acts acts' HA. unfold newSnn in E, E'. apply bind_Ok_inv in E as (n & En & E). apply bind_Ok_inv in E' as (n' & En' & E').
  pose proof (rate_rel c draws masks masks' d0 ds dl l m n n' Hd En En') as H.
  rewrite (rel_outs _ _ _ _ _ _ _ H) in E'. destruct (net_numberOfOutputs n) as [k| |]; cbn [bind] in E, E'; try discriminate. injection E as <-. injection E' as <-.
  apply (rate_lives c (@mkSGD RNum (c * l)%R m) (@mkSGD RNum l m) eq_refl eq_refl _ _ _ _ HA). split; [reflexivity|exact H].
Qed.
