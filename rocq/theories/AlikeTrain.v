(* Training does the same on networks that only differ by what the archive does not keep. *)
From Coq Require Import String.
From Verif Require Import Base Num ActModel NeuronModel LayerModel NetModel StatModel WaitModel DataModel FactoryModel TrainModel SaveModel SaveSpec AlikeProofs PoolProofs.
Local Open Scope outcome_scope.

Section P.
Context {N : Num}.
(* also up to the counters of the last evaluation, which every evaluation resets *)
Definition alike (a b : Snn) : Prop := with_stats (bare a) (startTesting (sn_stats a)) = with_stats (bare b) (startTesting (sn_stats b)).
Definition twin (a b : Snn) : Prop := exists n, b = with_net a n /\ net_rel (sn_net a) n.
Lemma alike_inv a b : alike a b <-> exists n st, b = with_stats (with_net a n) st /\ net_rel (sn_net a) n /\ startTesting (sn_stats a) = startTesting st.
Proof.
  unfold alike, net_rel. split.
  - destruct a as [n s w i x e t au p], b as [n' s' w' i' x' e' t' au' p']. unfold bare, with_stats, with_net. cbn. intros E.
    pose proof (f_equal sn_net E) as E1. pose proof (f_equal sn_stats E) as E2. pose proof (f_equal sn_want E) as E3. pose proof (f_equal sn_idle E) as E4. pose proof (f_equal sn_index E) as E5.
    pose proof (f_equal sn_epoch E) as E6. pose proof (f_equal sn_ntrain E) as E7. pose proof (f_equal sn_auto E) as E8. pose proof (f_equal sn_path E) as E9. cbn in *. subst. exists n', s'. auto.
  - intros (n & st & -> & E1 & E2). destruct a. unfold bare, with_stats, with_net in *. cbn in *. congruence.
Qed.
Lemma alike_bare s : alike s (bare s).
Proof.
  apply alike_inv. exists (bare_net (sn_net s)), (bare_stats (sn_stats s)). split; [reflexivity|]. split.
  - unfold net_rel, bare_net. cbn. f_equal. rewrite map_map. apply map_ext. intros [i b o]. unfold bare_layer. cbn. f_equal. destruct b as [ns|ns|ns|k f ns]; cbn; auto.
    + f_equal. rewrite map_map. apply map_ext. reflexivity.
    + f_equal. destruct k; reflexivity.
  - destruct (sn_stats s). unfold startTesting, bare_stats, with_counters. cbn. f_equal. rewrite map_map. apply map_ext. reflexivity.
Qed.
Lemma twin_alike a b : twin a b -> alike a b.
Proof. intros (n & -> & H). apply alike_inv. exists n, (sn_stats a). destruct a. auto. Qed.
Lemma twin_evaluateOnce a b d : twin a b -> orel twin (evaluateOnce a d) (evaluateOnce b d).
Proof.
  intros (n & -> & H). unfold evaluateOnce. cbn [sn_index sn_net sn_stats with_net].
  destruct (d_problem d);
    (eapply orel_bind; [apply orel_eq|]; intros ? x ->; eapply orel_bind; [apply orel_eq|]; intros ? y ->; eapply orel_bind; [apply orel_eq|]; intros ? z ->;
     eapply orel_bind; [apply orel_eq|]; intros ? fi ->; eapply orel_bind; [apply net_output_rel; exact H|]; intros (o1 & n1) (o2 & n2) (E1 & E2); cbn in E1, E2; subst o2;
     eapply orel_bind; [apply orel_eq|]; intros ? st ->; exists n2; destruct a; split; [reflexivity|exact E2]).
Qed.
Lemma twin_turn a b d : twin a b -> orel twin (evaluateTurn a d) (evaluateTurn b d).
Proof.
  intros H. pose proof H as (n & -> & Hn). unfold evaluateTurn. cbn [sn_index sn_net with_net].
  eapply orel_bind; [apply orel_eq|]. intros ? [|] ->; [now apply twin_evaluateOnce|].
  eapply orel_bind; [apply orel_eq|]; intros ? x ->; eapply orel_bind; [apply orel_eq|]; intros ? fi ->. eapply orel_bind; [apply net_output_rel; exact Hn|].
  intros (o1 & n1) (o2 & n2) (E1 & E2). exists n2. destruct a. split; [reflexivity|exact E2].
Qed.
Lemma net_rel_nan a b : net_rel a b -> nn_nan b = nn_nan a.
Proof. intros H. now apply net_rel_inv in H as (_ & _ & E & _). Qed.
Lemma twin_loop nan d : forall rest a b, twin a b -> orel (with_out twin) (evaluateLoop nan rest a d) (evaluateLoop nan rest b d).
Proof.
  induction rest as [|rest IH]; intros a b H; cbn [evaluateLoop]; [now split|].
  pose proof H as (n & -> & Hn). cbn [sn_net with_net]. rewrite (net_rel_nan _ _ Hn). destruct (nn_nan (sn_net a)).
  - split; [reflexivity|]. cbn. exists n. destruct a. split; [reflexivity|exact Hn].
  - eapply orel_bind; [apply twin_turn; exact H|]. intros a' b' (n' & -> & Hn'). apply IH. exists n'. destruct a'. split; [reflexivity|exact Hn'].
Qed.

Inductive event_alike : event -> event -> Prop :=
| ea_shuffled : event_alike Shuffled Shuffled
| ea_stepped i l x y a b : alike a b -> event_alike (Stepped i l x y a) (Stepped i l x y b)
| ea_evaluated a b : alike a b -> event_alike (Evaluated a) (Evaluated b)
| ea_saved p a b : alike a b -> event_alike (Saved p a) (Saved p b).
Definition run_alike (r s : Run) : Prop :=
  alike (r_snn r) (r_snn s) /\ r_data r = r_data s /\ r_checks r = r_checks s /\ Forall2 event_alike (r_log r) (r_log s).
Lemma log_alike l l' e e' : Forall2 event_alike l l' -> event_alike e e' -> Forall2 event_alike (l ++ [e]) (l' ++ [e']).
Proof. intros. apply Forall2_app; auto. Qed.
Ltac alk H := apply alike_inv in H as (? & ? & -> & ? & ?).
Ltac alk' := apply alike_inv; eexists _, _; split; [reflexivity|split; eassumption].
Lemma saveSync_alike p r s : run_alike r s -> run_alike (saveSync p r) (saveSync p s).
Proof.
  intros (H & E1 & E2 & HL). destruct r as [a d k l], s as [b d' k' l']. cbn in *. subst d' k'. alk H. destruct a.
  split; [alk'|]. do 2 (split; [reflexivity|]). apply log_alike; [exact HL|]. constructor. alk'.
Qed.
Lemma alike_auto a b : alike a b -> sn_auto b = sn_auto a /\ sn_path b = sn_path a /\ sn_index b = sn_index a /\ sn_ntrain b = sn_ntrain a /\ sn_epoch b = sn_epoch a /\ sn_idle b = sn_idle a /\ sn_want b = sn_want a.
Proof. intros H. alk H. destruct a. repeat split. Qed.
Lemma evaluate_alike env r s : run_alike r s -> orel run_alike (evaluate env r) (evaluate env s).
Proof.
  intros (H & E1 & E2 & HL). destruct r as [a d k l], s as [b d' k' l']. cbn in E1, E2, H, HL. subst d' k'. unfold evaluate. cbn [r_snn r_data].
  eapply orel_bind.
  - apply twin_loop. apply alike_inv in H as (n & st & -> & Hn & Hs). exists n. destruct a. cbn in *. rewrite Hs. split; [reflexivity|exact Hn].
  - intros (f1 & s1) (f2 & s2) (E1 & E3). cbn in E1, E3. subst f2. destruct f1.
    + cbn. split; [exact (twin_alike _ _ E3)|]. do 2 (split; [reflexivity|]). apply log_alike; [exact HL|]. constructor. exact (twin_alike _ _ E3).
    + destruct E3 as (n & -> & Hn).
      assert (HA : run_alike (logs (upd (mkRun a d k l) (with_stats s1 (stopTesting (sn_stats s1)))) (Evaluated (with_stats s1 (stopTesting (sn_stats s1)))))
                             (logs (upd (mkRun b d k l') (with_stats (with_net s1 n) (stopTesting (sn_stats (with_net s1 n))))) (Evaluated (with_stats (with_net s1 n) (stopTesting (sn_stats (with_net s1 n))))))).
      { assert (HB : alike (with_stats s1 (stopTesting (sn_stats s1))) (with_stats (with_net s1 n) (stopTesting (sn_stats (with_net s1 n))))) by (apply alike_inv; eexists _, _; destruct s1; split; [reflexivity|split; [exact Hn|reflexivity]]).
        split; [exact HB|]. do 2 (split; [reflexivity|]). apply log_alike; [exact HL|]. now constructor. }
      destruct s1 as [n1 st1 w1 i1 x1 e1 t1 au1 p1]. cbn -[run_alike logs upd saveSync] in *. destruct (au1 && _); cbn -[run_alike logs upd saveSync]; [now apply saveSync_alike|exact HA].
Qed.

Definition opt_rel {A B} (R : A -> B -> Prop) (x : option A) (y : option B) : Prop := match x, y with Some a, Some b => R a b | None, None => True | _, _ => False end.
Lemma andThen_rel x y f g : orel run_alike x y -> (forall r s, run_alike r s -> opt_rel (orel run_alike) (f r) (g s)) -> opt_rel (orel run_alike) (andThen x f) (andThen y g).
Proof. destruct x, y; cbn; auto; try contradiction. Qed.
Lemma continue_alike env w r s : run_alike r s -> with_out run_alike (continueTraining env w r) (continueTraining env w s).
Proof.
  intros (H & E1 & E2 & HL). destruct r as [a d k l], s as [b d' k' l']. cbn in *. subst d' k'. apply alike_inv in H as (n & st & -> & Hn & Hs).
  assert (E3 : st_rate st = st_rate (sn_stats a) /\ st_mae st = st_mae (sn_stats a)).
  { destruct st, (sn_stats a). unfold startTesting, with_counters in Hs. cbn in Hs. injection Hs; intros; subst. auto. }
  destruct a as [n0 st0 wt id ix ep nt au pa]. cbn in *. unfold continueTraining. cbn [r_snn r_data r_checks r_log].
  destruct (e_stop env k); cbn [sn_want sn_epoch sn_stats sn_net with_want with_net with_stats negb andb]; split; cbn [fst snd].
  - reflexivity.
  - split; [cbn; alk'|]. now repeat split.
  - rewrite (net_rel_nan _ _ Hn). destruct E3 as (-> & ->). reflexivity.
  - split; [cbn; alk'|]. now repeat split.
Qed.
Lemma trainingTurn_alike env b r s : run_alike r s -> orel run_alike (trainingTurn env b r) (trainingTurn env b s).
Proof.
  intros (H & E1 & E2 & HL). destruct r as [a d k l], s as [b' d' k' l']. cbn in E1, E2, H, HL. subst d' k'. apply alike_inv in H as (n & st & -> & Hn & Hs).
  destruct a as [n0 st0 wt id ix ep nt au pa]. cbn in Hn, Hs. unfold trainingTurn. cbn [r_snn r_data r_checks r_log sn_index sn_net with_net with_stats].
  eapply orel_bind; [apply orel_eq|]. intros ? [|] ->.
  - eapply orel_bind; [apply orel_eq|]; intros ? (x & d1) ->. eapply orel_bind; [apply orel_eq|]; intros ? (y & d2) ->. eapply orel_bind; [apply orel_eq|]; intros ? fi ->.
    eapply orel_bind; [apply trainOnce_rel; exact Hn|]. intros n1 n2 Hn12. split; [cbn; alk'|]. do 2 (split; [reflexivity|]). apply log_alike; [exact HL|]. constructor. cbn; alk'.
  - eapply orel_bind; [apply orel_eq|]; intros ? (x & d1) ->. eapply orel_bind; [apply orel_eq|]; intros ? fi ->.
    eapply orel_bind; [apply net_training_rel; exact Hn|]. intros (o1 & n1) (o2 & n2) (_ & Hn12). cbn in Hn12. split; [cbn; alk'|]. do 2 (split; [reflexivity|]). apply log_alike; [exact HL|]. constructor. cbn; alk'.
Qed.
Lemma nan_stats nan st st' : startTesting st = startTesting st' -> startTesting (setResultsAsNan nan st) = startTesting (setResultsAsNan nan st').
Proof.
  destruct st, st'. unfold startTesting, setResultsAsNan, with_counters. cbn. intros E. injection E as E1 -> -> -> -> -> -> -> -> -> -> -> -> -> -> -> . f_equal.
  rewrite !map_map. exact E1.
Qed.
Lemma alike_upd r s f : run_alike r s -> (forall a b, alike a b -> alike (f a) (f b)) -> run_alike (upd r (f (r_snn r))) (upd s (f (r_snn s))).
Proof. intros (H & E1 & E2 & HL) Hf. split; [now apply Hf|]. now repeat split. Qed.
Lemma alike_index i a b : alike a b -> alike (with_index a i) (with_index b i). Proof. intros H. alk H. destruct a. alk'. Qed.
Lemma alike_epoch i a b : alike a b -> alike (with_epoch a i) (with_epoch b i). Proof. intros H. alk H. destruct a. alk'. Qed.
Lemma alike_reset a b : alike a b -> alike (resetTrainingValues a) (resetTrainingValues b). Proof. intros H. alk H. destruct a. alk'. Qed.
Lemma alike_start z a b : alike a b -> alike (with_idle (with_want (with_ntrain (with_epoch a 0) z) false) false) (with_idle (with_want (with_ntrain (with_epoch b 0) z) false) false). Proof. intros H. alk H. destruct a. alk'. Qed.
Lemma alike_nan nan a b : alike a b -> alike (with_stats a (setResultsAsNan nan (sn_stats a))) (with_stats b (setResultsAsNan nan (sn_stats b))).
Proof. intros H. apply alike_inv in H as (n & st & -> & Hn & Hs). destruct a. apply alike_inv. eexists _, _. split; [reflexivity|]. split; [exact Hn|]. now apply nan_stats. Qed.
Lemma alike_nanflag a b : alike a b -> nn_nan (sn_net b) = nn_nan (sn_net a).
Proof. intros H. apply alike_inv in H as (n & st & -> & Hn & Hs). exact (net_rel_nan _ _ Hn). Qed.
Lemma epochLoop_alike env w b : forall fuel r s, run_alike r s -> opt_rel (orel (with_out run_alike)) (epochLoop fuel env w b r) (epochLoop fuel env w b s).
Proof.
  induction fuel as [|fuel IH]; intros r s H; cbn [epochLoop]; [exact I|].
  pose proof (alike_auto _ _ (proj1 H)) as (_ & _ & -> & -> & _). destruct (_ <=? _); [|now split].
  pose proof (continue_alike env w r s H) as HC. destruct (continueTraining env w r) as (g1 & r1), (continueTraining env w s) as (g2 & s1). destruct HC as (E & H1). cbn in E, H1. subst g2.
  destruct g1; [|now split]. rewrite (alike_nanflag _ _ (proj1 H1)). destruct (nn_nan _).
  - split; [reflexivity|]. cbn [snd]. apply (alike_upd r1 s1 (fun a => resetTrainingValues (with_stats a (setResultsAsNan (e_nan env) (sn_stats a)))) H1).
    intros. apply alike_reset. now apply alike_nan.
  - pose proof (trainingTurn_alike env b r1 s1 H1) as HT. destruct (trainingTurn env b r1) as [r2|m|], (trainingTurn env b s1) as [s2|m'|]; cbn in HT; try contradiction; cbn; auto.
    apply IH. pose proof (alike_auto _ _ (proj1 HT)) as (_ & _ & -> & _). destruct HT as (Ha & Hb & Hc & Hd). split; [cbn; now apply alike_index|]. now repeat split.
Qed.
Lemma trainingLoop_alike env w b f : forall fuel r s, run_alike r s -> opt_rel (orel run_alike) (trainingLoop fuel env w b f r) (trainingLoop fuel env w b f s).
Proof.
  induction fuel as [|fuel IH]; intros r s H; [exact I|]. cbn [trainingLoop].
  pose proof (continue_alike env w r s H) as HC. destruct (continueTraining env w r) as (g1 & r1), (continueTraining env w s) as (g2 & s1). destruct HC as (E & H1). cbn in E, H1. subst g2.
  destruct g1; [|cbn; now apply (alike_upd r1 s1 resetTrainingValues H1 alike_reset)].
  apply andThen_rel.
  - destruct H1 as (Ha & <- & <- & Hd). eapply orel_bind; [apply orel_eq|]. intros ? d ->. split; [cbn; now apply alike_index|]. do 2 (split; [reflexivity|]). apply log_alike; [exact Hd|constructor].
  - intros r2 s2 H2. pose proof (epochLoop_alike env w b (S fuel) r2 s2 H2) as HE. 
    destruct (epochLoop (S fuel) env w b r2) as [[(f1 & r3)|m|]|], (epochLoop (S fuel) env w b s2) as [[(f2 & s3)|m'|]|]; cbn in HE; try contradiction; cbn; auto.
    destruct HE as (E & H3). cbn in E, H3. subst f2. destruct f1; [exact H3|]. pose proof (alike_auto _ _ (proj1 H3)) as (_ & _ & _ & _ & -> & _).
    apply andThen_rel; [destruct (_ && _); [now apply evaluate_alike|exact H3]|]. intros r4 s4 H4. apply IH. pose proof (alike_auto _ _ (proj1 H4)) as (_ & _ & _ & _ & -> & _).
    destruct H4 as (Ha & Hb & Hc & Hd). split; [cbn; now apply alike_epoch|]. now repeat split.
Qed.
Lemma trainSync_alike fuel env w b f r s : run_alike r s -> opt_rel (orel run_alike) (trainSync fuel env w b f r) (trainSync fuel env w b f s).
Proof.
  intros H. unfold trainSync. apply andThen_rel.
  - assert (H1 : run_alike (upd r (with_idle (with_want (with_ntrain (with_epoch (r_snn r) 0) (s_size (d_train (r_data r)))) false) false)) (upd s (with_idle (with_want (with_ntrain (with_epoch (r_snn s) 0) (s_size (d_train (r_data s)))) false) false))).
    { destruct H as (Ha & Hb & Hc & Hd). rewrite <- Hb. split; [cbn; now apply alike_start|]. now repeat split. }
    destruct (_ <? _)%Z; [now apply evaluate_alike|exact H1].
  - intros r4 s4 H4. apply trainingLoop_alike. exact (alike_upd r4 s4 (fun a => with_epoch a 1) H4 (alike_epoch 1)).
Qed.
Lemma lget_rel {A} (R : A -> A -> Prop) l l' i : Forall2 R l l' -> orel R (lget l i) (lget l' i).
Proof. intros H. revert i. induction H as [|x y l l' Hxy H IH]; intros [|i]; try exact I; [exact Hxy|]. exact (IH i). Qed.
Lemma valid_alike a b d k : alike a b -> validData a d k = validData b d k.
Proof.
  intros H. apply alike_inv in H as (n & st & -> & Hn & Hs). apply net_rel_inv in Hn as (HL & _).
  assert (E1 : net_numberOfInputs (sn_net a) = net_numberOfInputs n).
  { apply orel_eq_inv. eapply orel_bind; [apply (lget_rel layer_rel); exact HL|]. intros x y Hxy. apply layer_rel_inv in Hxy as (-> & _). reflexivity. }
  assert (E2 : net_numberOfOutputs (sn_net a) = net_numberOfOutputs n).
  { apply orel_eq_inv. unfold net_numberOfOutputs, lgetZ. rewrite (Forall2_len _ _ _ HL). destruct (_ <? _)%Z; [exact I|]. eapply orel_bind; [apply (lget_rel layer_rel); exact HL|].
    intros x y Hxy. cbn. now apply neurons_rel. }
  unfold validData. cbn [sn_net with_stats with_net]. now rewrite E1, E2.
Qed.
Lemma train_alike fuel env w k f a b d : alike a b -> opt_rel (orel run_alike) (train fuel env w k f a d) (train fuel env w k f b d).
Proof.
  intros H. unfold train. rewrite (valid_alike a b d k H). destruct (validData b d k); [|reflexivity|reflexivity].
  pose proof (alike_auto _ _ H) as (_ & _ & _ & _ & _ & -> & _). destruct (negb _); [reflexivity|]. apply trainSync_alike.
  split; [|repeat split; constructor]. cbn. alk H. destruct a. alk'.
Qed.
Lemma output_alike a b x t : alike a b -> orel (with_out alike) (computeOutput a x t) (computeOutput b x t).
Proof.
  intros H. apply alike_inv in H as (n & st & -> & Hn & Hs). unfold computeOutput. cbn [sn_net with_stats with_net]. eapply orel_bind; [apply net_output_rel; exact Hn|].
  intros (o1 & n1) (o2 & n2) (E & Hr). cbn in E, Hr. subst o2. split; [reflexivity|]. destruct a. cbn. alk'.
Qed.
End P.
