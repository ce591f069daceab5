(* Training does the same on two networks related by a relation that all they do keeps. *)
From Coq Require Import String.
From Verif Require Import Base Num ActModel NeuronModel LayerModel NetModel StatModel WaitModel DataModel FactoryModel TrainModel SaveModel SaveSpec AlikeProofs AlikeTrain LookSpec LookProofs NeutralSpec NeutralTrainSpec.
Local Open Scope outcome_scope.

Section P.
Context {N : Num}.
Variables (nrel : Net -> Net -> Prop) (pl : nat -> nat * nat).
Hypothesis Hnan : forall n n', nrel n n' -> nn_nan n' = nn_nan n.
Hypothesis Hweights : forall n n', nrel n n' -> net_weights n' = net_weights n.
Hypothesis Hins : forall n n', nrel n n' -> net_numberOfInputs n' = net_numberOfInputs n.
Hypothesis Houts : forall n n', nrel n n' -> net_numberOfOutputs n' = net_numberOfOutputs n.
Hypothesis Houtput : forall n n' x t, nrel n n' -> orel (with_out nrel) (net_output n x t) (net_output n' x t).
Hypothesis Htraining : forall r r' n n' x t, same_draws pl r r' -> nrel n n' -> orel (with_out nrel) (net_outputForTraining r n x t) (net_outputForTraining r' n' x t).
Hypothesis Honce : forall r r' n n' x d t, same_draws pl r r' -> nrel n n' -> orel nrel (trainOnce r n x d t) (trainOnce r' n' x d t).
Definition opted (a b : Snn) : Prop := b = with_net a (sn_net b) /\ nrel (sn_net a) (sn_net b).
Lemma op_net s s' n n' : s' = with_net s (sn_net s') -> nrel n n' -> opted (with_net s n) (with_net s' n').
Proof. intros -> H. destruct s, s'. split; [reflexivity|exact H]. Qed.
Lemma op_stats a b st : opted a b -> opted (with_stats a st) (with_stats b st). Proof. intros (E & H). rewrite E. destruct a, b. now split. Qed.
Lemma op_index a b i : opted a b -> opted (with_index a i) (with_index b i). Proof. intros (E & H). rewrite E. destruct a, b. now split. Qed.
Lemma op_epoch a b i : opted a b -> opted (with_epoch a i) (with_epoch b i). Proof. intros (E & H). rewrite E. destruct a, b. now split. Qed.
Lemma op_want a b i : opted a b -> opted (with_want a i) (with_want b i). Proof. intros (E & H). rewrite E. destruct a, b. now split. Qed.
Lemma op_idle a b i : opted a b -> opted (with_idle a i) (with_idle b i). Proof. intros (E & H). rewrite E. destruct a, b. now split. Qed.
Lemma op_ntrain a b i : opted a b -> opted (with_ntrain a i) (with_ntrain b i). Proof. intros (E & H). rewrite E. destruct a, b. now split. Qed.
Lemma op_path a b p : opted a b -> opted (with_path a p) (with_path b p). Proof. intros (E & H). rewrite E. destruct a, b. now split. Qed.
Lemma op_reset a b : opted a b -> opted (resetTrainingValues a) (resetTrainingValues b). Proof. intros (E & H). rewrite E. destruct a, b. now split. Qed.
Lemma op_same a b : opted a b -> sn_stats b = sn_stats a /\ sn_auto b = sn_auto a /\ sn_path b = sn_path a /\ sn_index b = sn_index a /\ sn_ntrain b = sn_ntrain a /\ sn_epoch b = sn_epoch a /\ sn_idle b = sn_idle a /\
  sn_want b = sn_want a /\ nn_nan (sn_net b) = nn_nan (sn_net a) /\ nrel (sn_net a) (sn_net b) /\ b = with_net a (sn_net b).
Proof. intros (E & H). pose proof (Hnan _ _ H). rewrite E in *. destruct a, b. repeat split; auto. Qed.
Ltac same H := let h := fresh in pose proof (op_same _ _ H) as h; destruct h as (Est & Eau & Epa & Eix & Ent & Eep & Eid & Ewt & Enn & Enr & Eal).
Hint Resolve op_stats op_index op_epoch op_want op_idle op_ntrain op_path op_reset : opt.

Lemma op_once a b d : opted a b -> orel opted (evaluateOnce a d) (evaluateOnce b d).
Proof.
  intros H. same H. unfold evaluateOnce. rewrite Eix, Est.
  destruct (d_problem d);
    (eapply orel_bind; [apply orel_eq|]; intros ? x ->; eapply orel_bind; [apply orel_eq|]; intros ? y ->; eapply orel_bind; [apply orel_eq|]; intros ? z ->;
     eapply orel_bind; [apply orel_eq|]; intros ? fi ->; eapply orel_bind; [apply Houtput; assumption|]; intros (o1 & n1) (o2 & n2) (E1 & E2); cbn in E1, E2; subst o2;
     eapply orel_bind; [apply orel_eq|]; intros ? st ->; cbn; apply op_stats, op_net; assumption).
Qed.
Lemma op_turn a b d : opted a b -> orel opted (evaluateTurn a d) (evaluateTurn b d).
Proof.
  intros H. same H. unfold evaluateTurn. rewrite Eix. eapply orel_bind; [apply orel_eq|]. intros ? [|] ->; [now apply op_once|].
  eapply orel_bind; [apply orel_eq|]; intros ? x ->; eapply orel_bind; [apply orel_eq|]; intros ? fi ->. eapply orel_bind; [apply Houtput; assumption|].
  intros (o1 & n1) (o2 & n2) (E1 & E2). cbn. apply op_net; assumption.
Qed.
Lemma op_loop nan d : forall rest a b, opted a b -> orel (with_out opted) (evaluateLoop nan rest a d) (evaluateLoop nan rest b d).
Proof.
  induction rest as [|rest IH]; intros a b H; cbn [evaluateLoop]; [now split|]. same H. rewrite Enn. destruct (nn_nan (sn_net a)).
  - split; [reflexivity|]. cbn [snd]. rewrite Est. auto with opt.
  - eapply orel_bind; [apply op_turn; exact H|]. intros a' b' H'. pose proof (proj1 (proj2 (proj2 (proj2 (op_same _ _ H'))))) as E. rewrite E. apply IH. now apply op_index.
Qed.
Inductive same_event : event -> event -> Prop :=
| se_shuffled : same_event Shuffled Shuffled
| se_stepped i l x y a b : opted a b -> same_event (Stepped i l x y a) (Stepped i l x y b)
| se_evaluated a b : opted a b -> same_event (Evaluated a) (Evaluated b)
| se_saved p a b : opted a b -> same_event (Saved p a) (Saved p b).
Definition run_opted (r s : Run) : Prop := opted (r_snn r) (r_snn s) /\ r_data r = r_data s /\ r_checks r = r_checks s /\ Forall2 same_event (r_log r) (r_log s).
Lemma log_opted l l' e e' : Forall2 same_event l l' -> same_event e e' -> Forall2 same_event (l ++ [e]) (l' ++ [e']).
Proof. intros. apply Forall2_app; auto. Qed.
Lemma save_opted p r s : run_opted r s -> run_opted (saveSync p r) (saveSync p s).
Proof.
  intros (H & E1 & E2 & HL). unfold saveSync, logs, upd. split; [cbn; auto with opt|]. do 2 (split; [assumption|]). cbn [r_log r_snn]. apply log_opted; [exact HL|]. constructor. auto with opt.
Qed.
Lemma evaluate_opted env env' r s : e_nan env' = e_nan env -> run_opted r s -> orel run_opted (evaluate env r) (evaluate env' s).
Proof.
  intros En (H & E1 & E2 & HL). same H. unfold evaluate. rewrite <- E1, Est, En. eapply orel_bind; [apply op_loop; auto with opt|].
  intros (f1 & s1) (f2 & s2) (E3 & E4). cbn in E3, E4. subst f2. destruct f1.
  - split; [exact E4|]. do 2 (split; [assumption|]). cbn [r_log logs upd]. apply log_opted; [exact HL|]. now constructor.
  - pose proof (op_same _ _ E4) as (Es2 & Ea2 & Ep2 & _). rewrite Es2.
    assert (HB : opted (with_stats s1 (stopTesting (sn_stats s1))) (with_stats s2 (stopTesting (sn_stats s1)))) by auto with opt.
    assert (HA : run_opted (logs (upd r (with_stats s1 (stopTesting (sn_stats s1)))) (Evaluated (with_stats s1 (stopTesting (sn_stats s1)))))
                           (logs (upd s (with_stats s2 (stopTesting (sn_stats s1)))) (Evaluated (with_stats s2 (stopTesting (sn_stats s1)))))).
    { split; [exact HB|]. do 2 (split; [assumption|]). cbn [r_log logs upd]. apply log_opted; [exact HL|]. now constructor. }
    pose proof (op_same _ _ HB) as (Es3 & Ea3 & Ep3 & _). cbv zeta. rewrite Es3, Ea3, Ep3. destruct (sn_auto _ && _); cbn -[run_opted logs upd saveSync]; [now apply save_opted|exact HA].
Qed.
Lemma andThen_opted x y f g : orel run_opted x y -> (forall r s, run_opted r s -> opt_rel (orel run_opted) (f r) (g s)) -> opt_rel (orel run_opted) (andThen x f) (andThen y g).
Proof. destruct x, y; cbn; auto; try contradiction. Qed.
Lemma upd_opted r s a b : run_opted r s -> opted a b -> run_opted (upd r a) (upd s b).
Proof. intros (H & E1 & E2 & HL) Ha. split; [exact Ha|]. now repeat split. Qed.
Section Env.
Variables env env' : Env.
Hypothesis Hc : e_clock env' = e_clock env.
Hypothesis Hs : e_stop env' = e_stop env.
Hypothesis Hg : e_rng env' = e_rng env.
Hypothesis Hn : e_nan env' = e_nan env.
Hypothesis Hr : forall k, same_draws pl (e_rand env k) (e_rand env' k).
Lemma continue_opted w r s : run_opted r s -> with_out run_opted (continueTraining env w r) (continueTraining env' w s).
Proof.
  intros (H & E1 & E2 & HL). unfold continueTraining. rewrite <- E1, <- E2, Hc, Hs.
  assert (HQ : opted (if e_stop env (r_checks r) then with_want (r_snn r) true else r_snn r) (if e_stop env (r_checks r) then with_want (r_snn s) true else r_snn s)) by (destruct (e_stop _ _); auto with opt).
  same HQ. split; cbn [fst snd].
  - now rewrite Ewt, Eep, Est, Enn.
  - split; [exact HQ|]. now repeat split.
Qed.
Lemma trainingTurn_opted b r s : run_opted r s -> orel run_opted (trainingTurn env b r) (trainingTurn env' b s).
Proof.
  intros (H & E1 & E2 & HL). same H. unfold trainingTurn. rewrite <- E1, <- E2, Eix.
  eapply orel_bind; [apply orel_eq|]. intros ? [|] ->.
  - eapply orel_bind; [apply orel_eq|]; intros ? (x & d1) ->. eapply orel_bind; [apply orel_eq|]; intros ? (y & d2) ->. eapply orel_bind; [apply orel_eq|]; intros ? fi ->.
    eapply orel_bind; [apply Honce; auto|]. intros n1 n2 Hn12. cbv zeta.
    pose proof (op_net _ _ _ _ Eal Hn12). split; [assumption|]. do 2 (split; [reflexivity|]). apply log_opted; [exact HL|]. now constructor.
  - eapply orel_bind; [apply orel_eq|]; intros ? (x & d1) ->. eapply orel_bind; [apply orel_eq|]; intros ? fi ->.
    eapply orel_bind; [apply Htraining; auto|]. intros (o1 & n1) (o2 & n2) (_ & Hn12). cbn in Hn12.
    pose proof (op_net _ _ _ _ Eal Hn12). split; [assumption|]. do 2 (split; [reflexivity|]). apply log_opted; [exact HL|]. now constructor.
Qed.
Lemma epochLoop_opted w b : forall fuel r s, run_opted r s -> opt_rel (orel (with_out run_opted)) (epochLoop fuel env w b r) (epochLoop fuel env' w b s).
Proof.
  induction fuel as [|fuel IH]; intros r s H; cbn [epochLoop]; [exact I|].
  pose proof (op_same _ _ (proj1 H)) as (_ & _ & _ & -> & -> & _). destruct (_ <=? _); [|now split].
  pose proof (continue_opted w r s H) as HC. destruct (continueTraining env w r) as (g1 & r1), (continueTraining env' w s) as (g2 & s1). destruct HC as (E & H1). cbn in E, H1. subst g2.
  destruct g1; [|now split]. pose proof (op_same _ _ (proj1 H1)) as (Es & _ & _ & _ & _ & _ & _ & _ & Enn & _). rewrite Enn, Es, Hn. destruct (nn_nan (sn_net (r_snn r1))).
  - cbn [opt_rel orel]. split; [reflexivity|]. cbn [snd]. apply upd_opted; [exact H1|]. destruct H1 as (H1 & _). auto with opt.
  - pose proof (trainingTurn_opted b r1 s1 H1) as HT. destruct (trainingTurn env b r1) as [r2|m|], (trainingTurn env' b s1) as [s2|m'|]; cbn in HT; try contradiction; cbn; auto.
    apply IH. pose proof (op_same _ _ (proj1 HT)) as (_ & _ & _ & -> & _). apply upd_opted; [exact HT|]. destruct HT as (HT & _). auto with opt.
Qed.
Lemma trainingLoop_opted w b f : forall fuel r s, run_opted r s -> opt_rel (orel run_opted) (trainingLoop fuel env w b f r) (trainingLoop fuel env' w b f s).
Proof.
  induction fuel as [|fuel IH]; intros r s H; [exact I|]. cbn [trainingLoop].
  pose proof (continue_opted w r s H) as HC. destruct (continueTraining env w r) as (g1 & r1), (continueTraining env' w s) as (g2 & s1). destruct HC as (E & H1). cbn in E, H1. subst g2.
  destruct g1; [|cbn; apply upd_opted; [exact H1|]; destruct H1 as (H1 & _); auto with opt].
  apply andThen_opted.
  - destruct H1 as (Ha & <- & <- & Hd). rewrite Hg. eapply orel_bind; [apply orel_eq|]. intros ? d ->. split; [cbn; auto with opt|]. do 2 (split; [reflexivity|]). apply log_opted; [exact Hd|constructor].
  - intros r2 s2 H2. pose proof (epochLoop_opted w b (S fuel) r2 s2 H2) as HE.
    destruct (epochLoop (S fuel) env w b r2) as [[(f1 & r3)|m|]|], (epochLoop (S fuel) env' w b s2) as [[(f2 & s3)|m'|]|]; cbn in HE; try contradiction; cbn; auto.
    destruct HE as (E & H3). cbn in E, H3. subst f2. destruct f1; [exact H3|]. pose proof (op_same _ _ (proj1 H3)) as (_ & _ & _ & _ & _ & -> & _).
    apply andThen_opted; [destruct (_ && _); [now apply evaluate_opted|exact H3]|]. intros r4 s4 H4. apply IH. pose proof (op_same _ _ (proj1 H4)) as (_ & _ & _ & _ & _ & -> & _).
    apply upd_opted; [exact H4|]. destruct H4 as (H4 & _). auto with opt.
Qed.
Lemma trainSync_opted fuel w b f r s : run_opted r s -> opt_rel (orel run_opted) (trainSync fuel env w b f r) (trainSync fuel env' w b f s).
Proof.
  intros H. unfold trainSync. apply andThen_opted.
  - assert (H1 : run_opted (upd r (with_idle (with_want (with_ntrain (with_epoch (r_snn r) 0) (s_size (d_train (r_data r)))) false) false)) (upd s (with_idle (with_want (with_ntrain (with_epoch (r_snn s) 0) (s_size (d_train (r_data s)))) false) false))).
    { apply upd_opted; [exact H|]. destruct H as (Ha & <- & _). auto 8 with opt. }
    destruct (_ <? _)%Z; [now apply evaluate_opted|exact H1].
  - intros r4 s4 H4. apply trainingLoop_opted. apply upd_opted; [exact H4|]. destruct H4 as (H4 & _). auto with opt.
Qed.
Lemma train_opted fuel w k f a b d : opted a b -> opt_rel (orel run_opted) (train fuel env w k f a d) (train fuel env' w k f b d).
Proof.
  intros H. same H. unfold train. assert (V : validData b d k = validData a d k).
  { unfold validData. now rewrite (Hins _ _ Enr), (Houts _ _ Enr). }
  rewrite V, Eid. destruct (validData a d k); [|reflexivity|reflexivity]. destruct (negb _); [reflexivity|]. apply trainSync_opted.
  split; [|repeat split; constructor]. cbn. auto with opt.
Qed.
End Env.
Lemma output_opted a b x t : opted a b -> orel (with_out opted) (computeOutput a x t) (computeOutput b x t).
Proof.
  intros H. same H. unfold computeOutput. eapply orel_bind; [apply Houtput; assumption|].
  intros (o1 & n1) (o2 & n2) (E & Hr). cbn in E, Hr. subst o2. split; [reflexivity|]. cbn. now apply op_net.
Qed.
Lemma presented_opted l l' : Forall2 same_event l l' -> presented l = presented l'.
Proof. induction 1 as [|x y l l' H _ IH]; cbn; [reflexivity|]. unfold presented in *. rewrite IH. now destruct H. Qed.
Lemma lives_opted acts acts' : Forall2 (same_action pl) acts acts' -> forall a b : Snn, opted a b -> lives a acts = lives b acts'.
Proof.
  induction 1 as [|x x' acts acts' Hx _ IH]; intros a b H; [reflexivity|]. destruct x as [x t|fuel env w k f d], x' as [x' t'|fuel' env' w' k' f' d']; cbn in Hx; try contradiction; cbn [lives].
  - destruct Hx as (-> & ->). pose proof (output_opted a b x t H) as HO. destruct (computeOutput a x t) as [(o1 & a1)|m|], (computeOutput b x t) as [(o2 & b1)|m'|]; cbn in HO; try contradiction; cbn [bind]; try congruence.
    destruct HO as (E & Hab). cbn in E, Hab. subst o2. now rewrite (IH _ _ Hab).
  - destruct Hx as (-> & -> & -> & -> & -> & Ec & Es & Eg & En & Er).
    pose proof (train_opted env env' Ec Es Eg En Er fuel w k f a b d H) as HT. destruct (train fuel env w k f a d) as [[r1|m|]|], (train fuel env' w k f b d) as [[r2|m'|]|]; cbn in HT; try contradiction; try congruence.
    destruct HT as (Hab & Hd & _ & HL). rewrite (IH _ _ Hab), Hd, (presented_opted _ _ HL). same Hab. rewrite Est. rewrite (Hweights _ _ Enr). reflexivity.
Qed.
End P.
