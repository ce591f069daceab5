(* C78: a training interrupted between two epochs and resumed goes on as if it had not been interrupted. *)
From Verif Require Import Base Num ActModel NeuronModel LayerModel NetModel StatModel WaitModel DataModel TrainModel TrainSpec TrainProofs TrainSafe HistProofs AlikeProofs AlikeTrain FreqSpec FreqProps ResumeSpec.
Local Open Scope outcome_scope.

Section P.
Context {N : Num}.
Local Arguments FreqSpec.steps : simpl never.
Notation steps := FreqSpec.steps.
(* ---------- the size of the training set ---------- *)
Definition tsize (d : Data) : nat := s_size (d_train d).
Lemma shuffle_size rng d d' : shuffle rng d = Ok d' -> tsize d' = tsize d.
Proof. unfold shuffle, tsize. intros H. destruct (d_temporal d); binds H; repeat match type of H with context [let '(_, _) := ?p in _] => destruct p as [[? ?] ?] end; injection H as <-; reflexivity. Qed.
Lemma get_data_size d i b x d' : getTrainingData d i b = Ok (x, d') -> tsize d' = tsize d.
Proof. unfold getTrainingData, tsize. intros H. destruct (Nat.leb b 1); binds H; injection H as _ <-; reflexivity. Qed.
Lemma get_outputs_size d i b x d' : getTrainingOutputs d i b = Ok (x, d') -> tsize d' = tsize d.
Proof. unfold getTrainingOutputs, tsize. intros H. destruct (Nat.leb b 1); binds H; injection H as _ <-; reflexivity. Qed.
Lemma turn_size env b r r' : trainingTurn env b r = Ok r' -> tsize (r_data r') = tsize (r_data r).
Proof.
  unfold trainingTurn. intros H. apply bind_Ok_inv in H as (need & _ & H). destruct need.
  - apply bind_Ok_inv in H as ((x, d1) & E1 & H). apply bind_Ok_inv in H as ((y, d2) & E2 & H). binds H. injection H as <-. cbn. rewrite (get_outputs_size _ _ _ _ _ E2). exact (get_data_size _ _ _ _ _ E1).
  - apply bind_Ok_inv in H as ((x, d1) & E1 & H). binds H. injection H as <-. cbn. exact (get_data_size _ _ _ _ _ E1).
Qed.
Lemma epoch_size env w b : forall fuel r early r', epochLoop fuel env w b r = Some (Ok (early, r')) -> tsize (r_data r') = tsize (r_data r).
Proof.
  induction fuel as [|fuel IH]; intros r early r' H; [discriminate|]. cbn [epochLoop] in H. destruct (_ <=? _); [|injection H as _ <-; reflexivity].
  destruct (continueTraining env w r) as [go r1] eqn:E. assert (D : r_data r1 = r_data r) by (unfold continueTraining in E; injection E as _ <-; reflexivity). destruct go; [|injection H as _ <-; now rewrite D].
  destruct (nn_nan _); [injection H as _ <-; cbn; now rewrite D|]. destruct (trainingTurn env b r1) as [r2| |] eqn:T; try discriminate. apply IH in H. cbn in H. rewrite H, (turn_size _ _ _ _ T). now rewrite D.
Qed.
(* the steps change the network and nothing else of it; an epoch is never left early when nobody disturbs *)
Lemma turn_stays env b r r' : trainingTurn env b r = Ok r' -> exists n, r_snn r' = with_net (r_snn r) n.
Proof.
  unfold trainingTurn. intros H. apply bind_Ok_inv in H as (need & _ & H). destruct need; binds H; injection H as <-; cbn; eexists; reflexivity.
Qed.
Lemma epoch_stays env w b : undisturbed env -> forall fuel r early r', epochLoop fuel env w b r = Some (Ok (early, r')) ->
  early = false /\ exists n i, r_snn r' = with_index (with_net (r_snn r) n) i.
Proof.
  intros Hu. assert (Z : forall s : Snn, exists n i, s = with_index (with_net s n) i) by (intros []; eexists _, _; reflexivity).
  induction fuel as [|fuel IH]; intros r early r' H; [discriminate|]. cbn [epochLoop] in H. destruct (_ <=? _); [|injection H as <- <-; auto].
  destruct (continueTraining env w r) as [go r1] eqn:E. unfold continueTraining in E. rewrite Hu in E. injection E as Eg Er. subst r1. destruct go; [|injection H as <- <-; auto]. apply andb_prop in Eg as (_ & Eg). apply negb_true_iff in Eg. cbn [r_snn] in H. rewrite Eg in H.
  match type of H with match ?t with _ => _ end = _ => destruct t as [r2| |] eqn:T; try discriminate end. apply turn_stays in T as (n & T). cbn in T. apply IH in H as (A & n' & i & B). split; [exact A|]. cbn in B. exists n', i. rewrite B, T. reflexivity.
Qed.
(* what trainSync leaves of the members that are not its own, without evaluations *)
Lemma loop_stays env w b f : undisturbed env -> (f <= 0)%Z -> forall fuel r r', trainingLoop fuel env w b f r = Some (Ok r') -> sn_path (r_snn r') = sn_path (r_snn r).
Proof.
  intros Hu Hf. assert (Hf' : (0 <? f)%Z = false) by (apply Z.ltb_ge; exact Hf). induction fuel as [|fuel IH]; intros r r' H; [discriminate|]. cbn [trainingLoop] in H. destruct (continueTraining env w r) as [go r1] eqn:E. unfold continueTraining in E. rewrite Hu in E. injection E as Eg Er. subst r1. destruct go; [|injection H as <-; reflexivity].
  destruct (shuffle _ _) as [d| |]; cbn [bind andThen] in H; try discriminate. match type of H with match ?t with _ => _ end = _ => destruct t as [[[early r3]| |]|] eqn:El; try discriminate end.
  destruct (epoch_stays _ _ _ Hu _ _ _ _ El) as (-> & n & i & B). rewrite Hf' in H. cbn [andb andThen] in H. apply IH in H. rewrite H. cbn. rewrite B. reflexivity.
Qed.
Lemma loop_idle env w b f : undisturbed env -> forall fuel r r', trainingLoop fuel env w b f r = Some (Ok r') -> sn_idle (r_snn r') = true.
Proof.
  intros Hu. induction fuel as [|fuel IH]; intros r r' H; [discriminate|]. cbn [trainingLoop] in H. destruct (continueTraining env w r) as [go r1]. destruct go; [|injection H as <-; reflexivity].
  destruct (shuffle _ _) as [d| |]; cbn [bind andThen] in H; try discriminate. match type of H with match ?t with _ => _ end = _ => destruct t as [[[early r3]| |]|] eqn:El; try discriminate end.
  destruct (epoch_stays _ _ _ Hu _ _ _ _ El) as (-> & _). match type of H with andThen ?t _ = _ => destruct t as [r4| |]; cbn [andThen] in H; try discriminate end. exact (IH _ _ H).
Qed.
(* ---------- one rule or the other, as long as neither stops ---------- *)
Lemma epoch_same env w1 w3 n1 n3 b : undisturbed env -> epochs_only w1 n1 -> epochs_only w3 n3 -> forall fuel r, (0 < sn_epoch (r_snn r) <= n1)%Z -> (sn_epoch (r_snn r) <= n3)%Z ->
  epochLoop fuel env w1 b r = epochLoop fuel env w3 b r.
Proof.
  intros Hu H1 H3. induction fuel as [|fuel IH]; intros r He He3; [reflexivity|]. cbn [epochLoop]. destruct (_ <=? _); [|reflexivity].
  rewrite (continue_un n1 env w1 r Hu H1) by lia. rewrite (continue_un n3 env w3 r Hu H3) by lia. rewrite (proj2 (Z.leb_le _ _) He3), (proj2 (Z.leb_le _ _) (proj2 He)).
  destruct (_ && _ && _); [|reflexivity]. destruct (nn_nan _); [reflexivity|]. destruct (trainingTurn env b (ticked r)) as [r1| |] eqn:T; [|reflexivity|reflexivity].
  apply trainingTurn_keeps in T as ((K & _) & _). cbn [ticked r_snn] in K. apply IH; cbn; rewrite K; assumption.
Qed.
(* the first training ends where the whole one goes on *)
Lemma split_at env w1 w3 n1 n3 b f : undisturbed env -> epochs_only w1 n1 -> epochs_only w3 n3 -> (n1 <= n3)%Z -> (f <= 0)%Z -> forall fuel r r1,
  trainingLoop fuel env w1 b f r = Some (Ok r1) -> (0 < sn_epoch (r_snn r) <= n1 + 1)%Z -> sn_want (r_snn r) = false -> sn_idle (r_snn r) = false -> sn_ntrain (r_snn r) = tsize (r_data r) ->
  exists r', r1 = upd (ticked r') (resetTrainingValues (r_snn r')) /\ (0 < sn_epoch (r_snn r'))%Z /\ sn_ntrain (r_snn r') = tsize (r_data r') /\
    (hasNan r' = true \/ (sn_epoch (r_snn r') = n1 + 1)%Z /\ sn_want (r_snn r') = false /\ sn_idle (r_snn r') = false) /\
    forall g x, trainingLoop g env w3 b f r' = Some x -> trainingLoop (fuel + g) env w3 b f r = Some x.
Proof.
  intros Hu H1 H3 Hle Hf. assert (Hf' : (0 <? f)%Z = false) by (apply Z.ltb_ge; exact Hf).
  induction fuel as [|fuel IH]; intros r r1 H He Hw Hi Hs; [discriminate|]. cbn [trainingLoop] in H. rewrite (continue_un n1 env w1 r Hu H1) in H by lia.
  destruct (hasNan r) eqn:Hn.
  { rewrite andb_false_r in H. injection H as <-. exists r. split; [reflexivity|]. split; [lia|]. split; [exact Hs|]. split; [now left|]. intros g x E. eapply training_more; [exact E|lia]. }
  rewrite Hw in H. cbn [negb andb] in H. rewrite andb_true_r in H. destruct (Z.leb_spec (sn_epoch (r_snn r)) n1) as [L|L].
  2:{ injection H as <-. exists r. split; [reflexivity|]. split; [lia|]. split; [exact Hs|]. split; [right; split; [lia|auto]|]. intros g x E. eapply training_more; [exact E|lia]. }
  rewrite Hf' in H. cbn [andb andThen] in H. destruct (shuffle (e_rng env (r_checks (ticked r))) (r_data (ticked r))) as [d1| |] eqn:Es; cbn [bind andThen] in H; try discriminate.
  set (r2 := mkRun _ d1 _ _) in H. destruct (epochLoop (S fuel) env w1 b r2) as [[[early r3]| |]|] eqn:El; try discriminate.
  pose proof (epoch_keeps _ _ _ _ _ _ _ El) as (Kn & Ke). pose proof (epoch_size _ _ _ _ _ _ _ El) as Ks. pose proof (epoch_stays _ _ _ Hu _ _ _ _ El) as (-> & nn & ii & Kw).
  rewrite (epoch_same env w1 w3 n1 n3 b Hu H1 H3 (S fuel) r2) in El by (cbn; lia).
  assert (Kd := shuffle_size _ _ _ Es). cbn in Kn, Ke, Ks, Kd.
  apply IH in H as (r' & A & B & C & D & G); [|cbn; lia|cbn; rewrite Kw; exact Hw|cbn; rewrite Kw; exact Hi|cbn; congruence].
  exists r'. split; [exact A|]. split; [exact B|]. split; [exact C|]. split; [exact D|]. intros g x E. cbn [Nat.add trainingLoop]. rewrite (continue_un n3 env w3 r Hu H3) by lia.
  rewrite Hn, Hw. replace (sn_epoch (r_snn r) <=? n3)%Z with true by (symmetry; apply Z.leb_le; lia). cbn [negb andb]. rewrite Es. cbn [bind andThen]. fold r2.
  rewrite (epoch_more _ _ _ _ _ _ El) by lia. rewrite Hf'. cbn [andb andThen]. apply G. exact E.
Qed.
(* ---------- the second training (q) and the end of the whole one (r) ---------- *)
Variables (c : nat) (e : Z) (p0 : String.string) (P : list (nat * bool * list F * list F * list (list (list F)))).
Definition sim (q r : Run) : Prop := exists l, r = mkRun (with_path (with_epoch (r_snn q) (e + sn_epoch (r_snn q))) p0) (r_data q) (c + r_checks q) l /\ steps l = P ++ steps (r_log q).
Definition sim0 (q r : Run) : Prop := exists l i, r = mkRun (with_index (with_path (with_epoch (r_snn q) (e + sn_epoch (r_snn q))) p0) i) (r_data q) (c + r_checks q) l /\ steps l = P ++ steps (r_log q).
Lemma turn_sim env env2 b q r : goes_on c env env2 -> sim (ticked q) (ticked r) -> orel sim (trainingTurn env2 b (ticked q)) (trainingTurn env b (ticked r)).
Proof.
  intros Hg (l & -> & Hl). unfold trainingTurn. cbn [r_snn r_data r_checks r_log with_epoch with_path sn_index sn_net ticked].
  destruct (Hg (S (r_checks q))) as (_ & Er). rewrite Er.
  eapply orel_bind; [apply orel_eq|]. intros ? [|] ->.
  - eapply orel_bind; [apply orel_eq|]; intros ? (x & d1) ->. eapply orel_bind; [apply orel_eq|]; intros ? (y & d2) ->. eapply orel_bind; [apply orel_eq|]; intros ? fi ->.
    eapply orel_bind; [apply orel_eq|]; intros ? n ->. cbn. eexists. split; [reflexivity|]. cbn. rewrite !steps_app. cbn [ticked r_log] in Hl. rewrite Hl, <- app_assoc. reflexivity.
  - eapply orel_bind; [apply orel_eq|]; intros ? (x & d1) ->. eapply orel_bind; [apply orel_eq|]; intros ? fi ->.
    eapply orel_bind; [apply orel_eq|]; intros ? (o & n) ->. cbn. eexists. split; [reflexivity|]. cbn. rewrite !steps_app. cbn [ticked r_log] in Hl. rewrite Hl, <- app_assoc. reflexivity.
Qed.
Lemma sim_ticked q r : sim q r -> sim (ticked q) (ticked r).
Proof. intros (l & -> & Hl). exists l. split; [|exact Hl]. unfold ticked. cbn. f_equal. lia. Qed.
Lemma epoch_sim env env2 w2 w3 m b : undisturbed env -> undisturbed env2 -> goes_on c env env2 -> (0 <= e)%Z -> epochs_only w2 m -> epochs_only w3 (e + m) ->
  forall fuel q r, (0 < sn_epoch (r_snn q))%Z -> sim q r -> opt_rel (orel (with_out sim)) (epochLoop fuel env2 w2 b q) (epochLoop fuel env w3 b r).
Proof.
  intros Hu Hu2 Hg He H2 H3. induction fuel as [|fuel IH]; intros q r Hp H; [exact I|]. cbn [epochLoop].
  rewrite (continue_un m env2 w2 q Hu2 H2 Hp). assert (H' := H). destruct H' as (l & Er & Hl). rewrite (continue_un (e + m) env w3 r Hu H3) by (rewrite Er; cbn; lia).
  assert (E1 : sn_index (r_snn r) = sn_index (r_snn q)) by (rewrite Er; reflexivity). assert (E2 : sn_ntrain (r_snn r) = sn_ntrain (r_snn q)) by (rewrite Er; reflexivity). assert (E3 : sn_want (r_snn r) = sn_want (r_snn q)) by (rewrite Er; reflexivity).
  assert (E4 : hasNan r = hasNan q) by (rewrite Er; reflexivity). assert (E5 : (sn_epoch (r_snn r) <=? e + m)%Z = (sn_epoch (r_snn q) <=? m)%Z). { rewrite Er. cbn. destruct (Z.leb_spec (sn_epoch (r_snn q)) m); [apply Z.leb_le|apply Z.leb_gt]; lia. }
  rewrite E1, E2, E3, E4, E5. destruct (_ <=? sn_ntrain _); [|split; [reflexivity|exact H]]. assert (Ht := sim_ticked q r H).
  destruct (negb (sn_want (r_snn q)) && (sn_epoch (r_snn q) <=? m)%Z && negb (hasNan q)) eqn:Eg; [|split; [reflexivity|exact Ht]]. apply andb_prop in Eg as (_ & Eg). apply negb_true_iff in Eg.
  change (nn_nan (sn_net (r_snn (ticked q)))) with (hasNan q). change (nn_nan (sn_net (r_snn (ticked r)))) with (hasNan r). rewrite E4, Eg.
  assert (T := turn_sim env env2 b q r Hg Ht). destruct (trainingTurn env2 b (ticked q)) as [q2| |] eqn:Tq, (trainingTurn env b (ticked r)) as [r2| |]; cbn in T; try contradiction; [|subst; reflexivity|exact I].
  apply turn_stays in Tq as (n & Tq). cbn in Tq. apply IH.
  - cbn. rewrite Tq. exact Hp.
  - destruct T as (l2 & -> & Hl2). exists l2. split; [reflexivity|exact Hl2].
Qed.
Lemma loop_sim env env2 w2 w3 m b f : undisturbed env -> undisturbed env2 -> goes_on c env env2 -> (0 <= e)%Z -> (f <= 0)%Z -> epochs_only w2 m -> epochs_only w3 (e + m) ->
  forall fuel q r, (0 < sn_epoch (r_snn q))%Z -> sim0 q r -> opt_rel (orel sim) (trainingLoop fuel env2 w2 b f q) (trainingLoop fuel env w3 b f r).
Proof.
  intros Hu Hu2 Hg He Hf H2 H3. assert (Hf' : (0 <? f)%Z = false) by (apply Z.ltb_ge; exact Hf).
  induction fuel as [|fuel IH]; intros q r Hp H; [exact I|]. cbn [trainingLoop].
  rewrite (continue_un m env2 w2 q Hu2 H2 Hp). destruct H as (l & i & Er & Hl). rewrite (continue_un (e + m) env w3 r Hu H3) by (rewrite Er; cbn; lia).
  assert (E3 : sn_want (r_snn r) = sn_want (r_snn q)) by (rewrite Er; reflexivity).
  assert (E4 : hasNan r = hasNan q) by (rewrite Er; reflexivity). assert (E5 : (sn_epoch (r_snn r) <=? e + m)%Z = (sn_epoch (r_snn q) <=? m)%Z). { rewrite Er. cbn. destruct (Z.leb_spec (sn_epoch (r_snn q)) m); [apply Z.leb_le|apply Z.leb_gt]; lia. }
  rewrite E3, E4, E5, Hf'. cbn [andb andThen].
  destruct (negb (sn_want (r_snn q)) && (sn_epoch (r_snn q) <=? m)%Z && negb (hasNan q)) eqn:Eg.
  2:{ cbn. exists l. subst r. split; [|exact Hl]. cbn. unfold upd, resetTrainingValues. cbn. f_equal. lia. }
  replace (e_rng env2 (r_checks (ticked q))) with (e_rng env (r_checks (ticked r))) by (rewrite Er; cbn; rewrite <- Nat.add_succ_r; symmetry; apply Hg). replace (r_data (ticked r)) with (r_data (ticked q)) by (rewrite Er; reflexivity).
  destruct (shuffle _ (r_data (ticked q))) as [d| |] eqn:Es; cbn [bind andThen]; [|reflexivity|exact I].
  match goal with |- opt_rel _ (match epochLoop _ _ _ _ ?q1 with _ => _ end) (match epochLoop _ _ _ _ ?r1 with _ => _ end) => assert (S1 : sim q1 r1) by (exists (l ++ [Shuffled]); subst r; split; [cbn; f_equal; lia|cbn; rewrite !steps_app, Hl, app_assoc; reflexivity]); assert (ES := epoch_sim env env2 w2 w3 m b Hu Hu2 Hg He H2 H3 (S fuel) q1 r1 Hp S1) end.
  match type of ES with opt_rel _ ?a ?b0 => destruct a as [[[e1 q3]| |]|] eqn:Eq, b0 as [[[e2 r3]| |]|]; cbn in ES; try contradiction end; [|subst; reflexivity|exact I|exact I].
  destruct ES as (Ee & ES). cbn in Ee, ES. subst e2. pose proof (epoch_keeps _ _ _ _ _ _ _ Eq) as (_ & Ke). cbn in Ke. destruct e1; [exact ES|]. apply IH; [cbn; lia|].
  destruct ES as (l3 & -> & Hl3). exists l3, (sn_index (r_snn q3)). split; [|exact Hl3]. unfold upd. cbn. f_equal. unfold with_index, with_epoch, with_path. cbn. f_equal. lia.
Qed.
End P.
