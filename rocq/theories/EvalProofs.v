(* Proofs about evaluations. *)
From Verif Require Import Base Num NeuronModel LayerModel NetModel HistProofs StatModel StatSpec WaitModel DataModel DataSpec DataProofs SeqProofs TrainModel TrainSpec TrainProofs EvalSpec.
Local Open Scope nat_scope.
Local Open Scope outcome_scope.

Section P.
Context {N : Num}.

(* ---- what the evaluation reads of a data set ---- *)
Definition kind_of_time (t : temporal) : nat := match t with TNon => 0 | TSeq _ => 1 | TSeries _ _ _ => 2 end.
Definition same_test (d d' : Data) : Prop :=
  d_test d' = d_test d /\ d_problem d' = d_problem d /\ d_separator d' = d_separator d /\ d_precision d' = d_precision d /\ kind_of_time (d_temporal d') = kind_of_time (d_temporal d).
Lemma same_test_refl d : same_test d d. Proof. unfold same_test. auto. Qed.
Lemma same_test_trans a b c : same_test a b -> same_test b c -> same_test a c.
Proof. unfold same_test. intros (A1 & A2 & A3 & A4 & A5) (B1 & B2 & B3 & B4 & B5). repeat split; congruence. Qed.
Lemma shuffle_same rng d d' : shuffle rng d = Ok d' -> same_test d d'.
Proof. unfold shuffle. intros H. destruct (d_temporal d) eqn:E; binds H; injection H as <-; unfold same_test; cbn; rewrite E; auto. Qed.
Lemma unshuffle_same d d' : unshuffle d = Ok d' -> same_test d d'.
Proof. unfold unshuffle. intros H. destruct (d_temporal d) eqn:E; binds H; injection H as <-; unfold same_test; cbn; rewrite E; auto. Qed.
Lemma training_data_same d i b x d' : getTrainingData d i b = Ok (x, d') -> same_test d d'.
Proof. unfold getTrainingData. intros H. destruct (_ <=? _) in H; binds H; injection H as _ <-; unfold same_test; cbn; auto. Qed.
Lemma training_outputs_same d i b x d' : getTrainingOutputs d i b = Ok (x, d') -> same_test d d'.
Proof. unfold getTrainingOutputs. intros H. destruct (_ <=? _) in H; binds H; injection H as _ <-; unfold same_test; cbn; auto. Qed.

Definition trial_at (d : Data) (i : nat) (t : trial) : Prop :=
  getTestingData d i = Ok (t_inputs t) /\ isFirstTesting d i = Ok (t_reset t) /\ needToEvaluate d i = Ok (t_counts t) /\ nth_error (s_labels (d_test d)) i = Some (t_expected t).
Definition holds (d : Data) (ts : list trial) (p : problem) (sep prec : F) : Prop :=
  d_problem d = p /\ d_separator d = sep /\ d_precision d = prec /\ s_size (d_test d) = List.length ts /\ forall i t, nth_error ts i = Some t -> trial_at d i t.
Lemma holds_same d d' ts p sep prec : same_test d d' -> holds d ts p sep prec -> holds d' ts p sep prec.
Proof.
  intros (A1 & A2 & A3 & A4 & A5) (B1 & B2 & B3 & B4 & B5). split; [congruence|]. split; [congruence|]. split; [congruence|]. split; [congruence|]. intros i t Hi. destruct (B5 i t Hi) as (C1 & C2 & C3 & C4).
  unfold trial_at, getTestingData, isFirstTesting, needToEvaluate in *. rewrite A1. split; [exact C1|].
  destruct (d_temporal d), (d_temporal d'); try discriminate; auto.
Qed.

(* ---- the loop ---- *)
Lemma findOne_spec y i c : findOne y i = Ok c -> exists k v, c = i + k /\ nth_error y k = Some v /\ feqb v fone = true /\ forall j u, j < k -> nth_error y j = Some u -> feqb u fone = false.
Proof.
  revert i. induction y as [|a y IH]; intros i H; cbn in H; [discriminate|]. destruct (feqb a fone) eqn:E.
  - injection H as <-. exists 0, a. split; [lia|]. split; [reflexivity|]. split; [exact E|]. intros; lia.
  - apply IH in H as (k & v & -> & Hk & Hv & Hb). exists (S k), v. split; [lia|]. split; [exact Hk|]. split; [exact Hv|]. intros [|j] u Hj Hu; cbn in Hu; [congruence|]. apply (Hb j); [lia|exact Hu].
Qed.
Lemma evaluateOnce_judges ts p sep prec s d s' t : holds d ts p sep prec -> nth_error ts (sn_index s) = Some t -> evaluateOnce s d = Ok s' ->
  exists o j, net_output (sn_net s) (t_inputs t) (t_reset t) = Ok (o, sn_net s') /\ judged_as p sep prec o (t_expected t) j /\ judge (sn_stats s) j = Ok (sn_stats s') /\ sn_index s' = sn_index s.
Proof.
  intros (<- & <- & <- & _ & HT) Ht H. destruct (HT _ _ Ht) as (C1 & C2 & C3 & C4). unfold evaluateOnce in H. rewrite C1, C2 in H. cbn [bind] in H. unfold judged_as.
  destruct (d_problem d) eqn:Ep.
  - unfold getTestingLabel in H. rewrite Ep in H. unfold lget in H. rewrite C4 in H. cbn [bind] in H. unfold getSeparator in H. rewrite Ep in H. cbn [isRegression negb bind] in H.
    destruct (findOne (t_expected t) 0) as [c| |] eqn:Ef; cbn [bind] in H; try discriminate. apply findOne_spec in Ef as (k & v & Ek & Hk & Hv & Hb). cbn in Ek. subst c.
    binds H. injection H as <-. cbn [with_stats with_net sn_net sn_stats sn_index]. eexists _, _. split; [eassumption|]. split; [exists k, v; eauto|]. split; [eassumption|reflexivity].
  - unfold getTestingOutputs in H. rewrite Ep in H. unfold lget in H. rewrite C4 in H. cbn [bind] in H. unfold getSeparator in H. rewrite Ep in H. cbn [isRegression negb bind] in H.
    binds H. injection H as <-. cbn [with_stats with_net sn_net sn_stats sn_index]. eexists _, _. split; [eassumption|]. split; [reflexivity|]. split; [eassumption|reflexivity].
  - unfold getTestingOutputs in H. rewrite Ep in H. unfold lget in H. rewrite C4 in H. cbn [bind] in H. unfold getPrecision in H. rewrite Ep in H. cbn [isRegression negb bind] in H.
    binds H. injection H as <-. cbn [with_stats with_net sn_net sn_stats sn_index]. eexists _, _. split; [eassumption|]. split; [reflexivity|]. split; [eassumption|reflexivity].
Qed.
Lemma skipn_at {A} (l : list A) i a : nth_error l i = Some a -> skipn i l = a :: skipn (S i) l.
Proof. revert l. induction i as [|i IH]; intros [|b l] H; cbn in *; try discriminate; [now injection H as ->|]. now apply IH. Qed.
Lemma evaluateLoop_judges nan ts p sep prec d : holds d ts p sep prec -> forall rest s stop s', evaluateLoop nan rest s d = Ok (stop, s') -> sn_index s + rest = List.length ts ->
  exists shown left js st, skipn (sn_index s) ts = shown ++ left /\ answers p sep prec (sn_net s) shown js (sn_net s') /\ ofold judge js (sn_stats s) = Ok st /\
    if stop then left <> [] /\ nn_nan (sn_net s') = true /\ sn_stats s' = setResultsAsNan nan st else left = [] /\ sn_stats s' = st.
Proof.
  intros HD. induction rest as [|rest IH]; intros s stop s' H Hl; cbn [evaluateLoop] in H.
  - injection H as <- <-. exists [], [], [], (sn_stats s). rewrite skipn_all2 by lia. split; [reflexivity|]. split; [constructor|]. split; [reflexivity|auto].
  - destruct (nth_error ts (sn_index s)) as [t|] eqn:Et; [|apply nth_error_None in Et; lia]. pose proof (skipn_at _ _ _ Et) as Es.
    destruct (nn_nan (sn_net s)) eqn:En.
    + injection H as <- <-. exists [], (skipn (sn_index s) ts), [], (sn_stats s). split; [reflexivity|]. split; [constructor|]. split; [reflexivity|]. split; [rewrite Es; discriminate|]. split; [exact En|reflexivity].
    + apply bind_Ok_inv in H as (s1 & H1 & H). unfold evaluateTurn in H1. destruct HD as (HP & HSep & HPrec & HSz & HT). destruct (HT _ _ Et) as (C1 & C2 & C3 & C4). rewrite C3 in H1. cbn [bind] in H1. destruct (t_counts t) eqn:Ec.
      * apply (evaluateOnce_judges ts p sep prec s d s1 t) in H1 as (o & j & E1 & E2 & E3 & E4); [|unfold holds; auto|exact Et].
        apply IH in H as (shown & left & js & st & F1 & F2 & F3 & F4); [|cbn; rewrite E4; lia]. cbn [with_index sn_index sn_net sn_stats] in *. rewrite E4 in F1.
        exists (t :: shown), left, (j :: js), st. rewrite Es, F1. split; [reflexivity|]. split; [econstructor; eauto|]. split; [|exact F4]. cbn [ofold]. rewrite E3. exact F3.
      * rewrite C1, C2 in H1. cbn [bind] in H1. apply bind_Ok_inv in H1 as ([o n1] & E1 & H1). injection H1 as <-.
        apply IH in H as (shown & left & js & st & F1 & F2 & F3 & F4); [|cbn; lia]. cbn [with_index with_net sn_index sn_net sn_stats] in *.
        exists (t :: shown), left, js, st. rewrite Es, F1. split; [reflexivity|]. split; [eapply an_skips; eauto|]. split; [exact F3|exact F4].
Qed.
Lemma evaluate_judges env ts p sep prec r r' : holds (r_data r) ts p sep prec -> evaluate env r = Ok r' ->
  evaluated p sep prec ts (r_snn r) (r_snn r') /\ r_data r' = r_data r /\ exists s, (r_log r' = r_log r ++ [Evaluated s] \/ r_log r' = r_log r ++ [Evaluated s; Saved (sn_path s) s]) /\ r_snn r' = s.
Proof.
  intros HD H. pose proof (evaluate_keeps _ _ _ H) as (_ & Ed & _ & Elog). split; [|auto]. unfold evaluate in H. apply bind_Ok_inv in H as ([stop s] & H1 & H).
  apply (evaluateLoop_judges _ ts p sep prec) in H1 as (shown & left & js & st & F1 & F2 & F3 & F4); [|exact HD|destruct HD as (_ & _ & _ & -> & _); reflexivity].
  cbn [with_index with_stats sn_index sn_net sn_stats skipn] in *. destruct stop.
  - injection H as <-. cbn [logs upd r_snn]. right. destruct F4 as (G1 & G2 & G3). split; [exact G2|]. exists shown, left, js, st, (e_nan env). unfold count_test. auto 6.
  - left. exists js. destruct F4 as (-> & G). rewrite app_nil_r in F1. subst shown.
    assert (E : sn_net (r_snn r') = sn_net s /\ sn_stats (r_snn r') = stopTesting st) by (destruct (_ && _) in H; injection H as <-; cbn; rewrite G; auto). destruct E as (-> & ->).
    split; [exact F2|]. unfold test, count_test. rewrite F3. reflexivity.
Qed.

(* ---- trainings ---- *)
Section T.
Variables (ts : list trial) (p : problem) (sep prec : F) (s0 : Snn).
Definition same_eval (a b : Snn) : Prop := sn_net a = sn_net b /\ sn_stats a = sn_stats b.
Definition told (r : Run) : Prop :=
  holds (r_data r) ts p sep prec /\ same_eval (state_after s0 (r_log r)) (r_snn r) /\
  forall before s1 after, r_log r = before ++ Evaluated s1 :: after -> evaluated p sep prec ts (state_after s0 before) s1.
Lemma state_app (s : Snn) a b : state_after s (a ++ b) = state_after (state_after s a) b.
Proof. unfold state_after. apply fold_left_app. Qed.
Lemma split_last {A} (l : list A) e a x b : l ++ [e] = a ++ x :: b -> (b = [] /\ l = a /\ e = x) \/ (exists b', b = b' ++ [e] /\ l = a ++ x :: b').
Proof.
  intros H. destruct (@exists_last _ (x :: b)) as (q & z & Eq); [discriminate|]. rewrite Eq in H. rewrite app_assoc in H. apply app_inj_tail in H as [H1 ->].
  destruct q as [|y q]; cbn in Eq.
  - injection Eq as -> ->. left. rewrite app_nil_r in H1. auto.
  - injection Eq as -> ->. right. exists q. split; [reflexivity|exact H1].
Qed.
Lemma same_eval_evaluated a b c : same_eval a b -> evaluated p sep prec ts b c -> evaluated p sep prec ts a c.
Proof. unfold same_eval, evaluated. intros [-> ->]. auto. Qed.
Lemma told_upd r s : told r -> same_eval (r_snn r) s -> told (upd r s).
Proof. intros (A & B & C) (E1 & E2). split; [exact A|]. split; [|exact C]. destruct B as (B1 & B2). split; cbn [upd r_snn r_log]; congruence. Qed.
Lemma told_evaluate env r r' : evaluate env r = Ok r' -> told r -> told r'.
Proof.
  intros H (A & B & C). apply (evaluate_judges env ts p sep prec) in H as (E & Ed & s & El & Es); [|exact A]. split; [rewrite Ed; exact A|].
  assert (One : forall before s1 after, r_log r ++ [Evaluated s] = before ++ Evaluated s1 :: after -> evaluated p sep prec ts (state_after s0 before) s1).
  { intros before s1 after H. apply split_last in H as [(-> & <- & E3)|(b' & -> & E3)]; [|eapply C; exact E3]. injection E3 as <-. rewrite <- Es. eapply same_eval_evaluated; [exact B|exact E]. }
  destruct El as [El|El]; rewrite El.
  - split; [rewrite state_app; cbn; subst s; split; reflexivity|exact One].
  - split; [rewrite state_app; cbn; subst s; split; reflexivity|]. intros before s1 after H. change [Evaluated s; Saved (sn_path s) s] with ([Evaluated s] ++ [Saved (sn_path s) s]) in H. rewrite app_assoc in H.
    apply split_last in H as [(_ & _ & E3)|(b' & -> & E3)]; [discriminate|eapply One; exact E3].
Qed.
Lemma told_event r r' e : told r -> r_log r' = r_log r ++ [e] -> same_test (r_data r) (r_data r') ->
  match e with Evaluated _ => False | Stepped _ _ _ _ s => same_eval s (r_snn r') | Shuffled => same_eval (r_snn r) (r_snn r') | Saved _ s => same_eval s (r_snn r') end -> told r'.
Proof.
  intros (A & B & C) El Ed He. split; [eapply holds_same; eassumption|]. rewrite El. split.
  - rewrite state_app. cbn. destruct e; try contradiction; auto. destruct B as (B1 & B2), He as (H1 & H2). split; congruence.
  - intros before s1 after H. apply split_last in H as [(-> & <- & E3)|(b' & -> & E3)]; [subst e; contradiction|eapply C; exact E3].
Qed.
Lemma told_turn env b r r' : trainingTurn env b r = Ok r' -> told r -> told r'.
Proof.
  intros H HT. unfold trainingTurn in H. apply bind_Ok_inv in H as (need & _ & H). destruct need.
  - apply bind_Ok_inv in H as ([x d1] & H1 & H). apply bind_Ok_inv in H as ([y d2] & H2 & H). apply bind_Ok_inv in H as (fi & H3 & H). apply bind_Ok_inv in H as (n & H4 & H). injection H as <-.
    eapply told_event; [exact HT|reflexivity| |]; cbn [r_data r_snn].
    + apply training_data_same in H1. apply training_outputs_same in H2. eapply same_test_trans; eassumption.
    + split; reflexivity.
  - apply bind_Ok_inv in H as ([x d1] & H1 & H). apply bind_Ok_inv in H as (fi & H3 & H). apply bind_Ok_inv in H as ([o n] & H4 & H). injection H as <-.
    eapply told_event; [exact HT|reflexivity| |]; cbn [r_data r_snn].
    + now apply training_data_same in H1.
    + split; reflexivity.
Qed.
Lemma told_continue env w r go r' : continueTraining env w r = (go, r') -> told r -> told r'.
Proof.
  intros H HT. unfold continueTraining in H. injection H as _ <-. destruct HT as (A & B & C). split; [exact A|]. split; [|exact C]. destruct B as (B1 & B2). cbn [r_log r_snn].
  destruct (e_stop env (r_checks r)); split; assumption.
Qed.
(* a training that gives up in the middle of an epoch sets the results to NaN: the state after it differs from the last event, so the claim is about the log *)
Definition told_log (r : Run) : Prop := holds (r_data r) ts p sep prec /\ forall before s1 after, r_log r = before ++ Evaluated s1 :: after -> evaluated p sep prec ts (state_after s0 before) s1.
Lemma told_epoch env w b : forall fuel r early r', epochLoop fuel env w b r = Some (Ok (early, r')) -> told r -> if early then told_log r' else told r'.
Proof.
  induction fuel as [|fuel IH]; intros r early r' H HT; [discriminate|]. cbn [epochLoop] in H.
  destruct (_ <=? _) in H. 2: { injection H as <- <-. exact HT. }
  destruct (continueTraining env w r) as [go r1] eqn:Ec. apply told_continue in Ec; [|exact HT]. destruct go. 2: { injection H as <- <-. exact Ec. }
  destruct (nn_nan (sn_net (r_snn r1))). { injection H as <- <-. split; [exact (proj1 Ec)|exact (proj2 (proj2 Ec))]. }
  destruct (trainingTurn env b r1) as [r2|z|] eqn:Et; [|discriminate H|discriminate H]. apply told_turn in Et; [|exact Ec].
  apply IH in H; [exact H|]. apply told_upd; [exact Et|]. split; reflexivity.
Qed.
Lemma told_training env w b f : forall fuel r r', trainingLoop fuel env w b f r = Some (Ok r') -> told r -> told_log r'.
Proof.
  induction fuel as [|fuel IH]; intros r r' H HT; [discriminate|]. cbn [trainingLoop] in H.
  destruct (continueTraining env w r) as [go r1] eqn:Ec. apply told_continue in Ec; [|exact HT].
  destruct go; [|injection H as <-; split; [exact (proj1 Ec)|exact (proj2 (proj2 Ec))]].
  destruct (shuffle (e_rng env (r_checks r1)) (r_data r1)) as [d'|z|] eqn:Es; cbn [bind andThen] in H; try discriminate H. apply shuffle_same in Es.
  destruct (epochLoop (S fuel) env w b _) as [[[early r3]|z|]|] eqn:Ee; try discriminate H.
  apply told_epoch in Ee. 2: { eapply (told_event r1 _ Shuffled); [exact Ec|reflexivity|exact Es|split; reflexivity]. }
  destruct early; [injection H as <-; exact Ee|].
  match type of H with andThen ?t _ = _ => destruct t as [r4|y|] eqn:Ev; cbn [andThen] in H; [|discriminate H|discriminate H] end.
  apply IH in H; [exact H|]. apply told_upd; [|split; reflexivity]. destruct (_ && _); [exact (told_evaluate _ _ _ Ev Ee)|injection Ev as <-; exact Ee].
Qed.
End T.
Lemma train_told ts p sep prec fuel env w b f s d r : holds d ts p sep prec -> train fuel env w b f s d = Some (Ok r) -> told_log ts p sep prec s r.
Proof.
  intros HD H. unfold train in H. destruct (validData s d b) as [u|z|] eqn:V; try discriminate. destruct (negb (sn_idle s)); [discriminate|]. unfold trainSync in H.
  set (r0 := upd (mkRun _ _ _ _) _) in H.
  assert (T0 : told ts p sep prec s r0). { split; [exact HD|]. split; [split; reflexivity|]. intros before s1 after H0. cbn in H0. destruct before; discriminate. }
  match type of H with andThen ?t _ = _ => destruct t as [r1|y|] eqn:Ev; cbn [andThen] in H; [|discriminate H|discriminate H] end.
  apply (told_training ts p sep prec s) in H; [exact H|]. apply told_upd; [|split; reflexivity]. destruct (0 <? f)%Z; [exact (told_evaluate _ _ _ _ _ _ _ _ Ev T0)|injection Ev as <-; exact T0].
Qed.

(* ---- the data sets of the user ---- *)
Lemma nth_combine {A B} (l : list A) (m : list B) i a b : nth_error (combine l m) i = Some (a, b) -> nth_error l i = Some a /\ nth_error m i = Some b.
Proof. revert m i. induction l as [|x l IH]; intros [|y m] [|i] H; cbn in *; try discriminate; [injection H as -> ->; auto|now apply IH]. Qed.
Lemma seq_at n i k : nth_error (seq 0 n) i = Some k -> k = i.
Proof. intros H. assert (i < n) by (rewrite <- (seq_length n 0); apply nth_error_Some; congruence). rewrite (nth_error_nth' _ 0), seq_nth in H by (rewrite ?seq_length; lia). now injection H as <-. Qed.
Lemma rows_concat (seqs : list (list (list F))) : map fst (flat_map sequence_rows seqs) = concat seqs.
Proof.
  induction seqs as [|v l IH]; [reflexivity|]. cbn [flat_map concat]. rewrite map_app, IH. f_equal. unfold sequence_rows. rewrite map_map. cbn [fst].
  generalize (eq_refl (List.length (seq 0 (List.length v)))). rewrite seq_length at 1. generalize (seq 0 (List.length v)) as q. induction v as [|x v IHv]; intros [|i q] E; cbn in *; try discriminate; auto. f_equal. apply IHv. lia.
Qed.
Lemma sequence_row_at (seqs : list (list (list F))) : forall i x f c, nth_error (flat_map sequence_rows seqs) i = Some (x, (f, c)) ->
  exists s v k, nth_error seqs s = Some v /\ k < List.length v /\ i = position_of seqs s k /\ f = (k =? 0) /\ c = (S k =? List.length v).
Proof.
  induction seqs as [|v l IH]; intros i x f c H; [destruct i; discriminate|]. cbn [flat_map] in H.
  assert (L : List.length (sequence_rows v) = List.length v) by (unfold sequence_rows; rewrite map_length, combine_length, seq_length; lia).
  destruct (Nat.lt_ge_cases i (List.length v)) as [Hi|Hi].
  - rewrite nth_error_app1 in H by lia. unfold sequence_rows in H. rewrite nth_error_map in H. destruct (nth_error (combine (seq 0 (List.length v)) v) i) as [[k y]|] eqn:E; [|discriminate]. cbn in H. injection H as -> <- <-.
    apply nth_combine in E as [E1 E2]. apply seq_at in E1. subst k. exists 0, v, i. split; [reflexivity|]. split; [exact Hi|]. split; [reflexivity|auto].
  - rewrite nth_error_app2 in H by lia. rewrite L in H. apply IH in H as (s & w & k & A & B & C & D & E). exists (S s), w, k. split; [exact A|]. split; [exact B|]. split; [|auto].
    unfold position_of in *. cbn [firstn concat]. rewrite app_length. lia.
Qed.
Lemma tests_holds d ts p sep prec : tests d ts p sep prec -> holds d ts p sep prec.
Proof.
  induction 1 as [p trIn trLab teIn teLab rec d H L|p trIn trLab teIn teLab rec d H L|p trIn trLab teIn teLab rec d H F1 F2 L|d ts p sep prec v d' _ IH H|d ts p sep prec v d' _ IH H|d ts p sep prec o d' _ IH H|d ts p sep prec fuel env w b f s r _ IH H].
  - unfold mkData4, initialize in H. destruct (rev trIn) eqn:E1; [discriminate|]. destruct (rev trLab) eqn:E2; [discriminate|].
    cbn [bind] in H. apply bind_Ok_inv in H as (e & _ & H). destruct (negb (e =? 0)); [discriminate|]. injection H as <-. split; [reflexivity|]. split; [reflexivity|]. split; [reflexivity|]. cbn [d_test s_size].
    split. { unfold plain_trials. rewrite map_length, combine_length. lia. }
    intros i t Hi. unfold plain_trials in Hi. rewrite nth_error_map in Hi. destruct (nth_error (combine teIn teLab) i) as [[x y]|] eqn:Ei; [|discriminate]. injection Hi as <-. apply nth_combine in Ei as [Ex Ey].
    unfold trial_at, getTestingData, isFirstTesting, needToEvaluate, lget. cbn. rewrite Ex. auto.
  - unfold mkData4, initialize in H. destruct (rev trIn) eqn:E1; [discriminate|]. destruct (rev trLab) eqn:E2; [discriminate|].
    apply bind_Ok_inv in H as ([[t tr'] te'] & Hc & H). unfold series_ctor in Hc. destruct (rec <? 1)%Z; [discriminate|].
    apply bind_Ok_inv in Hc as (first & Hfst & Hc). injection Hc as <- <- <-. apply bind_Ok_inv in H as (e & _ & H). destruct (negb (e =? 0)); [discriminate|]. injection H as <-.
    split; [reflexivity|]. split; [reflexivity|]. split; [reflexivity|]. cbn [d_test s_size]. split. { unfold series_trials. rewrite map_length, !combine_length, seq_length. lia. }
    intros i t Hi. unfold series_trials in Hi. rewrite nth_error_map in Hi. destruct (nth_error (combine (seq 0 (List.length teIn)) (combine teIn teLab)) i) as [[k [x y]]|] eqn:Ei; [|discriminate]. injection Hi as <-.
    apply nth_combine in Ei as [Ek Ei]. apply nth_combine in Ei as [Ex Ey]. apply seq_at in Ek. subst k. unfold trial_at, getTestingData, isFirstTesting, needToEvaluate, lget. cbn. rewrite Ex. auto.
  - unfold mkData4_3D in H. destruct (flatten_set_train trIn F1) as (fi & ev & Q1 & _). destruct (flatten_set_test teIn F2) as (fi2 & ev2 & Q2 & (_ & _ & _ & _ & Hflags & _)).
    rewrite Q1 in H. cbn [bind] in H. rewrite Q2 in H. cbn [bind] in H. unfold initialize in H. cbn [s_inputs s_nseq s_first s_train s_eval s_shuffled] in H.
    destruct (rev (concat trIn)) eqn:V1; [discriminate|]. destruct (rev trLab) eqn:V2; [discriminate|]. rewrite seq_ctor_nil in H. cbn [bind] in H.
    apply bind_Ok_inv in H as (e & _ & H). destruct (negb (e =? 0)); [discriminate|]. injection H as <-. split; [reflexivity|]. split; [reflexivity|]. split; [reflexivity|]. cbn [d_test s_size].
    assert (LR : List.length (flat_map sequence_rows teIn) = List.length teLab) by (rewrite <- L, <- (rows_concat teIn), map_length; reflexivity).
    split. { unfold sequence_trials. rewrite map_length, combine_length. lia. }
    intros i t Hi. unfold sequence_trials in Hi. rewrite nth_error_map in Hi. destruct (nth_error (combine (flat_map sequence_rows teIn) teLab) i) as [[[x [fr c]] y]|] eqn:Ei; [|discriminate]. injection Hi as <-.
    apply nth_combine in Ei as [Ex Ey]. pose proof (f_equal (option_map fst) Ex) as Ex'. rewrite <- nth_error_map, rows_concat in Ex'. cbn in Ex'.
    apply sequence_row_at in Ex as (s & v & k & A & B & C & -> & ->). destruct (Hflags s v k A B) as [G1 G2]. rewrite <- C in G1, G2.
    unfold trial_at, getTestingData, isFirstTesting, needToEvaluate, lget. cbn. rewrite Ex', G1, G2. auto.
  - unfold setSeparator in H. destruct (negb _); [|discriminate]. injection H as <-. destruct IH as (B1 & B2 & B3 & B4 & B5). split; [exact B1|]. split; [reflexivity|]. split; [exact B3|]. split; [exact B4|exact B5].
  - unfold setPrecision in H. destruct (isRegression _); [|discriminate]. injection H as <-. destruct IH as (B1 & B2 & B3 & B4 & B5). split; [exact B1|]. split; [exact B2|]. split; [reflexivity|]. split; [exact B4|exact B5].
  - eapply holds_same; [|exact IH]. destruct o; cbn [run_op] in H; [now apply shuffle_same in H|now apply unshuffle_same in H].
  - apply (train_told ts p sep prec) in H as (H & _); [exact H|exact IH].
Qed.
End P.
