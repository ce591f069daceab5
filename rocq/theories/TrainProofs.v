(* Proofs about the training loop. *)
From Verif Require Import Base Num NumOrder ToolsModel NeuronModel LayerModel NetModel StatModel WaitModel WaitProofs DataModel TrainModel TrainSpec.
From Verif Require Import FactoryModel FactorySpec HistProofs PureSpec PureProps.
Local Open Scope outcome_scope.
Local Open Scope nat_scope.

Section P.
Context {N : Num}.
Implicit Types (r : Run) (s : Snn) (env : Env) (w : Wait).

Lemma marks_app (a b : list event) : marks (a ++ b) = marks a ++ marks b.
Proof. unfold marks. apply flat_map_app. Qed.

(* what every part of a training leaves alone *)
Definition keeps (s s' : Snn) : Prop :=
  sn_epoch s' = sn_epoch s /\ sn_ntrain s' = sn_ntrain s /\ sn_auto s' = sn_auto s /\ sn_path s' = sn_path s /\
  (nn_nan (sn_net s) = true -> nn_nan (sn_net s') = true) /\
  (nn_nan (sn_net s') = false -> sn_want s' = sn_want s /\ sn_idle s' = sn_idle s).
Lemma keeps_refl s : keeps s s. Proof. unfold keeps. auto 10. Qed.
Lemma keeps_trans a b c : keeps a b -> keeps b c -> keeps a c.
Proof.
  unfold keeps. intros (A1 & A2 & A3 & A4 & A5 & A6) (B1 & B2 & B3 & B4 & B5 & B6). do 5 (split; [congruence || auto|]).
  intros H. destruct (B6 H) as [C1 C2]. destruct (nn_nan (sn_net b)) eqn:E; [now rewrite B5 in H|]. destruct (A6 eq_refl). split; congruence.
Qed.

Lemma evaluateOnce_keeps s d s' : evaluateOnce s d = Ok s' -> keeps s s' /\ sn_index s' = sn_index s.
Proof.
  unfold evaluateOnce. intros H. destruct (d_problem d); binds H; injection H as <-; cbn; (split; [|reflexivity]);
    match goal with H : net_output _ _ _ = Ok (_, ?n) |- _ => destruct (net_output_w _ _ _ _ _ H) as (_ & _ & E & _) end;
    unfold keeps; cbn; rewrite E; do 4 (split; [reflexivity|]); (split; [intros ->; reflexivity|auto]).
Qed.
Lemma evaluateTurn_keeps s d s' : evaluateTurn s d = Ok s' -> keeps s s' /\ sn_index s' = sn_index s.
Proof.
  unfold evaluateTurn. intros H. apply bind_Ok_inv in H as (need & _ & H). destruct need; [now apply evaluateOnce_keeps in H|].
  binds H; injection H as <-; cbn; (split; [|reflexivity]).
  match goal with H : net_output _ _ _ = Ok (_, ?n) |- _ => destruct (net_output_w _ _ _ _ _ H) as (_ & _ & E & _) end.
  unfold keeps; cbn; rewrite E; do 4 (split; [reflexivity|]); (split; [intros ->; reflexivity|auto]).
Qed.
Lemma evaluateLoop_keeps nan rest : forall s d stop s', evaluateLoop nan rest s d = Ok (stop, s') ->
  keeps s s' /\ (stop = true -> nn_nan (sn_net s') = true).
Proof.
  induction rest as [|rest IH]; intros s d stop s' H; cbn in H; [injection H as <- <-; split; [apply keeps_refl|discriminate]|].
  destruct (nn_nan (sn_net s)) eqn:E.
  - injection H as <- <-. cbn. split; [|auto]. unfold keeps. cbn. rewrite E. do 4 (split; [reflexivity|]). split; [auto|discriminate].
  - apply bind_Ok_inv in H as (s1 & H1 & H). apply evaluateTurn_keeps in H1 as (K & _). apply IH in H as (K2 & Hs).
    split; [|exact Hs]. eapply keeps_trans; [exact K|]. unfold keeps in *. cbn in *. exact K2.
Qed.
Lemma evaluate_keeps env r r' : evaluate env r = Ok r' ->
  keeps (r_snn r) (r_snn r') /\ r_data r' = r_data r /\ r_checks r' = r_checks r /\
  exists s, (r_log r' = r_log r ++ [Evaluated s] \/ r_log r' = r_log r ++ [Evaluated s; Saved (sn_path s) s]) /\ r_snn r' = s.
Proof.
  unfold evaluate. intros H. apply bind_Ok_inv in H as ((stop, s) & H1 & H). apply evaluateLoop_keeps in H1 as (K & Hs). cbn in K.
  destruct stop.
  - injection H as <-. cbn. split; [exact K|]. repeat (split; [reflexivity|]). eauto.
  - destruct (sn_auto (with_stats s (stopTesting (sn_stats s))) && st_rateBetter (sn_stats (with_stats s (stopTesting (sn_stats s))))); injection H as <-; cbn.
    + split; [exact K|]. repeat (split; [reflexivity|]).
      exists (with_stats s (stopTesting (sn_stats s))). cbn. split; [right|reflexivity].
      rewrite <- app_assoc. reflexivity.
    + split; [exact K|]. repeat (split; [reflexivity|]). eauto.
Qed.
Lemma evaluate_marks env r r' : evaluate env r = Ok r' -> marks (r_log r') = marks (r_log r) ++ [MEvaluate].
Proof. intros H. apply evaluate_keeps in H as (_ & _ & _ & s & [E|E] & _); rewrite E, marks_app; reflexivity. Qed.

(* the sticky flag, forwards *)
Lemma trainOnce_nan rand n x d b n' : nn_nan n = true -> trainOnce rand n x d b = Ok n' -> nn_nan n' = true.
Proof. intros A B. now destruct (train_nan _ _ _ _ _ _ A B). Qed.

Lemma trainingTurn_keeps env b r r' : trainingTurn env b r = Ok r' ->
  keeps (r_snn r) (r_snn r') /\ sn_index (r_snn r') = sn_index (r_snn r) /\ sn_stats (r_snn r') = sn_stats (r_snn r) /\ r_checks r' = r_checks r /\
  exists learned, needToLearn (r_data r) (sn_index (r_snn r)) = Ok learned /\ exists x y, r_log r' = r_log r ++ [Stepped (sn_index (r_snn r)) learned x y (r_snn r')].
Proof.
  unfold trainingTurn. intros H. apply bind_Ok_inv in H as (need & Hn & H). rewrite Hn. destruct need; binds H; injection H as <-; cbn.
  - split; [|eauto 10]. unfold keeps. cbn. do 4 (split; [reflexivity|]). split; [|auto].
    intros E. match goal with H : trainOnce _ _ _ _ _ = Ok _ |- _ => exact (trainOnce_nan _ _ _ _ _ _ E H) end.
  - split; [|eauto 10]. match goal with H : net_outputForTraining _ _ _ _ = Ok (_, ?n) |- _ => destruct (net_training_w _ _ _ _ _ _ H) as (_ & _ & E & _) end.
    unfold keeps; cbn; rewrite E; do 4 (split; [reflexivity|]); (split; [intros ->; reflexivity|auto]).
Qed.

Lemma steps_more b n k : 0 < b -> (k * b + b <=? n) = (k <? n / b).
Proof.
  intros Hb. destruct (Nat.leb_spec (k * b + b) n) as [H|H]; symmetry.
  - apply Nat.ltb_lt. enough (S k <= n / b) by lia. apply Nat.div_le_lower_bound; lia.
  - apply Nat.ltb_ge. enough (n / b < S k) by lia. apply Nat.div_lt_upper_bound; lia.
Qed.
Definition steps (b k m : nat) : list mark := map (fun j => MStep (j * b)) (seq k (m - k)).

(* the criterion "epoch number n reached" *)
Definition epochs_only (w : Wait) (n : Z) : Prop := forall el ep acc mae, (0 < ep)%Z -> isOver w el ep acc mae = (n <? ep)%Z.
Definition ticked (r : Run) : Run := mkRun (r_snn r) (r_data r) (S (r_checks r)) (r_log r).
Lemma continue_un n env w r : undisturbed env -> epochs_only w n -> (0 < sn_epoch (r_snn r))%Z ->
  continueTraining env w r = (negb (sn_want (r_snn r)) && (sn_epoch (r_snn r) <=? n)%Z && negb (hasNan r), ticked r).
Proof. intros Hu Hw He. unfold continueTraining. rewrite Hu, Hw by exact He. rewrite <- Z.leb_antisym. reflexivity. Qed.
Lemma ticked_eqs r : r_snn (ticked r) = r_snn r /\ r_log (ticked r) = r_log r /\ r_data (ticked r) = r_data r. Proof. now destruct r. Qed.

Lemma epoch_exact n env w b : 0 < b -> undisturbed env -> epochs_only w n ->
  forall fuel r k early r', sn_index (r_snn r) = k * b -> k <= sn_ntrain (r_snn r) / b -> (0 < sn_epoch (r_snn r) <= n)%Z -> sn_want (r_snn r) = false ->
  epochLoop fuel env w b r = Some (Ok (early, r')) -> hasNan r' = false ->
  early = false /\ keeps (r_snn r) (r_snn r') /\ marks (r_log r') = marks (r_log r) ++ steps b k (sn_ntrain (r_snn r) / b).
Proof.
  intros Hb Hu Hw. induction fuel as [|fuel IH]; intros r k early r' Hi Hk He Hwant H Hnan; [discriminate|].
  cbn [epochLoop] in H. rewrite Hi, steps_more in H by exact Hb.
  destruct (Nat.ltb_spec k (sn_ntrain (r_snn r) / b)) as [Hl|Hl].
  - rewrite (continue_un n) in H by (auto || lia). rewrite Hwant in H. replace (sn_epoch (r_snn r) <=? n)%Z with true in H by (symmetry; apply Z.leb_le; lia).
    cbn [negb andb] in H. destruct (hasNan r) eqn:Enan; cbn [negb] in H.
    + injection H as <- <-. unfold hasNan in *. cbn in Hnan. congruence.
    + change (nn_nan (sn_net (r_snn (ticked r)))) with (hasNan r) in H. rewrite Enan in H.
      destruct (trainingTurn env b (ticked r)) as [r1|m|] eqn:Et; [|discriminate H|discriminate H].
      apply trainingTurn_keeps in Et as (K & Ei & _ & Ec & learned & _ & xx & yy & El). cbn [ticked r_snn r_log r_checks r_data] in K, Ei, Ec, El.
      assert (Kc := K). destruct K as (K1 & K2 & K3 & K4 & K5 & K6).
      assert (Hn1 : nn_nan (sn_net (r_snn r1)) = false).
      { destruct (nn_nan (sn_net (r_snn r1))) eqn:E1; [|reflexivity]. exfalso.
        destruct fuel as [|fuel]; [discriminate H|]. cbn [epochLoop] in H.
        destruct (sn_index (r_snn (upd r1 (with_index (r_snn r1) (sn_index (r_snn r1) + b)))) + b <=? sn_ntrain (r_snn (upd r1 (with_index (r_snn r1) (sn_index (r_snn r1) + b))))).
        - rewrite (continue_un n) in H by (auto || (cbn; lia)). unfold hasNan at 1 in H. cbn [upd r_snn with_index sn_net] in H. rewrite E1, andb_false_r in H.
          injection H as <- <-. unfold hasNan in Hnan. cbn in Hnan. congruence.
        - injection H as <- <-. unfold hasNan in Hnan. cbn in Hnan. congruence. }
      destruct (K6 Hn1) as (W1 & _).
      apply (IH _ (S k)) in H; cbn [upd r_snn r_log r_data with_index sn_index sn_ntrain sn_epoch sn_want sn_net] in *; try (rewrite ?Ei, ?K1, ?K2; lia || congruence).
      destruct H as (E1 & E2 & E3). split; [exact E1|]. split.
      * eapply keeps_trans; [exact Kc|]. exact E2.
      * rewrite E3, El, marks_app, <- app_assoc. f_equal. rewrite K2. cbn [marks flat_map mark_of app].
        unfold steps. replace (sn_ntrain (r_snn r) / b - k) with (S (sn_ntrain (r_snn r) / b - S k)) by lia. cbn [seq map]. rewrite Hi. reflexivity.
  - injection H as <- <-. split; [reflexivity|]. split; [apply keeps_refl|].
    unfold steps. replace (sn_ntrain (r_snn r) / b - k) with 0 by lia. cbn. now rewrite app_nil_r.
Qed.

(* once the flag is raised it stays raised, whatever happens *)
Lemma continue_keeps_nan env w r go r' : continueTraining env w r = (go, r') -> hasNan r' = hasNan r /\ r_log r' = r_log r /\ r_data r' = r_data r /\
  sn_index (r_snn r') = sn_index (r_snn r) /\ sn_ntrain (r_snn r') = sn_ntrain (r_snn r) /\ sn_epoch (r_snn r') = sn_epoch (r_snn r) /\ sn_idle (r_snn r') = sn_idle (r_snn r) /\
  sn_stats (r_snn r') = sn_stats (r_snn r) /\ sn_net (r_snn r') = sn_net (r_snn r) /\ sn_auto (r_snn r') = sn_auto (r_snn r) /\ sn_path (r_snn r') = sn_path (r_snn r) /\
  (go = true -> hasNan r = false /\ sn_want (r_snn r) = false /\ isOver w (e_clock env (r_checks r)) (sn_epoch (r_snn r)) (st_rate (sn_stats (r_snn r))) (st_mae (sn_stats (r_snn r))) = false).
Proof.
  unfold continueTraining, hasNan. destruct (e_stop env (r_checks r)); intros E; injection E as <- <-; cbn; repeat (split; [reflexivity|]);
    intros G; repeat (apply andb_true_iff in G as (G & ?)); rewrite ?negb_true_iff in *; try discriminate; auto.
Qed.
Lemma epoch_nan env w b : forall fuel r early r', epochLoop fuel env w b r = Some (Ok (early, r')) -> hasNan r = true -> hasNan r' = true.
Proof.
  induction fuel as [|fuel IH]; intros r early r' H Hn; [discriminate|]. cbn [epochLoop] in H.
  destruct (_ <=? _); [|injection H as <- <-; exact Hn].
  destruct (continueTraining env w r) as [go r1] eqn:Ec. apply continue_keeps_nan in Ec as (E1 & _ & _ & _ & _ & _ & _ & _ & _ & _ & _ & E2).
  destruct go; [destruct (E2 eq_refl); congruence|]. injection H as <- <-. congruence.
Qed.
Lemma training_nan env w b f : forall fuel r r', trainingLoop fuel env w b f r = Some (Ok r') -> hasNan r = true -> hasNan r' = true.
Proof.
  induction fuel as [|fuel IH]; intros r r' H Hn; [discriminate|]. cbn [trainingLoop] in H.
  destruct (continueTraining env w r) as [go r1] eqn:Ec. apply continue_keeps_nan in Ec as (E1 & _ & _ & _ & _ & _ & _ & _ & _ & _ & _ & E2).
  destruct go; [destruct (E2 eq_refl); congruence|]. injection H as <-. unfold hasNan in *. cbn. congruence.
Qed.

Lemma training_exact n env w b f : 0 < b -> undisturbed env -> epochs_only w (Z.of_nat n) ->
  forall fuel r e r', sn_epoch (r_snn r) = Z.of_nat e -> 1 <= e <= n + 1 -> sn_want (r_snn r) = false ->
  trainingLoop fuel env w b f r = Some (Ok r') -> hasNan r' = false ->
  marks (r_log r') = marks (r_log r) ++ flat_map (one_epoch (sn_ntrain (r_snn r)) b f) (seq e (n + 1 - e)) /\
  sn_epoch (r_snn r') = Z.of_nat (n + 1) /\ sn_index (r_snn r') = 0 /\ sn_want (r_snn r') = false /\ sn_idle (r_snn r') = true.
Proof.
  intros Hb Hu Hw. induction fuel as [|fuel IH]; intros r e r' He Hr Hwant H Hnan; [discriminate|].
  assert (Hn0 : hasNan r = false). { destruct (hasNan r) eqn:E; [|reflexivity]. now rewrite (training_nan _ _ _ _ _ _ _ H E) in Hnan. }
  cbn [trainingLoop] in H. rewrite (continue_un (Z.of_nat n)) in H by (auto || lia). rewrite Hwant, Hn0, He in H.
  destruct (Nat.eq_dec e (n + 1)) as [->|Hne].
  - replace (Z.of_nat (n + 1) <=? Z.of_nat n)%Z with false in H by (symmetry; apply Z.leb_gt; lia). cbn [negb andb] in H. injection H as <-.
    cbn. rewrite Nat.sub_diag. cbn. rewrite app_nil_r. auto.
  - replace (Z.of_nat e <=? Z.of_nat n)%Z with true in H by (symmetry; apply Z.leb_le; lia). cbn [negb andb] in H.
    destruct (shuffle (e_rng env (r_checks (ticked r))) (r_data (ticked r))) as [d|m|] eqn:Es; [|discriminate H|discriminate H]. cbn [bind andThen] in H.
    set (r1 := mkRun _ d _ _) in H. destruct (epochLoop (S fuel) env w b r1) as [[[early r2]|m|]|] eqn:El; try discriminate H.
    assert (Hr2 : hasNan r2 = false).
    { destruct (hasNan r2) eqn:E; [|reflexivity]. exfalso. destruct early; [injection H as <-; congruence|].
      match type of H with andThen ?t _ = _ => destruct t as [r3|m|] eqn:Ev; [|discriminate H|discriminate H] end. cbn [andThen] in H.
      apply training_nan in H; [congruence|]. unfold hasNan in *. cbn. destruct (_ && _); [|injection Ev as <-; exact E].
      apply evaluate_keeps in Ev as ((_ & _ & _ & _ & Hk & _) & _). now apply Hk. }
    destruct (epoch_exact (Z.of_nat n) env w b Hb Hu Hw (S fuel) r1 0 early r2) as (-> & K & Em); [reflexivity|lia|cbn; lia|exact Hwant|exact El|exact Hr2|].
    destruct K as (K1 & K2 & _ & _ & _ & K6). destruct (K6 Hr2) as (K7 & _). cbn in K1, K2, K7. change (r_log r1) with (r_log r ++ [Shuffled]) in Em. change (sn_ntrain (r_snn r1)) with (sn_ntrain (r_snn r)) in Em.
    match type of H with andThen ?t _ = _ => destruct t as [r3|m|] eqn:Ev; [|discriminate H|discriminate H] end. cbn [andThen] in H.
    assert (Ev3 : hasNan r3 = false -> marks (r_log r3) = marks (r_log r2) ++ (if (0 <? f)%Z && (Z.of_nat e mod f =? 0)%Z then [MEvaluate] else []) /\
       sn_epoch (r_snn r3) = Z.of_nat e /\ sn_ntrain (r_snn r3) = sn_ntrain (r_snn r) /\ sn_want (r_snn r3) = false).
    { intros Hr3. destruct (0 <? f)%Z eqn:Ef; cbn [andb] in Ev |- *; [apply Z.ltb_lt in Ef|].
      - rewrite K1, He, Z.rem_mod_nonneg in Ev by lia. destruct (Z.of_nat e mod f =? 0)%Z.
        + assert (Ek := evaluate_keeps _ _ _ Ev). destruct Ek as ((k1 & k2 & _ & _ & _ & k6) & _). destruct (k6 Hr3). split; [now apply evaluate_marks in Ev|]. repeat split; congruence.
        + injection Ev as <-. rewrite app_nil_r. repeat split; congruence.
      - injection Ev as <-. rewrite app_nil_r. repeat split; congruence. }
    assert (Hr3 : hasNan r3 = false). { destruct (hasNan r3) eqn:E; [|reflexivity]. apply training_nan in H; [congruence|exact E]. }
    destruct (Ev3 Hr3) as (M3 & P3 & N3 & W3).
    apply (IH _ (S e)) in H; [|cbn; lia|lia|exact W3|exact Hnan]. cbn [upd r_log r_snn with_epoch sn_ntrain] in H. destruct H as (H & Hrest). split; [|exact Hrest].
    rewrite H, M3, Em, N3, marks_app. replace (n + 1 - e) with (S (n + 1 - S e)) by lia. cbn [seq flat_map]. rewrite <- !app_assoc. f_equal.
    unfold one_epoch, positions, steps. cbn [marks flat_map mark_of app]. f_equal. rewrite Nat.sub_0_r, map_map, <- !app_assoc. reflexivity.
Qed.

Lemma lit_ep_only (ok : F -> Prop) n : order_laws N ok -> (0 <= n <= int_max)%Z -> epochs_only (lit_ep n) n.
Proof.
  intros OL Hn el ep acc mae He. rewrite isOver_any by discriminate. cbn [lit_ep w_epochs w_accuracy w_mae w_duration].
  rewrite (cA_absent OL), (cM_absent OL), cD_absent; try (apply (ok_m1 OL)); try (apply (m1_neg OL)).
  unfold cE. rewrite to_int_id by (unfold int_min; lia). replace (0 <? ep)%Z with true by (symmetry; apply Z.ltb_lt; lia).
  replace (0 <=? n)%Z with true by (symmetry; apply Z.leb_le; lia). now destruct (n <? ep)%Z.
Qed.

Lemma validData_Ok s d b u : validData s d b = Ok u -> (1 <= b <= Z.of_nat (s_size (d_train d)))%Z /\ net_numberOfOutputs (sn_net s) = Ok (d_numberOfLabels d) /\ net_numberOfInputs (sn_net s) = Ok (d_sizeOfData d) /\
  (d_nature d <> nonTemporal -> b = 1%Z).
Proof.
  unfold validData. intros H. apply bind_Ok_inv in H as (o & Ho & H). apply bind_Ok_inv in H as (i & Hi & H).
  destruct (negb (d_numberOfLabels d =? o) || negb (d_sizeOfData d =? i)) eqn:E1; [discriminate|].
  apply orb_false_iff in E1 as (A & B). apply negb_false_iff, Nat.eqb_eq in A. apply negb_false_iff, Nat.eqb_eq in B.
  destruct (negb (b =? 1)%Z && _) eqn:E2; [discriminate|]. destruct (b <? 1)%Z eqn:E3; [discriminate|]. destruct (_ <? b)%Z eqn:E4; [discriminate|].
  apply Z.ltb_ge in E3, E4. split; [lia|]. split; [congruence|]. split; [congruence|]. intros Hn.
  destruct (d_nature d); [congruence| |]; rewrite andb_true_r in E2; apply negb_false_iff, Z.eqb_eq in E2; exact E2.
Qed.

Lemma train_exact_l (ok : F -> Prop) : order_laws N ok -> forall env n f fuel (b : Z) s d r,
  undisturbed env -> (0 <= Z.of_nat n < int_max)%Z ->
  train fuel env (lit_ep (Z.of_nat n)) b f s d = Some (Ok r) -> hasNan r = false ->
  marks (r_log r) = expected (s_size (d_train d)) (Z.to_nat b) n f /\
  sn_epoch (r_snn r) = Z.of_nat (n + 1) /\ sn_index (r_snn r) = 0 /\ sn_want (r_snn r) = false /\ sn_idle (r_snn r) = true.
Proof.
  intros OL env n f fuel b s d r Hu Hn H Hnan. unfold train in H. destruct (validData s d b) as [u|m|] eqn:Ev; try discriminate.
  apply validData_Ok in Ev as (Hb & _). destruct (negb (sn_idle s)); [discriminate|]. unfold trainSync in H.
  set (r0 := upd (mkRun _ _ _ _) _) in H.
  match type of H with andThen ?t _ = _ => destruct t as [r1|m|] eqn:E1; [|discriminate H|discriminate H] end. cbn [andThen] in H.
  assert (Hr1 : hasNan r1 = false). { destruct (hasNan r1) eqn:E; [|reflexivity]. apply training_nan in H; [congruence|exact E]. }
  assert (E : marks (r_log r1) = (if (0 <? f)%Z then [MEvaluate] else []) /\ sn_ntrain (r_snn r1) = s_size (d_train d) /\ sn_want (r_snn r1) = false).
  { destruct (0 <? f)%Z; [|injection E1 as <-; auto]. assert (Ek := evaluate_keeps _ _ _ E1). destruct Ek as ((_ & k2 & _ & _ & _ & k6) & _).
    destruct (k6 Hr1) as (k7 & _). apply evaluate_marks in E1. rewrite E1, k2, k7. auto. }
  destruct E as (M1 & N1 & W1).
  assert (Hw : epochs_only (lit_ep (Z.of_nat n)) (Z.of_nat n)) by (apply (lit_ep_only ok); [exact OL|lia]). assert (Hb' : 0 < Z.to_nat b) by lia.
  apply (training_exact n env _ (Z.to_nat b) f Hb' Hu Hw fuel _ 1) in H; [|reflexivity|lia|exact W1|exact Hnan].
  cbn [upd r_log r_snn with_epoch sn_ntrain] in H. destruct H as (H & Hrest). split; [|exact Hrest].
  rewrite H, M1, N1. replace (n + 1 - 1) with n by lia. reflexivity.
Qed.
End P.
