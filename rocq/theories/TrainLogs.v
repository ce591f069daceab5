(* Proofs for C21 and C42: what the log of a training looks like. *)
From Verif Require Import Base Num NumOrder NeuronModel LayerModel NetModel StatModel WaitModel WaitProofs DataModel TrainModel TrainSpec TrainProofs TrainSafe.
From Verif Require Import FactoryModel FactorySpec PureSpec PureProps.
Local Open Scope outcome_scope.
Local Open Scope nat_scope.

Section P.
Context {N : Num}.
Implicit Types (r : Run) (s : Snn) (env : Env) (w : Wait) (d : Data).

(* ---- C21 ---- *)
Definition raised (log : list event) : Prop := Exists raised_by log.
Definition quiet (log : list event) : Prop := forall l1 e l2, log = l1 ++ e :: l2 -> raised_by e -> Forall (fun e => ~ is_learning e) l2.
Lemma quiet_snoc log e : quiet log -> (is_learning e -> ~ raised log) -> quiet (log ++ [e]).
Proof.
  intros Q H l1 x l2 E Hx. destruct (exists_last (l := x :: l2)) as (u & z & Eu); [discriminate|].
  rewrite Eu, app_assoc in E. apply app_inj_tail in E as (E & <-). destruct u as [|y u].
  - cbn in Eu. injection Eu as -> ->. constructor.
  - cbn in Eu. injection Eu as <- ->. apply Forall_app. split; [now apply (Q l1 x u)|]. constructor; [|constructor]. intros Hl. apply (H Hl).
    unfold raised. rewrite E. apply Exists_exists. exists x. split; [apply in_app_iff; right; now left|exact Hx].
Qed.
Definition Q r : Prop := quiet (r_log r) /\ (raised (r_log r) -> hasNan r = true).
Lemma evaluate_Q env r r' : evaluate env r = Ok r' -> Q r -> Q r'.
Proof.
  intros H (Q1 & Q2). apply evaluate_keeps in H as ((_ & _ & _ & _ & K & _) & _ & _ & s & El & <-). unfold Q, hasNan in *. destruct El as [->| ->].
  - split; [apply quiet_snoc; [exact Q1|cbn; tauto]|]. intros R. apply Exists_app in R as [R|R]; [auto|]. inversion R as [? ? A|? ? A]; subst; [exact A|inversion A].
  - split.
    + change (r_log r ++ [Evaluated (r_snn r'); Saved (sn_path (r_snn r')) (r_snn r')]) with (r_log r ++ [Evaluated (r_snn r')] ++ [Saved (sn_path (r_snn r')) (r_snn r')]).
      rewrite app_assoc. apply quiet_snoc; [apply quiet_snoc; [exact Q1|cbn; tauto]|cbn; tauto].
    + intros R. apply Exists_app in R as [R|R]; [auto|]. inversion R as [? ? A|? ? A]; subst; [exact A|]. inversion A as [? ? B|? ? B]; subst; [exact B|inversion B].
Qed.
Lemma same_Q r r' : r_log r' = r_log r -> hasNan r' = hasNan r -> Q r -> Q r'.
Proof. unfold Q. now intros -> ->. Qed.
Lemma epoch_Q env w b : forall fuel r early r', epochLoop fuel env w b r = Some (Ok (early, r')) -> Q r -> Q r'.
Proof.
  induction fuel as [|fuel IH]; intros r early r' H HQ; [discriminate|]. cbn [epochLoop] in H.
  destruct (_ <=? _); [|injection H as <- <-; exact HQ].
  destruct (continueTraining env w r) as [go r1] eqn:Ec. apply continue_keeps_nan in Ec as (En & El & _).
  pose proof (same_Q r r1 El En HQ) as Q1. destruct go; [|injection H as <- <-; exact Q1].
  destruct (nn_nan (sn_net (r_snn r1))) eqn:E0; [injection H as <- <-; exact Q1|].
  destruct (trainingTurn env b r1) as [r2|x|] eqn:Et; [|discriminate H|discriminate H]. apply IH in H; [exact H|].
  apply trainingTurn_keeps in Et as ((_ & _ & _ & _ & K & _) & _ & _ & _ & lrn & _ & xx & yy & El2). destruct Q1 as (Qa & Qb).
  assert (HR : ~ raised (r_log r1)) by (intros R; specialize (Qb R); unfold hasNan in Qb; congruence).
  apply (same_Q r2); [reflexivity|reflexivity|]. split.
  - rewrite El2. apply quiet_snoc; [exact Qa|auto].
  - rewrite El2. intros R. apply Exists_app in R as [R|R]; [contradiction|]. inversion R as [? ? A|? ? A]; subst; [exact A|inversion A].
Qed.
Lemma training_Q env w b f : forall fuel r r', trainingLoop fuel env w b f r = Some (Ok r') -> Q r -> Q r'.
Proof.
  induction fuel as [|fuel IH]; intros r r' H HQ; [discriminate|]. cbn [trainingLoop] in H.
  destruct (continueTraining env w r) as [go r1] eqn:Ec. apply continue_keeps_nan in Ec as (En & El & _ & _ & _ & _ & _ & _ & _ & _ & _ & Hgo).
  pose proof (same_Q r r1 El En HQ) as Q1. destruct go; [|injection H as <-; exact Q1].
  destruct (Hgo eq_refl) as (Hn & _). rewrite <- En in Hn. destruct Q1 as (Qa & Qb).
  destruct (shuffle (e_rng env (r_checks r1)) (r_data r1)) as [d'|x|]; cbn [bind andThen] in H; [|discriminate H|discriminate H].
  assert (HR : ~ raised (r_log r1)) by (intros R; specialize (Qb R); congruence).
  destruct (epochLoop (S fuel) env w b _) as [[[early r3]|x|]|] eqn:Ee; try discriminate H.
  apply epoch_Q in Ee. 2: { split; cbn [r_log]; [apply quiet_snoc; [exact Qa|auto]|]. intros R. apply Exists_app in R as [R|R]; [contradiction|]. inversion R as [? ? A|? ? A]; subst; [contradiction|inversion A]. }
  destruct early; [injection H as <-; exact Ee|].
  match type of H with andThen ?t _ = _ => destruct t as [r4|y|] eqn:Ev; cbn [andThen] in H; [|discriminate H|discriminate H] end.
  apply IH in H; [exact H|]. apply (same_Q r4); [reflexivity|reflexivity|]. destruct (_ && _); [|injection Ev as <-; exact Ee]. exact (evaluate_Q _ _ _ Ev Ee).
Qed.
Lemma train_quiet fuel env w b f s d r : train fuel env w b f s d = Some (Ok r) -> quiet (r_log r) /\ (nn_nan (sn_net s) = true -> Forall (fun e => ~ is_learning e) (r_log r)).
Proof.
  intros H. unfold train in H. destruct (validData s d b); try discriminate. destruct (negb (sn_idle s)); [discriminate|]. unfold trainSync in H.
  set (r0 := upd (mkRun _ _ _ _) _) in H.
  assert (Q0 : Q r0). { split; [|inversion 1]. intros l1 e l2 E. cbn in E. now destruct l1. }
  match type of H with andThen ?t _ = _ => destruct t as [r1|y|] eqn:Ev; cbn [andThen] in H; [|discriminate H|discriminate H] end.
  split.
  - apply training_Q in H as (A & _); [exact A|]. apply (same_Q r1); [reflexivity|reflexivity|]. destruct (0 <? f)%Z; [exact (evaluate_Q _ _ _ Ev Q0)|injection Ev as <-; exact Q0].
  - intros Hn. destruct fuel as [|fuel]; [discriminate H|]. cbn [trainingLoop] in H. destruct (continueTraining env w _) as [go r2] eqn:Ec.
    apply continue_keeps_nan in Ec as (_ & El & _ & _ & _ & _ & _ & _ & _ & _ & _ & Hgo).
    assert (Hn1 : hasNan (upd r1 (with_epoch (r_snn r1) 1)) = true).
    { unfold hasNan. cbn. destruct (0 <? f)%Z; [|injection Ev as <-; exact Hn]. apply evaluate_keeps in Ev as ((_ & _ & _ & _ & K & _) & _). now apply K. }
    destruct go; [destruct (Hgo eq_refl); congruence|]. injection H as <-. cbn [upd r_log]. rewrite El. cbn [upd r_log].
    destruct (0 <? f)%Z; [|injection Ev as <-; constructor]. apply evaluate_keeps in Ev as (_ & _ & _ & s1 & [E|E] & _); rewrite E; cbn; repeat constructor; cbn; tauto.
Qed.

(* ---- C42 ---- *)
Definition extends r r' : Prop := exists l, r_log r' = r_log r ++ l.
Lemma extends_refl r : extends r r. Proof. exists []. now rewrite app_nil_r. Qed.
Lemma extends_trans a b c : extends a b -> extends b c -> extends a c.
Proof. intros (l & E) (l' & E'). exists (l ++ l'). now rewrite E', E, app_assoc. Qed.
Lemma epoch_log env w b : forall fuel r early r', epochLoop fuel env w b r = Some (Ok (early, r')) ->
  exists l, r_log r' = r_log r ++ l /\ Forall is_learning l /\ (early = false -> sn_stats (r_snn r') = sn_stats (r_snn r) /\ (hasNan r' = false -> sn_idle (r_snn r') = sn_idle (r_snn r))) /\ (early = true -> hasNan r' = true).
Proof.
  induction fuel as [|fuel IH]; intros r early r' H; [discriminate|]. cbn [epochLoop] in H.
  destruct (_ <=? _). 2: { injection H as <- <-. exists []. rewrite app_nil_r. split; [reflexivity|]. split; [constructor|]. split; [intros _; split; [reflexivity|intros _; reflexivity]|discriminate]. }
  destruct (continueTraining env w r) as [go r1] eqn:Ec. apply continue_keeps_nan in Ec as (En & El & _ & _ & _ & _ & Ei & Es & _).
  destruct go. 2: { injection H as <- <-. exists []. rewrite app_nil_r. split; [exact El|]. split; [constructor|]. split; [intros _; split; [exact Es|intros _; exact Ei]|discriminate]. }
  destruct (nn_nan (sn_net (r_snn r1))) eqn:E0. { injection H as <- <-. exists []. rewrite app_nil_r. split; [exact El|]. split; [constructor|]. split; [discriminate|intros _; exact E0]. }
  destruct (trainingTurn env b r1) as [r2|x|] eqn:Et; [|discriminate H|discriminate H].
  apply trainingTurn_keeps in Et as ((_ & _ & _ & _ & K & K2) & _ & Es2 & _ & lrn & _ & xx & yy & El2). pose proof (epoch_nan _ _ _ _ _ _ _ H) as Hnn. apply IH in H as (l & E1 & E2 & E3 & E4). cbn in E1, E3.
  exists (Stepped (sn_index (r_snn r1)) lrn xx yy (r_snn r2) :: l). split; [rewrite E1, El2, El, <- app_assoc; reflexivity|]. split; [constructor; [exact I|exact E2]|]. split; [|exact E4].
  intros He. destruct (E3 He) as (A & B). split; [congruence|]. intros Hn. specialize (B Hn). destruct (nn_nan (sn_net (r_snn r2))) eqn:En2; [unfold hasNan in Hnn at 1; cbn in Hnn; rewrite Hnn in Hn by exact En2; discriminate|].
  destruct (K2 eq_refl). congruence.
Qed.
Lemma evaluate_stats env r r' : evaluate env r = Ok r' -> hasNan r' = false ->
  exists st, st_rateMax st = st_rateMax (sn_stats (r_snn r)) /\ sn_stats (r_snn r') = stopTesting st /\
  r_log r' = r_log r ++ (if sn_auto (r_snn r') && st_rateBetter (sn_stats (r_snn r')) then [Evaluated (r_snn r'); Saved (sn_path (r_snn r')) (r_snn r')] else [Evaluated (r_snn r')]).
Proof.
  intros H Hn. unfold evaluate in H. apply bind_Ok_inv in H as ((stop, s) & H1 & H). destruct stop.
  { apply evaluateLoop_keeps in H1 as (_ & Hs). injection H as <-. unfold hasNan in Hn. cbn in Hn. rewrite Hs in Hn; [discriminate|reflexivity]. }
  exists (sn_stats s). split.
  - assert (X : forall nan rest s d s', evaluateLoop nan rest s d = Ok (false, s') -> st_rateMax (sn_stats s') = st_rateMax (sn_stats s)).
    { clear. induction rest as [|rest IH]; intros s d s' H; cbn [evaluateLoop] in H; [injection H as <-; reflexivity|]. destruct (nn_nan (sn_net s)); [discriminate|].
      apply bind_Ok_inv in H as (s1 & H1 & H). apply IH in H. rewrite H. cbn. unfold evaluateTurn in H1. apply bind_Ok_inv in H1 as (need & _ & H1).
      assert (CS : forall st (cl : list Cluster) wl, st_rateMax (countSample st cl wl) = st_rateMax st) by (intros st cl []; reflexivity).
      destruct need.
      - unfold evaluateOnce in H1. destruct (d_problem d); HistProofs.binds H1; injection H1 as <-; cbn;
          match goal with H : evaluateOnceForClassification _ _ _ _ = _ |- _ => unfold evaluateOnceForClassification in H; HistProofs.binds H; injection H as <- |
            H : evaluateOnceForMultipleClassification _ _ _ _ = _ |- _ => unfold evaluateOnceForMultipleClassification in H; HistProofs.binds H; injection H as <- |
            H : evaluateOnceForRegression _ _ _ _ = _ |- _ => unfold evaluateOnceForRegression in H; HistProofs.binds H; injection H as <- end; apply CS.
      - HistProofs.binds H1. injection H1 as <-. reflexivity. }
    apply X in H1. exact H1.
  - destruct (sn_auto (with_stats s (stopTesting (sn_stats s))) && st_rateBetter (sn_stats (with_stats s (stopTesting (sn_stats s))))) eqn:E.
    + injection H as <-. split; [reflexivity|]. cbn [saveSync logs upd r_snn with_path sn_auto sn_stats].
      change (sn_auto s && st_rateBetter (stopTesting (sn_stats s)) = true) in E. cbn [with_stats sn_auto sn_stats]. rewrite E. cbn [saveSync logs upd r_log r_snn with_path with_stats sn_path]. rewrite <- app_assoc. reflexivity.
    + injection H as <-. split; [reflexivity|]. cbn [logs upd r_snn r_log]. rewrite E. reflexivity.
Qed.

Variable ok : F -> Prop.
Hypothesis OL : order_laws N ok.
Variable best : F.
Definition J r : Prop := autosaved best (r_log r) /\ ok (st_rateMax (sn_stats (r_snn r))) /\ Forall ok (best :: rates (r_log r)) /\
  In (st_rateMax (sn_stats (r_snn r))) (best :: rates (r_log r)) /\ Forall (fun x => fltb (st_rateMax (sn_stats (r_snn r))) x = false) (best :: rates (r_log r)).
Lemma rates_app a b : rates (a ++ b) = rates a ++ rates b. Proof. apply flat_map_app. Qed.
Lemma rates_learning l : Forall is_learning l -> rates l = [].
Proof. induction 1 as [|e l He _ IH]; [reflexivity|]. destruct e; cbn in *; auto; contradiction. Qed.
Lemma evaluate_J env r r' : evaluate env r = Ok r' -> hasNan r' = false -> Forall ok (rates (r_log r')) -> J r -> J r'.
Proof.
  intros H Hn Hok (A & B & C & D & E). destruct (evaluate_stats _ _ _ H Hn) as (st & Emax & Est & El).
  set (s' := r_snn r') in *. set (rate := st_rate (sn_stats s')) in *.
  assert (Erates : rates (r_log r') = rates (r_log r) ++ [rate]). { rewrite El, rates_app. now destruct (_ && _). }
  assert (Hrate : ok rate). { rewrite Erates in Hok. apply Forall_app in Hok as (_ & Hok). now inversion Hok. }
  set (mx := st_rateMax (sn_stats (r_snn r))) in *.
  assert (Ebetter : st_rateBetter (sn_stats s') = fltb mx rate). { unfold rate. rewrite Est, <- Emax. reflexivity. }
  assert (Emx' : st_rateMax (sn_stats s') = if fltb mx rate then rate else mx). { unfold rate. rewrite Est, <- Emax. reflexivity. }
  assert (Hb : fltb mx rate = true <-> better best (r_log r) s').
  { unfold better. fold rate. split.
    - intros Hlt. rewrite Forall_forall in *. intros x Hx. apply (nlt_lt_trans OL x mx rate); auto.
    - intros HF. rewrite Forall_forall in HF. now apply HF. }
  split.
  - rewrite El, Ebetter. destruct (sn_auto s') eqn:Ea; cbn [andb].
    + destruct (fltb mx rate) eqn:Elt; [apply as_save; [exact A|exact Ea|now apply Hb]|]. apply as_eval; [exact A|]. intros (_ & Hc). apply Hb in Hc. congruence.
    + apply as_eval; [exact A|]. intros (Hc & _). congruence.
  - fold s'. rewrite Emx', Erates. split; [now destruct (fltb mx rate)|]. split; [inversion C; subst; constructor; [assumption|]; apply Forall_app; auto|]. rewrite app_comm_cons. split.
    + destruct (fltb mx rate); apply in_app_iff; [right; now left|left; exact D].
    + apply Forall_app. destruct (fltb mx rate) eqn:Elt.
      * split; [|constructor; [apply (ol_irrefl _ _ OL), Hrate|constructor]]. rewrite Forall_forall in *. intros x Hx.
        destruct (fltb rate x) eqn:E2; [|reflexivity].         specialize (E x Hx). rewrite (ol_trans _ _ OL mx rate x) in E; auto.
      * split; [exact E|]. constructor; [exact Elt|constructor].
Qed.
Lemma autosaved_learning l : Forall is_learning l -> forall log, autosaved best log -> autosaved best (log ++ l).
Proof.
  induction 1 as [|e l He _ IH]; intros log H; [now rewrite app_nil_r|]. change (e :: l) with ([e] ++ l). rewrite app_assoc. apply IH. now apply as_other.
Qed.
Lemma same_J r r' l : r_log r' = r_log r ++ l -> Forall is_learning l -> sn_stats (r_snn r') = sn_stats (r_snn r) -> J r -> J r'.
Proof.
  intros El Hl Es (A & B & C & D & E). unfold J. rewrite Es, El, rates_app, (rates_learning l Hl), app_nil_r.
  split; [now apply autosaved_learning|]. auto.
Qed.
Lemma evaluate_extends env r r' : evaluate env r = Ok r' -> extends r r'.
Proof. intros H. apply evaluate_keeps in H as (_ & _ & _ & s & [E|E] & _); eexists; exact E. Qed.
Lemma training_extends env w b f : forall fuel r r', trainingLoop fuel env w b f r = Some (Ok r') -> extends r r'.
Proof.
  induction fuel as [|fuel IH]; intros r r' H; [discriminate|]. cbn [trainingLoop] in H.
  destruct (continueTraining env w r) as [go r1] eqn:Ec. apply continue_keeps_nan in Ec as (_ & El & _).
  destruct go; [|injection H as <-; exists []; cbn [upd r_log]; now rewrite El, app_nil_r].
  destruct (shuffle (e_rng env (r_checks r1)) (r_data r1)) as [d'|x|]; cbn [bind andThen] in H; [|discriminate H|discriminate H].
  destruct (epochLoop (S fuel) env w b _) as [[[early r3]|x|]|] eqn:Ee; try discriminate H.
  apply epoch_log in Ee as (l & E1 & _). cbn [r_log] in E1. rewrite El, <- app_assoc in E1.
  assert (X : extends r r3) by (eexists; exact E1).
  destruct early; [injection H as <-; exact X|].
  match type of H with andThen ?t _ = _ => destruct t as [r4|y|] eqn:Ev; cbn [andThen] in H; [|discriminate H|discriminate H] end.
  apply IH in H. apply (extends_trans r r3); [exact X|]. apply (extends_trans r3 r4); [|exact H].
  destruct (_ && _); [exact (evaluate_extends _ _ _ Ev)|injection Ev as <-; apply extends_refl].
Qed.
Lemma extends_rates r r' : extends r r' -> Forall ok (rates (r_log r')) -> Forall ok (rates (r_log r)).
Proof. intros (l & ->). rewrite rates_app. intros H. now apply Forall_app in H. Qed.
Lemma training_J env w b f : forall fuel r r', trainingLoop fuel env w b f r = Some (Ok r') -> hasNan r' = false -> Forall ok (rates (r_log r')) -> J r -> J r'.
Proof.
  induction fuel as [|fuel IH]; intros r r' H Hn Hok HJ; [discriminate|]. cbn [trainingLoop] in H.
  destruct (continueTraining env w r) as [go r1] eqn:Ec. apply continue_keeps_nan in Ec as (_ & El & _ & _ & _ & _ & _ & Es & _).
  destruct go. 2: { injection H as <-. apply (same_J r _ []); [cbn [upd r_log]; now rewrite El, app_nil_r|constructor|cbn; exact Es|exact HJ]. }
  destruct (shuffle (e_rng env (r_checks r1)) (r_data r1)) as [d'|x|]; cbn [bind andThen] in H; [|discriminate H|discriminate H].
  destruct (epochLoop (S fuel) env w b _) as [[[early r3]|x|]|] eqn:Ee; try discriminate H.
  apply epoch_log in Ee as (l & E1 & E2 & E3 & E4). cbn [r_log] in E1. rewrite El, <- app_assoc in E1.
  destruct early; [injection H as <-; rewrite E4 in Hn by reflexivity; discriminate|]. destruct (E3 eq_refl) as (E5 & _). cbn [r_snn with_index sn_stats] in E5.
  assert (J3 : J r3). { apply (same_J r r3 ([Shuffled] ++ l)); [exact E1|constructor; [exact I|exact E2]|congruence|exact HJ]. }
  match type of H with andThen ?t _ = _ => destruct t as [r4|y|] eqn:Ev; cbn [andThen] in H; [|discriminate H|discriminate H] end.
  assert (N4 : hasNan r4 = false). { destruct (hasNan r4) eqn:E; [|reflexivity]. apply training_nan in H; [congruence|exact E]. }
  pose proof (extends_rates _ _ (training_extends _ _ _ _ _ _ _ H) Hok) as K4. cbn [upd r_log] in K4.
  apply IH in H; [exact H|exact Hn|exact Hok|]. apply (same_J r4 _ []); [cbn [upd r_log]; now rewrite app_nil_r|constructor|reflexivity|].
  destruct (_ && _); [|injection Ev as <-; exact J3]. exact (evaluate_J _ _ _ Ev N4 K4 J3).
Qed.
End P.

Section Q.
Context {N : Num}.
Implicit Types (r : Run) (s : Snn) (env : Env) (w : Wait) (d : Data).
Lemma train_autosaved ok (OL : order_laws N ok) fuel env w b f s d r : train fuel env w b f s d = Some (Ok r) -> hasNan r = false ->
  ok (st_rateMax (sn_stats s)) -> Forall ok (rates (r_log r)) -> autosaved (st_rateMax (sn_stats s)) (r_log r).
Proof.
  intros H Hn Hmax Hok. unfold train in H. destruct (validData s d b); try discriminate. destruct (negb (sn_idle s)); [discriminate|]. unfold trainSync in H.
  set (r0 := upd (mkRun _ _ _ _) _) in H.
  assert (J0 : J ok (st_rateMax (sn_stats s)) r0).
  { split; [constructor|]. cbn. split; [exact Hmax|]. split; [constructor; [exact Hmax|constructor]|]. split; [now left|]. constructor; [apply (ol_irrefl _ _ OL), Hmax|constructor]. }
  match type of H with andThen ?t _ = _ => destruct t as [r1|y|] eqn:Ev; cbn [andThen] in H; [|discriminate H|discriminate H] end.
  assert (N1 : hasNan r1 = false). { destruct (hasNan r1) eqn:E; [|reflexivity]. apply training_nan in H; [congruence|exact E]. }
  pose proof (extends_rates ok _ _ (training_extends _ _ _ _ _ _ _ H) Hok) as K1. cbn [upd r_log] in K1.
  apply (training_J ok OL (st_rateMax (sn_stats s))) in H; [exact (proj1 H)|exact Hn|exact Hok|].
  apply (same_J ok _ r1 _ []); [cbn [upd r_log]; now rewrite app_nil_r|constructor|reflexivity|].
  destruct (0 <? f)%Z; [|injection Ev as <-; exact J0]. exact (evaluate_J ok OL _ _ _ _ Ev N1 K1 J0).
Qed.

(* every file written during a training contains a network that takes itself for training *)
Definition saved_busy (e : event) : Prop := match e with Saved _ s => sn_idle s = false | _ => True end.
Lemma trainingTurn_idle env b r r' : trainingTurn env b r = Ok r' -> sn_idle (r_snn r') = sn_idle (r_snn r).
Proof. unfold trainingTurn. intros H. apply bind_Ok_inv in H as (need & Hn & H). destruct need; HistProofs.binds H; injection H as <-; reflexivity. Qed.
Lemma evaluateLoop_idle nan d : forall rest s s', evaluateLoop nan rest s d = Ok (false, s') -> sn_idle s' = sn_idle s.
Proof.
  induction rest as [|rest IH]; intros s s' H; cbn [evaluateLoop] in H; [injection H as <-; reflexivity|]. destruct (nn_nan (sn_net s)); [discriminate|].
  apply bind_Ok_inv in H as (s1 & H1 & H). apply IH in H. rewrite H. cbn. unfold evaluateTurn in H1. apply bind_Ok_inv in H1 as (need & _ & H1).
  destruct need; [unfold evaluateOnce in H1; destruct (d_problem d)|]; HistProofs.binds H1; injection H1 as <-; reflexivity.
Qed.
Lemma epoch_idle env w b : forall fuel r r', epochLoop fuel env w b r = Some (Ok (false, r')) -> sn_idle (r_snn r) = false -> sn_idle (r_snn r') = false.
Proof.
  induction fuel as [|fuel IH]; intros r r' H Hi; [discriminate|]. cbn [epochLoop] in H.
  destruct (_ <=? _); [|injection H as <-; exact Hi].
  destruct (continueTraining env w r) as [go r1] eqn:Ec. apply continue_keeps_nan in Ec as (_ & _ & _ & _ & _ & _ & Ei & _).
  destruct go; [|injection H as <-; congruence].
  destruct (nn_nan (sn_net (r_snn r1))); [discriminate H|].
  destruct (trainingTurn env b r1) as [r2|x|] eqn:Et; [|discriminate H|discriminate H]. apply trainingTurn_idle in Et. apply IH in H; [exact H|]. cbn. congruence.
Qed.
Lemma evaluate_busy env r r' : evaluate env r = Ok r' -> Forall saved_busy (r_log r) -> sn_idle (r_snn r) = false ->
  Forall saved_busy (r_log r') /\ (hasNan r' = true \/ sn_idle (r_snn r') = false).
Proof.
  unfold evaluate. intros H Hb Hi. apply bind_Ok_inv in H as ((stop, s) & H1 & H). destruct stop.
  - apply evaluateLoop_keeps in H1 as (_ & Hs). injection H as <-. cbn. split; [apply Forall_app; repeat constructor; exact Hb|left; unfold hasNan; cbn; now apply Hs].
  - apply evaluateLoop_idle in H1. cbn [with_stats with_index sn_idle] in H1. rewrite Hi in H1.
    destruct (sn_auto (with_stats s (stopTesting (sn_stats s))) && st_rateBetter (sn_stats (with_stats s (stopTesting (sn_stats s))))); injection H as <-; cbn.
    + split; [|right; exact H1]. repeat (apply Forall_app; split; [|repeat constructor]); try exact Hb. exact H1.
    + split; [|right; exact H1]. apply Forall_app. repeat constructor. exact Hb.
Qed.
Lemma learning_busy l : Forall is_learning l -> Forall saved_busy l.
Proof. intros H. eapply Forall_impl; [|exact H]. intros []; cbn; tauto. Qed.
Lemma training_busy env w b f : forall fuel r r', trainingLoop fuel env w b f r = Some (Ok r') ->
  Forall saved_busy (r_log r) -> hasNan r = true \/ sn_idle (r_snn r) = false -> Forall saved_busy (r_log r').
Proof.
  induction fuel as [|fuel IH]; intros r r' H Hb Hi; [discriminate|]. cbn [trainingLoop] in H.
  destruct (continueTraining env w r) as [go r1] eqn:Ec. apply continue_keeps_nan in Ec as (_ & El & _ & _ & _ & _ & Ei & _ & _ & _ & _ & Hgo).
  destruct go; [|injection H as <-; cbn [upd r_log]; now rewrite El].
  destruct (Hgo eq_refl) as (Hn & _). destruct Hi as [Hi|Hi]; [congruence|].
  destruct (shuffle (e_rng env (r_checks r1)) (r_data r1)) as [d'|x|]; cbn [bind andThen] in H; [|discriminate H|discriminate H].
  destruct (epochLoop (S fuel) env w b _) as [[[early r3]|x|]|] eqn:Ee; try discriminate H.
  pose proof (epoch_log _ _ _ _ _ _ _ Ee) as (l & E1 & E2 & _). cbn [r_log] in E1. rewrite El, <- app_assoc in E1.
  assert (B3 : Forall saved_busy (r_log r3)). { rewrite E1. apply Forall_app. split; [exact Hb|]. constructor; [exact I|now apply learning_busy]. }
  destruct early; [injection H as <-; exact B3|]. apply epoch_idle in Ee; [|cbn; congruence].
  match type of H with andThen ?t _ = _ => destruct t as [r4|y|] eqn:Ev; cbn [andThen] in H; [|discriminate H|discriminate H] end.
  assert (X : Forall saved_busy (r_log r4) /\ (hasNan r4 = true \/ sn_idle (r_snn r4) = false)).
  { destruct (_ && _); [exact (evaluate_busy _ _ _ Ev B3 Ee)|injection Ev as <-; auto]. }
  destruct X. apply IH in H; auto.
Qed.
Lemma train_busy fuel env w b f s d r : train fuel env w b f s d = Some (Ok r) -> Forall saved_busy (r_log r).
Proof.
  intros H. unfold train in H. destruct (validData s d b); try discriminate. destruct (negb (sn_idle s)); [discriminate|]. unfold trainSync in H.
  set (r0 := upd (mkRun _ _ _ _) _) in H.
  match type of H with andThen ?t _ = _ => destruct t as [r1|y|] eqn:Ev; cbn [andThen] in H; [|discriminate H|discriminate H] end.
  assert (X : Forall saved_busy (r_log r1) /\ (hasNan r1 = true \/ sn_idle (r_snn r1) = false)).
  { destruct (0 <? f)%Z; [exact (evaluate_busy _ _ _ Ev (Forall_nil _) eq_refl)|injection Ev as <-; split; [constructor|now right]]. }
  destruct X. apply training_busy in H; auto.
Qed.
End Q.
