(* Proofs for C66. *)
From Coq Require Import Permutation.
From Verif Require Import Base Num NumOrder NeuronModel LayerModel NetModel StatModel WaitModel DataModel DataSpec DataProofs SeriesProofs SeqProofs TrainModel TrainSpec TrainProofs TrainSafe TrainLogs TrainPresent.
From Verif Require Import FactoryModel FactorySpec PureSpec PureProps VisitSpec.
Local Open Scope outcome_scope.
Local Open Scope nat_scope.

Section P.
Context {N : Num}.
Implicit Types (r : Run) (s : Snn) (env : Env) (w : Wait) (d : Data).

Definition flag (o : outcome bool) : bool := match o with Ok b => b | _ => false end.
Definition visit_at d (i : nat) : visit := mkVisit (nth i (s_shuffled (d_train d)) 0) (flag (isFirstTraining d i)) (flag (needToLearn d i)).
Definition plan_of d : list visit := map (visit_at d) (seq 0 (s_size (d_train d))).
Lemma plan_length d : List.length (plan_of d) = s_size (d_train d).
Proof. unfold plan_of. now rewrite map_length, seq_length. Qed.
Lemma plan_nth d i : i < s_size (d_train d) -> nth_error (plan_of d) i = Some (visit_at d i).
Proof. intros H. unfold plan_of. rewrite nth_error_map, (nth_error_nth' _ 0) by (rewrite seq_length; exact H). rewrite seq_nth by exact H. reflexivity. Qed.
Lemma plan_inv d i v : nth_error (plan_of d) i = Some v -> i < s_size (d_train d) /\ v = visit_at d i.
Proof. intros H. assert (L : i < s_size (d_train d)) by (rewrite <- plan_length; apply nth_error_Some; congruence). split; [exact L|]. rewrite (plan_nth d i L) in H. congruence. Qed.

Section G.
Variables (k m : nat) (ins labels : list (list F)) (good : list (list visit) -> Prop) (net0 : Net) (P : list (list visit) -> Data -> Prop).
Hypothesis P_ready : forall plans d, P plans d -> ready k m d /\ s_inputs (d_train d) = ins /\ s_labels (d_train d) = labels.
Hypothesis P_good : forall plans d, P plans d -> good plans.
Hypothesis P_shuffle : forall plans d rng d', P plans d -> fair_rng rng -> shuffle rng d = Ok d' -> P (plans ++ [plan_of d']) d'.

Lemma turn_visits env r plans n r' : trainingTurn env 1 r = Ok r' -> P (plans ++ [plan_of (r_data r)]) (r_data r) -> sn_index (r_snn r) = n -> n + 1 <= s_size (d_train (r_data r)) ->
  carries_out k ins labels good net0 (r_log r) (plans ++ [plan_of (r_data r)]) n (sn_net (r_snn r)) ->
  r_data r' = r_data r /\ carries_out k ins labels good net0 (r_log r') (plans ++ [plan_of (r_data r)]) (S n) (sn_net (r_snn r')).
Proof.
  intros H HP Hi Hn C. destruct (P_ready _ _ HP) as (R & EI & EL). destruct (ready_row k m (r_data r) n R ltac:(lia)) as (j & x & y & A & B & _ & D & _).
  destruct (ready_flags k m (r_data r) n R ltac:(lia)) as ((fi & Ef) & (nd & En)). pose proof (plan_nth (r_data r) n ltac:(lia)) as PN.
  assert (EX : getTrainingData (r_data r) n 1 = Ok (x, r_data r)). { unfold getTrainingData. cbn [Nat.leb]. unfold lget. rewrite A. cbn [bind]. rewrite B. reflexivity. }
  assert (EY : getTrainingOutputs (r_data r) n 1 = Ok (y, r_data r)). { unfold getTrainingOutputs. cbn [Nat.leb]. unfold lget. rewrite A. cbn [bind]. rewrite D. reflexivity. }
  assert (VS : v_sample (visit_at (r_data r) n) = j) by (cbn; exact (nth_error_nth _ _ 0 A)).
  assert (VR : v_reset (visit_at (r_data r) n) = fi) by (cbn; rewrite Ef; reflexivity). assert (VL : v_learn (visit_at (r_data r) n) = nd) by (cbn; rewrite En; reflexivity).
  rewrite EI in B. rewrite EL in D. unfold trainingTurn in H. rewrite Hi in H. rewrite En in H. cbn [bind] in H. destruct nd.
  - rewrite EX in H. cbn [bind] in H. rewrite EY in H. cbn [bind] in H. rewrite Ef in H. cbn [bind] in H. apply bind_Ok_inv in H as (n' & H1 & H). injection H as <-. cbn [r_data r_log r_snn]. split; [reflexivity|].
    apply (co_learn k ins labels good net0 _ plans (plan_of (r_data r)) n (sn_net (r_snn r)) _ x y (e_rand env (r_checks r)) (with_net (r_snn r) n') C PN VL); [rewrite VS; exact B|rewrite VS; exact D|rewrite VR; exact H1].
  - rewrite EX in H. cbn [bind] in H. rewrite Ef in H. cbn [bind] in H. apply bind_Ok_inv in H as ((o & n') & H1 & H). injection H as <-. cbn [r_data r_log r_snn]. split; [reflexivity|].
    apply (co_watch k ins labels good net0 _ plans (plan_of (r_data r)) n (sn_net (r_snn r)) _ x (e_rand env (r_checks r)) o (with_net (r_snn r) n') C PN VL); [rewrite VS; exact B|rewrite VR; exact H1].
Qed.
Definition planned r : Prop := s_size (d_train (r_data r)) = sn_ntrain (r_snn r) /\ exists plans n, P plans (r_data r) /\ carries_out k ins labels good net0 (r_log r) plans n (sn_net (r_snn r)).
Lemma epoch_visits env w : forall fuel r n plans early r', epochLoop fuel env w 1 r = Some (Ok (early, r')) ->
  P (plans ++ [plan_of (r_data r)]) (r_data r) -> s_size (d_train (r_data r)) = sn_ntrain (r_snn r) -> sn_index (r_snn r) = n ->
  carries_out k ins labels good net0 (r_log r) (plans ++ [plan_of (r_data r)]) n (sn_net (r_snn r)) -> planned r'.
Proof.
  induction fuel as [|fuel IH]; intros r n plans early r' H HP Hs Hi C; [discriminate|]. cbn [epochLoop] in H.
  destruct (Nat.leb_spec (sn_index (r_snn r) + 1) (sn_ntrain (r_snn r))) as [Hle|Hle]. 2: { injection H as <- <-. split; [exact Hs|]. eauto. }
  destruct (continueTraining env w r) as [go r1] eqn:Ec. apply continue_keeps_nan in Ec as (_ & El & Ed & Ei & En & _ & _ & _ & Enet & _).
  rewrite <- Ed, <- Enet, <- El in C. rewrite <- Ed in HP. rewrite <- Ed, <- En in Hs. rewrite <- Ei in Hi.
  destruct go. 2: { injection H as <- <-. split; [exact Hs|]. eauto. }
  destruct (nn_nan (sn_net (r_snn r1))). { injection H as <- <-. split; [exact Hs|]. eexists _, _. split; [exact HP|exact C]. }
  destruct (trainingTurn env 1 r1) as [r2|z|] eqn:Et; [|discriminate H|discriminate H].
  pose proof (turn_visits env r1 plans n r2 Et HP Hi ltac:(rewrite <- Hi, Hs, Ei, En; lia) C) as (D2 & C2).
  apply trainingTurn_keeps in Et as ((_ & K2 & _) & Ki & _). rewrite <- D2 in HP, C2.
  apply (IH (upd r2 (with_index (r_snn r2) (sn_index (r_snn r2) + 1))) (S n) plans early r') in H; cbn [upd r_data r_log r_snn with_index sn_index sn_ntrain sn_net]; auto; [congruence|rewrite Ki, Hi; lia].
Qed.
Lemma evaluate_visits env r r' : evaluate env r = Ok r' -> planned r -> planned r'.
Proof.
  intros H (Hs & plans & n & HP & C). pose proof (evaluate_keeps _ _ _ H) as ((_ & Kn & _) & Ed & _). split; [rewrite Ed, Kn; exact Hs|]. exists plans, n. split; [rewrite Ed; exact HP|].
  unfold evaluate in H. apply bind_Ok_inv in H as ((stop, s) & H1 & H). destruct (P_ready _ _ HP) as (R & _). apply (evaluateLoop_looks k m) in H1; [|exact R]. cbn [with_stats with_index sn_net] in H1.
  destruct stop; [injection H as <-; cbn [logs upd r_log r_snn]; now apply (co_evaluate _ _ _ _ _ _ _ _ (sn_net (r_snn r)))|].
  assert (PE : carries_out k ins labels good net0 (r_log r ++ [Evaluated (with_stats s (stopTesting (sn_stats s)))]) plans n (sn_net s)).
  { apply (co_evaluate _ _ _ _ _ _ _ _ (sn_net (r_snn r)) (with_stats s (stopTesting (sn_stats s))) C H1). }
  destruct (_ && _); injection H as <-; cbn [saveSync logs upd r_log r_snn with_path with_stats sn_net]; [|exact PE]. apply co_save; [exact PE|reflexivity].
Qed.
Lemma training_visits env w f : fair env -> forall fuel r r', trainingLoop fuel env w 1 f r = Some (Ok r') -> planned r -> planned r'.
Proof.
  intros Hf. induction fuel as [|fuel IH]; intros r r' H SH; [discriminate|]. cbn [trainingLoop] in H.
  destruct (continueTraining env w r) as [go r1] eqn:Ec. apply continue_keeps_nan in Ec as (_ & El & Ed & Ei & En & _ & _ & _ & Enet & _).
  assert (S1 : planned r1). { unfold planned in *. now rewrite El, Ed, En, Enet. } clear SH El Ed Ei En Enet.
  destruct go; [|injection H as <-; exact S1]. destruct S1 as (Hs & plans & n & HP & C). destruct (P_ready _ _ HP) as (R & _).
  destruct (ready_op k m (r_data r1) (OpShuffle (e_rng env (r_checks r1))) (Hf _) R) as (d' & E & R' & _ & Es' & _).
  cbn [run_op] in E. pose proof (P_shuffle _ _ _ _ HP (Hf _) E) as HP'. rewrite E in H. cbn [bind andThen] in H.
  destruct (epochLoop (S fuel) env w 1 _) as [[[early r3]|z|]|] eqn:Ee; try discriminate H.
  apply (epoch_visits _ _ _ _ 0 plans) in Ee; cbn [r_data r_log r_snn with_index sn_index sn_ntrain sn_net]; [|exact HP'|congruence|reflexivity|].
  2: { apply co_epoch with (n := n); [exact C|]. exact (P_good _ _ HP'). }
  destruct early; [injection H as <-; exact Ee|].
  match type of H with andThen ?t _ = _ => destruct t as [r4|y|] eqn:Ev; cbn [andThen] in H; [|discriminate H|discriminate H] end.
  apply IH in H; [exact H|]. assert (S4 : planned r4). { destruct (_ && _); [exact (evaluate_visits _ _ _ Ev Ee)|injection Ev as <-; exact Ee]. } exact S4.
Qed.
Lemma train_visits fuel env w b f d s r : net0 = sn_net s -> fair env -> P [] d -> d_nature d <> nonTemporal -> train fuel env w b f s d = Some (Ok r) ->
  exists plans n, P plans (r_data r) /\ carries_out k ins labels good net0 (r_log r) plans n (sn_net (r_snn r)).
Proof.
  intros E0 Hf HP Hnt H. unfold train in H. destruct (validData s d b) as [u|z|] eqn:V; try discriminate. assert (Hb : Z.to_nat b = 1).
  { unfold validData in V. destruct (net_numberOfOutputs _) as [o| |]; try discriminate V. destruct (net_numberOfInputs _) as [i| |]; try discriminate V. cbn [bind] in V.
    destruct (_ || _) in V; [discriminate V|]. destruct (Z.eqb_spec b 1) as [->|Hne]; [reflexivity|]. cbn [negb andb] in V. destruct (d_nature d); [congruence|discriminate V|discriminate V]. }
  rewrite Hb in H. destruct (negb (sn_idle s)); [discriminate|]. unfold trainSync in H. set (r0 := upd (mkRun _ _ _ _) _) in H.
  assert (S0 : planned r0). { split; [reflexivity|]. exists [], 0. split; [exact HP|]. subst net0. apply co_start. }
  match type of H with andThen ?t _ = _ => destruct t as [r1|y|] eqn:Ev; cbn [andThen] in H; [|discriminate H|discriminate H] end.
  assert (S1 : planned r1). { destruct (0 <? f)%Z; [exact (evaluate_visits _ _ _ Ev S0)|injection Ev as <-; exact S0]. }
  apply (training_visits _ _ _ Hf) in H; [exact (proj2 H)|exact S1].
Qed.
End G.

(* ---- time series ---- *)
Section Series.
Variables (k m rc : nat) (ins labels : list (list F)).
Definition base d : Prop := ready k m d /\ SeriesInv rc ins labels d /\ rc + 1 <= List.length labels /\ d_nature d = timeSeries.
(* what a plan made with the offset o learns *)
Definition offset_plan (o : nat) (plan : list visit) : Prop := series_plan rc (List.length labels) plan /\
  forall s : nat, s < List.length labels -> s < o \/ (o <= s /\ (s - o) mod (rc + 1) = rc) -> learned_in s plan.
Definition SP (plans : list (list visit)) d : Prop := base d /\ exists off ids, off <= rc /\
  d_temporal d = TSeries rc ids ((off + List.length plans) mod (rc + 1)) /\ (forall j plan, nth_error plans j = Some plan -> offset_plan ((off + j) mod (rc + 1)) plan).
Lemma SP_base plans d : SP plans d -> SP [] d.
Proof.
  intros (B & off & ids & Ho & Ht & _). split; [exact B|]. exists ((off + List.length plans) mod (rc + 1)), ids. pose proof (Nat.mod_upper_bound (off + List.length plans) (rc + 1)). split; [lia|]. split.
  - cbn [List.length]. rewrite Nat.add_0_r, (Nat.mod_small ((off + List.length plans) mod (rc + 1))) by lia. exact Ht.
  - intros [|j] plan Hp; discriminate.
Qed.
Lemma base_SP d : base d -> SP [] d.
Proof.
  intros B. pose proof B as (_ & (_ & _ & _ & _ & _ & ids & off & Ht & Ho & _) & _). split; [exact B|]. exists off, ids. split; [exact Ho|]. split.
  - cbn [List.length]. rewrite Nat.add_0_r, Nat.mod_small by lia. exact Ht.
  - intros [|j] plan Hp; discriminate.
Qed.
Lemma SP_ready plans d : SP plans d -> ready k m d /\ s_inputs (d_train d) = ins /\ s_labels (d_train d) = labels.
Proof. intros ((R & (A & B & _) & _) & _). auto. Qed.
Lemma SP_good plans d : SP plans d -> series_plans rc (List.length labels) plans.
Proof.
  intros (_ & off & ids & Ho & _ & HP). split.
  - apply Forall_forall. intros plan Hp. apply In_nth_error in Hp as (j & Hj). exact (proj1 (HP j plan Hj)).
  - intros a s Ha Hs. set (target := if s <? rc then rc else (s + 1) mod (rc + 1)).
    assert (Htg : target < rc + 1). { unfold target. destruct (s <? rc); [lia|apply Nat.mod_upper_bound; lia]. }
    set (n := (target + (rc + 1) - (off + a) mod (rc + 1)) mod (rc + 1)). assert (Hn : n < rc + 1) by (apply Nat.mod_upper_bound; lia).
    assert (Eo : (off + (a + n)) mod (rc + 1) = target).
    { rewrite Nat.add_assoc. rewrite <- Nat.add_mod_idemp_l by lia. pose proof (Nat.mod_upper_bound (off + a) (rc + 1)) as Hu. unfold n. rewrite Nat.add_mod_idemp_r by lia.
      replace ((off + a) mod (rc + 1) + (target + (rc + 1) - (off + a) mod (rc + 1))) with (target + 1 * (rc + 1)) by lia. rewrite Nat.mod_add, Nat.mod_small by lia. reflexivity. }
    destruct (nth_error plans (a + n)) as [plan|] eqn:Ep; [|apply nth_error_None in Ep; lia]. exists (a + n), plan. split; [lia|]. split; [exact Ep|]. apply (proj2 (HP _ _ Ep) s Hs). rewrite Eo.
    unfold target. destruct (Nat.ltb_spec s rc); [left; auto|right].
    pose proof (Nat.div_mod (s + 1) (rc + 1)) as Hdm. pose proof (Nat.mod_upper_bound (s + 1) (rc + 1)).
    set (q := (s + 1) / (rc + 1)) in *. set (m' := (s + 1) mod (rc + 1)) in *.
    assert (1 <= q). { unfold q. apply Nat.div_le_lower_bound; lia. }
    split; [nia|]. replace (s - m') with (rc + (q - 1) * (rc + 1)) by nia. rewrite Nat.mod_add by lia. apply Nat.mod_small. lia.
Qed.
Lemma SP_shuffle plans d rng d' : SP plans d -> fair_rng rng -> shuffle rng d = Ok d' -> SP (plans ++ [plan_of d']) d'.
Proof.
  intros ((R & HI & Hs & Hnat) & off & ids & Ho & Ht & HP) Hr E. set (o := (off + List.length plans) mod (rc + 1)) in *.
  destruct (shuffle_series rc ins labels d rng ids o Hr Hs HI Ht) as (d2 & E2 & H2 & (blocks & old & Ho2 & (ids2 & Ht2) & Hst)). rewrite E in E2. injection E2 as <-.
  destruct (ready_op k m d (OpShuffle rng) Hr R) as (d3 & E3 & R3 & _ & _ & _ & Hn3). cbn [run_op] in E3. rewrite E in E3. injection E3 as <-.
  split; [split; [exact R3|split; [exact H2|split; [exact Hs|congruence]]]|]. exists off, ids2. split; [exact Ho|]. split.
  { rewrite app_length. cbn [List.length]. rewrite Ht2. f_equal. unfold o. rewrite Nat.add_mod_idemp_l by lia. f_equal. lia. }
  intros j plan Hj. assert (J : j < List.length plans \/ j = List.length plans /\ plan = plan_of d').
  { destruct (Nat.lt_ge_cases j (List.length plans)); [auto|right]. rewrite nth_error_app2 in Hj by lia. destruct (j - List.length plans) as [|z] eqn:Z; [injection Hj as <-; split; [lia|reflexivity]|destruct z; discriminate]. }
  destruct J as [J|(-> & ->)]; [rewrite nth_error_app1 in Hj by exact J; now apply HP|]. fold o.
  pose proof H2 as (Hi2 & Hl2 & Hsz2 & (L1 & L2 & L3) & Hin2 & _).
  assert (NL : forall i, needToLearn d' i = lget (s_train (d_train d')) i) by (intros i; unfold needToLearn; now rewrite Ht2).
  assert (FT : forall i, isFirstTraining d' i = lget (s_first (d_train d')) i) by (intros i; unfold isFirstTraining; now rewrite Ht2).
  assert (SH : forall i, i < List.length labels -> nth_error (s_shuffled (d_train d')) i = Some (nth i (s_shuffled (d_train d')) 0)) by (intros i Hi; apply nth_error_nth'; now rewrite L1).
  assert (LF : forall i, v_learn (visit_at d' i) = true <-> nth_error (s_train (d_train d')) i = Some true).
  { intros i. cbn [visit_at v_learn]. rewrite NL. unfold lget. destruct (nth_error (s_train (d_train d')) i) as [[|]|]; cbn; split; congruence. }
  split; [split; [|split; [|split]]|].
  - rewrite plan_length. exact Hsz2.
  - apply Forall_forall. intros v Hv. apply In_nth_error in Hv as (i & Hv). apply plan_inv in Hv as (Hi & ->). cbn [visit_at v_sample]. apply Hin2. apply nth_error_In with (n := i). apply SH. now rewrite Hsz2 in Hi.
  - intros i v Hv Hl. apply plan_inv in Hv as (Hi & ->). rewrite Hsz2 in Hi. apply LF in Hl.
    destruct (learned_window _ _ _ _ _ _ _ _ i _ Hs Ho2 Hst Hl (SH i Hi)) as (q & Hq & Hf1 & Hf2 & Hord & Hkr). exists q. split; [exact Hq|]. cbn [visit_at v_sample]. split; [apply (Hord q (le_n _))|]. split.
    + intros t Ht'. exists (visit_at d' (i - t)). split; [apply plan_nth; rewrite Hsz2; lia|]. destruct (Hord t Ht') as (_ & Hot). cbn [visit_at v_sample v_reset]. split; [exact (nth_error_nth _ _ 0 Hot)|]. rewrite FT.
      destruct (Nat.eqb_spec t q) as [->|Hne]; [unfold lget; rewrite Hf1; reflexivity|]. unfold lget. rewrite (Hf2 t) by lia. reflexivity.
    + destruct Hkr as [->|(A & B & C)]; [now left|right; repeat split; auto].
  - intros i i' v v' Hv Hv' Hl Hl' Es. apply plan_inv in Hv as (Hi & ->). apply plan_inv in Hv' as (Hi' & ->). rewrite Hsz2 in Hi, Hi'. apply LF in Hl, Hl'. cbn [visit_at v_sample] in Es.
    pose proof (SH i Hi) as S1. pose proof (SH i' Hi') as S2. rewrite <- Es in S2. eapply learned_once; eauto.
  - intros s Hlt Hc. destruct (learned_some _ _ _ _ _ _ _ _ s Hs Ho2 Hst Hlt Hc) as (i & Hi & Hn1 & Hs1). exists i, (visit_at d' i).
    split; [apply plan_nth; rewrite Hsz2; lia|]. split; [cbn; exact (nth_error_nth _ _ 0 Hs1)|]. now apply LF.
Qed.
End Series.

(* ---- sequences ---- *)
Lemma position_in {A} (seqs : list (list A)) i : i < List.length (concat seqs) -> exists (s : nat) v k, nth_error seqs s = Some v /\ k < List.length v /\ position_of seqs s k = i.
Proof.
  revert i. induction seqs as [|v seqs IH]; intros i H; [cbn in H; lia|]. cbn [concat] in H. rewrite app_length in H. destruct (Nat.lt_ge_cases i (List.length v)) as [L|L].
  - exists 0, v, i. repeat split; auto.
  - destruct (IH (i - List.length v) ltac:(lia)) as (s & u & k & A1 & A2 & A3). exists (S s), u, k. split; [exact A1|]. split; [exact A2|].
    unfold position_of in *. cbn [firstn concat]. rewrite app_length. lia.
Qed.
Lemma position_inj {A} (seqs : list (list A)) : forall (s s' : nat) v v' k k', nth_error seqs s = Some v -> nth_error seqs s' = Some v' -> k < List.length v -> k' < List.length v' -> position_of seqs s k = position_of seqs s' k' -> s = s' /\ k = k'.
Proof.
  induction seqs as [|u seqs IH]; intros [|s] [|s'] v v' k k' H H' L L' E; try discriminate; unfold position_of in E; cbn [firstn concat List.length nth_error] in *; try rewrite !app_length in E.
  - split; [reflexivity|lia].
  - injection H as <-. lia.
  - injection H' as <-. lia.
  - destruct (IH s s' v v' k k' H H' L L') as (-> & ->); [unfold position_of; lia|auto].
Qed.
Lemma starts_at {A} (seqs : list (list A)) (s : nat) v k : Forall (fun v => v <> []) seqs -> nth_error seqs s = Some v -> k < List.length v -> starts seqs (position_of seqs s k) = (k =? 0).
Proof.
  intros Hf H L. unfold starts. destruct (Nat.eqb_spec k 0) as [->|Hk].
  - apply existsb_exists. exists s. split; [|apply Nat.eqb_refl]. apply in_seq. assert (s < List.length seqs) by (apply nth_error_Some; congruence). lia.
  - apply Bool.not_true_iff_false. intros Q. apply existsb_exists in Q as (s' & Q1 & Q2). apply Nat.eqb_eq in Q2. apply in_seq in Q1.
    destruct (nth_error seqs s') as [v'|] eqn:E'; [|apply nth_error_None in E'; lia]. rewrite Forall_forall in Hf. assert (v' <> []) by (eapply Hf, nth_error_In; eauto).
    destruct (position_inj seqs s' s v' v 0 k E' H) as (_ & Z); [destruct v'; cbn; [congruence|lia]|exact L|exact Q2|lia].
Qed.
Lemma sequence_state p trIn trLab teIn teLab rec d : mkData4_3D p trIn trLab teIn teLab sequential rec = Ok d -> Forall (fun v => v <> []) trIn -> Forall (fun v => v <> []) teIn ->
  List.length (concat trIn) = List.length trLab -> plan_of d = sequence_plan trIn /\ s_inputs (d_train d) = concat trIn /\ s_labels (d_train d) = trLab /\ d_nature d = sequential /\
  d_temporal d = TSeq [] /\ s_shuffled (d_train d) = seq 0 (s_size (d_train d)).
Proof.
  intros H Hf Hfe Hlen. unfold mkData4_3D in H. destruct (flatten_set_train trIn Hf) as (first & ev0 & E & Hfl). destruct (flatten_set_test teIn Hfe) as (firste & ev & Ee & Hfle).
  rewrite E, Ee in H. cbn [bind] in H. pose proof Hfl as (_ & _ & Hl1 & _ & Hd & _). set (tr := mkSet _ _ _ _ _ _ [] []) in H. set (te := mkSet _ _ _ _ _ _ [] ev) in H.
  assert (Hne : trIn <> []). { intros Et. unfold tr in H. rewrite Et in H. cbn in H. discriminate H. }
  assert (Hc : concat trIn <> []) by (apply concat_nonempty; [exact Hf|exact Hne]).
  assert (Hlabne : trLab <> []). { intros ->. cbn in Hlen. destruct (concat trIn); cbn in *; congruence. }
  destruct (initialize_sequential p rec tr te trLab teLab Hc Hlabne eq_refl) as [(_ & _ & _ & _ & _ & _ & _ & m & nl & E1)|[msg E1]].
  2: { rewrite E1 in H. discriminate H. }
  rewrite E1 in H. injection H as <-. cbn [d_train s_inputs s_labels d_nature d_temporal s_shuffled s_size].
  split; [|auto 10]. unfold plan_of, sequence_plan. cbn [d_train s_size]. rewrite Hlen. apply map_ext_in. intros i Hi. apply in_seq in Hi.
  destruct (position_in trIn i ltac:(lia)) as (s & v & k & Hs & Hk & Hp). unfold visit_at. cbn [d_train s_shuffled isFirstTraining needToLearn d_temporal s_first flag].
  rewrite seq_nth by lia. rewrite <- Hp, (starts_at trIn s v k Hf Hs Hk). destruct (Hd s v k Hs Hk) as (H1 & _). unfold isFirstTraining, needToLearn. cbn [d_temporal d_train s_first]. unfold lget. rewrite H1. reflexivity.
Qed.
Definition QP (k m : nat) (seqs : list (list (list F))) (labels : list (list F)) (plans : list (list visit)) d : Prop :=
  ready k m d /\ plan_of d = sequence_plan seqs /\ s_inputs (d_train d) = concat seqs /\ s_labels (d_train d) = labels /\ d_nature d = sequential /\
  d_temporal d = TSeq [] /\ s_shuffled (d_train d) = seq 0 (s_size (d_train d)) /\ Forall (fun p => p = sequence_plan seqs) plans.
Lemma QP_op k m seqs labels plans d o d' : QP k m seqs labels plans d -> fair_op o -> run_op d o = Ok d' -> d' = d.
Proof.
  intros (_ & _ & _ & _ & _ & Ht & Hs & _) Ho E. pose proof (sequential_run_ops_ok [o] d (Forall_cons o Ho (Forall_nil _)) Ht Hs) as E'. unfold run_ops in E'. cbn [ofold] in E'. rewrite E in E'. cbn [bind] in E'. congruence.
Qed.
Lemma QP_shuffle k m seqs labels plans d rng d' : QP k m seqs labels plans d -> fair_rng rng -> shuffle rng d = Ok d' -> QP k m seqs labels (plans ++ [plan_of d']) d'.
Proof.
  intros Q Hr E. assert (d' = d) as -> by exact (QP_op k m seqs labels plans d (OpShuffle rng) d' Q Hr E). destruct Q as (A & B & C & D & G & H & I & J). repeat (split; [assumption|]).
  apply Forall_app. split; [exact J|]. constructor; [exact B|constructor].
Qed.
End P.
