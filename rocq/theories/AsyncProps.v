(* C40, C41, C57: stopping, overlapping and broken trainings, under every interleaving of the caller and the training thread. *)
From Verif Require Import Base AsyncModel.
Local Open Scope nat_scope.

(* ---- vocabulary ---- *)
(* both threads get their turn again and again *)
Definition fair (sched : nat -> bool) : Prop := forall n b, exists m, n <= m /\ sched m = b.
(* no exception leaves a training *)
Definition no_exception (env : Env) : Prop := forall t, e_throw env t = false.
(* the thread of startTrainingAsync exists and has not finished; the caller is inside train() *)
Definition thread_training (s : state) : Prop := exists p, worker s = Some p /\ p <> w_done.
Definition caller_training (s : state) : Prop := exists p, pc s = c_run p /\ p <> w_done.
(* the thread has declared itself: isTraining() has become true for this training *)
Definition declared (p : wpc) : Prop := match p with w_begin | w_cleared => False | _ => True end.
Definition returned (s : state) : Prop := pc s = c_free.

Section P.
Variable env : Env.
Implicit Types (s : state) (p : wpc) (f : flags).

(* ---- C41, first half ---- *)
Definition I1 s : Prop := forall p, pc s = c_run p \/ (p = w_done /\ pc s = c_start2) -> worker s = None.
Lemma joined_None s s' : joined s = Some s' -> worker s' = None /\ fl s' = fl s /\ todo s' = todo s /\ answers s' = answers s /\ dead s' = dead s /\ pc s' = pc s.
Proof. unfold joined. destruct (worker s) as [[]|] eqn:E; try discriminate; intros H; injection H as <-; cbn; rewrite ?E; auto 10. Qed.
Lemma I1_step t b s : I1 s -> I1 (step env t b s).
Proof.
  intros H. unfold step. destruct (dead s); [exact H|]. destruct b.
  - unfold worker_step. destruct (worker s) as [q|] eqn:E; [|exact H]. intros p Hp.
    assert (Hp' : pc s = c_run p \/ (p = w_done /\ pc s = c_start2)). { destruct (wstep env false t q (fl s)) as [[]|?|]; exact Hp. }
    specialize (H p Hp'). congruence.
  - unfold caller_step. destruct (pc s) eqn:E.
    1: { destruct (todo s) as [|[] cs]; intros p [Hp|(_ & Hp)]; cbn in Hp; try discriminate; congruence. }
    all: try (intros p' [Hp|(_ & Hp)]; cbn in Hp; congruence).
    + destruct (joined s) as [s'|] eqn:J; [|intros p [Hp|(_ & Hp)]; congruence]. apply joined_None in J as (J & _). intros p _. exact J.
    + destruct (joined s) as [s'|] eqn:J; intros p [Hp|(_ & Hp)]; cbn in *; congruence.
    + destruct (idle (fl s)); intros p [Hp|(_ & Hp)]; cbn in Hp; congruence.
    + destruct (joined s) as [s'|] eqn:J; [|intros p [Hp|(_ & Hp)]; congruence]. apply joined_None in J as (J & _). intros p _. exact J.
    + assert (W : worker s = None) by (apply (H p); auto). destruct p; try (destruct (wstep env true t _ (fl s)) as [[]|?|]); intros p' _; exact W.
    + destruct (idle (fl s)); intros p [Hp|(_ & Hp)]; cbn in Hp; congruence.
Qed.
Lemma I1_at sched prog t : I1 (at_ env sched prog t).
Proof. induction t as [|t IH]; [intros p [H|(_ & H)]; discriminate|]. cbn [at_]. now apply I1_step. Qed.

(* ---- the flag isIdle ---- *)
(* without exceptions, isIdle is true whenever no training is in progress *)
Definition quiet_pc p : Prop := p = w_begin \/ p = w_cleared \/ p = w_done.
Definition idle_inv (tr : wpc) f : Prop := quiet_pc tr -> idle f = true.
Lemma wstep_idle sync t p f p' f' : wstep env sync t p f = Ok (p', f') -> idle_inv p f -> idle_inv p' f'.
Proof.
  intros H HI Q. unfold idle_inv, quiet_pc in *. destruct p as [| |[|k]| | | |i|i| | |]; cbn in H.
  - injection H as <- <-. cbn. apply HI. auto.
  - injection H as <- <-. destruct (e_first env); destruct Q as [Q|[Q|Q]]; discriminate.
  - injection H as <- <-. destruct Q as [Q|[Q|Q]]; discriminate.
  - destruct (nan f); [|destruct (e_throw env t); [discriminate|]]; injection H as <- <-; destruct Q as [Q|[Q|Q]]; discriminate.
  - injection H as <- <-. destruct Q as [Q|[Q|Q]]; discriminate.
  - injection H as <- <-. destruct Q as [Q|[Q|Q]]; discriminate.
  - injection H as <- <-. destruct (continues _ _ _ _); destruct Q as [Q|[Q|Q]]; discriminate.
  - injection H as <- <-. destruct (_ && _); [|destruct (e_eval env t)]; destruct Q as [Q|[Q|Q]]; discriminate.
  - destruct (e_throw env t); [discriminate|]. injection H as <- <-. destruct Q as [Q|[Q|Q]]; discriminate.
  - injection H as <- <-. destruct Q as [Q|[Q|Q]]; discriminate.
  - injection H as <- <-. reflexivity.
  - injection H as <- <-. auto.
Qed.
Definition I2 s : Prop := dead s = false /\
  match worker s with Some p => idle_inv p (fl s) | None => match pc s with c_run p => idle_inv p (fl s) | _ => idle (fl s) = true end end.
Hypothesis NE : no_exception env.
Lemma wstep_ok sync t p f : exists p' f', wstep env sync t p f = Ok (p', f').
Proof. destruct p as [| |[|k]| | | |i|i| | |]; cbn; rewrite ?NE; try destruct (nan f); eauto. Qed.
Lemma I2_step t b s : I1 s -> I2 s -> I2 (step env t b s).
Proof.
  intros H1 (Hd & H). unfold step. rewrite Hd. destruct b.
  - unfold worker_step. destruct (worker s) as [q|] eqn:E; [|split; [exact Hd|rewrite E; exact H]].
    destruct (wstep_ok false t q (fl s)) as (p' & f' & Ew). rewrite Ew. split; [exact Hd|]. cbn. exact (wstep_idle _ _ _ _ _ _ Ew H).
  - unfold caller_step. destruct (pc s) as [| | | | | | | | |p| | |] eqn:E.
    + destruct (todo s) as [|c cs]; [split; [exact Hd|now rewrite E]|]. split; [exact Hd|]. cbn. destruct (worker s); [exact H|]. destruct c; exact H.
    + split; [exact Hd|]. cbn. destruct (worker s); exact H.
    + unfold joined. destruct (worker s) as [[]|] eqn:W; (split; [exact Hd|]); cbn; rewrite ?W, ?E; try exact H. apply H. right. now right.
    + assert (W : worker s = None) by (apply (H1 w_done); auto). rewrite W in H. split; [exact Hd|]. cbn. intros _. exact H.
    + split; [exact Hd|]. cbn. destruct (worker s); exact H.
    + unfold joined. destruct (worker s) as [[]|] eqn:W; (split; [exact Hd|]); cbn; rewrite ?W, ?E; try exact H. apply H. right. now right.
    + destruct (idle (fl s)) eqn:Ei; (split; [exact Hd|]); cbn; destruct (worker s); try exact H; rewrite ?Ei in *; auto.
    + split; [exact Hd|]. cbn. destruct (worker s); exact H.
    + unfold joined. destruct (worker s) as [[]|] eqn:W; (split; [exact Hd|]); cbn; rewrite ?W, ?E; try exact H; intros _; [apply H; right; now right|exact H].
    + assert (W : worker s = None) by (apply (H1 p); auto). rewrite W in H.
      destruct (wstep_ok true t p (fl s)) as (p' & f' & Ew). pose proof (wstep_idle _ _ _ _ _ _ Ew H) as H'.
      destruct p; try (split; [exact Hd|]; cbn; rewrite W; apply H; right; now right); rewrite Ew; (split; [exact Hd|]); cbn; rewrite W; exact H'.
    + destruct (idle (fl s)) eqn:Ei; (split; [exact Hd|]); cbn; destruct (worker s); try exact H; rewrite ?Ei in *; auto.
    + split; [exact Hd|]. cbn. destruct (worker s); exact H.
    + split; [exact Hd|]. cbn. destruct (worker s); exact H.
Qed.
Lemma I2_at sched prog t : I2 (at_ env sched prog t).
Proof. induction t as [|t IH]; [split; reflexivity|]. cbn [at_]. apply I2_step; [apply I1_at|exact IH]. Qed.

(* ---- C40: the stop request of a caller waiting in join ---- *)
Definition nan_inv p f : Prop := p = w_evnan1 \/ p = w_evnan2 -> nan f = true.
Definition heard p f : Prop := declared p /\ nan_inv p f /\ (want f = true \/ nan f = true \/ p = w_reset1 \/ p = w_reset2 \/ p = w_done).
Definition left_ p : nat :=
  match p with
  | w_begin | w_cleared => 0 | w_step _ => e_tests env + 7 | w_inner _ => e_tests env + 6 | w_eval k => k + 5 | w_evnan1 => 5 | w_evnan2 => 4
  | w_outer => 3 | w_reset1 => 2 | w_reset2 => 1 | w_done => 0
  end.
Lemma wstep_nan t sync p f p' f' : wstep env sync t p f = Ok (p', f') -> nan_inv p f -> nan_inv p' f'.
Proof.
  intros H HI Q. unfold nan_inv in *. destruct p as [| |[|k]| | | |i|i| | |]; cbn in H; rewrite ?NE in H; try (injection H as <- <-; try destruct Q as [Q|Q]; discriminate).
  - injection H as <- <-. destruct (e_first env); destruct Q; discriminate.
  - destruct (nan f) eqn:En; injection H as <- <-; [exact En|destruct Q; discriminate].
  - injection H as <- <-. cbn. auto.
  - injection H as <- <-. destruct (continues _ _ _ _); destruct Q; discriminate.
  - injection H as <- <-. destruct (_ && _); [|destruct (e_eval env t)]; destruct Q; discriminate.
Qed.
Lemma continues_false sync t f : want f = true \/ nan f = true -> continues env sync t f = false.
Proof. unfold continues. intros [-> | ->]; cbn; [reflexivity|]. now rewrite andb_false_r. Qed.
Lemma wstep_heard t p f p' f' : wstep env false t p f = Ok (p', f') -> heard p f -> p <> w_done -> heard p' f' /\ left_ p' < left_ p.
Proof.
  intros H (D & NI & G) Nd. pose proof (wstep_nan _ _ _ _ _ _ H NI) as NI'. unfold heard.
  destruct p as [| |[|k]| | | |i|i| | |]; cbn in H, D; rewrite ?NE in H; try contradiction; try congruence.
  - injection H as <- <-. split; [|cbn; lia]. do 2 (split; [exact I || exact NI'|]). destruct G as [G|[G|[G|[G|G]]]]; auto; discriminate.
  - destruct (nan f) eqn:En; injection H as <- <-; (split; [|cbn; lia]); do 2 (split; [exact I || exact NI'|]); [auto|].
    destruct G as [G|[G|[G|[G|G]]]]; try discriminate; cbn; auto.
  - injection H as <- <-. split; [|cbn; lia]. do 2 (split; [exact I || exact NI'|]). right. left. cbn. apply NI. auto.
  - injection H as <- <-. split; [|cbn; lia]. do 2 (split; [exact I || exact NI'|]). right. left. cbn. apply NI. auto.
  - rewrite continues_false in H by (destruct G as [G|[G|[G|[G|G]]]]; auto; discriminate). injection H as <- <-. split; [|cbn; lia]. do 2 (split; [exact I || exact NI'|]). auto.
  - rewrite continues_false, andb_false_r in H by (destruct G as [G|[G|[G|[G|G]]]]; auto; discriminate). injection H as <- <-.
    split; [|destruct (e_eval env t); cbn; lia]. split; [now destruct (e_eval env t)|]. split; [exact NI'|]. destruct G as [G|[G|[G|[G|G]]]]; auto; discriminate.
  - injection H as <- <-. split; [|cbn; lia]. do 2 (split; [exact I || exact NI'|]). cbn. destruct G as [G|[G|[G|[G|G]]]]; try discriminate; auto. right. left. now rewrite G.
  - injection H as <- <-. split; [|cbn; lia]. do 2 (split; [exact I || exact NI'|]). auto.
  - injection H as <- <-. split; [|cbn; lia]. do 2 (split; [exact I || exact NI'|]). auto.
Qed.
Definition I3 s : Prop := match worker s with Some p => nan_inv p (fl s) | None => True end.
Lemma I3_step t b s : I1 s -> I3 s -> I3 (step env t b s).
Proof.
  intros H1 H. unfold step. destruct (dead s); [exact H|]. destruct b.
  - unfold worker_step, I3 in *. destruct (worker s) as [q|] eqn:E; [|now rewrite E].
    destruct (wstep_ok false t q (fl s)) as (p' & f' & Ew). rewrite Ew. cbn. exact (wstep_nan _ _ _ _ _ _ Ew H).
  - unfold I3 in *. unfold caller_step. destruct (pc s) as [| | | | | | | | |p| | |] eqn:E; try exact H.
    + destruct (todo s); exact H.
    + destruct (joined s) as [s'|] eqn:J; [|exact H]. apply joined_None in J as (J & _). cbn. now rewrite J.
    + cbn. intros [Q|Q]; discriminate.
    + destruct (joined s) as [s'|] eqn:J; [|exact H]. apply joined_None in J as (J & _). cbn. now rewrite J.
    + destruct (idle (fl s)); exact H.
    + destruct (joined s) as [s'|] eqn:J; [|exact H]. apply joined_None in J as (J & _). cbn. now rewrite J.
    + assert (W : worker s = None) by (apply (H1 p); auto). rewrite W in H.
      destruct p; try (destruct (wstep env true t _ (fl s)) as [[]|?|]); cbn; now rewrite W.
    + destruct (idle (fl s)); exact H.
Qed.
Lemma I3_at sched prog t : I3 (at_ env sched prog t).
Proof. induction t as [|t IH]; [exact I|]. cbn [at_]. apply I3_step; [apply I1_at|exact IH]. Qed.

(* a caller waiting in join for a thread that will hear it: the call comes back *)
Lemma join_returns sched prog : fair sched -> forall n t p, left_ p <= n -> let s := at_ env sched prog t in
  pc s = c_stop1 -> worker s = Some p -> heard p (fl s) ->
  exists t', t < t' /\ let s' := at_ env sched prog t' in returned s' /\ worker s' = None /\ answers s' = answers s ++ [(Stop, Returned)] /\ todo s' = todo s /\ idle (fl s') = true.
Proof.
  intros Hf. induction n as [n IH] using lt_wf_ind. intros t p Hn s Hpc Hw Hh.
  assert (Hwait : forall b k, (forall j, t <= j < t + k -> sched j = b) -> (b = true -> p = w_done) -> (b = false -> p <> w_done) -> at_ env sched prog (t + k) = s).
  { intros b k. induction k as [|k IHk]; intros Hs Hb1 Hb2; [now rewrite Nat.add_0_r|]. rewrite Nat.add_succ_r. cbn [at_]. rewrite IHk; auto; [|intros j Hj; apply Hs; lia].
    rewrite (Hs (t + k)) by lia. unfold step. pose proof (proj1 (I2_at sched prog t)) as Hd. fold s in Hd. rewrite Hd. destruct b.
    - specialize (Hb1 eq_refl). subst p. unfold worker_step. rewrite Hw. cbn. rewrite <- Hw. now destruct s as [[]].
    - specialize (Hb2 eq_refl). unfold caller_step. rewrite Hpc. unfold joined. rewrite Hw. destruct p; congruence. }
  assert (Hfirst : forall b, exists m, t <= m /\ sched m = b /\ forall j, t <= j < m -> sched j = negb b).
  { intros b. destruct (Hf t b) as (m & Hm & Eb). revert Hm Eb. induction m as [m IHm] using lt_wf_ind. intros Hm Eb.
    destruct (find (fun j => Bool.eqb (sched j) b) (seq t (m - t))) as [j|] eqn:E.
    - apply find_some in E as (Hj & Ej). apply in_seq in Hj. apply eqb_prop in Ej. apply (IHm j); [lia|lia|exact Ej].
    - exists m. split; [exact Hm|]. split; [exact Eb|]. intros j Hj. pose proof (find_none _ _ E j) as X. rewrite in_seq in X. specialize (X ltac:(lia)). destruct (sched j), b; auto; discriminate. }
  assert (Hd : dead s = false) by (apply (I2_at sched prog t)).
  assert (Dd : {p = w_done} + {p <> w_done}) by (destruct p; (left; reflexivity) || (right; discriminate)). destruct Dd as [->|Nd].
  - destruct (Hfirst false) as (m & Hm & Em & Hj). exists (S m). split; [lia|]. cbn [at_]. rewrite Em.
    replace m with (t + (m - t)) by lia. rewrite (Hwait true (m - t)); [|intros j Hj'; apply Hj; lia|auto|discriminate].
    unfold step. rewrite Hd. unfold caller_step, joined. rewrite Hpc, Hw. cbn.
    split; [reflexivity|]. do 3 (split; [reflexivity|]). destruct (I2_at sched prog t) as (_ & X). fold s in X. rewrite Hw in X. apply X. right. now right.
  - destruct (Hfirst true) as (m & Hm & Em & Hj). pose proof (Hwait false (m - t) ltac:(intros j Hj'; apply Hj; lia) ltac:(discriminate) ltac:(auto)) as Es.
    replace (t + (m - t)) with m in Es by lia. destruct (wstep_ok false m p (fl s)) as (p' & f' & Ew). destruct (wstep_heard _ _ _ _ _ Ew Hh Nd) as (Hh' & Hlt).
    assert (E2 : at_ env sched prog (S m) = with_worker (with_fl s f') (Some p')). { cbn [at_]. rewrite Em, Es. unfold step. rewrite Hd. unfold worker_step. now rewrite Hw, Ew. }
    destruct (IH (left_ p') ltac:(lia) (S m) p' (le_n _)) as (t' & Ht' & X); rewrite E2 in *; [exact Hpc|reflexivity|exact Hh'|].
    exists t'. split; [lia|]. exact X.
Qed.

Lemma wstep_declared sync t p f p' f' : wstep env sync t p f = Ok (p', f') -> declared p -> declared p'.
Proof.
  intros H D. destruct p as [| |[|k]| | | |i|i| | |]; cbn in H, D; rewrite ?NE in H; try contradiction; try (injection H as <- <-; exact I).
  - destruct (nan f); injection H as <- <-; exact I.
  - injection H as <- <-. now destruct (continues _ _ _ _).
  - injection H as <- <-. destruct (_ && _); [|destruct (e_eval env t)]; exact I.
Qed.
Lemma first_turn sched : fair sched -> forall t b, exists m, t <= m /\ sched m = b /\ forall j, t <= j < m -> sched j = negb b.
Proof.
  intros Hf t b. destruct (Hf t b) as (m & Hm & Eb). revert Hm Eb. induction m as [m IHm] using lt_wf_ind. intros Hm Eb.
  destruct (find (fun j => Bool.eqb (sched j) b) (seq t (m - t))) as [j|] eqn:E.
  - apply find_some in E as (Hj & Ej). apply in_seq in Hj. apply eqb_prop in Ej. apply (IHm j); [lia|lia|exact Ej].
  - exists m. split; [exact Hm|]. split; [exact Eb|]. intros j Hj. pose proof (find_none _ _ E j) as X. rewrite in_seq in X. specialize (X ltac:(lia)). destruct (sched j), b; auto; discriminate.
Qed.
Lemma only_worker sched prog t : forall k, (forall j, t <= j < t + k -> sched j = true) -> let s := at_ env sched prog t in let s' := at_ env sched prog (t + k) in
  pc s' = pc s /\ todo s' = todo s /\ answers s' = answers s /\
  match worker s with None => worker s' = None /\ fl s' = fl s | Some p => declared p -> exists p', worker s' = Some p' /\ declared p' end.
Proof.
  induction k as [|k IH]; intros Hs s s'.
  - unfold s'. rewrite Nat.add_0_r. fold s. repeat (split; [reflexivity|]). destruct (worker s) eqn:E; eauto.
  - destruct (IH ltac:(intros j Hj; apply Hs; lia)) as (A & B & C & D). fold s in A, B, C, D. set (s1 := at_ env sched prog (t + k)) in *.
    assert (E : s' = step env (t + k) true s1). { unfold s'. rewrite Nat.add_succ_r. cbn [at_]. rewrite (Hs (t + k)) by lia. reflexivity. }
    assert (Hd : dead s1 = false) by (apply (I2_at sched prog (t + k))). rewrite E. unfold step. rewrite Hd. unfold worker_step.
    destruct (worker s1) as [q|] eqn:W1.
    + destruct (wstep_ok false (t + k) q (fl s1)) as (p' & f' & Ew). rewrite Ew. cbn. repeat (split; [assumption|]).
      destruct (worker s) as [p|]; [|destruct D; congruence]. intros Dp. destruct (D Dp) as (q' & Eq & Dq). injection Eq as <-. exists p'. split; [reflexivity|]. exact (wstep_declared _ _ _ _ _ _ Ew Dq).
    + repeat (split; [assumption|]). destruct (worker s) as [p|]; [|exact (conj W1 (proj2 D))]. intros Dp. destruct (D Dp) as (q' & Eq & Dq). discriminate.
Qed.
Lemma stop_returns sched prog t : fair sched -> let s := at_ env sched prog t in
  pc s = c_stop0 -> (forall p, worker s = Some p -> declared p) ->
  exists t', t < t' /\ let s' := at_ env sched prog t' in returned s' /\ worker s' = None /\ answers s' = answers s ++ [(Stop, Returned)] /\ todo s' = todo s /\ idle (fl s') = true.
Proof.
  intros Hf s Hpc Hw. destruct (first_turn sched Hf t false) as (m & Hm & Em & Hj).
  destruct (only_worker sched prog t (m - t)) as (A & B & C & D); [intros j Hj'; apply Hj; lia|]. replace (t + (m - t)) with m in * by lia. fold s in A, B, C, D.
  set (s1 := at_ env sched prog m) in *. assert (Hd : dead s1 = false) by (apply (I2_at sched prog m)).
  assert (E2 : at_ env sched prog (S m) = go (with_fl s1 (set_want true (fl s1))) c_stop1). { cbn [at_]. rewrite Em. fold s1. unfold step, caller_step. now rewrite Hd, A, Hpc. }
  destruct (worker s) as [p|] eqn:W.
  - destruct (D (Hw p eq_refl)) as (p' & W1 & D1).
    destruct (join_returns sched prog Hf (left_ p') (S m) p' (le_n _)) as (t' & Ht' & X); rewrite E2 in *; cbn.
    + reflexivity.
    + exact W1.
    + split; [exact D1|]. split; [|left; reflexivity]. pose proof (I3_at sched prog m) as J. unfold I3 in J. fold s1 in J. rewrite W1 in J. exact J.
    + exists t'. split; [lia|]. cbn in X. rewrite B, C in X. exact X.
  - destruct D as (W1 & D). destruct (first_turn sched Hf (S m) false) as (m2 & Hm2 & Em2 & Hj2).
    destruct (only_worker sched prog (S m) (m2 - S m)) as (A2 & B2 & C2 & D2); [intros j Hj'; apply Hj2; lia|]. replace (S m + (m2 - S m)) with m2 in * by lia. rewrite E2 in *. cbn in A2, B2, C2, D2. rewrite W1 in D2.
    set (s2 := at_ env sched prog m2) in *. assert (Hd2 : dead s2 = false) by (apply (I2_at sched prog m2)). destruct D2 as (W2 & F2).
    exists (S m2). split; [lia|]. cbn [at_]. rewrite Em2. fold s2. unfold step, caller_step, joined. rewrite Hd2, A2, W2. cbn.
    split; [reflexivity|]. split; [exact W2|]. split; [congruence|]. split; [congruence|].
    pose proof (I2_at sched prog m2) as (_ & J). fold s2 in J. rewrite W2, A2 in J. exact J.
Qed.
(* the caller has just been told that a training is in progress *)
Definition I4 s : Prop := forall l, answers s = l ++ [(IsTraining, Says true)] -> pc s = c_free \/ pc s = c_stop0 -> exists p, worker s = Some p /\ declared p.
Lemma I4_step t b s : I1 s -> I2 s -> I4 s -> I4 (step env t b s).
Proof.
  intros H1 (Hd & H2) H. unfold step. rewrite Hd. destruct b.
  - unfold worker_step. destruct (worker s) as [q|] eqn:E; [|exact H]. destruct (wstep_ok false t q (fl s)) as (p' & f' & Ew). rewrite Ew.
    intros l Ha Hp. destruct (H l Ha Hp) as (p & W & D). rewrite W in E. injection E as ->. exists p'. split; [reflexivity|]. exact (wstep_declared _ _ _ _ _ _ Ew D).
  - assert (GV : forall s0 c, c <> IsTraining -> forall a, I4 (give s0 c a)). { intros s0 c Hc a l Ha _. cbn in Ha. apply app_inj_tail in Ha as (_ & Ha). injection Ha as Ha _. congruence. }
    assert (GO : forall s0 (c0 : cpc), c0 <> c_free -> c0 <> c_stop0 -> I4 (go s0 c0)). { intros s0 c0 N1 N2 l _ [Hp|Hp]; cbn in Hp; congruence. }
    unfold caller_step. destruct (pc s) as [| | | | | | | | |p| | |] eqn:E; try (apply GV; discriminate); try (apply GO; discriminate).
    + destruct (todo s) as [|c cs]; [exact H|]. intros l Ha _. cbn in Ha |- *. apply (H l Ha). now left.
    + destruct (joined s); [apply GO; discriminate|exact H].
    + destruct (joined s); [apply GV; discriminate|exact H].
    + destruct (idle (fl s)); [apply GO|apply GV]; discriminate.
    + destruct (joined s); [apply GO; discriminate|exact H].
    + destruct p; try (destruct (wstep env true t _ (fl s)) as [[]|?|]); first [apply GO; discriminate|apply GV; discriminate].
    + destruct (idle (fl s)); [apply GO|apply GV]; discriminate.
    + intros l Ha _. cbn in Ha |- *. apply app_inj_tail in Ha as (_ & Ha). injection Ha as Ha. apply Bool.negb_true_iff in Ha.
      destruct (worker s) as [q|] eqn:W; [|congruence]. exists q. split; [reflexivity|]. unfold idle_inv, quiet_pc in H2. destruct q; try exact I; rewrite H2 in Ha; auto; discriminate.
Qed.
Lemma I4_at sched prog t : I4 (at_ env sched prog t).
Proof. induction t as [|t IH]; [intros l Ha; now destruct l|]. cbn [at_]. apply I4_step; [apply I1_at|apply I2_at|exact IH]. Qed.
Lemma asked_stop_returns sched prog t l cs : fair sched -> let s := at_ env sched prog t in
  returned s -> answers s = l ++ [(IsTraining, Says true)] -> todo s = Stop :: cs ->
  exists t', t < t' /\ let s' := at_ env sched prog t' in returned s' /\ worker s' = None /\ answers s' = answers s ++ [(Stop, Returned)] /\ todo s' = cs /\ idle (fl s') = true.
Proof.
  intros Hf s Hpc Ha Ht. unfold returned in Hpc. destruct (first_turn sched Hf t false) as (m & Hm & Em & Hj).
  destruct (only_worker sched prog t (m - t)) as (A & B & C & _); [intros j Hj'; apply Hj; lia|]. replace (t + (m - t)) with m in * by lia. fold s in A, B, C.
  set (s1 := at_ env sched prog m) in *. assert (Hd : dead s1 = false) by (apply (I2_at sched prog m)).
  assert (E2 : at_ env sched prog (S m) = mkState (fl s1) (worker s1) c_stop0 cs (answers s1) (dead s1)). { cbn [at_]. rewrite Em. fold s1. unfold step, caller_step. rewrite Hd, A, Hpc, B, Ht. reflexivity. }
  destruct (stop_returns sched prog (S m) Hf) as (t' & Ht' & X).
  - now rewrite E2.
  - intros p W. destruct (I4_at sched prog (S m) l) as (q & Wq & Dq); [rewrite E2; cbn; congruence|rewrite E2; now right|]. congruence.
  - exists t'. split; [lia|]. rewrite E2 in X. cbn in X. rewrite C in X. exact X.
Qed.
End P.

(* ===== C40 ===== *)
(* Under every fair schedule, after any history of calls: once the thread has declared itself (isTraining() has become true for the
   training in progress), or without any thread, stopTrainingAsync comes back, and then no training is in progress. *)
Theorem C40_stop_returns_partial : forall env, no_exception env -> forall sched prog t, fair sched -> let s := at_ env sched prog t in
  pc s = c_stop0 -> (forall p, worker s = Some p -> declared p) ->
  exists t', t < t' /\ let s' := at_ env sched prog t' in returned s' /\ answers s' = answers s ++ [(Stop, Returned)] /\
    worker s' = None /\ idle (fl s') = true.
Proof.
  intros env NE sched prog t Hf s Hpc Hw. destruct (stop_returns env NE sched prog t Hf Hpc Hw) as (t' & H & A & B & C & _ & D). exists t'. auto.
Qed.
Print Assumptions C40_stop_returns_partial.
(* in terms of the API: a caller who has just seen isTraining() = true and then calls stopTrainingAsync *)
Theorem C40_seen_then_stopped_partial : forall env, no_exception env -> forall sched prog t l cs, fair sched -> let s := at_ env sched prog t in
  returned s -> answers s = l ++ [(IsTraining, Says true)] -> todo s = Stop :: cs ->
  exists t', t < t' /\ let s' := at_ env sched prog t' in returned s' /\ answers s' = answers s ++ [(Stop, Returned)] /\ todo s' = cs /\
    worker s' = None /\ idle (fl s') = true.
Proof.
  intros env NE sched prog t l cs Hf s A B C. destruct (asked_stop_returns env NE sched prog t l cs Hf A B C) as (t' & H & D & E & G & I & J). exists t'. auto 10.
Qed.
Print Assumptions C40_seen_then_stopped_partial.

Definition alternate (t : nat) : bool := Nat.odd t.
Lemma alternate_fair : fair alternate.
Proof.
  intros n b. destruct (Bool.bool_dec (Nat.odd n) b) as [E|E]; [exists n; auto|]. exists (S n). split; [lia|]. unfold alternate.
  rewrite Nat.odd_succ, <- Nat.negb_odd. destruct (Nat.odd n), b; auto; congruence.
Qed.
Definition calm : Env := mkEnv (fun _ => false) (fun _ => false) (fun _ => false) (fun _ => true) 2 3 true.
Example C40_hypotheses : no_exception calm /\ fair alternate /\
  (exists t, pc (at_ calm alternate [Start; IsTraining; Stop] t) = c_stop0 /\ worker (at_ calm alternate [Start; IsTraining; Stop] t) = Some (w_eval 1)) /\
  (exists t cs, returned (at_ calm alternate [Start; IsTraining; IsTraining; IsTraining; Stop] t) /\
     answers (at_ calm alternate [Start; IsTraining; IsTraining; IsTraining; Stop] t) = [(Start, Returned); (IsTraining, Says true); (IsTraining, Says true); (IsTraining, Says true)] /\
     todo (at_ calm alternate [Start; IsTraining; IsTraining; IsTraining; Stop] t) = Stop :: cs).
Proof.
  split; [intros t; reflexivity|]. split; [exact alternate_fair|]. split.
  - exists 13. vm_compute. auto.
  - exists 19, []. vm_compute. auto.
Qed.

(* Refuted as it stands: startTrainingAsync followed at once by stopTrainingAsync may never come back, under a fair schedule and
   whatever the data: the new thread clears the stop request it has not yet seen, and trains for ever. *)
Definition unlucky (t : nat) : bool := if t <? 6 then false else if t =? 6 then true else alternate t.
Lemma unlucky_fair : fair unlucky.
Proof.
  intros n b. destruct (alternate_fair (n + 7) b) as (m & Hm & E). exists m. split; [lia|]. unfold unlucky.
  destruct (Nat.ltb_spec m 6); [lia|]. destruct (Nat.eqb_spec m 6); [lia|]. exact E.
Qed.
Definition lost (s : state) : Prop :=
  pc s = c_stop1 /\ dead s = false /\ want (fl s) = false /\ nan (fl s) = false /\ answers s = [(Start, Returned)] /\
  exists p, worker s = Some p /\ match p with w_begin | w_reset1 | w_reset2 | w_done | w_evnan1 | w_evnan2 => False | _ => True end.
Lemma lost_step env t b s : no_exception env -> (forall t, e_nan env t = false) -> lost s -> lost (step env t b s).
Proof.
  intros NE NN (A & B & C & D & E & p & W & P). unfold step. rewrite B. destruct b.
  - unfold worker_step. rewrite W. destruct p as [| |[|k]| | | |i|i| | |]; try contradiction; cbn; rewrite ?NE, ?NN, ?D; cbn; unfold lost; cbn; rewrite ?C, ?D; (do 5 (split; [assumption || reflexivity|])); eexists; (split; [reflexivity|]);
      unfold continues; rewrite ?C, ?D; cbn; try exact I.
    + destruct (e_first env); exact I.
    + rewrite ?andb_true_r. match goal with |- context [if ?b then w_step _ else _] => destruct b end; [exact I|]. destruct (e_eval env t); exact I.
  - unfold caller_step, joined. rewrite A, W. destruct p; try contradiction; (do 5 (split; [assumption|])); eexists; (split; [exact W|exact I]).
Qed.
Theorem C40_lost_stop_refuted : forall env, no_exception env -> (forall t, e_nan env t = false) ->
  exists sched, fair sched /\ forall t, 7 <= t -> let s := at_ env sched [Start; Stop] t in pc s = c_stop1 /\ thread_training s /\ answers s = [(Start, Returned)].
Proof.
  intros env NE NN. exists unlucky. split; [exact unlucky_fair|]. intros t Ht.
  assert (L : lost (at_ env unlucky [Start; Stop] t)).
  { induction Ht as [|t Ht IH]; [|cbn [at_]; now apply lost_step].
    assert (E : at_ env unlucky [Start; Stop] 7 = mkState (mkFlags false true false) (Some w_cleared) c_stop1 [] [(Start, Returned)] false) by (vm_compute; reflexivity).
    rewrite E. do 5 (split; [reflexivity|]). eexists. split; [reflexivity|exact I]. }
  destruct L as (A & _ & _ & _ & E & p & W & P). split; [exact A|]. split; [|exact E]. exists p. split; [exact W|]. intros ->. exact P.
Qed.
Print Assumptions C40_lost_stop_refuted.

(* ===== C41 ===== *)
(* Never two trainings at once, whatever the calls, the schedule, the exceptions; and a thread is only created when none exists. *)
Theorem C41_one_training_at_a_time : forall env sched prog t, let s := at_ env sched prog t in
  ~ (thread_training s /\ caller_training s) /\ (pc s = c_start2 -> worker s = None).
Proof.
  intros env sched prog t s. pose proof (I1_at env sched prog t) as H. fold s in H. split.
  - intros ((p & W & _) & (q & Q & _)). rewrite (H q (or_introl Q)) in W. discriminate.
  - intros E. apply (H w_done). auto.
Qed.
Print Assumptions C41_one_training_at_a_time.
Example C41_both_kinds_of_training : (exists t, thread_training (at_ calm alternate [Start; Stop] t)) /\ (exists t, caller_training (at_ calm alternate [Train] t)).
Proof.
  split; [exists 9|exists 12].
  - exists w_cleared. split; [vm_compute; reflexivity|discriminate].
  - exists (w_eval 2). split; [vm_compute; reflexivity|discriminate].
Qed.

(* While the thread is training (after it has declared itself, before it ends, and unless an abnormal number came up), saveAs and train
   throw and change nothing. *)
Definition busy_inv (s : state) : Prop := forall p, worker s = Some p -> declared p -> p <> w_done -> idle (fl s) = false \/ nan (fl s) = true.
Lemma wstep_busy env sync t p f p' f' : wstep env sync t p f = Ok (p', f') -> nan_inv p f -> (declared p -> p <> w_done -> idle f = false \/ nan f = true) ->
  declared p' -> p' <> w_done -> idle f' = false \/ nan f' = true.
Proof.
  intros H NI HI D Nd. destruct p as [| |[|k]| | | |i|i| | |]; cbn in H.
  - injection H as <- <-. contradiction.
  - injection H as <- <-. now left.
  - injection H as <- <-. apply HI; [exact I|discriminate].
  - destruct (nan f) eqn:En; [injection H as <- <-; now right|]. destruct (e_throw env t); [discriminate|]. injection H as <- <-. destruct (HI I ltac:(discriminate)); [now left|discriminate].
  - injection H as <- <-. right. apply NI. now left.
  - injection H as <- <-. right. apply NI. now right.
  - injection H as <- <-. apply HI; [exact I|discriminate].
  - injection H as <- <-. apply HI; [exact I|discriminate].
  - destruct (e_throw env t); [discriminate|]. injection H as <- <-. destruct (HI I ltac:(discriminate)) as [X|X]; [now left|right; cbn; now rewrite X].
  - injection H as <- <-. destruct (HI I ltac:(discriminate)); [now left|now right].
  - injection H as <- <-. congruence.
  - injection H as <- <-. congruence.
Qed.
Lemma busy_step env t b s : no_exception env -> I1 s -> I3 s -> busy_inv s -> busy_inv (step env t b s).
Proof.
  intros NE H1 H3 H. unfold step. destruct (dead s); [exact H|]. destruct b.
  - unfold worker_step. destruct (worker s) as [q|] eqn:E; [|exact H]. destruct (wstep_ok env NE false t q (fl s)) as (p' & f' & Ew). rewrite Ew.
    intros p W D Nd. cbn in W. injection W as <-. unfold I3 in H3. rewrite E in H3. exact (wstep_busy _ _ _ _ _ _ _ Ew H3 (H q E) D Nd).
  - assert (SF : forall s', worker s' = worker s -> idle (fl s') = idle (fl s) -> nan (fl s') = nan (fl s) -> busy_inv s').
    { intros s' A B C p W D Nd. rewrite B, C. rewrite A in W. now apply (H p W D Nd). }
    assert (WN : forall s', worker s' = None -> busy_inv s') by (intros s' A p W; congruence).
    unfold caller_step. destruct (pc s) as [| | | | | | | | |p| | |] eqn:E; try (apply SF; reflexivity).
    + destruct (todo s); apply SF; reflexivity.
    + destruct (joined s) as [s'|] eqn:J; [|exact H]. apply joined_None in J as (J & _). now apply WN.
    + intros p W D _. cbn in W. injection W as <-. contradiction.
    + destruct (joined s) as [s'|] eqn:J; [|exact H]. apply joined_None in J as (J & _). now apply WN.
    + case (idle (fl s)); apply SF; reflexivity.
    + destruct (joined s) as [s'|] eqn:J; [|exact H]. apply joined_None in J as (J & _). now apply WN.
    + assert (W : worker s = None) by (apply (H1 p); auto). apply WN. destruct p; try (destruct (wstep env true t _ (fl s)) as [[]|?|]); exact W.
    + case (idle (fl s)); apply SF; reflexivity.
Qed.
Theorem C41_declared_training_protected_partial : forall env, no_exception env -> forall sched prog t, let s := at_ env sched prog t in
  forall p, worker s = Some p -> declared p -> p <> w_done -> nan (fl s) = false ->
  (pc s = c_save0 -> step env t false s = give s Save Threw) /\ (pc s = c_train0 -> step env t false s = give s Train Threw) /\ (pc s = c_ask -> step env t false s = give s IsTraining (Says true)).
Proof.
  intros env NE sched prog t s p W D Nd Hn. assert (B : busy_inv s).
  { unfold s. clear -NE. induction t as [|t IH]; [intros p W; discriminate|]. cbn [at_]. apply busy_step; [exact NE|now apply I1_at|now apply I3_at|exact IH]. }
  destruct (B p W D Nd) as [Hi|Hi]; [|congruence]. assert (Hd : dead s = false) by (apply (I2_at env NE sched prog t)). unfold step, caller_step. rewrite Hd, Hi.
  repeat split; intros ->; reflexivity.
Qed.
Print Assumptions C41_declared_training_protected_partial.
Example C41_protected_hypotheses : no_exception calm /\ exists t, let s := at_ calm alternate [Start; IsTraining; Save] t in pc s = c_save0 /\ worker s = Some (w_eval 1) /\ nan (fl s) = false.
Proof. split; [intros t; reflexivity|]. exists 13. vm_compute. auto. Qed.

(* Refuted: right after startTrainingAsync, isTraining() says no, and saveAs writes the file while the thread is learning *)
Definition lazy_start (t : nat) : bool := if t <? 6 then false else true.
Theorem C41_save_during_training_refuted : exists sched t, let s := at_ calm sched [Start; Save] t in
  pc s = c_save1 /\ worker s = Some (w_step 0) /\ answers s = [(Start, Returned)] /\ answers (step calm t false s) = [(Start, Returned); (Save, Returned)].
Proof. exists lazy_start, 13. vm_compute. auto. Qed.
Theorem C41_just_started_refuted : exists sched t, let s := at_ calm sched [Start; IsTraining] t in
  thread_training s /\ answers s = [(Start, Returned); (IsTraining, Says false)].
Proof. exists (fun _ => false), 6. split; [|vm_compute; reflexivity]. exists w_begin. split; [vm_compute; reflexivity|discriminate]. Qed.

(* ===== C57 ===== *)
(* Refuted: a train() that ends with an exception leaves isIdle false for ever: every later train() and saveAs throw *)
Definition broken (s : state) : Prop := worker s = None /\ idle (fl s) = false /\ ~ In Start (todo s) /\
  match pc s with c_free | c_stop0 | c_stop1 | c_train0 | c_save0 | c_ask => True | _ => False end.
Lemma broken_step env t b s : broken s -> broken (step env t b s) /\
  exists l, answers (step env t b s) = answers s ++ l /\ Forall (fun ca => fst ca = Train \/ fst ca = Save -> snd ca = Threw) l.
Proof.
  intros (W & Hi & Hs & Hp). unfold step. destruct (dead s); [split; [repeat split; auto|exists []; rewrite app_nil_r; auto]|]. destruct b.
  - unfold worker_step. rewrite W. split; [repeat split; auto|exists []; rewrite app_nil_r; auto].
  - unfold caller_step, joined. destruct (pc s) as [| | | | | | | | |p| | |] eqn:E; try contradiction; rewrite ?W, ?Hi.
    + destruct (todo s) as [|c cs] eqn:Et.
      * split; [repeat split; auto; [rewrite Et; exact Hs|now rewrite E]|exists []; rewrite app_nil_r; auto].
      * split; [|exists []; cbn; rewrite app_nil_r; auto]. repeat split; auto; cbn; [|destruct c; auto]; [intros X; apply Hs; now right|apply Hs; now left].
    + split; [repeat split; auto|exists []; cbn; rewrite app_nil_r; auto].
    + split; [repeat split; auto|]. eexists. split; [reflexivity|]. repeat constructor. cbn. intros [X|X]; discriminate.
    + split; [repeat split; auto|]. eexists. split; [reflexivity|]. repeat constructor.
    + split; [repeat split; auto|]. eexists. split; [reflexivity|]. repeat constructor.
    + split; [repeat split; auto|]. eexists. split; [reflexivity|]. repeat constructor. cbn. intros [X|X]; discriminate.
Qed.
Theorem C57_exception_blocks_refuted : forall env sched prog t, let s := at_ env sched prog t in
  (exists p msg, pc s = c_run p /\ wstep env true t p (fl s) = Throw msg) -> idle (fl s) = false -> sched t = false -> dead s = false -> ~ In Start (todo s) ->
  answers (at_ env sched prog (S t)) = answers s ++ [(Train, Threw)] /\
  forall t', S t <= t' -> exists l, answers (at_ env sched prog t') = answers (at_ env sched prog (S t)) ++ l /\ Forall (fun ca => fst ca = Train \/ fst ca = Save -> snd ca = Threw) l.
Proof.
  intros env sched prog t s (p & msg & Hp & Ew) Hi Hsch Hd Hs. pose proof (I1_at env sched prog t p (or_introl Hp)) as W. fold s in W.
  assert (E : at_ env sched prog (S t) = give s Train Threw).
  { cbn [at_]. rewrite Hsch. fold s. unfold step, caller_step. rewrite Hd, Hp. destruct p; try discriminate Ew; now rewrite Ew. }
  split; [now rewrite E|]. intros t' Ht. assert (B0 : broken (at_ env sched prog (S t))). { rewrite E. repeat split; auto. }
  assert (G : broken (at_ env sched prog t') /\ exists l, answers (at_ env sched prog t') = answers (at_ env sched prog (S t)) ++ l /\ Forall (fun ca => fst ca = Train \/ fst ca = Save -> snd ca = Threw) l); [|exact (proj2 G)].
  induction Ht as [|t' Ht (B & l & A & F)]; [split; [exact B0|exists []; rewrite app_nil_r; auto]|]. cbn [at_]. destruct (broken_step env t' (sched t') _ B) as (B' & l' & A' & F').
  split; [exact B'|]. exists (l ++ l'). split; [rewrite A', A, app_assoc; reflexivity|]. apply Forall_app. auto.
Qed.
Print Assumptions C57_exception_blocks_refuted.
Definition bad_label : Env := mkEnv (fun _ => false) (fun t => t =? 8) (fun _ => false) (fun _ => true) 2 3 false.
Example C57_hypotheses : exists t, let s := at_ bad_label (fun _ => false) [Train; Train; Save] t in
  (exists p msg, pc s = c_run p /\ wstep bad_label true t p (fl s) = Throw msg) /\ idle (fl s) = false /\ dead s = false /\ ~ In Start (todo s).
Proof.
  exists 8. split; [exists (w_step 0); eexists; split; vm_compute; reflexivity|]. split; [vm_compute; reflexivity|]. split; [vm_compute; reflexivity|].
  vm_compute. intros [X|[X|[]]]; discriminate.
Qed.
