(* C60: waitFor, under every interleaving of the caller and the training thread. *)
From Verif Require Import Base Num NumOrder ToolsModel WaitModel WaitProofs TrainProofs AsyncModel AsyncProps AsyncWaitModel Witness.
Local Open Scope nat_scope.

(* ---- vocabulary ---- *)
(* the caller is inside waitFor(w) *)
Definition in_wait {N : Num} (w : Wait) (s : wstate) : Prop := exists p, waiting s = Some p /\ p_wait p = w.
(* waitFor returns at the instant t *)
Definition wait_returns {N : Num} env look sched e prog (w : Wait) (t : nat) : Prop :=
  in_wait w (wt_at env look sched e prog t) /\ waiting (wt_at env look sched e prog (S t)) = None.

Section P.
Context {N : Num} {ok : F -> Prop} (OL : order_laws N ok).
Variables (env : Env) (look : Look).
Implicit Types (s : wstate) (p : wpc).

(* the reachable states of the two threads keep the invariants of AsyncProps *)
Lemma wt_base b t s : (exists t', base (wt_step env look t b s) = step env t' b (base s)) \/
  (b = false /\ dead (base s) = false /\ pc (base s) = c_free /\ todo (base s) = [] /\
   fl (base (wt_step env look t b s)) = fl (base s) /\ worker (base (wt_step env look t b s)) = worker (base s) /\ pc (base (wt_step env look t b s)) = c_free /\
   dead (base (wt_step env look t b s)) = false /\ epoch (wt_step env look t b s) = epoch s /\ batches (wt_step env look t b s) = batches s).
Proof.
  unfold wt_step, step. destruct (dead (base s)) eqn:Ed; [left; exists t; reflexivity|]. destruct b.
  - left. exists t. unfold wt_worker. destruct (worker (base s)); [|reflexivity]. destruct (worker (worker_step env t (base s))); [|reflexivity]. now destruct (dead (worker_step env t (base s))).
  - unfold wt_caller. destruct (pc (base s)) eqn:Ep; try (left; exists t; reflexivity).
    destruct (todo (base s)) eqn:Et; [|left; exists t; reflexivity]. right.
    destruct (waiting s) as [q|].
    + destruct (p_looked q); [destruct (isOver _ _ _ _ _)|destruct (nan _)]; cbn; auto 12.
    + destruct (calls s) as [|[c|w] cs]; cbn; auto 12.
Qed.

Definition W s : Prop := waiting s <> None -> pc (base s) = c_free /\ todo (base s) = [].
Lemma W_step b t s : W s -> W (wt_step env look t b s).
Proof.
  intros H. unfold wt_step. destruct (dead (base s)); [exact H|]. destruct b.
  - unfold wt_worker, worker_step. destruct (worker (base s)) as [p|] eqn:E; [|exact H].
    destruct (wstep env false t p (fl (base s))) as [[p' f']|?|]; cbn; rewrite ?E; try exact H. destruct (dead (base s)); exact H.
  - unfold wt_caller. destruct (pc (base s)) eqn:Ep; try (intros Hw; cbn in Hw; destruct (H Hw); congruence).
    destruct (todo (base s)) eqn:Et; [|intros Hw; cbn in Hw; destruct (H Hw); congruence].
    destruct (waiting s) as [q|] eqn:Ew.
    + destruct (p_looked q); [destruct (isOver _ _ _ _ _)|destruct (nan _)]; intros _; split; assumption.
    + destruct (calls s) as [|[c|w] cs]; [exact H|intros X; cbn in X; congruence|intros _; split; assumption].
Qed.
Lemma I1_wt b t s : I1 (base s) -> I1 (base (wt_step env look t b s)).
Proof.
  intros H. destruct (wt_base b t s) as [(t' & ->)|(-> & _ & A & _ & B & C & D & _)]; [now apply I1_step|].
  intros p [X|(_ & X)]; congruence.
Qed.
Lemma I2_wt b t s : no_exception env -> I1 (base s) -> I2 (base s) -> I2 (base (wt_step env look t b s)).
Proof.
  intros NE H1 H. destruct (wt_base b t s) as [(t' & ->)|(-> & _ & A & _ & B & C & D & E & _)]; [now apply I2_step|].
  destruct H as (Hd & H). split; [exact E|]. rewrite C, D, B. destruct (worker (base s)); [exact H|]. now rewrite A in H.
Qed.

(* ---- what epoch counts ---- *)
Definition counted p (e : Z) (n : nat) : Prop :=
  match p with
  | w_cleared => e = 0%Z /\ n = 0
  | w_eval _ => (0 <= e)%Z /\ n = Z.to_nat e * e_batches env
  | w_outer => (1 <= e)%Z /\ n = Z.to_nat (e - 1) * e_batches env
  | w_inner i => (1 <= e)%Z /\ i <= e_batches env /\ n = Z.to_nat (e - 1) * e_batches env + i
  | w_step i => (1 <= e)%Z /\ i < e_batches env /\ n = Z.to_nat (e - 1) * e_batches env + i
  | _ => False
  end.
(* the caller waits in join: the thread has been asked to stop *)
Definition joining (q : cpc) : Prop := q = c_start1 \/ q = c_stop1 \/ q = c_train2.
Definition K s : Prop := match worker (base s) with
  | None => True
  | Some p => joining (pc (base s)) \/ (p = w_begin /\ batches s = 0) \/ nan (fl (base s)) = true \/ (want (fl (base s)) = false /\ counted p (epoch s) (batches s))
  end.
Lemma wstep_nan_stays sync t p f p' f' : wstep env sync t p f = Ok (p', f') -> nan f = true -> nan f' = true.
Proof.
  intros H Hn. destruct p as [| |[|k]| | | |i|i| | |]; cbn in H; rewrite ?Hn in H; try (injection H as <- <-; exact Hn). 
  destruct (e_throw env t); [discriminate|]. injection H as <- <-. reflexivity.
Qed.
Lemma wstep_counted t p f p' f' e n : wstep env false t p f = Ok (p', f') -> nan f' = false -> (p = w_begin /\ n = 0) \/ (want f = false /\ counted p e n) ->
  want f' = false /\ counted p' (epoch_after p p' e) (batches_after p n).
Proof.
  intros H Hn' HK. assert (Hn : nan f = false). { destruct (nan f) eqn:Hn; [|reflexivity]. rewrite (wstep_nan_stays _ _ _ _ _ _ H Hn) in Hn'. discriminate. }
  destruct HK as [(-> & ->)|(Hw & HK)]; [injection H as <- <-; cbn; auto|].
  destruct p as [| |[|k]| | | |i|i| | |]; cbn in HK; cbn [wstep] in H; try contradiction.
  - injection H as <- <-. split; [exact Hw|]. destruct HK as (-> & ->). destruct (e_first env); cbn; split; lia.
  - injection H as <- <-. split; [exact Hw|]. destruct HK as (He & ->). cbn. split; [lia|]. now replace (e + 1 - 1)%Z with e by lia.
  - rewrite Hn in H. destruct (e_throw env t); [discriminate|]. injection H as <- <-. split; [exact Hw|]. exact HK.
  - injection H as <- <-. split; [exact Hw|]. unfold continues. rewrite Hw, Hn. cbn. destruct HK as (He & ->). split; [exact He|]. split; lia.
  - injection H as <- <-. split; [exact Hw|]. destruct HK as (He & Hi & ->). unfold continues. rewrite Hw, Hn. cbn [negb andb]. rewrite andb_true_r.
    destruct (i <? e_batches env) eqn:Ei.
    + apply Nat.ltb_lt in Ei. split; [exact He|]. split; [exact Ei|reflexivity].
    + apply Nat.ltb_ge in Ei. assert (i = e_batches env) as -> by lia.
      assert (X : Z.to_nat (e - 1) * e_batches env + e_batches env = Z.to_nat e * e_batches env) by (replace (Z.to_nat e) with (S (Z.to_nat (e - 1))) by lia; lia).
      destruct (e_eval env t); cbn; (split; [lia|]); rewrite X; [reflexivity|]. now replace (e + 1 - 1)%Z with e by lia.
  - destruct (e_throw env t); [discriminate|]. injection H as <- <-. split; [exact Hw|]. destruct HK as (He & Hi & ->). cbn. split; [exact He|]. split; lia.
Qed.
Lemma K_step b t s : I1 (base s) -> K s -> K (wt_step env look t b s).
Proof.
  intros H1 H. unfold wt_step. destruct (dead (base s)) eqn:Ed; [exact H|]. destruct b.
  - unfold wt_worker, worker_step. destruct (worker (base s)) as [p|] eqn:E; [|exact H].
    destruct (wstep env false t p (fl (base s))) as [[p' f']|?|] eqn:Ew; unfold K in *; rewrite E in H; cbn; rewrite ?E; try exact H.
    rewrite Ed. cbn. destruct H as [H|H]; [now left|]. destruct (nan f') eqn:Hn; [right; right; now left|].
    right. right. right. destruct H as [H|[H|H]].
    + apply (wstep_counted _ _ _ _ _ _ _ Ew Hn). now left.
    + rewrite (wstep_nan_stays _ _ _ _ _ _ Ew H) in Hn. discriminate.
    + apply (wstep_counted _ _ _ _ _ _ _ Ew Hn). now right.
  - assert (J : forall st : state, joined (base s) = Some st -> worker st = None) by (intros st X; apply joined_None in X; tauto).
    assert (Go : forall s', worker (base s') = worker (base s) -> fl (base s') = fl (base s) -> epoch s' = epoch s -> batches s' = batches s -> ~ joining (pc (base s)) -> K s').
    { intros s' A B C D Nj. unfold K in *. rewrite A, B, C, D. destruct (worker (base s)); [|exact I]. destruct H as [H|H]; [contradiction|now right]. }
    assert (Nj : forall q, pc (base s) = q -> (q <> c_start1 /\ q <> c_stop1 /\ q <> c_train2) -> ~ joining (pc (base s))).
    { intros q -> (A & B & C) [X|[X|X]]; contradiction. }
    assert (WN : forall s', worker (base s') = None -> K s') by (intros s' X; unfold K; now rewrite X).
    unfold wt_caller. destruct (pc (base s)) as [| | | | | | | | |p| | |] eqn:Ep.
    + destruct (todo (base s)) as [|c cs] eqn:Et.
      * destruct (waiting s) as [q|]; [destruct (p_looked q); [destruct (isOver _ _ _ _ _)|destruct (nan _)]|destruct (calls s) as [|[c|w] cs]];
          (apply Go; try reflexivity; apply (Nj c_free); [reflexivity|repeat split; discriminate]).
      * unfold caller_step. rewrite Ep, Et. apply Go; try reflexivity. apply (Nj c_free); [reflexivity|repeat split; discriminate].
    + unfold caller_step. rewrite Ep. unfold K in *. cbn. destruct (worker (base s)); [|exact I]. left. now left.
    + unfold caller_step. rewrite Ep. destruct (joined (base s)) as [s0|] eqn:E; [apply WN; exact (J _ eq_refl)|]. unfold K in *. cbn. rewrite Ep in *. destruct (worker (base s)); [|exact I]. left. now left.
    + unfold caller_step. rewrite Ep. unfold K. cbn. right. now left.
    + unfold caller_step. rewrite Ep. unfold K in *. cbn. destruct (worker (base s)); [|exact I]. left. right. now left.
    + unfold caller_step. rewrite Ep. destruct (joined (base s)) as [s0|] eqn:E; [apply WN; exact (J _ eq_refl)|]. unfold K in *. cbn. rewrite Ep in *. destruct (worker (base s)); [|exact I]. left. right. now left.
    + unfold caller_step. rewrite Ep. destruct (idle (fl (base s))); (apply Go; try reflexivity; apply (Nj c_train0); [reflexivity|repeat split; discriminate]).
    + unfold caller_step. rewrite Ep. unfold K in *. cbn. destruct (worker (base s)); [|exact I]. left. right. now right.
    + unfold caller_step. rewrite Ep. destruct (joined (base s)) as [s0|] eqn:E; [apply WN; exact (J _ eq_refl)|]. unfold K in *. cbn. rewrite Ep in *. destruct (worker (base s)); [|exact I]. left. right. now right.
    + assert (Wn : worker (base s) = None) by (apply (H1 p); auto). apply WN. unfold caller_step. rewrite Ep. destruct p; try (destruct (wstep env true t _ (fl (base s))) as [[]|?|]); exact Wn.
    + unfold caller_step. rewrite Ep. destruct (idle (fl (base s))); (apply Go; try reflexivity; apply (Nj c_save0); [reflexivity|repeat split; discriminate]).
    + unfold caller_step. rewrite Ep. apply Go; try reflexivity. apply (Nj c_save1); [reflexivity|repeat split; discriminate].
    + unfold caller_step. rewrite Ep. apply Go; try reflexivity. apply (Nj c_ask); [reflexivity|repeat split; discriminate].
Qed.

Variables (sched : nat -> bool) (e0 : Z) (prog : list (@wcall N)).
Notation at' := (wt_at env look sched e0 prog).
Lemma inv_at t : I1 (base (at' t)) /\ W (at' t) /\ K (at' t).
Proof.
  induction t as [|t (A & B & C)].
  - split; [intros p [X|(_ & X)]; discriminate|]. split; [intros X; cbn in X; congruence|exact I].
  - cbn [wt_at]. split; [now apply I1_wt|]. split; [now apply W_step|now apply K_step].
Qed.
Lemma I2_wt_at t : no_exception env -> I2 (base (at' t)).
Proof. intros NE. induction t as [|t IH]; [split; reflexivity|]. cbn [wt_at]. apply I2_wt; [exact NE|apply inv_at|exact IH]. Qed.

(* one step of a caller that is inside waitFor *)
Lemma waiting_step t q : dead (base (at' t)) = false -> sched t = false -> waiting (at' t) = Some q ->
  at' (S t) = (let s := at' t in
    mkW (base s) (epoch s) (batches s)
      (if p_looked q then if isOver (p_wait q) (l_clock look t - p_start q) (epoch s) (l_acc look t) (l_mae look t) then None else Some (mkPause (p_wait q) (p_start q) false)
       else if nan (fl (base s)) then None else Some (mkPause (p_wait q) (p_start q) true)) (calls s)).
Proof.
  intros Hd Hs Hw. destruct (inv_at t) as (_ & HW & _). destruct (HW ltac:(congruence)) as (A & B).
  cbn [wt_at]. unfold wt_step. rewrite Hd, Hs. unfold wt_caller. rewrite A, B, Hw. cbn zeta. destruct (p_looked q); [destruct (isOver _ _ _ _ _)|destruct (nan _)]; reflexivity.
Qed.
Lemma worker_waiting t : (dead (base (at' t)) = true \/ sched t = true) -> waiting (at' (S t)) = waiting (at' t).
Proof.
  intros H. cbn [wt_at]. unfold wt_step. destruct (dead (base (at' t))) eqn:Ed; [reflexivity|]. destruct H as [H|H]; [discriminate|]. rewrite H.
  unfold wt_worker. set (b := worker_step env t (base (at' t))). destruct (worker (base (at' t))); [|reflexivity]. destruct (worker b); [|reflexivity]. now destruct (dead b).
Qed.
(* waitFor returns only from a step of the caller, having seen an abnormal output or the criterion fulfilled *)
Lemma returns_inv w t : wait_returns env look sched e0 prog w t -> exists q, waiting (at' t) = Some q /\ p_wait q = w /\ base (at' (S t)) = base (at' t) /\ epoch (at' (S t)) = epoch (at' t) /\ batches (at' (S t)) = batches (at' t) /\
  (nan (fl (base (at' t))) = true \/ isOver w (l_clock look t - p_start q) (epoch (at' t)) (l_acc look t) (l_mae look t) = true).
Proof.
  intros ((q & Hq & Ew) & Hn). exists q. split; [exact Hq|]. split; [exact Ew|].
  destruct (dead (base (at' t))) eqn:Ed; [rewrite worker_waiting in Hn by auto; congruence|].
  destruct (sched t) eqn:Es; [rewrite worker_waiting in Hn by auto; congruence|].
  rewrite (waiting_step t q Ed Es Hq) in *. cbn in Hn |- *. do 3 (split; [reflexivity|]). rewrite Ew in Hn.
  destruct (p_looked q); [right; now destruct (isOver _ _ _ _ _)|left; now destruct (nan _)].
Qed.
Lemma over_epochs n el ep acc mae : (0 <= n <= int_max)%Z -> isOver (lit_ep n) el ep acc mae = (n <? ep)%Z.
Proof.
  intros Hn. rewrite isOver_any by discriminate. cbn [lit_ep w_epochs w_accuracy w_mae w_duration].
  rewrite (cA_absent OL), (cM_absent OL), cD_absent; try (apply (ok_m1 OL)); try (apply (m1_neg OL)).
  unfold cE. rewrite to_int_id by (unfold int_min; lia). replace (0 <=? n)%Z with true by (symmetry; apply Z.leb_le; lia).
  destruct (Z.ltb_spec n ep); [|reflexivity]. replace (0 <? ep)%Z with true by (symmetry; apply Z.ltb_lt; lia). reflexivity.
Qed.

Lemma epochs_done n t : (0 <= n <= int_max)%Z -> wait_returns env look sched e0 prog (lit_ep n) t -> let s := at' (S t) in
  nan (fl (base s)) = false -> worker (base s) <> None -> worker (base s) <> Some w_begin -> Z.to_nat n * e_batches env <= batches s.
Proof.
  intros Hn HR s Hnan Hw Hb. subst s. apply returns_inv in HR as (q & Hq & Eq & A & B & C & HO). rewrite A in *. rewrite C.
  destruct HO as [HO|HO]; [congruence|]. rewrite over_epochs in HO by exact Hn. apply Z.ltb_lt in HO.
  destruct (inv_at t) as (_ & HW & HK). destruct (HW ltac:(congruence)) as (Hf & _). unfold K in HK. destruct (worker (base (at' t))) as [p|]; [|congruence].
  destruct HK as [HK|[(-> & _)|[HK|(_ & HK)]]]; [rewrite Hf in HK; destruct HK as [X|[X|X]]; discriminate|congruence|congruence|].
  destruct p; cbn in HK; try contradiction.
  - lia.
  - destruct HK as (He & ->). apply Nat.mul_le_mono_r. lia.
  - destruct HK as (He & ->). apply Nat.mul_le_mono_r. lia.
  - destruct HK as (He & _ & ->). etransitivity; [apply Nat.mul_le_mono_r with (m := Z.to_nat (epoch (at' t) - 1)); lia|]. lia.
  - destruct HK as (He & _ & ->). etransitivity; [apply Nat.mul_le_mono_r with (m := Z.to_nat (epoch (at' t) - 1)); lia|]. lia.
Qed.

(* ---- waitFor comes back ---- *)
Hypothesis NE : no_exception env.
Hypothesis Hfair : fair sched.
Lemma alive t : dead (base (at' t)) = false.
Proof. exact (proj1 (I2_wt_at t NE)). Qed.
Lemma worker_turn t p : sched t = true -> worker (base (at' t)) = Some p ->
  exists p' f', wstep env false t p (fl (base (at' t))) = Ok (p', f') /\
    at' (S t) = mkW (with_worker (with_fl (base (at' t)) f') (Some p')) (epoch_after p p' (epoch (at' t))) (batches_after p (batches (at' t))) (waiting (at' t)) (calls (at' t)).
Proof.
  intros Hs Hw. destruct (wstep_ok env NE false t p (fl (base (at' t)))) as (p' & f' & E). exists p', f'. split; [exact E|].
  cbn [wt_at]. unfold wt_step. rewrite alive, Hs. unfold wt_worker, worker_step. rewrite Hw, E. cbn. now rewrite alive.
Qed.
Lemma no_worker_turn t : sched t = true -> worker (base (at' t)) = None -> base (at' (S t)) = base (at' t) /\ epoch (at' (S t)) = epoch (at' t) /\ waiting (at' (S t)) = waiting (at' t).
Proof. intros Hs Hw. cbn [wt_at]. unfold wt_step. rewrite alive, Hs. unfold wt_worker, worker_step. rewrite Hw. auto. Qed.
Lemma next_caller (Q : nat -> Prop) t q : (forall j, sched j = true -> waiting (at' j) = Some q -> Q j -> Q (S j)) -> waiting (at' t) = Some q -> Q t ->
  exists m, t <= m /\ sched m = false /\ waiting (at' m) = Some q /\ Q m.
Proof.
  intros St Hw HQ. destruct (first_turn sched Hfair t false) as (m & Hm & Em & Hj).
  assert (G : forall k, t + k <= m -> waiting (at' (t + k)) = Some q /\ Q (t + k)).
  { induction k as [|k IH]; intros Hk; [rewrite Nat.add_0_r; auto|]. destruct IH as (A & B); [lia|]. rewrite Nat.add_succ_r.
    assert (Es : sched (t + k) = true) by (apply Hj; lia). split; [rewrite worker_waiting by auto; exact A|]. now apply St. }
  exists m. destruct (G (m - t)) as (A & B); [lia|]. replace (t + (m - t)) with m in * by lia. auto.
Qed.
Lemma nan_kept j : nan (fl (base (at' j))) = true -> sched j = true -> nan (fl (base (at' (S j)))) = true.
Proof.
  intros Hn Hs. destruct (worker (base (at' j))) as [p|] eqn:E.
  - destruct (worker_turn j p Hs E) as (p' & f' & Ew & ->). cbn. exact (wstep_nan_stays _ _ _ _ _ _ Ew Hn).
  - destruct (no_worker_turn j Hs E) as (-> & _). exact Hn.
Qed.
Lemma returns_nan t q : waiting (at' t) = Some q -> nan (fl (base (at' t))) = true -> exists t', t <= t' /\ wait_returns env look sched e0 prog (p_wait q) t'.
Proof.
  intros Hw Hn. destruct (next_caller (fun j => nan (fl (base (at' j))) = true) t q) as (m & Hm & Em & Wm & Nm); [intros j A B C; now apply nan_kept|exact Hw|exact Hn|].
  pose proof (waiting_step m q (alive m) Em Wm) as E. cbn zeta in E. rewrite Nm in E. destruct (p_looked q) eqn:El.
  - destruct (isOver _ _ _ _ _) eqn:Eo.
    + exists m. split; [exact Hm|]. split; [exists q; auto|]. now rewrite E.
    + set (q' := mkPause (p_wait q) (p_start q) false) in *. destruct (next_caller (fun j => nan (fl (base (at' j))) = true) (S m) q') as (m2 & Hm2 & Em2 & Wm2 & Nm2);
        [intros j A B C; now apply nan_kept|rewrite E; reflexivity|rewrite E; exact Nm|].
      pose proof (waiting_step m2 q' (alive m2) Em2 Wm2) as E2. cbn zeta in E2. rewrite Nm2 in E2. cbn in E2.
      exists m2. split; [lia|]. split; [exists q'; auto|]. cbn [wt_at] in E2 |- *. now rewrite E2.
  - exists m. split; [exact Hm|]. split; [exists q; auto|]. now rewrite E.
Qed.
Definition past (n : Z) (j : nat) : Prop := (n < epoch (at' j))%Z /\ worker (base (at' j)) <> Some w_begin.
Lemma wstep_begun sync t p f p' f' : wstep env sync t p f = Ok (p', f') -> p' <> w_begin.
Proof.
  intros H. destruct p as [| |[|k]| | | |i|i| | |]; cbn in H; try (injection H as <- <-; discriminate).
  - injection H as <- <-. destruct (e_first env); discriminate.
  - destruct (nan f); [|destruct (e_throw env t); [discriminate|]]; injection H as <- <-; discriminate.
  - injection H as <- <-. destruct (continues _ _ _ _); discriminate.
  - injection H as <- <-. destruct (_ && _); [|destruct (e_eval env t)]; discriminate.
  - destruct (e_throw env t); [discriminate|]. injection H as <- <-. discriminate.
Qed.
Lemma past_kept n j : past n j -> sched j = true -> past n (S j).
Proof.
  intros (A & B) Hs. unfold past. destruct (worker (base (at' j))) as [p|] eqn:E.
  - destruct (worker_turn j p Hs E) as (p' & f' & Ew & ->). cbn. split; [|intros X; injection X as X; exact (wstep_begun _ _ _ _ _ _ Ew X)].
    destruct p; try congruence; destruct p'; cbn; lia.
  - destruct (no_worker_turn j Hs E) as (-> & -> & _). rewrite E. split; [exact A|discriminate].
Qed.
Lemma returns_past n t q : (0 <= n <= int_max)%Z -> waiting (at' t) = Some q -> p_wait q = lit_ep n -> past n t -> exists t', t <= t' /\ wait_returns env look sched e0 prog (lit_ep n) t'.
Proof.
  intros Hn Hw Eq Hp.
  assert (Last : forall t q, waiting (at' t) = Some q -> p_wait q = lit_ep n -> p_looked q = true -> past n t -> exists t', t <= t' /\ wait_returns env look sched e0 prog (lit_ep n) t').
  { clear t q Hw Eq Hp. intros t q Hw Eq El Hp. destruct (next_caller (past n) t q) as (m & Hm & Em & Wm & Pm); [intros j A B C; now apply past_kept|exact Hw|exact Hp|].
    pose proof (waiting_step m q (alive m) Em Wm) as E. cbn zeta in E. rewrite El, Eq, (over_epochs n _ _ _ _ Hn) in E.
    replace (n <? epoch (at' m))%Z with true in E by (symmetry; apply Z.ltb_lt; apply Pm). exists m. split; [exact Hm|]. split; [exists q; auto|]. now rewrite E. }
  destruct (p_looked q) eqn:El; [now apply (Last t q)|].
  destruct (next_caller (past n) t q) as (m & Hm & Em & Wm & Pm); [intros j A B C; now apply past_kept|exact Hw|exact Hp|].
  pose proof (waiting_step m q (alive m) Em Wm) as E. cbn zeta in E. rewrite El in E. destruct (nan _).
  - exists m. split; [exact Hm|]. split; [exists q; auto|]. now rewrite E.
  - destruct (Last (S m) (mkPause (p_wait q) (p_start q) true)) as (t' & Ht' & R); [now rewrite E|exact Eq|reflexivity|unfold past; rewrite E; exact Pm|].
    exists t'. split; [lia|exact R].
Qed.
Definition turn : Z := (2 * Z.of_nat (e_batches env) + Z.of_nat (e_tests env) + 4)%Z.
Definition rank (n : Z) p (e : Z) : Z :=
  match p with
  | w_begin => ((n + 1) * turn + Z.of_nat (e_tests env) + 4)%Z
  | w_cleared => ((n + 1) * turn + Z.of_nat (e_tests env) + 3)%Z
  | w_eval k => ((n + 1 - e) * turn + Z.of_nat k + 1)%Z
  | w_outer => ((n + 1 - e) * turn + 2 * Z.of_nat (e_batches env) + Z.of_nat (e_tests env) + 4)%Z
  | w_inner i => ((n + 1 - e) * turn + 2 * (Z.of_nat (e_batches env) - Z.of_nat i) + Z.of_nat (e_tests env) + 3)%Z
  | w_step i => ((n + 1 - e) * turn + 2 * (Z.of_nat (e_batches env) - Z.of_nat i) + Z.of_nat (e_tests env) + 2)%Z
  | _ => 0%Z
  end.
Lemma rank_falls n t p f p' f' e k : (0 <= n)%Z -> wstep env false t p f = Ok (p', f') -> nan f' = false -> (p = w_begin \/ (want f = false /\ counted p e k)) ->
  (p = w_begin \/ e <= n)%Z -> (epoch_after p p' e <= n)%Z -> (0 <= rank n p' (epoch_after p p' e) < rank n p e)%Z.
Proof.
  intros Hn0 H Hn' HK Hle Hle'. assert (Hn : nan f = false). { destruct (nan f) eqn:Hn; [|reflexivity]. rewrite (wstep_nan_stays _ _ _ _ _ _ H Hn) in Hn'. discriminate. }
  pose proof (eq_refl turn) as Ht. unfold turn at 2 in Ht.
  assert (Hpos : (4 <= turn)%Z) by lia. assert (Hm : forall x : Z, (0 <= x -> 0 <= x * turn)%Z) by (intros; apply Z.mul_nonneg_nonneg; lia).
  destruct HK as [->|(Hw & HK)]; [injection H as <- <-; cbn; pose proof (Hm (n + 1)%Z ltac:(lia)); lia|].
  destruct p as [| |[|j]| | | |i|i| | |]; cbn in HK; cbn [wstep] in H; try contradiction; destruct Hle as [Hle|Hle]; try discriminate.
  - injection H as <- <-. destruct HK as (-> & _). destruct (e_first env); cbn [epoch_after rank] in *; [pose proof (Hm (n + 1)%Z ltac:(lia)); rewrite Z.sub_0_r; lia|].
    pose proof (Hm (n + 1 - (0 + 1))%Z ltac:(lia)). lia.
  - injection H as <- <-. cbn [epoch_after rank] in *. pose proof (Hm (n + 1 - (e + 1))%Z ltac:(lia)). lia.
  - rewrite Hn in H. destruct (e_throw env t); [discriminate|]. injection H as <- <-. cbn [epoch_after rank] in *. pose proof (Hm (n + 1 - e)%Z ltac:(lia)). lia.
  - injection H as <- <-. unfold continues in *. rewrite Hw, Hn in *. cbn [negb andb epoch_after rank] in *. pose proof (Hm (n + 1 - e)%Z ltac:(lia)). lia.
  - injection H as <- <-. destruct HK as (He & Hi & _). unfold continues in *. rewrite Hw, Hn in *. cbn [negb andb] in *. rewrite andb_true_r in *.
    pose proof (Hm (n + 1 - e)%Z ltac:(lia)). destruct (Nat.ltb_spec i (e_batches env)); [cbn [epoch_after rank]; lia|].
    destruct (e_eval env t); cbn [epoch_after rank] in *; [lia|]. pose proof (Hm (n + 1 - (e + 1))%Z ltac:(lia)). lia.
  - destruct (e_throw env t); [discriminate|]. injection H as <- <-. destruct HK as (He & Hi & _). cbn [epoch_after rank] in *. pose proof (Hm (n + 1 - e)%Z ltac:(lia)). lia.
Qed.
(* while the thread does not move, the caller either comes back or changes nothing *)
Lemma only_caller t w k : in_wait w (at' t) -> (forall j, t <= j < t + k -> sched j = false) ->
  (exists t', t <= t' /\ wait_returns env look sched e0 prog w t') \/
  (in_wait w (at' (t + k)) /\ base (at' (t + k)) = base (at' t) /\ epoch (at' (t + k)) = epoch (at' t) /\ batches (at' (t + k)) = batches (at' t)).
Proof.
  intros Hw Hs. induction k as [|k IH]; [rewrite Nat.add_0_r; right; auto|]. destruct IH as [IH|(A & B & C & D)]; [intros j Hj; apply Hs; lia|now left|].
  rewrite Nat.add_succ_r. destruct (waiting (at' (S (t + k)))) as [q'|] eqn:E; [|left; exists (t + k); split; [lia|split; assumption]].
  right. destruct A as (q & Hq & Eq). pose proof (waiting_step (t + k) q (alive _) (Hs (t + k) ltac:(lia)) Hq) as E'. cbn zeta in E'. rewrite E' in *. cbn [base epoch batches waiting] in *.
  split; [|auto]. exists q'. split; [exact E|]. destruct (p_looked q); [destruct (isOver _ _ _ _ _)|destruct (nan _)]; try discriminate; injection E as <-; exact Eq.
Qed.
Lemma comes_back n : (0 <= n <= int_max)%Z -> forall r t p, in_wait (lit_ep n) (at' t) -> worker (base (at' t)) = Some p -> Z.to_nat (rank n p (epoch (at' t))) <= r ->
  exists t', t <= t' /\ wait_returns env look sched e0 prog (lit_ep n) t'.
Proof.
  intros Hn. induction r as [r IH] using lt_wf_ind. intros t p Hw Wp Hr.
  destruct (nan (fl (base (at' t)))) eqn:En. { destruct Hw as (q & Hq & <-). now apply (returns_nan t q). }
  assert (Db : {p = w_begin} + {p <> w_begin}) by (destruct p; (left; reflexivity) || (right; discriminate)).
  destruct (Z_lt_le_dec n (epoch (at' t))) as [Hp|Hp].
  { destruct Db as [->|Nb]; [|destruct Hw as (q & Hq & Eq); apply (returns_past n t q Hn Hq Eq); split; [exact Hp|congruence]].
    (* the epoch of an earlier training *)
    destruct (first_turn sched Hfair t true) as (m & Hm & Em & Hj). destruct (only_caller t _ (m - t) Hw) as [G|(A & B & C & D)]; [intros j Hj'; apply Hj; lia|exact G|].
    replace (t + (m - t)) with m in * by lia. rewrite <- B in Wp, En. destruct (worker_turn m _ Em Wp) as (p' & f' & Ew & E). cbn in Ew. injection Ew as <- <-.
    cbn in E. destruct (IH (Z.to_nat (rank n w_cleared 0))) with (t := S m) (p := w_cleared) as (t' & Ht' & R).
    - cbn in Hr |- *. assert (0 <= (n + 1) * turn)%Z by (apply Z.mul_nonneg_nonneg; unfold turn; lia). lia.
    - destruct A as (q & Hq & Eq). exists q. cbn [wt_at] in E |- *. rewrite E. auto.
    - cbn [wt_at] in E |- *. now rewrite E.
    - cbn [wt_at] in E |- *. rewrite E. cbn. lia.
    - exists t'. split; [lia|exact R]. }
  destruct (first_turn sched Hfair t true) as (m & Hm & Em & Hj). destruct (only_caller t _ (m - t) Hw) as [G|(A & B & C & D)]; [intros j Hj'; apply Hj; lia|exact G|].
  replace (t + (m - t)) with m in * by lia. rewrite <- B in Wp, En. rewrite <- C in Hp, Hr. clear B C D Hw.
  destruct (worker_turn m p Em Wp) as (p' & f' & Ew & E).
  destruct (inv_at m) as (_ & HW & HK). destruct A as (q & Hq & Eq). destruct (HW ltac:(congruence)) as (Hf & _). unfold K in HK. rewrite Wp in HK.
  assert (HK' : (p = w_begin /\ batches (at' m) = 0) \/ (want (fl (base (at' m))) = false /\ counted p (epoch (at' m)) (batches (at' m)))).
  { destruct HK as [HK|[HK|[HK|HK]]]; [rewrite Hf in HK; destruct HK as [X|[X|X]]; discriminate|now left|congruence|now right]. }
  destruct (nan f') eqn:En'.
  { destruct (returns_nan (S m) q) as (t' & Ht' & R); [rewrite E; exact Hq|rewrite E; exact En'|]. exists t'. rewrite Eq in R. split; [lia|exact R]. }
  pose proof (wstep_begun _ _ _ _ _ _ Ew) as Nb'.
  destruct (Z_lt_le_dec n (epoch_after p p' (epoch (at' m)))) as [Hp'|Hp'].
  { destruct (returns_past n (S m) q Hn) as (t' & Ht' & R); [rewrite E; exact Hq|exact Eq|split; rewrite E; [exact Hp'|cbn; congruence]|]. exists t'. split; [lia|exact R]. }
  destruct (rank_falls n m p (fl (base (at' m))) p' f' (epoch (at' m)) (batches (at' m))) as (R0 & R1); [lia|exact Ew|exact En'|tauto|now right|exact Hp'|].
  destruct (IH (Z.to_nat (rank n p' (epoch_after p p' (epoch (at' m)))))) with (t := S m) (p := p') as (t' & Ht' & R).
  - lia.
  - exists q. rewrite E. auto.
  - rewrite E. reflexivity.
  - rewrite E. cbn [epoch]. lia.
  - exists t'. split; [lia|exact R].
Qed.
End P.

(* ===== C60 ===== *)
(* waitFor(n_ep) on a training that has begun does not return before n whole epochs have been learned, unless the outputs became abnormal:
   whatever the calls made before, the schedule, the exceptions. Missing: a thread just created, which has not yet run its first
   instruction, see C60_stale_epoch_refuted. *)
Theorem C60_epochs_learned_partial : forall (N : Num) (ok : F -> Prop), order_laws N ok -> forall env look sched e prog n t,
  (0 <= n <= int_max)%Z -> wait_returns env look sched e prog (lit_ep n) t -> let s := wt_at env look sched e prog (S t) in
  nan (fl (base s)) = false -> worker (base s) <> None -> worker (base s) <> Some w_begin -> Z.to_nat n * e_batches env <= batches s.
Proof. intros N ok OL env look sched e prog n t Hn H. exact (epochs_done OL env look sched e prog n t Hn H). Qed.
Print Assumptions C60_epochs_learned_partial.

(* and it does return, if a thread exists when it waits, no exception leaves the training and both threads get their turns *)
Theorem C60_comes_back_partial : forall (N : Num) (ok : F -> Prop), order_laws N ok -> forall env look sched e prog n t,
  no_exception env -> fair sched -> (0 <= n <= int_max)%Z -> let s := wt_at env look sched e prog t in
  in_wait (lit_ep n) s -> worker (base s) <> None -> exists t', t <= t' /\ wait_returns env look sched e prog (lit_ep n) t'.
Proof.
  intros N ok OL env look sched e prog n t NE Hf Hn s Hw Wp. subst s. destruct (worker (base (wt_at env look sched e prog t))) as [p|] eqn:E; [|congruence].
  exact (comes_back OL env look sched e prog NE Hf n Hn _ t p Hw E (le_n _)).
Qed.
Print Assumptions C60_comes_back_partial.

Definition still : @Look N32 := @mkLook N32 (fun _ => b32 0) (fun _ => b32 0) Z.of_nat.
Definition ep32 (n : Z) : @wcall N32 := WaitFor (lit_ep n).
Definition waits32 (s : @wstate N32) : bool := match waiting s with Some _ => true | None => false end.
Lemma waits32_in n s : waits32 s = true -> (forall q, waiting s = Some q -> p_wait q = lit_ep n) -> in_wait (lit_ep n) s.
Proof. unfold waits32, in_wait. destruct (waiting s) as [q|]; [|discriminate]. eauto. Qed.
Lemma one_wait {N : Num} env look sched e prog n : Forall (fun c => match c with WaitFor w => w = lit_ep n | Api _ => True end) prog ->
  forall t q, waiting (wt_at env look sched e prog t) = Some q -> p_wait q = lit_ep n.
Proof.
  intros HF t. assert (G : Forall (fun c => match c with WaitFor w => w = lit_ep n | Api _ => True end) (calls (wt_at env look sched e prog t)) /\
    forall q, waiting (wt_at env look sched e prog t) = Some q -> p_wait q = lit_ep n); [|apply G].
  induction t as [|t (A & B)]; [split; [exact HF|discriminate]|]. cbn [wt_at]. set (s := wt_at env look sched e prog t) in *. unfold wt_step.
  destruct (dead (base s)); [auto|]. destruct (sched t).
  - unfold wt_worker. set (b := worker_step env t (base s)). destruct (worker (base s)); [|auto]. destruct (worker b); [|auto]. destruct (dead b); auto.
  - unfold wt_caller. destruct (pc (base s)); try (split; assumption). destruct (todo (base s)); [|split; assumption].
    destruct (waiting s) as [q|] eqn:E.
    + specialize (B q eq_refl). destruct (p_looked q); [destruct (isOver _ _ _ _ _)|destruct (nan _)]; (split; [exact A|]); cbn; intros q' X; try discriminate; injection X as <-; exact B.
    + destruct (calls s) as [|[c|w] cs] eqn:Ec; [rewrite Ec, E; auto| |]; inversion A; subst; (split; [assumption|]); cbn; intros q' X; try discriminate; injection X as <-; reflexivity.
Qed.
Lemma waits32_out s : waits32 s = false -> waiting s = None.
Proof. unfold waits32. now destruct (waiting s). Qed.
Lemma snap32 (s : @wstate N32) a b c d : (waits32 s, nan (fl (base s)), worker (base s), batches s) = (a, b, c, d) -> waits32 s = a /\ nan (fl (base s)) = b /\ worker (base s) = c /\ batches s = d.
Proof. intros H. injection H. auto. Qed.
Example C60_hypotheses : order_laws N32 not_nan /\ no_exception calm /\ fair alternate /\
  (exists t, in_wait (lit_ep 1) (wt_at calm still alternate 0 [Api Start; ep32 1] t) /\ worker (base (wt_at calm still alternate 0 [Api Start; ep32 1] t)) <> None) /\
  (exists t, let s := wt_at calm still alternate 0 [Api Start; ep32 1] (S t) in wait_returns calm still alternate 0 [Api Start; ep32 1] (lit_ep 1) t /\
     nan (fl (base s)) = false /\ worker (base s) <> None /\ worker (base s) <> Some w_begin /\ batches s = 3).
Proof.
  assert (HF : Forall (fun c : @wcall N32 => match c with WaitFor w => w = lit_ep 1 | Api _ => True end) [Api Start; ep32 1]) by (constructor; [exact I|constructor; [reflexivity|constructor]]).
  assert (E : let s := wt_at calm still alternate 0 [Api Start; ep32 1] 42 in (waits32 s, nan (fl (base s)), worker (base s), batches s) = (true, false, Some (w_inner 0), 3)) by (vm_compute; reflexivity).
  assert (E' : let s := wt_at calm still alternate 0 [Api Start; ep32 1] 43 in (waits32 s, nan (fl (base s)), worker (base s), batches s) = (false, false, Some (w_inner 0), 3)) by (vm_compute; reflexivity).
  cbv zeta in E, E'. pose proof (snap32 _ _ _ _ _ E) as (E1 & E2 & E3 & E4). pose proof (snap32 _ _ _ _ _ E') as (E1' & E2' & E3' & E4'). clear E E'.
  assert (IW : in_wait (lit_ep 1) (wt_at calm still alternate 0 [Api Start; ep32 1] 42)) by (apply waits32_in; [exact E1|apply one_wait; exact HF]).
  split; [apply order_laws_32|]. split; [intros t; reflexivity|]. split; [exact alternate_fair|]. split.
  - exists 42. split; [exact IW|]. rewrite E3. discriminate.
  - exists 42. cbv zeta. split; [split; [exact IW|apply waits32_out; exact E1']|]. rewrite E2', E3', E4'. split; [reflexivity|]. split; [discriminate|]. split; [discriminate|reflexivity].
Qed.

(* Refuted: the member epoch still holds the number of an earlier training (or of the training of the file the network was loaded from)
   until the new thread has run its first instructions: waitFor(n_ep) right after startTrainingAsync may return at once, with nothing
   learned *)
Definition late (t : nat) : bool := if t <? 8 then false else alternate t.
Lemma late_fair : fair late.
Proof.
  intros n b. destruct (alternate_fair (n + 8) b) as (m & Hm & E). exists m. split; [lia|]. unfold late. replace (m <? 8) with false by (symmetry; apply Nat.ltb_ge; lia). exact E.
Qed.
Lemma wt_at_S {N : Num} env look sched e prog t : wt_at env look sched e prog (S t) = wt_step env look t (sched t) (wt_at env look sched e prog t).
Proof. reflexivity. Qed.
Lemma late7 {N : Num} env look e (w : Wait) : wt_at env look late e [Api Start; WaitFor w] 7 =
  mkW (mkState (mkFlags true true false) (Some w_begin) c_free [] [(Start, Returned)] false) e 0 (Some (mkPause w (l_clock look 5) true)) [].
Proof. vm_compute. reflexivity. Qed.
Theorem C60_stale_epoch_refuted : forall (N : Num) (ok : F -> Prop), order_laws N ok -> forall env look n e, (0 <= n <= int_max)%Z -> (n < e)%Z ->
  exists sched t, fair sched /\ wait_returns env look sched e [Api Start; WaitFor (lit_ep n)] (lit_ep n) t /\
    let s := wt_at env look sched e [Api Start; WaitFor (lit_ep n)] (S t) in nan (fl (base s)) = false /\ batches s = 0 /\ worker (base s) = Some w_begin /\ dead (base s) = false.
Proof.
  intros N ok OL env look n e Hn He. exists late, 7. split; [exact late_fair|].
  pose proof (late7 env look e (lit_ep n)) as E.
  assert (E2 : wt_at env look late e [Api Start; WaitFor (lit_ep n)] 8 = mkW (mkState (mkFlags true true false) (Some w_begin) c_free [] [(Start, Returned)] false) e 0 None []).
  { rewrite wt_at_S, E. change (late 7) with false.
    unfold wt_step, wt_caller. cbn [base dead pc todo waiting p_looked p_wait p_start]. rewrite (over_epochs OL) by exact Hn. cbn [epoch]. replace (n <? e)%Z with true by (symmetry; apply Z.ltb_lt; exact He). reflexivity. }
  split.
  - split; [rewrite E; eexists; split; reflexivity|]. rewrite E2. reflexivity.
  - cbv zeta. rewrite E2. auto.
Qed.
Print Assumptions C60_stale_epoch_refuted.
(* such an epoch is left by a first training of the same network *)
Example C60_stale_epoch_reached : let e := (epoch (wt_at calm still alternate 0 [Api Start; ep32 1; Api Stop] 80), worker (base (wt_at calm still alternate 0 [Api Start; ep32 1; Api Stop] 80))) in
  e = (3%Z, None).
Proof. vm_compute. reflexivity. Qed.

(* Refuted: without a training to wait for, waitFor never returns (here n_ep with at most n epochs so far: in particular on a new network) *)
Theorem C60_nothing_to_wait_for_refuted : forall (N : Num) (ok : F -> Prop), order_laws N ok -> forall env look sched e prog n t, (0 <= n <= int_max)%Z ->
  let s := wt_at env look sched e prog t in
  in_wait (lit_ep n) s -> worker (base s) = None -> nan (fl (base s)) = false -> (epoch s <= n)%Z ->
  forall t', t <= t' -> in_wait (lit_ep n) (wt_at env look sched e prog t').
Proof.
  intros N ok OL env look sched e prog n t Hn s Hw W0 Hnan He t' Ht. subst s.
  assert (G : in_wait (lit_ep n) (wt_at env look sched e prog t') /\ worker (base (wt_at env look sched e prog t')) = None /\ nan (fl (base (wt_at env look sched e prog t'))) = false /\ (epoch (wt_at env look sched e prog t') <= n)%Z); [|apply G].
  induction Ht as [|t' Ht (A & B & C & D)]; [auto|]. destruct A as (q & Hq & Eq).
  destruct (dead (base (wt_at env look sched e prog t'))) eqn:Ed.
  { cbn [wt_at]. unfold wt_step. rewrite Ed. split; [exists q|]; auto. }
  destruct (sched t') eqn:Es.
  - cbn [wt_at]. unfold wt_step. rewrite Ed, Es. unfold wt_worker, worker_step. rewrite B. cbn [base waiting epoch]. split; [exists q|]; auto.
  - pose proof (waiting_step env look sched e prog t' q Ed Es Hq) as E. cbn zeta in E. rewrite Eq, (over_epochs OL n _ _ _ _ Hn), C in E.
    replace (n <? epoch (wt_at env look sched e prog t'))%Z with false in E by (symmetry; apply Z.ltb_ge; exact D). rewrite E. cbn [base waiting epoch].
    split; [|auto]. destruct (p_looked q); eexists; split; try reflexivity.
Qed.
Print Assumptions C60_nothing_to_wait_for_refuted.
Example C60_nothing_hypotheses : let s := wt_at calm still (fun _ => false) 0 [ep32 1] 1 in
  in_wait (lit_ep 1) s /\ worker (base s) = None /\ nan (fl (base s)) = false /\ (epoch s <= 1)%Z.
Proof. split; [eexists; split; reflexivity|]. split; [reflexivity|]. split; [reflexivity|]. cbn. lia. Qed.

(* waitFor(n_ms) does not return before n milliseconds, unless the outputs are abnormal (the clock may not run more than 2^31 ms) *)
Lemma started {N : Num} env look sched e prog t q : waiting (wt_at env look sched e prog t) = Some q ->
  exists t0, t0 < t /\ waiting (wt_at env look sched e prog t0) = None /\ waiting (wt_at env look sched e prog (S t0)) <> None /\ p_start q = l_clock look t0 /\
    forall j, t0 < j <= t -> in_wait (p_wait q) (wt_at env look sched e prog j).
Proof.
  revert q. induction t as [|t IH]; [discriminate|]. intros q H. destruct (waiting (wt_at env look sched e prog t)) as [q0|] eqn:E.
  - destruct (IH q0 eq_refl) as (t0 & A & B & C & D & G).
    assert (X : p_wait q = p_wait q0 /\ p_start q = p_start q0).
    { destruct (dead (base (wt_at env look sched e prog t))) eqn:Ed; [rewrite (worker_waiting env look sched e prog t) in H by auto; rewrite E in H; injection H as <-; auto|].
      destruct (sched t) eqn:Es; [rewrite (worker_waiting env look sched e prog t) in H by auto; rewrite E in H; injection H as <-; auto|].
      rewrite (waiting_step env look sched e prog t q0 Ed Es E) in H. cbn in H. destruct (p_looked q0); [destruct (isOver _ _ _ _ _)|destruct (nan _)]; try discriminate; injection H as <-; auto. }
    destruct X as (X1 & X2). exists t0. rewrite X1, X2. split; [lia|]. do 3 (split; [assumption|]). intros j Hj.
    destruct (Nat.eq_dec j (S t)) as [->|]; [exists q; auto|apply G; lia].
  - exists t. split; [lia|]. split; [exact E|]. split; [congruence|]. split.
    + cbn [wt_at] in H. unfold wt_step in H. destruct (dead (base (wt_at env look sched e prog t))) eqn:Ed; [congruence|]. destruct (sched t) eqn:Es.
      * pose proof (worker_waiting env look sched e prog t (or_intror Es)) as X. cbn [wt_at] in X. unfold wt_step in X. rewrite Ed, Es in X. congruence.
      * unfold wt_caller in H. destruct (pc _); try (cbn in H; congruence). destruct (todo _); [|cbn in H; congruence]. rewrite E in H. destruct (calls _) as [|[c|w] cs]; try (cbn in H; congruence).
        cbn in H. injection H as <-. reflexivity.
    + intros j Hj. assert (j = S t) as -> by lia. exists q. auto.
Qed.
Theorem C60_time_has_passed : forall (N : Num) (ok : F -> Prop), order_laws N ok -> forall env look sched e prog n t, (0 <= n <= int_max)%Z ->
  wait_returns env look sched e prog (lit_ms n) t -> nan (fl (base (wt_at env look sched e prog (S t)))) = false ->
  exists t0, t0 < t /\ waiting (wt_at env look sched e prog t0) = None /\ (forall j, t0 < j <= t -> in_wait (lit_ms n) (wt_at env look sched e prog j)) /\
    ((0 <= l_clock look t - l_clock look t0 <= int_max)%Z -> (n <= l_clock look t - l_clock look t0)%Z).
Proof.
  intros N ok OL env look sched e prog n t Hn HR Hnan. apply returns_inv in HR as (q & Hq & Eq & A & _ & _ & HO). rewrite A in Hnan.
  destruct HO as [HO|HO]; [congruence|]. destruct (started _ _ _ _ _ _ _ Hq) as (t0 & B & C & _ & D & G). exists t0. rewrite Eq in G. split; [exact B|]. split; [exact C|]. split; [exact G|].
  intros Hc. rewrite isOver_any in HO by discriminate. cbn [lit_ms w_epochs w_accuracy w_mae w_duration] in HO. rewrite D in HO.
  rewrite (cA_absent OL), (cM_absent OL) in HO; try (apply (ok_m1 OL)); try (apply (m1_neg OL)). unfold cE, cD in HO. cbn [Z.leb] in HO.
  rewrite !andb_false_r in HO. cbn [orb] in HO. rewrite !to_int_id in HO by (unfold int_min; lia). apply andb_true_iff in HO as (HO & _). now apply Z.leb_le in HO.
Qed.
Print Assumptions C60_time_has_passed.
Definition ms32 (n : Z) : @wcall N32 := WaitFor (lit_ms n).
Example C60_time_hypotheses : wait_returns calm still (fun _ => false) 0 [ms32 5] (lit_ms 5) 6 /\ nan (fl (base (wt_at calm still (fun _ => false) 0 [ms32 5] 7))) = false.
Proof. split; [|reflexivity]. split; [eexists; split; reflexivity|]. assert (E : waits32 (wt_at calm still (fun _ => false) 0 [ms32 5] 7) = false) by (vm_compute; reflexivity). unfold waits32 in E. now destruct (waiting _). Qed.

(* Wait() is never over: waitFor(Wait()) returns only on abnormal outputs *)
Theorem C60_default_only_nan : forall (N : Num) (ok : F -> Prop), order_laws N ok -> forall env look sched e prog t,
  wait_returns env look sched e prog defaultWait t -> nan (fl (base (wt_at env look sched e prog (S t)))) = true.
Proof.
  intros N ok OL env look sched e prog t HR. apply returns_inv in HR as (q & Hq & Eq & A & _ & _ & HO). rewrite A. destruct HO as [HO|HO]; [exact HO|].
  rewrite isOver_any in HO by discriminate. cbn [defaultWait w_epochs w_accuracy w_mae w_duration] in HO.
  rewrite (cA_absent OL), (cM_absent OL), cD_absent in HO; try (apply (ok_m1 OL)); try (apply (m1_neg OL)); try lia. unfold cE in HO. cbn [Z.leb] in HO. rewrite andb_false_r in HO. discriminate.
Qed.
Print Assumptions C60_default_only_nan.
