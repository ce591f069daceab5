(* Recurrent layers as layers of units, and what a training step does to each of their weights. *)
From Coq Require Import Reals Lra.
From Verif Require Import Base Num NumOrder ActModel ActProofs NeuronModel LayerModel NetModel NetSpec NeuronProofs LayerProofs SafeProofs GradProofs DenseProofs SafeLayers FactoryModel FactorySpec FactoryProofs SafeNet BuildProofs FilterSpec HistProofs LOptSpec BackSpec MixSpec MixProofs MixLayers MixKinds.
Local Open Scope R_scope.

Notation RRec := (@RNeuron RNum).
Definition rok (k : nat) (r : RRec) : Prop := wf_rneuron k r /\ n_batch (r_n r) = 1%nat.
Definition ru_of (k : nat) (r : RRec) : punit :=
  mkU (n_w (r_n r)) (all_cells k) (r_lastOut r * @nth R k (n_w (r_n r)) 0 + n_bias (r_n r) * @nth R (S k) (n_w (r_n r)) 0) (n_act (r_n r)).
Definition rfed (k : nat) (x : list R) (reset : bool) (r : RRec) : RRec :=
  @mkRNeuron RNum (@set_sum RNum (r_n r) (usum (ru_of k r) x) (@mkCirc RNum [x] 1 (q_get (n_last (r_n r))))) (uval (ru_of k r) x) (r_lastOut r)
    (if reset then 0 else r_recErr r) (n_sum (r_n r)).
Lemma rfed_ok k x reset r : rok k r -> List.length x = k -> @rec_output RNum r x reset = Ok (uval (ru_of k r) x, rfed k x reset r).
Proof.
  intros ((W & Hk) & Hb) Hx. pose proof W as (Hw & Hp & Hl & He). rewrite Hb in Hl. unfold rec_output.
  set (r0 := if reset then rec_reset r else r).
  assert (Hr : r_n r0 = r_n r /\ r_lastOut r0 = r_lastOut r /\ r_recErr r0 = if reset then 0 else r_recErr r) by (unfold r0; destruct reset; unfold rec_reset; cbn [r_n r_lastOut r_recErr]; rewrite ?fzero_R; auto). destruct Hr as (Q1 & Q2 & Q3).
  rewrite Q1, Q2, Q3. change (@F RNum) with R in *. rewrite (@pushBack_1 RNum _ _ x Hl). cbn [bind].
  rewrite (@weighted_ok RNum) by rl. cbn [bind]. change (@F RNum) with R in *. rewrite (@lget_nth R (n_w (r_n r)) (List.length x) 0) by rl. cbn [bind]. change (@F RNum) with R in *. rewrite (@lget_nth R (n_w (r_n r)) (S (List.length x)) 0) by rl. cbn [bind].
  match goal with |- context [@set_sum RNum _ ?a _] => assert (Es : a = usum (ru_of k r) x) end.
  { unfold usum, ru_of. cbn [u_w u_row u_c fadd fmul RNum]. rewrite (dotp_R x (n_w (r_n r))) by rl. rewrite reads_all by exact Hx. rewrite inner_sum by rl. rewrite Hx. lra. }
  rewrite Es. reflexivity.
Qed.
Lemma rfed_rok k x reset r : rok k r -> List.length x = k -> rok k (rfed k x reset r).
Proof.
  intros H Hx. pose proof (rfed_ok k x reset r H Hx) as E. destruct H as [W Hb]. destruct (rec_output_wf k r x reset W Hx) as (v & r' & E' & W' & _).
  change (@F RNum) with R in *. rewrite E in E'. injection E' as _ <-. split; [exact W'|exact Hb].
Qed.

(* what the step with error d (after the derivative of the activation) does to a recurrent neuron that was fed x *)
Definition rupd (o : @SGD RNum) (d : R) (x : list R) (r r' : RRec) : Prop :=
  let n := r_n r in let n' := r_n r' in let k := n_in n in let p := nth k (prow n) 0 in
  let w1 := @nth R k (n_w n) 0 + (o_lr o * d * n_bias n + o_m o * p) in
  let e := d + r_recErr r * @actd RNum (n_act n) (r_prevSum r) * w1 in
  n_in n' = k /\ n_batch n' = n_batch n /\ n_act n' = n_act n /\ n_bias n' = n_bias n /\ List.length (n_w n') = List.length (n_w n) /\
  r_recErr r' = e /\ r_lastOut r' = r_lastOut r /\
  (forall w, (w < k)%nat -> @nth R w (n_w n') 0 = @nth R w (n_w n) 0 + (o_lr o * d * nth w x 0 + o_m o * nth w (prow n) 0)) /\
  @nth R k (n_w n') 0 = w1 + (o_lr o * e * r_prevOut r + o_m o * p) /\
  @nth R (S k) (n_w n') 0 = @nth R (S k) (n_w n) 0 /\
  (forall w, (w < k)%nat -> @nth R w (prow n') 0 = @nth R w (n_w n') 0 - @nth R w (n_w n) 0) /\
  @nth R k (prow n') 0 = o_lr o * e * r_prevOut r + o_m o * p.
Lemma sgd_rec_upd o k d x (r : RRec) errs : rok k r -> q_data (n_last (r_n r)) = [x] -> List.length errs = k ->
  exists r', @sgd_recurrent RNum o (@mkRNeuron RNum (@set_err RNum (r_n r) errs) (r_lastOut r) (r_prevOut r) (r_recErr r) (r_prevSum r)) d = Ok r' /\ rok k r' /\ rupd o d x r r'.
Proof.
  intros ((W & Hk) & Hb) Hq Le. pose proof W as (Hw & Hp & Hl & He). rewrite Hb in Hp, Hl.
  destruct (getBack_1 _ _ Hp) as (p & Qp & Gp). destruct (getBack_1 _ _ Hl) as (xs & Qx & Gx). assert (xs = x) as -> by congruence.
  assert (Lp : List.length p = (n_in (r_n r) + 2)%nat). { destruct Hp as (_ & _ & Hf & _). rewrite Qp in Hf. exact (Forall_inv Hf). }
  assert (Lx : List.length x = n_in (r_n r)). { destruct Hl as (_ & _ & Hf & _). rewrite Qx in Hf. exact (Forall_inv Hf). }
  assert (Hrow : prow (r_n r) = p) by (unfold prow; rewrite Qp; reflexivity).
  match goal with |- exists r', @sgd_recurrent RNum o ?r0 d = _ /\ _ => destruct (sgd_recurrent_wf o k r0 d) as (r' & E & W' & _) end.
  { split; [|exact Hk]. cbn [r_n]. split; [exact Hw|]. split; [cbn; rewrite Hb; exact Hp|]. split; [cbn; rewrite Hb; exact Hl|cbn [set_err n_err n_in]; exact (eq_trans Le (eq_sym Hk))]. }
  exists r'. split; [exact E|]. assert (H : n_batch (r_n r') = 1%nat /\ rupd o d x r r'); [|split; [split; [exact W'|apply H]|apply H]].
  unfold sgd_recurrent in E. cbv zeta in E. cbn [r_n r_lastOut r_prevOut r_recErr r_prevSum set_err n_batch n_last n_prev n_in n_w n_bias n_act] in E.
  change (@F RNum) with R in *. rewrite Gp, Gx in E. cbn [bind] in E.
  rewrite (omap_seq_ok _ (fun w => o_lr o * d * nth w x 0 + o_m o * nth w p 0)) in E.
  2: { intros i Hi. change (@F RNum) with R in *. rewrite (lget_nth x i 0) by lia. cbn [bind]. rewrite (lget_nth p i 0) by lia. cbn [bind]. rewrite Hb, RNum_one. cbn [fadd fmul fdiv RNum]. unfold Rdiv. rewrite Rinv_1, Rmult_1_r. reflexivity. }
  cbn [bind] in E. set (ds := map (fun w => o_lr o * d * nth w x 0 + o_m o * nth w p 0) _) in E. assert (Lds : List.length ds = n_in (r_n r)) by (unfold ds; rewrite map_length, seq_length; reflexivity).
  rewrite (omap_seq_ok _ (fun w => @nth R w (n_w (r_n r)) 0 + nth w ds 0)) in E.
  2: { intros i Hi. change (@F RNum) with R in *. rewrite (@lget_nth R (n_w (r_n r)) i 0) by lia. cbn [bind]. rewrite (lget_nth ds i 0) by lia. reflexivity. }
  cbn [bind] in E. set (ws := map (fun w => @nth R w (n_w (r_n r)) 0 + nth w ds 0) _) in E. assert (Lws : List.length ws = n_in (r_n r)) by (unfold ws; rewrite map_length, seq_length; reflexivity).
  rewrite (lget_nth p _ 0) in E by lia. cbn [bind] in E. rewrite (@lget_nth R (n_w (r_n r)) _ 0) in E by lia. cbn [bind] in E.
  rewrite Hb, RNum_one in E. cbn [fadd fmul fdiv RNum] in E.
  assert (Q1 : o_lr o / 1 = o_lr o) by (unfold Rdiv; rewrite Rinv_1; apply Rmult_1_r). rewrite Q1 in E.
  set (w1 := @nth R (n_in (r_n r)) (n_w (r_n r)) 0 + (o_lr o * d * n_bias (r_n r) + o_m o * nth (n_in (r_n r)) p 0)) in *.
  set (e := d + r_recErr r * @actd RNum (n_act (r_n r)) (r_prevSum r) * w1) in *.
  set (row := ds ++ _) in E.
  assert (Ep : @pushBack RNum (@mkCirc RNum [p] (q_push (n_prev (r_n r))) 1) row = Ok (@mkCirc RNum [row] 1 1)).
  { apply (@pushBack_1 RNum (@mkCirc RNum [p] (q_push (n_prev (r_n r))) 1) (n_in (r_n r) + 2)%nat row). destruct Hp as (A & B & C & D & F). split; [lia|]. cbn [q_data q_push q_get]. split; [reflexivity|]. split; [constructor; [exact Lp|constructor]|]. split; [exact D|lia]. }
  change (@F RNum) with R in *. rewrite Ep in E. cbn [bind] in E. assert (E' : forall a b : RRec, @Ok RRec a = Ok b -> a = b) by (intros a b Q; congruence). apply E' in E as <-. cbn [r_n set_wpl n_batch]. split; [exact Hb|].
  assert (Lw : (List.length ws <= n_in (r_n r))%nat) by lia.
  assert (A : forall w, (w < n_in (r_n r))%nat -> nth w ws 0 = @nth R w (n_w (r_n r)) 0 + (o_lr o * d * nth w x 0 + o_m o * nth w p 0)).
  { intros w Hlt. unfold ws. rewrite nth_map_seq by exact Hlt. unfold ds. rewrite nth_map_seq by exact Hlt. reflexivity. }
  unfold rupd. cbn [r_n r_recErr r_lastOut set_wpl n_in n_batch n_act n_bias n_w]. rewrite Hrow. fold w1. fold e.
  assert (Hpr : forall (n0 : RNeu) wts last, prow (@set_wpl RNum n0 wts (@mkCirc RNum [row] 1 1) last) = row) by reflexivity.
  cbn [set_err n_in n_w n_batch n_act n_bias] in *. rewrite Hpr.
  split; [reflexivity|]. split; [reflexivity|]. split; [reflexivity|]. split; [reflexivity|]. split.
  { rewrite app_length. cbn [List.length]. rewrite skipn_length. rl. }
  split; [reflexivity|]. split; [reflexivity|]. split. { intros w Hlt. rewrite app_nth1 by lia. now apply A. }
  split. { rewrite app_nth2 by lia. replace (n_in (r_n r) - List.length ws)%nat with 0%nat by lia. reflexivity. }
  split. { rewrite app_nth2 by lia. replace (S (n_in (r_n r)) - List.length ws)%nat with 1%nat by lia. cbn [nth].
    replace (n_w (r_n r)) with (firstn (S (n_in (r_n r))) (n_w (r_n r)) ++ skipn (S (n_in (r_n r))) (n_w (r_n r))) at 2 by apply firstn_skipn. rewrite app_nth2 by (rewrite firstn_length; rl). replace (S (n_in (r_n r)) - List.length (firstn (S (n_in (r_n r))) (n_w (r_n r))))%nat with 0%nat by (rewrite firstn_length; rl). reflexivity. }
  split. { intros w Hlt. unfold row. rewrite !app_nth1 by lia. rewrite A by exact Hlt. unfold ds. rewrite nth_map_seq by exact Hlt. lra. }
  unfold row. rewrite app_nth2 by lia. replace (n_in (r_n r) - List.length ds)%nat with 0%nat by lia. reflexivity.
Qed.
Lemma mkR_self (r : RRec) : @mkRNeuron RNum (@set_err RNum (r_n r) (n_err (r_n r))) (r_lastOut r) (r_prevOut r) (r_recErr r) (r_prevSum r) = r.
Proof. destruct r as [n a b c d]. cbn [r_n r_lastOut r_prevOut r_recErr r_prevSum]. now rewrite set_err_self. Qed.
Lemma rec_step o k (r : RRec) x reset e : rok k r -> List.length x = k ->
  let f := rfed k x reset r in let d := e * @actd RNum (n_act (r_n r)) (usum (ru_of k r) x) in
  (exists r', @rec_backOutput RNum o f e = Ok (map (fun w => d * w) (firstn k (n_w (r_n r))), r') /\ rok k r' /\ rupd o d x f r') /\
  (exists r', @rec_train RNum o f e = Ok r' /\ rok k r' /\ rupd o d x f r').
Proof.
  intros H Hx f d. pose proof (rfed_rok k x reset r H Hx) as Hf. fold f in Hf. pose proof H as ((W & Hk) & Hb). destruct W as (Hw & _ & _ & He).
  assert (Hq : q_data (n_last (r_n f)) = [x]) by reflexivity. change (@F RNum) with R in *. split.
  - unfold rec_backOutput. cbv zeta. change (n_in (r_n f)) with (n_in (r_n r)). change (n_w (r_n f)) with (n_w (r_n r)). change (n_err (r_n f)) with (n_err (r_n r)).
    change (@fmul RNum e (@actd RNum (n_act (r_n f)) (n_sum (r_n f)))) with d.
    rewrite (omap_seq_ok _ (fun w => d * @nth R w (n_w (r_n r)) 0)).
    2: { intros i Hi. change (@F RNum) with R in *. rewrite (@lget_nth R (n_w (r_n r)) i 0) by rl. cbn [bind]. rewrite (@lget_nth R (n_err (r_n r)) i 0) by rl. reflexivity. }
    cbn [bind]. assert (Q : map (fun w => d * @nth R w (n_w (r_n r)) 0) (seq 0 (n_in (r_n r))) ++ skipn (n_in (r_n r)) (n_err (r_n r)) = map (fun w => d * w) (firstn k (n_w (r_n r)))).
    { rewrite skipn_all2 by rl. rewrite app_nil_r. apply nth_error_ext. intros i. rewrite !nth_error_map. destruct (Nat.lt_ge_cases i k) as [Hi|Hi].
      - rewrite (nth_error_nth' (seq 0 (n_in (r_n r))) O) by (rewrite seq_length; rl). rewrite seq_nth by rl. rewrite (nth_error_nth' (firstn k (n_w (r_n r))) 0) by (rewrite firstn_length; rl).
        cbn [option_map Nat.add]. apply (f_equal Some). apply (f_equal (Rmult d)). replace (n_w (r_n r)) with (firstn k (n_w (r_n r)) ++ skipn k (n_w (r_n r))) at 1 by apply firstn_skipn. apply app_nth1. rewrite firstn_length. rl.
      - rewrite !(proj2 (nth_error_None _ _)) by (rewrite ?seq_length, ?firstn_length; rl). reflexivity. }
    change (@F RNum) with R in *. rewrite Q.
    destruct (sgd_rec_upd o k d x f (map (fun w => d * w) (firstn k (n_w (r_n r)))) Hf Hq) as (r' & E & Hr & HU). { rewrite map_length, firstn_length. rl. }
    exists r'. change (@F RNum) with R in *. rewrite E. cbn [bind]. auto.
  - unfold rec_train. destruct (sgd_rec_upd o k d x f (n_err (r_n f)) Hf Hq) as (r' & E & Hr & HU). { change (n_err (r_n f)) with (n_err (r_n r)). exact (eq_trans He Hk). }
    rewrite mkR_self in E. exists r'. split; [exact E|]. auto.
Qed.

Lemma rus_length k rs : List.length (map (ru_of k) rs) = List.length rs. Proof. apply map_length. Qed.
Lemma rec_body_output k (rs : list RRec) y reset : Forall (rok k) rs -> List.length y = k ->
  @body_output RNum (BRec rs) y reset = Ok (map (fun u => uval u y) (map (ru_of k) rs), BRec (map (rfed k y reset) rs)).
Proof.
  intros H Hy. cbn [body_output]. erewrite each_map_plain with (g := fun r => uval (ru_of k r) y) (h := rfed k y reset); [cbn [bind]; now rewrite map_map|].
  intros j a Ha. rewrite Forall_forall in H. apply rfed_ok; auto. apply H. eapply nth_error_In; eauto.
Qed.
Lemma rec_change k (rs : list RRec) n q t r : Forall (rok k) rs -> nth_error rs n = Some r -> (q < k)%nat ->
  Forall (rok k) (modify rs n (fun r => @changed_rec RNum r q t)) /\ map (ru_of k) (modify rs n (fun r => @changed_rec RNum r q t)) = replace (map (ru_of k) rs) n (uset (ru_of k r) q t).
Proof.
  intros H Hn Hq. unfold modify. rewrite Hn. split.
  - apply Forall_of_nth. intros j v Hj. rewrite nth_error_replace in Hj. rewrite Forall_forall in H. destruct (Nat.eqb_spec j n) as [->|]; [|apply H; eapply nth_error_In; eauto].
    destruct (n <? List.length rs)%nat; [|discriminate]. injection Hj as <-. destruct (H r (nth_error_In _ _ Hn)) as (((A & B) & C) & D). split; [|exact D]. split; [|exact C].
    split; [|exact B]. cbn [changed_rec r_n changed set_w n_w n_in]. now rewrite replace_length.
  - apply nth_error_ext. intros j. rewrite nth_error_map, !nth_error_replace, nth_error_map, map_length. destruct (Nat.eqb_spec j n) as [->|]; [|reflexivity].
    destruct (n <? List.length rs)%nat; [|reflexivity]. cbn [option_map]. f_equal. unfold ru_of, uset, changed_rec, changed, set_w; cbn [r_n n_w n_bias n_act r_lastOut u_w u_row u_c u_a].
    change (@F RNum) with R. rewrite !nth_replace. destruct (Nat.eqb_spec k q); [lia|]. destruct (Nat.eqb_spec (S k) q); [lia|]. reflexivity.
Qed.
Lemma rec_good o k (rs : list RRec) z : Forall (rok k) rs -> List.length z = k -> out_smooth (mkLayer k (BRec rs) []) z ->
  good o (mkLayer k (BRec rs) []) z (fun y => map (fun u => uval u y) (map (ru_of k) rs)) (List.length (map (ru_of k) rs)) (uL (map (ru_of k) rs) z).
Proof.
  intros H Hz Hs0. destruct (all_cells_ok k) as [Hc Hcl].
  assert (Hs : forall j r, nth_error rs j = Some r -> usmooth (ru_of k r) z).
  { intros j r Hj. assert (E1 : @layer_output RNum (mkLayer k (BRec rs) []) z false = Ok (map (fun u => uval u z) (map (ru_of k) rs), mkLayer k (BRec (map (rfed k z false) rs)) [])).
    { unfold layer_output. cbn [l_body l_opts l_in]. rewrite (rec_body_output k) by auto. reflexivity. }
    destruct (Hs0 _ _ E1 j (r_n (rfed k z false r))) as [A B]; [cbn [unit_at l_body]; now rewrite nth_error_map, Hj|]. split; [exact A|exact B]. }
  pose proof (proj1 (Forall_forall _ _) H) as HF.
  assert (HA : forall j r, nth_error rs j = Some r -> rok k r) by (intros j r Hj; apply HF; eapply nth_error_In; eauto).
  assert (HU : forall l2 e rs2 reset, l2 = mkLayer k (BRec rs2) [] ->
    (forall j r, nth_error rs j = Some r -> exists r2, nth_error rs2 j = Some r2 /\ rupd o (nth j e 0 * @actd RNum (n_act (r_n r)) (usum (ru_of k r) z)) z (rfed k z reset r) r2) ->
    unit_upd o (mkLayer k (BRec rs) []) (map (ru_of k) rs) z e l2).
  { intros l2 e rs2 reset -> H2 j n pu Hj Hp. cbn [unit_at l_body] in *. destruct (nth_error rs j) as [r|] eqn:Er; [|discriminate]. injection Hj as <-. rewrite nth_error_map, Er in Hp. injection Hp as <-.
    destruct (H2 j r Er) as (r2 & E2 & U). destruct U as (U1 & U2 & U3 & U4 & U5 & U6 & U7 & U8 & U9 & U10 & U11 & U12). exists (r_n r2). rewrite E2. split; [reflexivity|]. split; [exact U1|]. split; [exact U5|].
    intros w Hlt. cbn [ru_of u_row u_a]. rewrite reads_all by exact Hz. split; [exact (U8 w Hlt)|exact (U11 w Hlt)]. }
  apply units_good.
  - rewrite Hz. apply Forall_forall. intros u Hu. apply in_map_iff in Hu as (r & <- & Hr). split; [exact Hc|]. cbn [ru_of u_row u_w]. destruct (HF r Hr) as (((A & _) & B) & _). rl.
  - apply Forall_forall. intros u Hu. apply in_map_iff in Hu as (r & <- & Hr). apply In_nth_error in Hr as (j & Hj). eauto.
  - intros n u Hu. cbn [unit_at l_body] in Hu. destruct (nth_error rs n) as [r|] eqn:Er; [|discriminate]. injection Hu as <-. exists (ru_of k r). rewrite nth_error_map, Er. split; [reflexivity|]. split; [reflexivity|].
    cbn [ru_of u_row]. rewrite Hcl. symmetry. apply (HA n r Er).
  - intros y Hy. unfold layer_output. cbn [l_body l_opts l_in]. rewrite (rec_body_output k) by (auto; lia). cbn [bind opts_testing ofold]. eauto.
  - intros n pu q t Hp Hq. rewrite nth_error_map in Hp. destruct (nth_error rs n) as [r|] eqn:Er; [|discriminate]. injection Hp as <-. cbn [ru_of u_row] in Hq. rewrite Hcl in Hq.
    destruct (rec_change k rs n q t r H Er Hq) as [HM EM]. unfold change_weight, layer_output. cbn [l_body l_opts l_in]. rewrite (rec_body_output k) by auto. cbn [bind opts_testing ofold]. rewrite EM. eauto.
  - intros rand reset. exists (mkLayer k (BRec (map (rfed k z reset) rs)) []).
    split. { unfold layer_outputForTraining. cbn [l_body l_opts l_in]. rewrite (rec_body_output k) by auto. reflexivity. }
    split. { unfold getNumberOfNeurons, layer_weights. cbn [l_body body_weights]. now rewrite !map_length. }
    intros e He. rewrite map_length in He. split.
    + set (f := fun (n : nat) neuron => bind (@lget R e n) (fun e0 => @rec_backOutput RNum o neuron e0)).
      assert (Hf : forall j r, nth_error rs j = Some r -> exists r', f j (rfed k z reset r) = Ok (map (fun w => nth j e 0 * @actd RNum (n_act (r_n r)) (usum (ru_of k r) z) * w) (firstn k (n_w (r_n r))), r') /\ rupd o (nth j e 0 * @actd RNum (n_act (r_n r)) (usum (ru_of k r) z)) z (rfed k z reset r) r').
      { intros j r Hj. assert (Hlt : (j < List.length rs)%nat) by (apply nth_error_Some; congruence). destruct (rec_step o k r z reset (nth j e 0) (HA j r Hj) Hz) as ((r' & E & _ & U) & _). exists r'. split; [|exact U].
        unfold f. cbv beta. change (@F RNum) with R in *. rewrite (lget_nth e j 0) by lia. cbn [bind]. exact E. }
      assert (HF' : forall j a, nth_error (map (rfed k z reset) rs) j = Some a -> exists r, nth_error rs j = Some r /\ a = rfed k z reset r).
      { intros j a Ha. rewrite nth_error_map in Ha. destruct (nth_error rs j) as [r|] eqn:Er; [|discriminate]. injection Ha as <-. eauto. }
      destruct (each_ok f (map (rfed k z reset) rs)) as (es & rs2 & E). { intros j a Ha. destruct (HF' j a Ha) as (r & Hn & ->). destruct (Hf j r Hn) as (r' & E & _). eauto. }
      unfold layer_backOutput. cbn [l_body l_opts l_in]. change (opts_back _ [] e) with e. cbn [body_back].
      match goal with |- context [each ?g (map (rfed k z reset) rs)] => change (each g (map (rfed k z reset) rs)) with (each f (map (rfed k z reset) rs)) end.
      rewrite E. cbn [bind]. apply each_inv in E as (L1 & L2 & Hj). rewrite map_length in L1, L2.
      assert (Hes : forall j r, nth_error rs j = Some r -> exists r2, nth_error es j = Some (map (fun w => nth j e 0 * @actd RNum (n_act (r_n r)) (usum (ru_of k r) z) * w) (firstn k (n_w (r_n r)))) /\ nth_error rs2 j = Some r2 /\ rupd o (nth j e 0 * @actd RNum (n_act (r_n r)) (usum (ru_of k r) z)) z (rfed k z reset r) r2).
      { intros j r Hn. destruct (Hj j (rfed k z reset r)) as (b & a' & Eb & Ea & Efb); [now rewrite nth_error_map, Hn|]. destruct (Hf j r Hn) as (n' & Ef & U). rewrite Ef in Efb. injection Efb as <- <-. eauto. }
      destruct (add_rows_all k es) as (r & Er & Lr & Hin).
      { apply Forall_of_nth. intros j x Hx. assert (Hlt : (j < List.length rs)%nat). { rewrite <- L1. apply nth_error_Some. intros H0. pose proof (eq_trans (eq_sym Hx) H0). discriminate. }
        destruct (nth_error rs j) as [n|] eqn:En; [|apply nth_error_None in En; lia]. destruct (Hes j n En) as (_ & Q & _ & _). pose proof (eq_trans (eq_sym Hx) Q) as Q'. injection Q' as ->.
        destruct (HA j n En) as (((HL & _) & Hi) & _). rewrite map_length, firstn_length. rl. }
      exists r, (mkLayer k (BRec rs2) []). change (@F RNum) with R in *. rewrite Er. cbn [bind]. split; [reflexivity|]. split; [lia|]. split.
      * intros u Hu. rewrite (Hin u) by lia. rewrite (Rsum_nth es (fun x => inner x u) []). rewrite map_length. replace (List.length es) with (List.length rs) by lia. apply sumn_ext. intros j Hlt.
        destruct (nth_error rs j) as [n|] eqn:En; [|apply nth_error_None in En; lia]. destruct (Hes j n En) as (_ & Q & _ & _). rewrite (nth_error_nth _ _ _ Q). rewrite inner_scaled.
        assert (Ej : nth_error (uL (map (ru_of k) rs) z u) j = Some (@actd RNum (n_act (r_n n)) (usum (ru_of k n) z) * inner (reads u (all_cells k)) (n_w (r_n n)))) by (unfold uL; rewrite !nth_error_map, En; reflexivity).
        rewrite (nth_error_nth _ _ _ Ej), reads_all by lia. rewrite <- Rmult_assoc. f_equal. replace k with (List.length u) by lia. apply inner_firstn.
      * apply (HU _ e rs2 reset eq_refl). intros j r0 Hj0. destruct (Hes j r0 Hj0) as (r2 & _ & Q & U). eauto.
    + destruct (each_ok (trained (@rec_train RNum o) e) (map (rfed k z reset) rs)) as (us & rs3 & E3).
      { intros j a Ha. rewrite nth_error_map in Ha. destruct (nth_error rs j) as [r|] eqn:Er; [|discriminate]. injection Ha as <-. assert (Hlt : (j < List.length rs)%nat) by (apply nth_error_Some; congruence).
        destruct (rec_step o k r z reset (nth j e 0) (HA j r Er) Hz) as (_ & r' & E & _). exists tt, r'. unfold trained. change (@F RNum) with R in *. rewrite (lget_nth e j 0) by lia. cbn [bind]. rewrite E. reflexivity. }
      exists (mkLayer k (BRec rs3) []). split. { unfold layer_train. cbn [l_body l_opts l_in]. change (opts_back _ [] e) with e. cbn [body_train]. rewrite E3. reflexivity. }
      apply each_inv in E3 as (_ & _ & Hj3). apply (HU _ e rs3 reset eq_refl). intros j r Hj. destruct (Hj3 j (rfed k z reset r)) as (b & n3 & _ & Hn3 & E3); [now rewrite nth_error_map, Hj|]. exists n3. split; [exact Hn3|].
      assert (Hlt : (j < List.length rs)%nat) by (apply nth_error_Some; congruence). unfold trained in E3. change (@F RNum) with R in *. rewrite (lget_nth e j 0) in E3 by lia. cbn [bind] in E3. apply bind_Ok_inv in E3 as (n3' & E3 & Q). injection Q as _ ->.
      destruct (rec_step o k r z reset (nth j e 0) (HA j r Hj) Hz) as (_ & r' & E' & _ & U). rewrite E' in E3. injection E3 as <-. exact U.
Qed.
