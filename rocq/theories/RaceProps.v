(* C73: predicting while another thread trains the network. *)
From Coq Require Import Reals Lra Lia.
From Verif Require LearnProps.
From Verif Require Import Base Num NumOrder ActModel ActProofs NeuronModel LayerModel NetModel NetSpec NeuronProofs LayerProofs FactoryModel FactorySpec FilterSpec FactoryProofs BuildProofs SafeProofs GradProofs DenseProofs StatReal LearnSpec LearnProofs SafeLayers SafeNet RaceModel RaceProofs.
Local Open Scope nat_scope.

Section P.
Context {N : Num}.
Local Open Scope outcome_scope.
(* ---------- a call that runs undisturbed is the function it stands for ---------- *)
Lemma run_app a b (s : Race) : run (a ++ b) s = (let* s := run a s in run b s).
Proof. unfold run. revert s. induction a as [|w a IH]; intros s; cbn [app ofold]; [reflexivity|]. destruct (if w then tstep s else pstep s); cbn [bind]; auto. Qed.
Lemma nth_mid {A} (pre : list A) a t : nth_error (pre ++ a :: t) (List.length pre) = Some a.
Proof. induction pre; cbn; auto. Qed.
Lemma replace_mid {A} (pre : list A) a t b : replace (pre ++ a :: t) (List.length pre) b = pre ++ b :: t.
Proof. induction pre; cbn; congruence. Qed.
Notation net_with net ls := (mkNet ls (nn_opt net) (nn_nan net) (nn_trainings net)).
Lemma t_forward (net : Net) j tj p pj res rest : forall pre v,
  run (repeat true (List.length rest)) (mkRace (net_with net (pre ++ rest)) (T_forward (List.length pre) v j) tj p pj res) =
  (let* (o, rest') := chain (fun i l v => layer_outputForTraining (tj_rand j i) l v (tj_reset j)) (List.length pre) rest v in
   Ok (mkRace (net_with net (pre ++ rest')) (T_forward (List.length pre + List.length rest) o j) tj p pj res)).
Proof.
  induction rest as [|a t IH]; intros pre v; cbn [List.length repeat chain bind]; [unfold run; cbn [ofold bind]; now rewrite Nat.add_0_r|].
  unfold run. cbn [ofold]. unfold tstep at 1. cbn [ra_t ra_net ra_tjobs ra_p ra_pjobs ra_results nn_layers]. rewrite nth_mid. destruct (layer_outputForTraining _ a v _) as [[v1 a1]| | ]; cbn [bind]; auto.
  unfold set_layer. cbn [nn_layers nn_opt nn_nan nn_trainings]. rewrite replace_mid. specialize (IH (pre ++ [a1]) v1). unfold run in IH. rewrite <- !app_assoc, app_length in IH. cbn [app List.length] in IH. rewrite Nat.add_1_r in IH. rewrite IH.
  destruct (chain _ _ t v1) as [[o t']| | ]; cbn [bind]; auto. rewrite <- !app_assoc. cbn [app]. rewrite Nat.add_succ_r. reflexivity.
Qed.
Lemma p_forward (net : Net) r t tj pj res rest : forall pre v,
  run (repeat false (List.length rest)) (mkRace (net_with net (pre ++ rest)) t tj (P_forward (List.length pre) v r) pj res) =
  (let* (o, rest') := chain (fun _ l v => layer_output l v r) (List.length pre) rest v in
   Ok (mkRace (net_with net (pre ++ rest')) t tj (P_forward (List.length pre + List.length rest) o r) pj res)).
Proof.
  induction rest as [|a u IH]; intros pre v; cbn [List.length repeat chain bind]; [unfold run; cbn [ofold bind]; now rewrite Nat.add_0_r|].
  unfold run. cbn [ofold]. unfold pstep at 1. cbn [ra_t ra_net ra_tjobs ra_p ra_pjobs ra_results nn_layers]. rewrite nth_mid. destruct (layer_output a v r) as [[v1 a1]| | ]; cbn [bind]; auto.
  unfold set_layer. cbn [nn_layers nn_opt nn_nan nn_trainings]. rewrite replace_mid. specialize (IH (pre ++ [a1]) v1). unfold run in IH. rewrite <- !app_assoc, app_length in IH. cbn [app List.length] in IH. rewrite Nat.add_1_r in IH. rewrite IH.
  destruct (chain _ _ u v1) as [[o u']| | ]; cbn [bind]; auto. rewrite <- !app_assoc. cbn [app]. rewrite Nat.add_succ_r. reflexivity.
Qed.
Lemma t_backward (net : Net) tj p pj res ls : forall pre a post e,
  run (repeat true (List.length ls)) (mkRace (net_with net ((pre ++ [a]) ++ ls ++ post)) (T_backward (List.length pre + List.length ls) e) tj p pj res) =
  (let* (e', ls') := chain_back (nn_opt net) ls e in
   Ok (mkRace (net_with net ((pre ++ [a]) ++ ls' ++ post)) (T_backward (List.length pre) e') tj p pj res)).
Proof.
  induction ls as [|b t IH]; intros pre a post e; cbn [List.length chain_back bind]; [unfold run; cbn [repeat ofold bind]; now rewrite Nat.add_0_r|].
  replace (S (List.length t)) with (List.length t + 1) by lia. rewrite repeat_app, run_app. replace (List.length pre + (List.length t + 1)) with (List.length (pre ++ [a]) + List.length t) by (rewrite app_length; cbn; lia).
  change ((b :: t) ++ post) with ([b] ++ t ++ post). rewrite (app_assoc (pre ++ [a]) [b]). rewrite IH. destruct (chain_back (nn_opt net) t e) as [[e1 t1]| | ]; cbn [bind]; auto.
  rewrite app_length. cbn [List.length]. rewrite Nat.add_1_r. unfold run. cbn [repeat ofold]. unfold tstep. cbn [ra_t ra_net ra_tjobs ra_p ra_pjobs ra_results nn_layers nn_opt].
  assert (El : ((pre ++ [a]) ++ [b]) ++ t1 ++ post = (pre ++ [a]) ++ b :: t1 ++ post) by (rewrite <- app_assoc; reflexivity). rewrite El. replace (S (List.length pre)) with (List.length (pre ++ [a])) by (rewrite app_length; cbn; lia). rewrite nth_mid.
  destruct (layer_backOutput (nn_opt net) b e1) as [[e2 b2]| | ]; cbn [bind]; auto. unfold set_layer. cbn [nn_layers nn_opt nn_nan nn_trainings]. rewrite replace_mid. reflexivity.
Qed.
Lemma chain_len (f : nat -> Layer -> list F -> outcome (list F * Layer)) ls : forall i v o ls', chain f i ls v = Ok (o, ls') -> List.length ls' = List.length ls.
Proof.
  induction ls as [|a t IH]; intros i v o ls' E; cbn [chain] in E; [injection E as _ <-; reflexivity|]. apply bind_Ok_inv in E as ([v1 a1] & _ & E). apply bind_Ok_inv in E as ([v2 t2] & E2 & E). injection E as _ <-. cbn. f_equal. exact (IH _ _ _ _ E2).
Qed.
Lemma t_start net j tj p pj res n : nn_layers net <> [] -> run (repeat true (S n)) (mkRace net T_idle (j :: tj) p pj res) = run (repeat true n) (mkRace net (T_forward 0 (tj_in j) j) tj p pj res).
Proof. intros H. unfold run. cbn [repeat ofold]. unfold tstep at 1. cbn [ra_t ra_tjobs ra_net ra_p ra_pjobs ra_results]. destruct (nn_layers net); [congruence|]. reflexivity. Qed.
Lemma p_start net x r t tj pj res n : nn_layers net <> [] -> run (repeat false (S n)) (mkRace net t tj P_idle ((x, r) :: pj) res) = run (repeat false n) (mkRace net t tj (P_forward 0 x r) pj res).
Proof. intros H. unfold run. cbn [repeat ofold]. unfold pstep at 1. cbn [ra_p ra_pjobs ra_net ra_t ra_tjobs ra_results]. destruct (nn_layers net); [congruence|]. reflexivity. Qed.
Theorem C73_training_alone : forall (net : Net) j tj p pj res, exists n,
  run (repeat true n) (mkRace net T_idle (j :: tj) p pj res) = (let* net' := trainOnce (tj_rand j) net (tj_in j) (tj_out j) (tj_reset j) in Ok (mkRace net' T_idle tj p pj res)).
Proof.
  intros net j tj p pj res. unfold trainOnce, backpropagation, net_outputForTraining. destruct net as [ls o fl c]. cbn [nn_layers nn_opt nn_nan nn_trainings]. destruct ls as [|a t]; [exists 1; reflexivity|].
  assert (F := t_forward (mkNet (a :: t) o fl c) j tj p pj res (a :: t) [] (tj_in j)). cbn [app nn_opt nn_nan nn_trainings] in F. cbn [Nat.add] in F. set (L := List.length (a :: t)) in *. cbn [List.length Nat.add] in F.
  destruct (chain (fun i l v => layer_outputForTraining (tj_rand j i) l v (tj_reset j)) 0 (a :: t) (tj_in j)) as [[v ls']| | ] eqn:Ec; cbn [bind] in F |- *.
  2, 3: exists (S L); rewrite t_start by discriminate; exact F.
  assert (Ll := chain_len _ _ _ _ _ _ Ec). fold L in Ll. destruct ls' as [|a' t']; [discriminate|]. cbn [List.length] in Ll.
  assert (Chk : nth_error (a' :: t') L = None) by (apply nth_error_None; cbn [List.length]; lia).
  destruct (fl || anyAbnormal v)%bool eqn:En.
  - exists (S (L + 2)). rewrite t_start by discriminate. rewrite repeat_app, run_app, F. cbn [bind]. unfold run. cbn [repeat ofold]. unfold tstep at 1. cbn [ra_t ra_net ra_tjobs ra_p ra_pjobs ra_results nn_layers]. rewrite Chk. unfold flag. cbn [nn_nan nn_layers nn_opt nn_trainings]. rewrite En. cbn [bind]. unfold tstep. cbn [ra_t ra_net ra_tjobs ra_p ra_pjobs ra_results nn_layers nn_opt nn_nan nn_trainings bind]. reflexivity.
  - cbn [nn_layers nn_nan nn_opt nn_trainings]. rewrite last_cons. destruct (calculateError (getNumberOfNeurons (last t' a')) v (tj_out j)) as [e| | ] eqn:Ee; cbn [bind].
    2, 3: exists (S (L + 1)); rewrite t_start by discriminate; rewrite repeat_app, run_app, F; cbn [bind]; unfold run; cbn [repeat ofold]; unfold tstep at 1; cbn [ra_t ra_net ra_tjobs ra_p ra_pjobs ra_results nn_layers]; rewrite Chk; unfold flag; cbn [nn_nan nn_layers nn_opt nn_trainings]; rewrite En, Ee; reflexivity.
    assert (B := t_backward (mkNet (a' :: t') o false c) tj p pj res t' [] a' [] e). cbn [app nn_opt nn_nan nn_trainings List.length Nat.add] in B. rewrite app_nil_r in B.
    assert (G : forall n, run (repeat true (S (L + S n))) (mkRace (mkNet (a :: t) o fl c) T_idle (j :: tj) p pj res) = run (repeat true n) (mkRace (mkNet (a' :: t') o false c) (T_backward (List.length t') e) tj p pj res)).
    { intros n. rewrite t_start by discriminate. rewrite repeat_app, run_app, F. cbn [bind]. unfold run. cbn [repeat ofold]. unfold tstep at 1. cbn [ra_t ra_net ra_tjobs ra_p ra_pjobs ra_results nn_layers]. rewrite Chk. unfold flag. cbn [nn_nan nn_layers nn_opt nn_trainings]. rewrite En, Ee. cbn [bind]. reflexivity. }
    destruct (chain_back o t' e) as [[e' t2]| | ] eqn:Eb; cbn [bind] in B |- *; [|exists (S (L + S (List.length t'))); rewrite G, B; reflexivity..].
    destruct (layer_train o a' e') as [a2| | ] eqn:Et; cbn [bind].
    2, 3: exists (S (L + S (List.length t' + 1))); rewrite G, repeat_app, run_app, B; cbn [bind]; unfold run; cbn [repeat ofold]; unfold tstep at 1; cbn [ra_t ra_net ra_tjobs ra_p ra_pjobs ra_results nn_layers nth_error nn_opt]; rewrite Et; reflexivity.
    exists (S (L + S (List.length t' + 2))). rewrite G, repeat_app, run_app, B. cbn [bind]. unfold run. cbn [repeat ofold]. unfold tstep at 1. cbn [app ra_t ra_net ra_tjobs ra_p ra_pjobs ra_results nn_layers nth_error nn_opt]. rewrite app_nil_r, Et. cbn [bind]. unfold tstep. cbn [ra_t ra_net ra_tjobs ra_p ra_pjobs ra_results set_layer nn_layers nn_opt nn_nan nn_trainings bind replace]. reflexivity.
Qed.
Print Assumptions C73_training_alone.
Theorem C73_prediction_alone : forall (net : Net) x r t tj pj res, exists n,
  run (repeat false n) (mkRace net t tj P_idle ((x, r) :: pj) res) = (let* (o, net') := net_output net x r in Ok (mkRace net' t tj P_idle pj (res ++ [o]))).
Proof.
  intros net x r t tj pj res. unfold net_output. destruct net as [ls o fl c]. cbn [nn_layers nn_opt nn_nan nn_trainings]. destruct ls as [|a u]; [exists 1; reflexivity|].
  assert (F := p_forward (mkNet (a :: u) o fl c) r t tj pj res (a :: u) [] x). cbn [app nn_opt nn_nan nn_trainings] in F. cbn [Nat.add] in F. set (L := List.length (a :: u)) in *. cbn [List.length Nat.add] in F.
  destruct (chain (fun _ l v => layer_output l v r) 0 (a :: u) x) as [[v ls']| | ] eqn:Ec; cbn [bind] in F |- *.
  2, 3: exists (S L); rewrite p_start by discriminate; exact F.
  assert (Ll := chain_len _ _ _ _ _ _ Ec). fold L in Ll. assert (Chk : nth_error ls' L = None) by (apply nth_error_None; lia).
  exists (S (L + 1)). rewrite p_start by discriminate. rewrite repeat_app, run_app, F. cbn [bind]. unfold run. cbn [repeat ofold]. unfold pstep. cbn [ra_t ra_net ra_tjobs ra_p ra_pjobs ra_results nn_layers]. rewrite Chk. unfold flag. cbn [nn_nan nn_layers nn_opt nn_trainings bind]. reflexivity.
Qed.
Print Assumptions C73_prediction_alone.

(* ---------- every schedule ---------- *)
(* nothing out of range is read or written, the network keeps its form, every prediction has the right size, every call is counted once *)
Lemma every_schedule : forall k m (net : Net) out tjobs pjobs sched, wf_net k m net -> trainable net -> net_numberOfOutputs net = Ok out ->
  Forall (fun j => List.length (tj_in j) = k /\ List.length (tj_out j) = out) tjobs -> Forall (fun j => List.length (fst j) = k) pjobs ->
  exists s, run sched (start net tjobs pjobs) = Ok s /\ wf_net k m (ra_net s) /\ Forall2 same_layer (nn_layers net) (nn_layers (ra_net s)) /\ nn_opt (ra_net s) = nn_opt net /\
    Forall (fun o => List.length o = m) (ra_results s) /\
    (over s -> List.length (ra_results s) = List.length pjobs /\ nn_trainings (ra_net s) = (nn_trainings net + Z.of_nat (List.length tjobs))%Z).
Proof.
  intros k m net out tjobs pjobs sched (Hne & W) Ht Ho HT HP. destruct (sized_of _ k m W) as (dims & D0 & Dm & D).
  assert (I0 : Inv dims out (List.length tjobs) (List.length pjobs) net (start net tjobs pjobs)).
  { constructor; cbn [start ra_net ra_t ra_tjobs ra_p ra_pjobs ra_results t_ok p_ok busy_t busy_p]; auto; try exact I.
    - clear. induction (nn_layers net) as [|a t IH]; constructor; auto. split; [reflexivity|]. split; [|apply works_none]. split; [reflexivity|]. destruct (l_body a) as [| | |kd f ns]; auto. split; [reflexivity|]. apply set_maxIndex_id.
    - rewrite <- D0 in HT. exact HT.
    - rewrite <- D0 in HP. exact HP.
    - cbn; lia.
    - cbn; lia. }
  destruct (run_inv dims out _ _ net Ho Ht sched _ I0) as (s & E & J). exists s. split; [exact E|]. destruct J as [H1 H2 H3 H4 H5 H6 H7 H8 H9 H10 H11].
  assert (Ll : List.length (nn_layers (ra_net s)) = List.length (nn_layers net)) by (symmetry; clear - H3; induction H3; cbn; congruence).
  split. { split; [exact H1|]. rewrite <- D0, <- Dm, <- Ll. now apply sized_net. } split; [exact H3|]. split; [exact H4|]. split; [rewrite Dm in H9; exact H9|].
  intros (O1 & O2 & O3 & O4). rewrite O1, O2 in H10. rewrite O3, O4 in H11. cbn in H10, H11. split; lia.
Qed.
Theorem C73_every_schedule_partial : forall draws masks ds lr m (net0 : Net),
  construct draws masks ds lr m = Ok net0 -> sane_descriptions ds -> Forall supported_pooling (nn_layers net0) -> trainable net0 ->
  exists inputs outputs labels, product (d_shape (hd (Input []) ds)) = Ok (Z.of_nat inputs) /\ net_numberOfOutputs net0 = Ok labels /\
    (exists l, lgetZ (nn_layers net0) (Z.of_nat (List.length (nn_layers net0)) - 1) = Ok l /\ outputs = cell_count (getShapeOfOutput l)) /\
    forall net tjobs pjobs sched, uses inputs net0 net ->
      Forall (fun j => List.length (tj_in j) = inputs /\ List.length (tj_out j) = labels) tjobs -> Forall (fun j => List.length (fst j) = inputs) pjobs ->
      exists s, run sched (start net tjobs pjobs) = Ok s /\ map getShapeOfOutput (nn_layers (ra_net s)) = map getShapeOfOutput (nn_layers net0) /\
        Forall (fun o => List.length o = outputs) (ra_results s) /\
        (over s -> List.length (ra_results s) = List.length pjobs /\ nn_trainings (ra_net s) = (nn_trainings net + Z.of_nat (List.length tjobs))%Z) /\
        (forall x reset, List.length x = inputs -> exists o net2, net_output (ra_net s) x reset = Ok (o, net2) /\ List.length o = outputs).
Proof.
  intros draws masks ds lr m net0 H Hs HP HT. destruct (construct_wf _ _ _ _ _ _ H Hs HP) as (k & mm & W & Hp). pose proof W as [Hne WC]. destruct (nn_layers net0) as [|a t] eqn:El; [congruence|].
  exists k, mm, (getNumberOfNeurons (last t a)). split; [exact Hp|]. split; [unfold net_numberOfOutputs; rewrite El, lget_last; reflexivity|]. split.
  { rewrite lget_last. eexists. split; [reflexivity|]. destruct (wf_chain_last _ _ _ _ WC) as (k' & _ & _ & _ & _ & HS). exact HS. }
  intros net tjobs pjobs sched U HJ HQ. destruct (uses_wf k mm net0 net ltac:(split; rewrite El; [discriminate|exact WC]) U) as [W' SS].
  assert (Ho : net_numberOfOutputs net = Ok (getNumberOfNeurons (last t a))). { rewrite El in SS. inversion SS as [|? a' ? t' Ha Ht E0 E1]; subst. unfold net_numberOfOutputs. rewrite <- E1, lget_last. cbn [bind]. apply f_equal. apply same_layer_shape. now apply same_last. }
  destruct (every_schedule k mm net _ tjobs pjobs sched W' (trainable_same _ _ SS HT) Ho HJ HQ) as (s & E & Ws & S2 & _ & Hr & Hc). exists s. split; [exact E|].
  split. { rewrite <- El. assert (S3 := Forall2_trans _ same_layer_trans _ _ _ SS S2). clear - S3. induction S3 as [|b c u v Hab _ IH]; cbn; auto. destruct (same_layer_shape _ _ Hab) as [E _]. now rewrite E, IH. }
  split; [exact Hr|]. split; [exact Hc|]. intros x reset Hx. destruct (net_output_wf k mm (ra_net s) x reset Ws Hx) as (o & n2 & Eo & Lo & _). eauto.
Qed.
Print Assumptions C73_every_schedule_partial.
End P.

(* ---------- what the threads do to each other ---------- *)
Local Open Scope R_scope.
Notation T := true.
Notation P := false.
Lemma fed_fed (n : RNeu) x y : fed y (fed x n) = fed y n.
Proof. destruct n. reflexivity. Qed.
Lemma one_layer_output k (ns : list RNeu) x reset : Forall (fun n => wf_neuron 1 n /\ n_in n = k /\ n_batch n = 1%nat) ns -> List.length x = k ->
  @layer_output RNum (mkLayer k (BFull ns) []) x reset = Ok (layer_val ns x, mkLayer k (BFull (map (fed x) ns)) []).
Proof. intros Hp Hx. destruct (chain_test_ok reset 0%nat k ns x) as [E|E]; cbv beta in E; (eapply eq_trans; [exact E|]); rewrite (body_full_fed k) by auto; reflexivity. Qed.
Lemma one_layer_training rand k (ns : list RNeu) x reset : Forall (fun n => wf_neuron 1 n /\ n_in n = k /\ n_batch n = 1%nat) ns -> List.length x = k ->
  @layer_outputForTraining RNum (rand 0%nat) (mkLayer k (BFull ns) []) x reset = Ok (layer_val ns x, mkLayer k (BFull (map (fed x) ns)) []).
Proof. intros Hp Hx. destruct (chain_train_ok rand reset 0%nat k ns x) as [E|E]; cbv beta in E; (eapply eq_trans; [exact E|]); rewrite (body_full_fed k) by auto; reflexivity. Qed.
Lemma one_predict (net : @Net RNum) k ns y reset : nn_layers net = [mkLayer k (BFull ns) []] -> Forall (fun n => wf_neuron 1 n /\ n_in n = k /\ n_batch n = 1%nat) ns -> List.length y = k ->
  @net_output RNum net y reset = Ok (layer_val ns y, mkNet [mkLayer k (BFull (map (fed y) ns)) []] (nn_opt net) (nn_nan net || @anyAbnormal RNum (layer_val ns y)) (nn_trainings net)).
Proof. intros El Hp Hy. unfold net_output. rewrite El. cbn [chain]. rewrite (one_layer_output k ns y reset Hp Hy). reflexivity. Qed.
(* a prediction between the forward and the backward half of a training step: the weights learn the input of the prediction *)
Theorem C73_wrong_input_learned_refuted : forall k m (net : @Net RNum) x y d rand reset reset', linear_network k m net -> List.length x = k -> List.length y = k -> List.length d = m ->
  exists o netS o' net1 netS' s, predicts net x o /\ @trainOnce RNum rand net x d reset = Ok netS /\
    @net_output RNum net y reset' = Ok (o', net1) /\ @trainOnce RNum rand net1 x d reset = Ok netS' /\
    run [T; T; P; P; P; T; T; T] (start net [@mkTJob RNum rand x d reset] [(y, reset')]) = Ok s /\ over s /\
    forall i j w, (i < k)%nat -> @weight_at RNum net 0 j i = Some w ->
      let e := nth j d 0 - nth j o 0 in let lr := o_lr (nn_opt net) in
      @weight_at RNum netS 0 j i = Some (w + 2 * lr * e * nth i x 0) /\ @weight_at RNum netS' 0 j i = Some (w + 2 * lr * e * nth i x 0) /\
      @weight_at RNum (ra_net s) 0 j i = Some (w + 2 * lr * e * nth i y 0).
Proof.
  intros k m net x y d rand reset reset' Hn Hx Hy Hd. destruct (linear_lin k m net Hn) as (ns & Hl). assert (Hl2 := Hl). destruct Hl2 as (El & Hf & Hlen & Hnan & Hm).
  assert (Hp : Forall (fun n => wf_neuron 1 n /\ n_in n = k /\ n_batch n = 1%nat) ns) by (eapply Forall_impl; [|exact Hf]; intros n (A & B & C & _); auto).
  assert (Hne : nn_layers net <> []) by (rewrite El; discriminate).
  (* alone *)
  destruct (trainOnce_dense rand net k [ns] x d reset Hne (lin_dchain _ _ _ _ Hl) Hnan Hx) as (netS & nsS & ES & DS & US & _); [change (net_val [ns] x) with (layer_val ns x); rewrite layer_val_length; lia|].
  destruct nsS as [|nsS [|]]; try contradiction; [|destruct US as (_ & US); contradiction]. destruct US as (US & _).
  (* the prediction first *)
  assert (E1 := one_predict net k ns y reset' El Hp Hy). set (net1 := mkNet _ _ _ _) in E1.
  assert (D1 : dchain k (nn_layers net1) [map (fed y) ns]). { cbn [dchain]. split; [reflexivity|]. split; [|exact I]. now apply fed_forall. }
  destruct (trainOnce_dense rand net1 k [map (fed y) ns] x d reset ltac:(discriminate) D1 ltac:(cbn [net1 nn_nan]; rewrite Hnan; apply anyAbnormal_R) Hx) as (netP & nsP & EP & DP & UP & _); [change (net_val [map (fed y) ns] x) with (layer_val (map (fed y) ns) x); rewrite layer_val_length, map_length; lia|].
  destruct nsP as [|nsP [|]]; try contradiction; [|destruct UP as (_ & UP); contradiction]. destruct UP as (UP & _).
  (* the prediction in the middle *)
  set (e := back_err [] (layer_val ns x) d).
  destruct (full_train (nn_opt net) k ns y e Hp Hy ltac:(unfold e; cbn [back_err]; rewrite map_length, seq_length; apply layer_val_length)) as (nsR & ER & UR & HR).
  assert (Run : exists s, run [T; T; P; P; P; T; T; T] (start net [@mkTJob RNum rand x d reset] [(y, reset')]) = Ok s /\ over s /\ nn_layers (ra_net s) = [mkLayer k (BFull nsR) []]).
  { assert (Mf : map (fed y) (map (fed x) ns) = map (fed y) ns) by (rewrite map_map; apply map_ext; intros; apply fed_fed).
    assert (Lv : layer_val (map (fed x) ns) y = layer_val ns y) by (unfold layer_val; rewrite map_map; reflexivity).
    assert (Ce : @calculateError RNum (List.length ns) (layer_val ns x) d = Ok e).
    { unfold calculateError. eapply eq_trans; [apply (omap_seq_ok _ (fun i => 2 * (nth i d 0 - nth i (layer_val ns x) 0)))|].
      - intros i Hi. change (@F RNum) with R in *. rewrite (@lget_nth R d i 0) by lia. cbn [bind]. rewrite (lget_nth _ i 0) by (rewrite layer_val_length; lia). cbn [bind]. rewrite RNum_lit. reflexivity.
      - unfold e. cbn [back_err]. rewrite layer_val_length. reflexivity. }
    assert (Tl : @layer_train RNum (nn_opt net) (mkLayer k (BFull (map (fed y) ns)) []) e = Ok (mkLayer k (BFull nsR) [])) by (unfold layer_train; cbn [l_body l_opts l_in]; change (opts_back _ [] ?e) with e; rewrite ER; reflexivity).
    unfold run, start. cbn [ofold]. unfold tstep at 1. cbn [ra_t ra_net ra_tjobs ra_p ra_pjobs ra_results]. rewrite El. cbn [bind tj_in].
    unfold tstep at 1. cbn [ra_t ra_net ra_tjobs ra_p ra_pjobs ra_results tj_rand tj_reset]. rewrite El. cbn [nth_error]. rewrite (one_layer_training rand k ns x reset Hp Hx). cbn [bind]. unfold set_layer. rewrite El. cbn [replace].
    unfold pstep at 1. cbn [ra_t ra_net ra_tjobs ra_p ra_pjobs ra_results nn_layers bind].
    unfold pstep at 1. cbn [ra_t ra_net ra_tjobs ra_p ra_pjobs ra_results nn_layers bind nth_error]. rewrite (one_layer_output k (map (fed x) ns) y reset' (fed_forall k ns x Hp Hx) Hy). cbn [bind]. unfold set_layer. cbn [nn_layers replace nn_opt nn_nan nn_trainings]. rewrite Mf, Lv.
    unfold pstep at 1. cbn [ra_t ra_net ra_tjobs ra_p ra_pjobs ra_results nn_layers bind nth_error]. unfold flag at 1. cbn [nn_layers nn_opt nn_nan nn_trainings].
    unfold tstep at 1. cbn [ra_t ra_net ra_tjobs ra_p ra_pjobs ra_results nn_layers bind nth_error]. unfold flag. cbn [nn_layers nn_opt nn_nan nn_trainings]. rewrite Hnan, !anyAbnormal_R. cbn [orb last tj_out]. 
    change (getNumberOfNeurons (mkLayer k (BFull (map (fed y) ns)) [])) with (List.length (map (@n_w RNum) (map (fed y) ns))). rewrite !map_length, Ce. cbn [bind List.length].
    unfold tstep at 1. cbn [ra_t ra_net ra_tjobs ra_p ra_pjobs ra_results nn_layers bind nth_error nn_opt]. rewrite Tl. cbn [bind]. unfold set_layer. cbn [nn_layers replace nn_opt nn_nan nn_trainings].
    unfold tstep at 1. cbn [ra_t ra_net ra_tjobs ra_p ra_pjobs ra_results nn_layers bind nth_error nn_opt nn_nan nn_trainings]. eexists. split; [reflexivity|]. split; [|reflexivity]. unfold over. cbn. auto. }
  destruct Run as (s & Es & Os & Ls). destruct (lin_predict k m net ns x true Hl Hx) as (n9 & E9).
  exists (layer_val ns x), netS, (layer_val ns y), net1, netP, s. split; [eexists; exact E9|]. split; [exact ES|]. split; [exact E1|]. split; [exact EP|]. split; [exact Es|]. split; [exact Os|].
  intros i j w Hi Hw ee lr. assert (Dn := lin_dchain _ _ _ _ Hl). 
  assert (Wt : forall (na : @Net RNum) nsa, dchain k (nn_layers na) [nsa] -> (j < List.length nsa)%nat -> @weight_at RNum na 0 j i = Some (@nth R i (n_w (nth j nsa n0)) 0)).
  { intros na nsa Da Hj. unfold weight_at. rewrite (neuron_at_dense na k [nsa] 0 j Da). cbn [nth_error]. rewrite (nth_error_nth' nsa n0 Hj). destruct (nn_layers na) as [|la [|]]; try contradiction; [|destruct Da as (_ & _ & Da); contradiction]. destruct Da as (_ & Da & _). rewrite Forall_forall in Da. destruct (Da (nth j nsa n0) (nth_In _ _ Hj)) as ((Lw & _) & Li & _).
    change (@F RNum) with R in *. apply nth_error_nth'. lia. }
  assert (Hj : (j < List.length ns)%nat). { unfold weight_at in Hw. rewrite (neuron_at_dense net k [ns] 0 j Dn) in Hw. cbn [nth_error] in Hw. apply nth_error_Some. destruct (nth_error ns j); congruence. }
  assert (Ew := Wt net ns Dn Hj). rewrite Ew in Hw. assert (Hw2 : @nth R i (n_w (nth j ns n0)) 0 = w) by congruence. clear Hw.
  assert (Pj : plain k (nth j ns n0)) by (rewrite Forall_forall in Hf; apply Hf; now apply nth_In). destruct Pj as (_ & Pi & _ & Pa & _).
  (* one update *)
  assert (U : forall z na nsa nsb (o : @SGD RNum), o = nn_opt net -> dchain k (nn_layers na) [nsb] -> List.length nsa = List.length ns -> n_act (nth j nsa n0) = a_identity -> n_in (nth j nsa n0) = k -> @nth R i (n_w (nth j nsa n0)) 0 = w -> upd_layer o e z nsa nsb -> @weight_at RNum na 0 j i = Some (w + 2 * lr * ee * nth i z 0)).
  { intros z na nsa nsb o Eo Db La Aa Ia Wa (Lb & Ub). assert (Hja : (j < List.length nsa)%nat) by lia. rewrite (Wt na nsb Db ltac:(lia)). apply f_equal. destruct (Ub j Hja) as (_ & _ & _ & _ & Uw & _). eapply eq_trans; [apply Uw; lia|]. change (@F RNum) with R in *. rewrite Wa, Eo, Hm. unfold nerr. rewrite Aa. cbn [actd]. unfold e. cbn [back_err]. rewrite layer_val_length, nth_map_seq by exact Hj. unfold fone. rewrite RNum_fofZ. unfold lr, ee. change (@F RNum) with R in *. ring. }
  split; [|split].
  - apply (U x netS ns nsS (nn_opt net)); auto.
  - apply (U x netP (map (fed y) ns) nsP (nn_opt net1)); auto; try (now rewrite map_length).
    + rewrite (nth_indep _ n0 (fed y n0)) by (rewrite map_length; lia). rewrite map_nth. exact Pa.
    + rewrite (nth_indep _ n0 (fed y n0)) by (rewrite map_length; lia). rewrite map_nth. exact Pi.
    + rewrite (nth_indep _ n0 (fed y n0)) by (rewrite map_length; lia). rewrite map_nth. exact Hw2.
    + assert (Lv : layer_val (map (fed y) ns) x = layer_val ns x) by (unfold layer_val; rewrite map_map; reflexivity). rewrite Lv in UP. exact UP.
  - apply (U y (ra_net s) ns nsR (nn_opt net)); auto. rewrite Ls. cbn [dchain]. auto.
Qed.
Print Assumptions C73_wrong_input_learned_refuted.

(* a prediction that begins before a training step and ends after it: neither the old nor the new network gives it *)
From Verif Require Import ScaleProps.
Definition r2_rest : list (@LDesc RNum) := [@FullyConnected RNum 1 a_identity []; @FullyConnected RNum 1 a_identity []].
Definition r2_net : @Net RNum := @mkNet RNum [s1_layer a_identity []; s1_layer a_identity []] (@mkSGD RNum (1 / 2) 0) false 0.
Lemma r2_built : @construct RNum (fun _ _ _ _ => 1) (fun _ _ _ => true) (Input [1%Z] :: r2_rest) (1 / 2) 0 = Ok r2_net.
Proof.
  unfold construct. replace (@build_all RNum (fun _ _ _ _ => 1) (fun _ _ _ => true) (Input [1%Z] :: r2_rest)) with (Ok (nn_layers r2_net)) by reflexivity. cbn [bind].
  assert (E : @net_isValid RNum r2_net = (if negb (sgd_isValid (@mkSGD RNum (1 / 2)%R 0%R) =? 0)%Z then Ok (sgd_isValid (@mkSGD RNum (1 / 2)%R 0%R)) else Ok (firstError [neurons_isValid [neuron_isValid (s1_neuron a_identity)]; neurons_isValid [neuron_isValid (s1_neuron a_identity)]]))) by reflexivity.
  unfold r2_net in *. change (@F RNum) with R in *. cbn [nn_layers] in *. rewrite E, s1_valid, s_fine by lra. reflexivity.
Qed.
Theorem C73_torn_prediction_refuted : forall rand reset reset', exists before after net1 net2 net3 s torn,
  @construct RNum (fun _ _ _ _ => 1) (fun _ _ _ => true) [@Input RNum [1%Z]; @FullyConnected RNum 1 a_identity []; @FullyConnected RNum 1 a_identity []] (1 / 2) 0 = Ok r2_net /\
  @net_output RNum r2_net [1] reset' = Ok ([before], net1) /\ @trainOnce RNum rand r2_net [1] [4] reset = Ok net2 /\ @net_output RNum net2 [1] reset' = Ok ([after], net3) /\
  run ([P; P] ++ [T; T; T; T; T; T; T] ++ [P; P]) (start r2_net [@mkTJob RNum rand [1] [4] reset] [([1], reset')]) = Ok s /\ over s /\ net_weights (ra_net s) = net_weights net2 /\
  ra_results s = [[torn]] /\ before = 3 /\ after = 10 /\ torn = 7.
Proof.
  intros rand reset reset'. do 7 eexists. split; [exact r2_built|].
  split; [destruct reset'; cbv -[IZR Rplus Rmult Rdiv Rminus Ropp Rinv Rabs]; reflexivity|].
  split; [destruct reset; cbv -[IZR Rplus Rmult Rdiv Rminus Ropp Rinv Rabs]; reflexivity|].
  split; [destruct reset'; cbv -[IZR Rplus Rmult Rdiv Rminus Ropp Rinv Rabs]; reflexivity|].
  split; [destruct reset, reset'; cbv -[IZR Rplus Rmult Rdiv Rminus Ropp Rinv Rabs]; reflexivity|].
  split; [unfold over; cbn; auto|]. split; [reflexivity|]. split; [reflexivity|].
  rewrite Rabs_R1. split; [|split]; match goal with |- @eq _ ?a ?b => change (@eq R a b) end; field.
Qed.
Print Assumptions C73_torn_prediction_refuted.

(* the hypotheses are met *)
Example C73_hypotheses_met : exists (net : @Net RNum), @construct RNum (fun _ i _ w => INR (Nat.min (i + w) 5) / 10) (fun _ _ _ => true) [@Input RNum [2%Z]; @FullyConnected RNum 3 a_identity []] (1 / 10) 0 = Ok net /\ linear_network 2 3 net /\
  sane_descriptions [@Input RNum [2%Z]; @FullyConnected RNum 3 a_identity []] /\ Forall supported_pooling (nn_layers net) /\ trainable net.
Proof.
  destruct (LearnProps.C72_hypotheses_met (fun _ _ _ => true) (1 / 10) (or_introl eq_refl)) as (net & E & L & _). exists net. split; [exact E|]. split; [exact L|].
  destruct (linear_lin 2 3 net L) as (ns & El & _). rewrite El. split; [split; [constructor; [lia|constructor]|constructor; [exact I|constructor]]|]. split; [constructor; [exact I|constructor]|]. unfold trainable. rewrite El. exact I.
Qed.
