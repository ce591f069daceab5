(* Every state of a training has the format of the network it started with. *)
From Coq Require Import Permutation.
From Verif Require Import Base Num NumOrder NeuronModel LayerModel NetModel StatModel StatSpec WaitModel WaitProofs DataModel DataSpec DataProofs SeqProofs SeriesProofs TrainModel TrainSpec TrainProofs TrainSafe TrainUser TrainPresent EvalSpec.
From Verif Require Import FactoryModel FactorySpec SafeLayers SafeNet BuildProofs HistProofs PureSpec PureProps.
Local Open Scope outcome_scope.
Local Open Scope nat_scope.

Section P.
Context {N : Num}.
Implicit Types (r : Run) (s : Snn) (env : Env) (w : Wait) (d : Data).
(* a network with k inputs that gives m outputs *)
Definition sized (k m : nat) (net : Net) : Prop := wf_net k m net /\ trainable net /\ net_numberOfOutputs net = Ok m.
Definition snn_sized (k m : nat) (s : Snn) : Prop := sized k m (sn_net s) /\ List.length (st_clusters (sn_stats s)) = m.
Lemma sized_ok k m net : sized k m net -> ok_net k m net. Proof. intros (A & B & C). exists m. auto. Qed.
Lemma snn_sized_ok k m s : snn_sized k m s -> snn_ok k m s. Proof. intros (A & B). split; [now apply sized_ok|exact B]. Qed.
Lemma sized_same k m net net' : sized k m net -> wf_net k m net' -> Forall2 same_layer (nn_layers net) (nn_layers net') -> sized k m net'.
Proof. intros (_ & T & O) W HS. split; [exact W|]. split; [eapply trainable_same; eauto|]. rewrite <- O. now apply outputs_same. Qed.
Lemma sized_output k m net x reset o net' : sized k m net -> List.length x = k -> net_output net x reset = Ok (o, net') -> List.length o = m /\ sized k m net'.
Proof. intros HS Hx E. pose proof HS as (W & _). destruct (net_output_wf k m net x reset W Hx) as (o' & n' & E1 & L & W' & HS'). rewrite E in E1. injection E1 as <- <-. split; [exact L|]. eapply sized_same; eauto. Qed.
Lemma sized_training rand k m net x reset o net' : sized k m net -> List.length x = k -> net_outputForTraining rand net x reset = Ok (o, net') -> sized k m net'.
Proof. intros HS Hx E. pose proof HS as (W & _). destruct (net_training_wf rand k m net x reset W Hx) as (o' & n' & E1 & L & W' & HS'). rewrite E in E1. injection E1 as <- <-. eapply sized_same; eauto. Qed.
Lemma sized_train rand k m net x y reset net' : sized k m net -> List.length x = k -> List.length y = m -> trainOnce rand net x y reset = Ok net' -> sized k m net'.
Proof. intros HS Hx Hy E. pose proof HS as (W & T & O). destruct (trainOnce_wf rand k m net x y reset W T Hx) as (n' & E1 & W' & HS' & _); [now rewrite Hy|]. rewrite E in E1. injection E1 as <-. eapply sized_same; eauto. Qed.
Lemma sized_turn k m s d s' : ready k m d -> evaluateTurn s d = Ok s' -> sized k m (sn_net s) -> sized k m (sn_net s').
Proof.
  intros R H HS. unfold evaluateTurn in H. apply bind_Ok_inv in H as (need & _ & H).
  destruct need; [unfold evaluateOnce in H; destruct (d_problem d)|]; HistProofs.binds H; injection H as <-; cbn;
    match goal with H : getTestingData _ _ = Ok ?x, H' : net_output _ ?x _ = Ok (_, ?n) |- _ => exact (proj2 (sized_output k m _ x _ _ n HS (test_row k m d _ x R H) H')) end.
Qed.
Lemma sized_loop k m nan d : ready k m d -> forall rest s st s', evaluateLoop nan rest s d = Ok (st, s') -> sized k m (sn_net s) -> sized k m (sn_net s').
Proof.
  intros R. induction rest as [|rest IH]; intros s st s' H HS; cbn [evaluateLoop] in H; [now injection H as <- <-|].
  destruct (nn_nan (sn_net s)); [now injection H as <- <-|]. apply bind_Ok_inv in H as (s1 & H1 & H). apply IH in H; [exact H|]. exact (sized_turn k m s d s1 R H1 HS).
Qed.

(* ---- the invariant of a run, with every state it has logged ---- *)
Definition sized_event (k m : nat) (e : TrainModel.event) : Prop := match e with Shuffled => True | Stepped _ _ _ _ s | Evaluated s | Saved _ s => snn_sized k m s end.
Definition kept (k m : nat) (r : Run) : Prop := inv_ k m r /\ sized k m (sn_net (r_snn r)) /\ Forall (sized_event k m) (r_log r).
Lemma kept_sized k m r : kept k m r -> snn_sized k m (r_snn r). Proof. intros (((_ & Os) & _) & HS & _). split; auto. Qed.
Lemma kept_evaluate k m env r r' : evaluate env r = Ok r' -> kept k m r -> kept k m r'.
Proof.
  intros H (I & HS & HL). destruct (evaluate_ok env k m r I) as (r1 & E & I1). rewrite E in H. injection H as ->.
  assert (HS' : sized k m (sn_net (r_snn r')) /\ exists s, (r_log r' = r_log r ++ [Evaluated s] \/ r_log r' = r_log r ++ [Evaluated s; Saved (sn_path s) s]) /\ r_snn r' = s).
  { split; [|now apply evaluate_keeps in E as (_ & _ & _ & E)]. unfold evaluate in E. apply bind_Ok_inv in E as ((st & s) & E1 & E). apply (sized_loop k m) in E1; [|apply I|exact HS].
    destruct st; [injection E as <-; exact E1|]. destruct (_ && _); injection E as <-; exact E1. }
  destruct HS' as (HS' & s & El & Es). split; [exact I1|]. split; [exact HS'|]. assert (Q : snn_sized k m s) by (subst s; split; [exact HS'|apply I1]).
  destruct El as [-> | ->]; apply Forall_app; (split; [exact HL|]); repeat constructor; apply Q.
Qed.
Lemma kept_turn k m env b r r' : trainingTurn env b r = Ok r' -> 1 <= b -> sn_index (r_snn r) + b <= s_size (d_train (r_data r)) -> kept k m r -> kept k m r'.
Proof.
  intros H Hb Hi (I & HS & HL). destruct (trainingTurn_ok env b k m r I Hb Hi) as (r1 & E & I1). rewrite E in H. injection H as ->. split; [exact I1|].
  assert (Q : sized k m (sn_net (r_snn r')) /\ exists i l x y, r_log r' = r_log r ++ [Stepped i l x y (r_snn r')]).
  { destruct I as (_ & R & _). unfold trainingTurn in E. apply bind_Ok_inv in E as (nd & _ & E). destruct (ready_data k m (r_data r) _ b R Hb Hi) as (x & bx & Ex & Lx). rewrite Ex in E. cbn [bind] in E. destruct nd.
    - pose proof (ready_buffers k m (r_data r) bx (d_batchedLabels (r_data r)) R) as R1. destruct (ready_outputs k m _ (sn_index (r_snn r)) b R1 Hb Hi) as (y & bo & Ey & Ly). rewrite Ey in E. cbn [bind] in E.
      apply bind_Ok_inv in E as (fi & _ & E). apply bind_Ok_inv in E as (n & En & E). injection E as <-. cbn [r_snn with_net sn_net]. split; [exact (sized_train _ k m _ x y fi n HS Lx Ly En)|eexists _, _, _, _; reflexivity].
    - apply bind_Ok_inv in E as (fi & _ & E). apply bind_Ok_inv in E as ((o & n) & En & E). injection E as <-. cbn [r_snn with_net sn_net]. split; [exact (sized_training _ k m _ x fi o n HS Lx En)|eexists _, _, _, _; reflexivity]. }
  destruct Q as (Q & i & l & x & y & ->). split; [exact Q|]. apply Forall_app. split; [exact HL|]. constructor; [|constructor]. cbn. split; [exact Q|apply I1].
Qed.
Lemma kept_continue k m env w r go r' : continueTraining env w r = (go, r') -> kept k m r -> kept k m r'.
Proof.
  intros H (I & HS & HL). split; [eapply continue_inv; eauto|]. unfold continueTraining in H. injection H as _ <-. cbn [r_snn r_log]. split; [|exact HL]. destruct (e_stop env (r_checks r)); exact HS.
Qed.
Lemma kept_epoch k m env w b : 1 <= b -> forall fuel r early r', epochLoop fuel env w b r = Some (Ok (early, r')) -> kept k m r -> kept k m r'.
Proof.
  intros Hb. induction fuel as [|fuel IH]; intros r early r' H HK; [discriminate|]. cbn [epochLoop] in H.
  destruct (Nat.leb_spec (sn_index (r_snn r) + b) (sn_ntrain (r_snn r))) as [Hl|Hl]. 2: { injection H as <- <-. exact HK. }
  destruct (continueTraining env w r) as [go r1] eqn:Ec. pose proof (kept_continue _ _ _ _ _ _ _ Ec HK) as K1. apply continue_keeps_nan in Ec as (_ & _ & _ & Ei & En & _).
  destruct go. 2: { injection H as <- <-. exact K1. }
  destruct (nn_nan (sn_net (r_snn r1))).
  { injection H as <- <-. destruct K1 as (((On & Os) & R & Hn) & HS & HL). split; [split; [split; [exact On|cbn; rewrite map_length; exact Os]|split; [exact R|exact Hn]]|]. split; [exact HS|exact HL]. }
  destruct (trainingTurn env b r1) as [r2|z|] eqn:Et; [|discriminate H|discriminate H]. apply (kept_turn k m) in Et; [|exact Hb|pose proof K1 as ((_ & _ & Hn1) & _); lia|exact K1].
  apply IH in H; [exact H|]. exact Et.
Qed.
Lemma kept_training k m env w b f : 1 <= b -> fair env -> forall fuel r r', trainingLoop fuel env w b f r = Some (Ok r') -> kept k m r -> kept k m r'.
Proof.
  intros Hb Hf. induction fuel as [|fuel IH]; intros r r' H HK; [discriminate|]. cbn [trainingLoop] in H.
  destruct (continueTraining env w r) as [go r1] eqn:Ec. pose proof (kept_continue _ _ _ _ _ _ _ Ec HK) as K1.
  destruct go; [|injection H as <-; exact K1]. destruct K1 as (((On & Os) & R & Hn) & HS & HL).
  destruct (ready_op k m (r_data r1) (OpShuffle (e_rng env (r_checks r1))) (Hf _) R) as (d' & E & R' & _ & Hsz & _). cbn [run_op] in E. rewrite E in H. cbn [bind andThen] in H.
  destruct (epochLoop (S fuel) env w b _) as [[[early r3]|z|]|] eqn:Ee; try discriminate H.
  apply (kept_epoch k m) in Ee; [|exact Hb|]. 2: { split; [split; [split; [exact On|exact Os]|split; [exact R'|cbn; congruence]]|]. split; [exact HS|]. apply Forall_app. split; [exact HL|repeat constructor]. }
  destruct early; [injection H as <-; exact Ee|].
  match type of H with andThen ?t _ = _ => destruct t as [r4|y|] eqn:Ev; cbn [andThen] in H; [|discriminate H|discriminate H] end.
  apply IH in H; [exact H|]. destruct (_ && _); [exact (kept_evaluate _ _ _ _ _ Ev Ee)|injection Ev as <-; exact Ee].
Qed.
Lemma train_kept k m fuel env w b f s d r : train fuel env w b f s d = Some (Ok r) -> snn_sized k m s -> ready k m d -> fair env -> kept k m r.
Proof.
  intros H (HS & Os) R Hf. unfold train in H. destruct (validData s d b) as [u|z|] eqn:V; try discriminate. apply validData_Ok in V as (Hb & _). destruct (negb (sn_idle s)); [discriminate|]. unfold trainSync in H.
  set (r0 := upd (mkRun _ _ _ _) _) in H. assert (K0 : kept k m r0). { split; [split; [split; [now apply sized_ok|exact Os]|split; [exact R|reflexivity]]|]. split; [exact HS|constructor]. }
  match type of H with andThen ?t _ = _ => destruct t as [r1|y|] eqn:Ev; cbn [andThen] in H; [|discriminate H|discriminate H] end.
  apply (kept_training k m) in H; [exact H|lia|exact Hf|]. destruct (0 <? f)%Z; [exact (kept_evaluate _ _ _ _ _ Ev K0)|injection Ev as <-; exact K0].
Qed.
Lemma lived_sized k m s0 s : snn_sized k m s0 -> lived k m s0 s -> snn_sized k m s.
Proof.
  intros H0 H. induction H as [s|s0 s x reset o s1 _ IH Hx E|s0 s x reset o s1 _ IH Hx E|s0 s fuel env w b f d r _ IH Hd Hf E|s0 s env d r _ IH Hd E|s0 s p d _ IH r E|s0 s a p _ IH].
  - auto.
  - destruct (IH H0) as (HS & Os). unfold computeOutput in E. apply bind_Ok_inv in E as ((o1 & n1) & E1 & E). injection E as <- <-. split; [exact (proj2 (sized_output _ _ _ _ _ _ _ HS Hx E1))|exact Os].
  - destruct (IH H0) as (HS & Os). unfold computeCluster, computeOutput in E. apply bind_Ok_inv in E as ((o1 & n1) & E1 & E). apply bind_Ok_inv in E1 as ((o2 & n2) & E2 & E1). injection E1 as <- <-. injection E as <- <-. split; [exact (proj2 (sized_output _ _ _ _ _ _ _ HS Hx E2))|exact Os].
  - apply kept_sized. eapply train_kept; eauto. now apply user_data_ready.
  - destruct (IH H0) as (HS & Os). pose proof (user_data_ready _ _ _ Hd) as R. destruct (evaluateData_ok env k m s d (snn_sized_ok k m s (conj HS Os)) R) as (r1 & E1 & (_ & Os1) & _). rewrite E in E1. injection E1 as <-.
    split; [|exact Os1]. unfold evaluateData, evaluate in E. cbn [r_snn r_data] in E. apply bind_Ok_inv in E as ((st & s1) & E1 & E). apply (sized_loop k m) in E1; [|exact R|exact HS].
    destruct st; [injection E as <-; exact E1|]. destruct (_ && _); injection E as <-; exact E1.
  - destruct (IH H0) as (HS & Os). unfold saveAs in E. destruct (negb _); [discriminate|]. injection E as <-. split; [exact HS|exact Os].
  - exact (IH H0).
Qed.
Lemma newSnn_sized draws masks ds lr mo s0 k m : newSnn draws masks ds lr mo = Ok s0 -> sane_descriptions ds -> Forall supported_pooling (nn_layers (sn_net s0)) ->
  product (d_shape (hd (Input []) ds)) = Ok (Z.of_nat k) -> net_numberOfOutputs (sn_net s0) = Ok m ->
  (forall a t, nn_layers (sn_net s0) = a :: t -> cell_count (getShapeOfOutput (last t a)) = m) -> snn_sized k m s0.
Proof.
  intros H Hs HP Hk Hm HC. unfold newSnn in H. apply bind_Ok_inv in H as (net & Hc & H). apply bind_Ok_inv in H as (m' & Ho & H). injection H as <-. cbn in *. rewrite Hm in Ho. injection Ho as <-.
  destruct (construct_wf _ _ _ _ _ _ Hc Hs HP) as (k' & mm & W & Hp). rewrite Hk in Hp. injection Hp as Hp. apply Nat2Z.inj in Hp. subst k'.
  assert (E : mm = m). { pose proof W as (Hne & WC). destruct (nn_layers net) as [|a t] eqn:El; [congruence|]. destruct (wf_chain_last _ _ _ _ WC) as (k' & WL). rewrite <- (HC a t eq_refl). destruct WL as (_ & _ & _ & _ & D). exact D. }
  subst mm. split; [|cbn; now rewrite map_length, repeat_length]. split; [exact W|]. split; [|exact Hm].
  unfold trainable. cbn [sn_net]. destruct (nn_layers net) as [|a [|b t]] eqn:El; auto. left. specialize (HC _ _ eq_refl). rewrite HC.
  unfold net_numberOfOutputs in Hm. cbn [sn_net] in Hm. rewrite El, lget_last in Hm. cbn [bind] in Hm. now injection Hm as <-.
Qed.
End P.
