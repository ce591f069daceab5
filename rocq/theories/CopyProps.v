(* C38: copies of networks. *)
From Coq Require Import String SpecFloat.
From Verif Require Import Base Num NumOrder ActModel NeuronModel LayerModel NetModel StatModel WaitModel DataModel FactoryModel TrainModel SaveModel SaveSpec CopyModel CopySpec CopyProofs EqModel EqProofs AlikeProofs AlikeTrain SaveProps.
From Verif Require Import TrainSpec FactorySpec FilterSpec SafeNet BuildProofs FactoryProps DataProps Witness TrainProofs TrainSafe TrainUser TrainProps HistProofs.
Local Open Scope outcome_scope.

(* Any program creating, loading, copying, using and deleting networks: with the pointers the code really has, it prints the same and
   its networks are the same as if each network were a value of its own and a copy a new value. *)
Theorem C38_networks_are_values : forall (N : Num) (cs : list command),
  match prun cs start, vrun cs [] with
  | Ok (out, W), Ok (out', v) => out = out' /\ option_map read W = v
  | Throw m, Throw m' => m = m'
  | UB, UB => True
  | _, _ => False
  end.
Proof.
  intros N cs. pose proof (run_same cs start [] start_same) as H. destruct (prun cs start) as [(a & [W|])|m|], (vrun cs []) as [(b & [v|])|m'|]; try contradiction; auto.
  - destruct H as (-> & HS). split; [reflexivity|]. cbn. now rewrite (read_same _ _ HS).
Qed.
Print Assumptions C38_networks_are_values.
(* after any program: using or deleting a network, or copying it, changes no other network *)
Theorem C38_independent : forall (N : Num) cs out W c x W' j, prun cs start = Ok (out, Some W) -> pstep c W = Ok (x, Some W') ->
  match c with Use i _ => i <> j | Delete i => i <> j | _ => True end -> j < List.length (fst W) -> nth_error (read W') j = nth_error (read W) j.
Proof.
  intros N cs out W c x W' j HR HP Hj Hl. pose proof (run_same cs start [] start_same) as H. rewrite HR in H. destruct (vrun cs []) as [(b & [v|])|m'|]; try contradiction. destruct H as (_ & HS).
  pose proof (step_same c W v HS) as H1. rewrite HP in H1. destruct (vstep c v) as [(y & [v1|])|m'|] eqn:EV; try contradiction. destruct H1 as (_ & HS1). rewrite (read_same _ _ HS), (read_same _ _ HS1).
  rewrite (same_length _ _ HS) in Hl. destruct c as [draws masks ds lr m|file|i|i a|i]; cbn [vstep] in EV.
  - apply bind_Ok_inv in EV as (s & _ & EV). injection EV as <- <-. now rewrite nth_error_app1.
  - apply bind_Ok_inv in EV as (s & _ & EV). injection EV as <- <-. now rewrite nth_error_app1.
  - destruct (nth_error v i) as [[s|]|]; try discriminate. apply bind_Ok_inv in EV as (s' & _ & EV). injection EV as <- <-. now rewrite nth_error_app1.
  - destruct (nth_error v i) as [[s|]|]; try discriminate. apply bind_Ok_inv in EV as ((x1 & [s'|]) & _ & EV); try discriminate. injection EV as <- <-. rewrite nth_setAt. now replace (j =? i) with false by (symmetry; apply Nat.eqb_neq; congruence).
  - destruct (nth_error v i) as [[s|]|]; try discriminate. injection EV as <- <-. rewrite nth_setAt. now replace (j =? i) with false by (symmetry; apply Nat.eqb_neq; congruence).
Qed.
Print Assumptions C38_independent.

Section P.
Context {N : Num}.
Lemma lived_want k m (s0 s : Snn) : snn_ok k m s0 -> sn_idle s0 = true -> sn_want s0 = false -> lived k m s0 s -> sn_want s = false.
Proof.
  intros H0 I0 W0 H. pose proof (fun s' => lived_ok k m s0 s' H0 I0) as LO. revert H0 I0 W0 LO.
  induction H as [s|s0 s x reset o s1 HL IH Hx E|s0 s x reset o s1 HL IH Hx E|s0 s fuel env w b f d r HL IH Hd Hf E|s0 s env d r HL IH Hd E|s0 s p d HL IH r E|s0 s a p HL IH]; intros H0 I0 W0 LO; auto.
  - specialize (IH H0 I0 W0 LO). unfold computeOutput in E. apply bind_Ok_inv in E as ((o1 & n1) & _ & E). injection E as <- <-. exact IH.
  - specialize (IH H0 I0 W0 LO). unfold computeCluster, computeOutput in E. apply bind_Ok_inv in E as ((o1 & s2) & E1 & E). apply bind_Ok_inv in E1 as ((o2 & n2) & _ & E1). injection E1 as <- <-. injection E as <- <-. exact IH.
  - destruct (LO s HL) as (Hok & Hi). pose proof E as E0. unfold train in E0. destruct (validData s d b) as [u|y|] eqn:V; try discriminate. apply validData_Ok in V as (Hb & _ & _ & Ht).
    destruct (train_ok fuel env w b f k m s d Hok Hi (user_data_ready _ _ _ Hd) Hf Hb Ht) as [E1|(r1 & E1 & _ & _ & _ & Hw)]; [congruence|]. rewrite E in E1. injection E1 as ->. exact Hw.
  - specialize (IH H0 I0 W0 LO). exact (evaluateData_want _ _ _ _ E IH).
  - specialize (IH H0 I0 W0 LO). unfold saveAs in E. destruct (negb _); [discriminate|]. injection E as <-. exact IH.
Qed.
Lemma copy_equal_l (s : Snn) m : net_numberOfOutputs (sn_net s) = Ok m -> sn_idle s = true -> sn_want s = false -> Forall (fun x => feqb x x = true) (net_numbers (sn_net s)) ->
  exists c, copySnn s = Ok c /\ snn_eqb s c = Ok true /\ snn_eqb c s = Ok true /\ sn_net c = sn_net s /\ results (sn_stats c) = results (sn_stats s) /\ improved (sn_stats c) = improved (sn_stats s) /\
    (List.length (st_clusters (sn_stats s)) = m -> forall acts, lives c acts = lives s acts).
Proof.
  intros Hm Hi Hw Hn. unfold copySnn. rewrite Hm. cbn [bind]. eexists. split; [reflexivity|]. set (c := mkSnn _ _ _ _ _ _ _ _ _).
  assert (E0 : c = with_stats s (sn_stats c)) by (unfold c; destruct s; cbn in *; subst; reflexivity).
  assert (ER : forall st, snn_eqb s s = Ok true -> snn_eqb s (with_stats s st) = Ok true /\ snn_eqb (with_stats s st) s = Ok true) by (intros st E; split; exact E).
  destruct (ER (sn_stats c) (snn_refl s s Hn eq_refl)) as (R1 & R2). rewrite <- E0 in R1, R2. split; [exact R1|]. split; [exact R2|]. split; [reflexivity|]. split; [reflexivity|]. split; [reflexivity|].
  intros HC acts. apply lives_alike. apply alike_inv. exists (sn_net s), (sn_stats s). split; [rewrite E0; destruct s; reflexivity|]. split; [reflexivity|].
  unfold c. cbn. unfold startTesting, with_counters. cbn. f_equal. rewrite <- HC. clear. induction (st_clusters (sn_stats s)) as [|x l IH]; cbn; [reflexivity|]. now f_equal.
Qed.
End P.
(* A network built from any description and used in any way, whose numbers are not NaN: its copy is equal to it, has the same layers,
   weights and results, and from now on the two show the same outputs, the same weights and the same results for the same uses. *)
Theorem C38_copy_equal_partial : forall (N : Num) draws masks ds lr mo s0 s k m,
  newSnn draws masks ds lr mo = Ok s0 -> sane_descriptions ds -> Forall supported_pooling (nn_layers (sn_net s0)) -> trainable (sn_net s0) ->
  product (d_shape (hd (Input []) ds)) = Ok (Z.of_nat k) -> net_numberOfOutputs (sn_net s0) = Ok m -> lived k m s0 s -> Forall (fun x => feqb x x = true) (net_numbers (sn_net s)) ->
  exists c, copySnn s = Ok c /\ snn_eqb s c = Ok true /\ snn_eqb c s = Ok true /\ sn_net c = sn_net s /\ results (sn_stats c) = results (sn_stats s) /\ improved (sn_stats c) = improved (sn_stats s) /\
    forall acts, lives c acts = lives s acts.
Proof.
  intros N draws masks ds lr mo s0 s k m HN Hs HP HT Hk Hm HL Hn. destruct (newSnn_ok _ _ _ _ _ _ k HN Hs HP HT Hk) as (m' & O0 & Em & I0). rewrite Hm in Em. injection Em as <-.
  destruct (lived_ok k m s0 s O0 I0 HL) as (O & I). assert (W0 : sn_want s0 = false). { unfold newSnn in HN. binds HN. injection HN as <-. reflexivity. }
  pose proof (lived_want k m s0 s O0 I0 W0 HL) as W. destruct O as ((mm & _ & _ & Ho) & Oc). destruct (copy_equal_l s m Ho I W Hn) as (c & E1 & E2 & E3 & E4 & E5 & E6 & E7). exists c. auto 10.
Qed.
Print Assumptions C38_copy_equal_partial.
(* a network that is training, or that was asked to stop while it was not training (stopTrainingAsync sets the request,
   StraightforwardNeuralNetwork.cpp 184-193), can be copied: no exception, and the copy differs from it *)
Theorem C38_copy_differs_refuted : forall (N : Num) (s : Snn), nn_layers (sn_net s) <> [] -> sn_idle s = false \/ sn_want s = true ->
  exists c, copySnn s = Ok c /\ sn_idle c = true /\ sn_want c = false /\ snn_eqb s c <> Ok true.
Proof.
  intros N s Hl Hw. unfold copySnn. rewrite outputs_last. destruct (rev (nn_layers (sn_net s))) as [|a t] eqn:E.
  { apply (f_equal (@rev _)) in E. rewrite rev_involutive in E. cbn in E. contradiction. }
  cbn [bind]. eexists. split; [reflexivity|]. split; [reflexivity|]. split; [reflexivity|]. unfold snn_eqb. intros H. apply oand_true in H as (_ & H). apply Ok_true in H. cbn in H.
  repeat rewrite Bool.andb_true_iff in H. destruct H as ((((((_ & _) & H1) & _) & H2) & _) & _). destruct Hw as [Hw|Hw]; rewrite Hw in *; discriminate.
Qed.
Print Assumptions C38_copy_differs_refuted.

(* a program: a network is built, used, copied; the copy is trained, the original predicts and is deleted, the copy predicts *)
Definition copy_demo (d : @Data N32) : list (@command N32) :=
  [@New N32 draws_t nomasks demo_t (b32q 1 100) (b32q 9 10); Use 0 (@Predict N32 [b32 1; b32 2] true); Copy 0; Use 1 (@Train N32 10 env_t (lit_ep 2) 2 1 d); Use 0 (@Predict N32 [b32 1; b32 2] true);
   Delete 0; Use 1 (@Predict N32 [b32 1; b32 2] true)].
Definition outputs_of (x : @said N32) : list (@F N32) := match x with Saw (Outputs o) => o | _ => [] end.
Lemma copy_program_runs : exists d out W, @mkData4 N32 classification trIn_t trLab_t teIn_t teLab_t nonTemporal 0 = Ok d /\ prun (copy_demo d) start = Ok (out, Some W) /\ List.length out = 7 /\
  nth_error (map outputs_of out) 1 = nth_error (map outputs_of out) 4 /\ nth_error (map outputs_of out) 1 <> nth_error (map outputs_of out) 6.
Proof.
  assert (H : run_check (@mkData4 N32 classification trIn_t trLab_t teIn_t teLab_t nonTemporal 0) (fun d => run_check (prun (copy_demo d) start) (fun p =>
    match snd p with Some _ => true | None => false end && (List.length (fst p) =? 7) &&
    match map outputs_of (fst p) with [_; a; _; _; b; _; c] => sfl_eqb a b && negb (sfl_eqb a c) | _ => false end)) = true) by (vm_compute; reflexivity).
  apply run_check_ex in H as (d & Ed & H). apply run_check_ex in H as ((out & [W|]) & Ep & H); [|discriminate H]. cbn [fst snd] in H. apply Bool.andb_true_iff in H as (H1 & H). apply Bool.andb_true_iff in H1 as (_ & H1).
  exists d, out, W. split; [exact Ed|]. split; [exact Ep|]. split; [now apply Nat.eqb_eq|]. destruct (map outputs_of out) as [|a0 [|a1 [|a2 [|a3 [|a4 [|a5 [|a6 [|]]]]]]]]; try discriminate H. apply Bool.andb_true_iff in H as (H2 & H3).
  cbn [nth_error]. split; [f_equal; now apply sfl_eqb_eq|]. intros E. injection E as E. rewrite (proj2 (sfl_eqb_eq _ _) E) in H3. discriminate.
Qed.
(* a network trained for two epochs meets the hypotheses of C38_copy_equal_partial *)
Example C38_hypotheses : exists s0 d r, @newSnn N32 draws_t nomasks demo_t (b32q 1 100) (b32q 9 10) = Ok s0 /\ sane_descriptions demo_t /\
  Forall (@supported_pooling N32) (nn_layers (sn_net s0)) /\ trainable (sn_net s0) /\ product (d_shape (hd (Input []) demo_t)) = Ok (Z.of_nat 2) /\ net_numberOfOutputs (sn_net s0) = Ok 2 /\
  train 10 env_t (lit_ep 2) 2 1 (auto_on s0) d = Some (Ok r) /\ lived 2 2 s0 (r_snn r) /\ Forall (fun x => feqb x x = true) (net_numbers (sn_net (r_snn r))).
Proof.
  destruct demo_run as (s0 & d & r & A & B & C & D & E & G & H & I & _). exists s0, d, r. split; [exact A|].
  split; [split; [repeat constructor|]; repeat constructor; cbn; lia|]. split; [exact C|]. split; [exact E|]. split; [reflexivity|]. split; [exact D|]. split; [exact H|].
  split; [refine (lv_train 2 2 s0 (auto_on s0) 10 env_t (lit_ep 2) 2 1 d r _ _ _ _); [apply lv_auto, lv_none|now apply demo_user|intros k; apply rev_rng_fair|exact H]|].
  assert (K : run_check (@newSnn N32 draws_t nomasks demo_t (b32q 1 100) (b32q 9 10)) (fun s0 => run_check (@mkData4 N32 classification trIn_t trLab_t teIn_t teLab_t nonTemporal 0) (fun d =>
    snn_check (train 10 env_t (lit_ep 2) 2 1 (auto_on s0) d) (fun r => forallb (fun x => feqb x x) (net_numbers (sn_net (r_snn r)))))) = true) by (vm_compute; reflexivity).
  rewrite A in K. cbn [run_check] in K. rewrite B in K. cbn [run_check] in K. rewrite H in K. cbn [snn_check run_check] in K. rewrite forallb_forall in K. now apply Forall_forall.
Qed.
