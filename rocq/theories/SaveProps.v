(* C37: saving and loading. *)
From Coq Require Import String SpecFloat.
From Verif Require Import Base Num NumOrder ActModel NeuronModel LayerModel NetModel StatModel WaitModel DataModel FactoryModel TrainModel SaveModel SaveSpec SaveProofs EqModel EqProofs AlikeProofs AlikeTrain.
From Verif Require Import TrainSpec FactorySpec FactoryProps DataProps Witness TrainProps.
Local Open Scope outcome_scope.

Section P.
Context {N : Num}.
Lemma weights_alike a b : net_rel a b -> net_weights a = net_weights b.
Proof. intros H. apply net_rel_inv in H as (H & _). unfold net_weights. induction H as [|x y la lb Hxy _ IH]; cbn; [reflexivity|]. now rewrite (layer_weights_rel _ _ Hxy), IH. Qed.
Lemma presented_alike l l' : Forall2 event_alike l l' -> presented l = presented l'.
Proof. induction 1 as [|x y l l' H _ IH]; cbn; [reflexivity|]. unfold presented in *. rewrite IH. now destruct H. Qed.
Lemma stats_seen a b : startTesting a = startTesting b -> results a = results b /\ improved a = improved b.
Proof.
  intros E. pose proof (f_equal results E) as E1. pose proof (f_equal improved E) as E2. auto.
Qed.
Lemma lives_alike acts : forall a b : Snn, alike a b -> lives a acts = lives b acts.
Proof.
  induction acts as [|[x t|fuel env w k f d] acts IH]; intros a b H; cbn [lives]; [reflexivity|..].
  - pose proof (output_alike a b x t H) as HO. destruct (computeOutput a x t) as [(o1 & a1)|m|], (computeOutput b x t) as [(o2 & b1)|m'|]; cbn in HO; try contradiction; cbn [bind]; try congruence.
    destruct HO as (E & Hab). cbn in E, Hab. subst o2. now rewrite (IH _ _ Hab).
  - pose proof (train_alike fuel env w k f a b d H) as HT. destruct (train fuel env w k f a d) as [[r1|m|]|], (train fuel env w k f b d) as [[r2|m'|]|]; cbn in HT; try contradiction; try congruence.
    destruct HT as (Hab & Hd & _ & HL). rewrite (IH _ _ Hab), Hd, (presented_alike _ _ HL). apply alike_inv in Hab as (n & st & E & Hn & Hs). rewrite E. cbn [sn_net sn_stats with_stats with_net].
    destruct (stats_seen _ _ Hs) as (-> & ->). rewrite (weights_alike _ _ Hn). reflexivity.
Qed.
Lemma no_nan_id (s : Snn) : nn_nan (sn_net s) = false -> no_nan s = s.
Proof. intros H. destruct s as [[? ? ? ?] ? ? ? ? ? ? ? ?]. cbn in *. subst. reflexivity. Qed.
Lemma no_nan_bare (s : Snn) : no_nan (bare s) = bare (no_nan s). Proof. reflexivity. Qed.
Lemma bare_idem (s : Snn) : bare (bare s) = bare s. 
Proof.
  destruct s as [n st ? ? ? ? ? ? ?]. unfold bare, with_stats, with_net. cbn. f_equal.
  - unfold bare_net. cbn. f_equal. rewrite map_map. apply map_ext. intros [i b o]. unfold bare_layer. cbn. f_equal. destruct b as [ns|ns|ns|k f ns]; cbn; auto.
    + f_equal. rewrite map_map. apply map_ext. reflexivity.
    + f_equal. destruct k; reflexivity.
  - destruct st. unfold bare_stats, with_counters. cbn. f_equal. rewrite map_map. apply map_ext. reflexivity.
Qed.
End P.

(* a network that is not training and whose numbers are all finite is saved, and what is read back is equal to it; if no NaN output was
   ever computed, all its later predictions and trainings are the same *)
Theorem C37_saved_loads_equal_partial : forall (N : Num) (L : eq_laws N) p (r : Run), sn_idle (r_snn r) = true -> all_finite (snn_numbers (r_snn r)) ->
  exists r1 s1, saveAs p r = Ok r1 /\ r_snn r1 = with_path (r_snn r) p /\ r_log r1 = r_log r ++ [Saved p (r_snn r1)] /\
    loadFrom (file_of (r_snn r1)) = Ok s1 /\ snn_eqb (r_snn r1) s1 = Ok true /\ snn_eqb s1 (r_snn r1) = Ok true /\
    results (sn_stats s1) = results (sn_stats (r_snn r)) /\ net_weights (sn_net s1) = net_weights (sn_net (r_snn r)) /\
    (nn_nan (sn_net (r_snn r)) = false -> forall acts, lives s1 acts = lives (r_snn r1) acts).
Proof.
  intros N L p [s d k l] Hi Hf. cbn [r_snn r_log] in *. unfold saveAs. cbn [r_snn]. rewrite Hi. cbn [negb]. set (s0 := with_path s p).
  assert (Hf0 : all_finite (snn_numbers s0)) by exact Hf.
  eexists _, (no_nan (bare s0)). split; [reflexivity|]. split; [reflexivity|]. split; [reflexivity|]. cbn [r_snn saveSync logs upd]. fold s0. split; [exact (load_file s0 Hf0)|].
  assert (HS : selfs (net_numbers (sn_net s0))) by (apply finite_selfs; [exact L|]; exact (proj2 (proj1 (Forall_app _ _ _) Hf0))).
  assert (HB : bare (no_nan (bare s0)) = bare (no_nan s0)) by (rewrite no_nan_bare; exact (bare_idem (no_nan s0))).
  split; [|split; [|split; [reflexivity|split]]].
  - apply snn_refl; [exact HS|]. rewrite no_nan_bare. change (bare (no_nan s0) = bare (bare (no_nan s0))). now rewrite bare_idem.
  - apply snn_refl; [|change (bare (no_nan (bare s0)) = bare (no_nan s0)); exact HB].
    pose proof (load_file s0 Hf0) as EL. clear EL. cbn [sn_net no_nan bare with_net with_stats]. unfold net_numbers. cbn [nn_layers nn_opt bare_net].
    unfold net_numbers in HS. rewrite selfs_app in *. destruct HS as (H1 & H2). split; [|exact H2]. rewrite selfs_flat in *. apply Forall_map. eapply Forall_impl; [|exact H1].
    intros a Ha. destruct a as [i b os]. unfold layer_numbers, bare_layer in *. cbn [l_body l_opts] in *. rewrite selfs_app in *. destruct Ha as (Ha & Hb). split; [|exact Hb].
    destruct b as [ns|ns|ns|kd f ns]; cbn [bare_body body_numbers] in *; try exact Ha. rewrite selfs_flat in *. apply Forall_map. exact Ha.
  - change (net_weights (bare_net (sn_net s)) = net_weights (sn_net s)). symmetry. apply weights_alike. pose proof (alike_bare s) as H. apply alike_inv in H as (n & st & E & Hn & _).
    pose proof (f_equal sn_net E) as E1. cbn in E1. now rewrite E1.
  - intros Hn acts. apply lives_alike. rewrite no_nan_bare, (no_nan_id s0 Hn). symmetry. exact (alike_bare s0).
Qed.
Print Assumptions C37_saved_loads_equal_partial.
(* the file can be read back exactly when every number of the network is finite *)
Theorem C37_loadable_iff_finite : forall (N : Num) (s : Snn), all_finite (sgd_numbers (nn_opt (sn_net s))) ->
  ((exists s1, loadFrom (file_of s) = Ok s1) <-> all_finite (snn_numbers s)) /\ (~ all_finite (snn_numbers s) -> loadFrom (file_of s) = Throw "input stream error").
Proof.
  intros N s Ho. rewrite (load_exact s Ho). rewrite forallb_finite. destruct (forallb ffinite (snn_numbers s)); split; try (now split; eauto); intros; try congruence; auto.
  split; [intros (? & ?); discriminate|discriminate].
Qed.
Print Assumptions C37_loadable_iff_finite.
(* the laws hold for real numbers and for binary32 *)
Theorem C37_equality_laws : eq_laws RNum /\ forall expf tanhf, eq_laws (Num32 expf tanhf).
Proof. split; [exact eq_laws_R|exact eq_laws_32]. Qed.
Print Assumptions C37_equality_laws.

(* a network with a convolution, a pooling, dense, recurrent, gated and softmax layers, trained for two epochs, can be saved and read back *)
Lemma finite_check (l : list (@F N32)) : forallb ffinite l = true -> all_finite l. Proof. apply forallb_finite. Qed.
Example C37_hypotheses : exists s0 d r, @newSnn N32 draws_t nomasks demo_t (b32q 1 100) (b32q 9 10) = Ok s0 /\
  train 10 env_t (lit_ep 2) 2 1 s0 d = Some (Ok r) /\ sn_idle (r_snn r) = true /\ all_finite (snn_numbers (r_snn r)) /\ nn_nan (sn_net (r_snn r)) = false /\ List.length (r_log r) = 7.
Proof.
  assert (H : run_check (@newSnn N32 draws_t nomasks demo_t (b32q 1 100) (b32q 9 10)) (fun s0 =>
    run_check (@mkData4 N32 classification trIn_t trLab_t teIn_t teLab_t nonTemporal 0) (fun d =>
    snn_check (train 10 env_t (lit_ep 2) 2 1 s0 d) (fun r => sn_idle (r_snn r) && forallb ffinite (snn_numbers (r_snn r)) && negb (nn_nan (sn_net (r_snn r))) && (List.length (r_log r) =? 7)))) = true) by (vm_compute; reflexivity).
  unpack_all. apply snn_check_ex in H as (r & Er & H). unpack_all. exists w, w0, r. split; [exact E|]. split; [exact Er|]. split; [assumption|]. split; [now apply finite_check|].
  split; [now apply Bool.negb_true_iff|now apply Nat.eqb_eq].
Qed.
Example C37_hypotheses_all_layers : exists s0 o s1, @newSnn N32 zdraws nomasks demo (b32q 1 100) (b32q 9 10) = Ok s0 /\ computeOutput s0 (repeat (b32 1) 40) true = Ok (o, s1) /\
  sn_idle s1 = true /\ all_finite (snn_numbers s1) /\ nn_nan (sn_net s1) = false.
Proof.
  by_compute (run_check (@newSnn N32 zdraws nomasks demo (b32q 1 100) (b32q 9 10)) (fun s0 => run_check (computeOutput s0 (repeat (b32 1) 40) true) (fun p =>
    sn_idle (snd p) && forallb ffinite (snn_numbers (snd p)) && negb (nn_nan (sn_net (snd p)))))).
  exists w, (fst w0), (snd w0). split; [exact E|]. split; [rewrite E0; now destruct w0|]. split; [assumption|]. split; [now apply finite_check|now apply Bool.negb_true_iff].
Qed.

(* one prediction on an input that is not a number: the network is saved without complaint, the file cannot be read back *)
Theorem C37_unreadable_file_refuted : exists s0 o s1, @newSnn N32 draws_t nomasks demo_t (b32q 1 100) (b32q 9 10) = Ok s0 /\ @computeOutput N32 s0 [S754_nan; b32 1] true = Ok (o, s1) /\ forall p r, r_snn r = s1 -> exists r1, saveAs p r = Ok r1 /\ loadFrom (file_of (r_snn r1)) = Throw "input stream error"%string.
Proof.
  by_compute (run_check (@newSnn N32 draws_t nomasks demo_t (b32q 1 100) (b32q 9 10)) (fun s0 => run_check (@computeOutput N32 s0 [S754_nan; b32 1] true) (fun p =>
    sn_idle (snd p) && forallb ffinite (sgd_numbers (nn_opt (sn_net (snd p)))) && negb (forallb ffinite (snn_numbers (snd p)))))).
  exists w, (fst w0), (snd w0). split; [exact E|]. split; [rewrite E0; now destruct w0|]. intros p r Er. unfold saveAs. rewrite Er. match goal with HI : sn_idle _ = true |- _ => rewrite HI end. cbn [negb]. eexists. split; [reflexivity|].
  cbn [r_snn saveSync logs upd]. rewrite Er. apply C37_loadable_iff_finite; [now apply finite_check|]. intros X. change (all_finite (snn_numbers (snd w0))) in X. apply forallb_finite in X. rewrite X in H. discriminate.
Qed.
Print Assumptions C37_unreadable_file_refuted.
(* the network remembers that it has computed NaN outputs and refuses to learn; once saved and read back it has forgotten, although it is equal *)
Theorem C37_nan_forgotten_refuted : exists s0 o s1 o' s2 s3 d r r', @newSnn N32 draws_t nomasks demo_id2 (b32q 1 100) (b32q 9 10) = Ok s0 /\ @computeOutput N32 s0 [S754_nan] true = Ok (o, s1) /\ @computeOutput N32 s1 [b32 1] true = Ok (o', s2) /\ loadFrom (file_of s2) = Ok s3 /\ snn_eqb s2 s3 = Ok true /\ train 10 env_t (lit_ep 1) 1 1 s2 d = Some (Ok r) /\ train 10 env_t (lit_ep 1) 1 1 s3 d = Some (Ok r') /\ net_weights (sn_net (r_snn r)) = net_weights (sn_net s2) /\ presented (r_log r) = [] /\ List.length (presented (r_log r')) = 2.
Proof.
  assert (H : run_check (@newSnn N32 draws_t nomasks demo_id2 (b32q 1 100) (b32q 9 10)) (fun s0 => run_check (@computeOutput N32 s0 [S754_nan] true) (fun p => run_check (@computeOutput N32 (snd p) [b32 1] true) (fun q =>
    run_check (@mkData4 N32 regression [[b32 1]; [b32 2]] [[b32 1]; [b32 2]] [[b32 1]] [[b32 1]] nonTemporal 0) (fun d =>
    run_check (loadFrom (file_of (snd q))) (fun s3 => bool_is (snn_eqb (snd q) s3) true &&
    snn_check (train 10 env_t (lit_ep 1) 1 1 (snd q) d) (fun r => snn_check (train 10 env_t (lit_ep 1) 1 1 s3 d) (fun r' =>
      list_eqb (list_eqb sfl_eqb) (net_weights (sn_net (r_snn r))) (net_weights (sn_net (snd q))) && (List.length (presented (r_log r)) =? 0) && (List.length (presented (r_log r')) =? 2)))))))) = true) by (vm_compute; reflexivity).
  unpack_all. apply snn_check_ex in H as (r & Er & H). apply snn_check_ex in H as (r' & Er' & H). unpack_all.
  exists w, (fst w0), (snd w0), (fst w1), (snd w1), w3, w2, r, r'. split; [exact E|]. split; [rewrite E0; now destruct w0|]. split; [rewrite E1; now destruct w1|]. split; [exact E3|].
  split; [now apply bool_is_ok|]. split; [exact Er|]. split; [exact Er'|]. split; [apply (list_eqb_eq _ (list_eqb_eq _ sfl_eqb_eq)); assumption|].
  match goal with H : (List.length (presented (r_log r)) =? 0) = true |- _ => apply Nat.eqb_eq in H; destruct (presented (r_log r)); [|discriminate H] end. split; [reflexivity|now apply Nat.eqb_eq].
Qed.
Print Assumptions C37_nan_forgotten_refuted.
