(* Locally connected and one-position convolution layers as layers of units. *)
From Coq Require Import Reals Lra.
From Verif Require Import Base Num NumOrder ActModel ActProofs NeuronModel LayerModel NetModel NetSpec NeuronProofs LayerProofs SafeProofs GradProofs DenseProofs SafeLayers FactoryModel FactorySpec FactoryProofs SafeNet BuildProofs FilterSpec HistProofs LOptSpec BackSpec BackProps MixSpec MixProofs MixLayers MixKinds.
Local Open Scope R_scope.

Lemma plain_wf k rows (ns : list RNeu) nin : plain_ok k rows ns -> (forall j, (j < List.length ns)%nat -> List.length (rows j) = nin) -> Forall (wf_plain nin) ns.
Proof.
  intros H HR. apply Forall_of_nth. intros j n Hj. destruct (H j n Hj) as (W & _ & Hr & _). split; [exact W|]. rewrite <- Hr. apply HR. apply nth_error_Some. congruence.
Qed.
Lemma feds_wf rows z (ns ns1 : list RNeu) nin k : feds rows z ns ns1 -> plain_ok k rows ns -> (forall j, (j < List.length ns)%nat -> List.length (rows j) = nin) -> Forall (wf_plain nin) ns1.
Proof.
  intros [HL HF] H HR. apply Forall_of_nth. intros j n1 Hj. assert (Hlt : (j < List.length ns)%nat) by (rewrite <- HL; apply nth_error_Some; congruence).
  destruct (nth_error ns j) as [n|] eqn:En; [|apply nth_error_None in En; lia]. pose proof (HF j n En) as Q. pose proof (eq_trans (eq_sym Hj) Q) as Q'. injection Q' as ->. destruct (H j n En) as (W & Hb & Hr & _). split.
  - apply fed_wf; auto. now rewrite reads_length.
  - cbn [fed set_sum n_in]. rewrite <- Hr. now apply HR.
Qed.
Lemma feds_inner rows z (ns ns1 : list RNeu) k e r : feds rows z ns ns1 -> plain_ok k rows ns ->
  transposes k (List.length ns1) (map n_w ns1) (fun j u => reads u (rows j)) (fun j => match nth_error ns1 j with Some n => delta_of n (nth j e 0) | None => 0 end) r ->
  List.length r = k /\ forall u, List.length u = k -> inner r u = Rsum (map (fun j => match nth_error ns j with Some n => nth j e 0 * @actd RNum (n_act n) (@neuron_sum RNum n (reads z (rows j))) * inner (reads u (rows j)) (n_w n) | None => 0 end) (seq 0 (List.length ns))).
Proof.
  intros [HL HF] H [Lr HT]. split; [exact Lr|]. intros u Hu. rewrite (HT u Hu), HL. f_equal. apply map_ext_in. intros j Hj. apply in_seq in Hj.
  destruct (nth_error ns j) as [n|] eqn:En; [|apply nth_error_None in En; lia]. pose proof (HF j n En) as Q. rewrite Q. unfold delta_of. cbn [fed set_sum n_act n_sum]. f_equal. unfold linear_part. rewrite inner_comm. f_equal.
  apply nth_error_nth. rewrite nth_error_map, Q. reflexivity.
Qed.

(* ---------- locally connected ---------- *)
Section Loc.
Variables (o : @SGD RNum) (k : nat) (kd : fkind) (f : Filter) (ns : list RNeu) (z : list R).
Hypothesis Hkd : kd = Loc1D \/ kd = Loc2D.
Hypothesis HR : rowsOK (-1) k (f_nin f) (f_index f).
Hypothesis HF : (0 < f_filters f)%nat.
Hypothesis Hn : List.length ns = (List.length (f_index f) * f_filters f)%nat.
Hypothesis Hkn : f_kernels f = List.length ns.
Hypothesis Hkp : f_kpf f = List.length (f_index f).
Hypothesis Hw : Forall (fun n => wf_plain (f_nin f) n /\ n_batch n = 1%nat) ns.
Hypothesis Hz : List.length z = k.
Hypothesis Hsame : kd = Loc1D -> forall j, (j < List.length ns)%nat -> nth (j mod f_kpf f) (f_index f) [] = nth (j / f_filters f) (f_index f) [].
Let rows := fun j => nth (j / f_filters f) (f_index f) [].
Lemma loc_rows j : (j < List.length ns)%nat -> List.length (rows j) = f_nin f /\ Forall (fun i => (i < Z.of_nat k)%Z) (rows j).
Proof.
  intros Hj. assert (Hq : (j / f_filters f < List.length (f_index f))%nat) by (apply Nat.div_lt_upper_bound; lia).
  destruct (rows_in _ _ _ _ (rows j) HR) as [Hl Hf]; [now apply nth_In|]. split; [exact Hl|]. eapply Forall_impl; [|exact Hf]. cbv beta. intros; lia.
Qed.
Lemma loc_ok : plain_ok k rows ns.
Proof.
  intros j n Hj. assert (Hlt : (j < List.length ns)%nat) by (apply nth_error_Some; congruence). rewrite Forall_forall in Hw. destruct (Hw n (nth_error_In _ _ Hj)) as [[W Hi] Hb]. destruct (loc_rows j Hlt) as [A B].
  split; [exact W|]. split; [exact Hb|]. split; [congruence|exact B].
Qed.
Lemma loc_fwd ns' y reset : List.length ns' = List.length ns -> plain_ok k rows ns' -> List.length y = k ->
  exists outs ns1, @body_output RNum (BFilter kd f ns') y reset = Ok (outs, BFilter kd f ns1) /\ List.length outs = List.length ns /\
    (forall j n, nth_error ns' j = Some n -> nth_error outs j = Some (@neuron_value RNum n (reads y (rows j)))) /\ feds rows y ns' ns1.
Proof.
  intros Hl Hp Hy. pose proof (plain_wf k rows ns' (f_nin f) Hp) as Hw'.
  assert (Hw1 : Forall (wf_plain (f_nin f)) ns') by (apply Hw'; intros j Hj; apply loc_rows; lia).
  destruct (loc_output_wf k f ns' y (List.length ns') HR HF) as (outs & ns1 & E & Lo & W1 & EW); auto; try lia.
  exists outs, ns1. split; [destruct Hkd as [-> | ->]; cbn [body_output]; change (@F RNum) with R in *; rewrite E; reflexivity|]. split; [rl|].
  unfold loc_output in E. cbv zeta in E. rewrite <- Hn, <- Hl, Nat.ltb_irrefl, firstn_all, skipn_all in E.
  rewrite (@omap_all_ok _ (list (@F RNum)) (@locWindow RNum f y) (fun row => reads y row) (f_index f)) in E by (intros row Hin; destruct (rows_in _ _ _ _ _ HR Hin) as [Hl' Hr]; now apply (@locWindow_ok RNum f k)).
  cbn [bind] in E. apply bind_Ok_inv in E as ([o1 ns2] & Ee & E). apply bind_Ok_inv in E as (o2 & E2 & E). injection E as -> <-. rewrite app_nil_r.
  pose proof (each_inv _ _ _ _ Ee) as (L1 & L2 & Hj). rewrite fill_ok in E2 by rl. injection E2 as ->.
  assert (G : forall j n, nth_error ns' j = Some n -> nth_error outs j = Some (@neuron_value RNum n (reads y (rows j))) /\ nth_error ns2 j = Some (fed (reads y (rows j)) n)).
  { intros j n Hjn. destruct (Hj j n Hjn) as (b & n' & Hb & Hn' & En). assert (Hlt : (j < List.length ns)%nat) by (rewrite <- Hl; apply nth_error_Some; congruence).
    assert (Hq : (j / f_filters f < List.length (f_index f))%nat) by (apply Nat.div_lt_upper_bound; lia).
    change (@F RNum) with R in *. rewrite (lget_nth _ _ []) in En by (rewrite map_length; lia). cbn [bind] in En. rewrite (nth_indep _ [] (reads y [])) in En by (rewrite map_length; lia). rewrite (map_nth (reads y)) in En. fold (rows j) in En.
    destruct (Hp j n Hjn) as (W & Hbt & Hr & _). rewrite simple_output_fed in En by (rewrite ?reads_length; auto). injection En as <- <-. auto. }
  split; [intros j n Hjn; apply G, Hjn|]. split; [exact L2|]. intros j n Hjn. apply G, Hjn.
Qed.
Lemma loc_bwd ns1 e : feds rows z ns ns1 -> List.length e = List.length ns ->
  exists r ns2, @body_back RNum o k (BFilter kd f ns1) e = Ok (r, BFilter kd f ns2) /\ List.length r = k /\
    (forall u, List.length u = k -> inner r u = Rsum (map (fun j => match nth_error ns j with Some n => nth j e 0 * @actd RNum (n_act n) (@neuron_sum RNum n (reads z (rows j))) * inner (reads u (rows j)) (n_w n) | None => 0 end) (seq 0 (List.length ns)))) /\
    forall j n1, nth_error ns1 j = Some n1 -> exists es n2, @simple_backOutput RNum o n1 (nth j e 0) = Ok (es, n2) /\ nth_error ns2 j = Some n2.
Proof.
  intros HFD He. pose proof (feds_wf rows z ns ns1 (f_nin f) k HFD loc_ok (fun j Hj => proj1 (loc_rows j Hj))) as W1. pose proof HFD as [HL HFD'].
  set (two := match kd with Loc2D => true | _ => false end).
  assert (Hle : (List.length ns1 <= List.length e)%nat) by rl. destruct (loc_adjoint two o k f ns1 e HR HF (eq_trans HL Hn) Hkp W1 Hle) as (r & ns2 & E & HT).
  exists r, ns2. split. { unfold two in E. destruct Hkd as [-> | ->]; cbn [body_back]; change (@F RNum) with R in *; rewrite E; reflexivity. }
  assert (HT' : transposes k (List.length ns1) (map n_w ns1) (fun j u => reads u (rows j)) (fun j => match nth_error ns1 j with Some n => delta_of n (nth j e 0) | None => 0 end) r).
  { eapply transposes_ext; [exact HT| |reflexivity]. intros j u Hj. cbv beta. unfold reads, rows, two. destruct Hkd as [Hk| ->]; [|reflexivity]. rewrite Hk at 1. now rewrite Hsame by (auto; lia). }
  destruct (feds_inner rows z ns ns1 k e r HFD loc_ok HT') as [Lr Hin]. split; [exact Lr|]. split; [exact Hin|].
  intros j n1 Hj. unfold loc_back in E. apply bind_Ok_inv in E as ([es ns3] & Ee & E). apply bind_Ok_inv in E as (r1 & Er & E). injection E as -> ->. pose proof (each_inv _ _ _ _ Ee) as (L1 & L2 & Hje).
  destruct (Hje j n1 Hj) as (b & n' & _ & Hn' & En). assert (Hlt : (j < List.length ns)%nat) by (rewrite <- HL; apply nth_error_Some; congruence). change (@F RNum) with R in *. rewrite (lget_nth e j 0) in En by lia. cbn [bind] in En.
  apply bind_Ok_inv in En as ([err n2] & Eb & En). exists err, n2. split; [exact Eb|]. rewrite Hn'. cbv zeta in En. destruct (_ =? 0)%nat in En; [discriminate|]. apply bind_Ok_inv in En as (? & _ & En). injection En as _ ->. reflexivity.
Qed.
Lemma loc_good : out_smooth (mkLayer k (BFilter kd f ns) []) z ->
  good o (mkLayer k (BFilter kd f ns) []) z (fun y => map (fun u => uval u y) (pus rows ns)) (List.length (pus rows ns)) (uL (pus rows ns) z).
Proof.
  intros Hs. apply (plain_good o k rows (BFilter kd f) ns z); auto.
  - exact loc_ok.
  - exact loc_fwd.
  - exact loc_bwd.
  - intros ns1 e. destruct Hkd as [-> | ->]; cbn [body_train]; destruct (each _ ns1) as [[us n3]| |]; reflexivity.
Qed.
End Loc.

(* ---------- convolutions with one position ---------- *)
Section Conv.
Variables (o : @SGD RNum) (k : nat) (kd : fkind) (f : Filter) (ns : list RNeu) (z : list R) (row : list Z).
Hypothesis Hkd : kd = Conv1D \/ kd = Conv2D.
Hypothesis HR : rowsOK 0 k (f_nin f) (f_index f).
Hypothesis Hrow : f_index f = [row].
Hypothesis Hkn : f_kernels f = List.length ns.
Hypothesis Hw : Forall (fun n => wf_plain (f_nin f) n /\ n_batch n = 1%nat) ns.
Hypothesis Hz : List.length z = k.
Let rows := fun _ : nat => row.
Lemma conv_row : List.length row = f_nin f /\ Forall (fun i => (0 <= i < Z.of_nat k)%Z) row.
Proof. pose proof HR as H. rewrite Hrow in H. exact (Forall_inv H). Qed.
Lemma conv_ok : plain_ok k rows ns.
Proof.
  intros j n Hj. rewrite Forall_forall in Hw. destruct (Hw n (nth_error_In _ _ Hj)) as [[W Hi] Hb]. destruct conv_row as [A B].
  split; [exact W|]. split; [exact Hb|]. split; [unfold rows; congruence|]. eapply Forall_impl; [|exact B]. cbv beta. intros; lia.
Qed.
Lemma conv_fwd ns' y reset : List.length ns' = List.length ns -> plain_ok k rows ns' -> List.length y = k ->
  exists outs ns1, @body_output RNum (BFilter kd f ns') y reset = Ok (outs, BFilter kd f ns1) /\ List.length outs = List.length ns /\
    (forall j n, nth_error ns' j = Some n -> nth_error outs j = Some (@neuron_value RNum n (reads y (rows j)))) /\ feds rows y ns' ns1.
Proof.
  intros Hl Hp Hy. destruct conv_row as [Lr Fr].
  assert (Ewin : @convWindow RNum f y row = Ok (reads y row)).
  { rewrite (@convWindow_ok RNum f k) by auto. apply (f_equal Ok). unfold reads. apply map_ext_in. intros i Hi. rewrite Forall_forall in Fr. specialize (Fr i Hi). rewrite valueAt_R. rewrite fzero_R. destruct (Z.leb_spec 0 i); [reflexivity|lia]. }
  assert (Ee : each (fun _ n => @simple_output RNum n (reads y row)) ns' = Ok (map (fun n => @neuron_value RNum n (reads y row)) ns', map (fed (reads y row)) ns')).
  { apply each_map_plain. intros j n Hj. destruct (Hp j n Hj) as (W & Hb & Hr & _). apply simple_output_fed; auto. now rewrite reads_length. }
  assert (E : @conv_output RNum f ns' y = Ok (map (fun n => @neuron_value RNum n (reads y row)) ns', map (fed (reads y row)) ns')).
  { unfold conv_output. rewrite Hrow. cbn [ofold fst snd]. change (@F RNum) with R in *. rewrite Ewin. cbn [bind]. rewrite Ee. cbn [bind app]. rewrite fill_ok by (rewrite map_length; rl). reflexivity. }
  exists (map (fun n => @neuron_value RNum n (reads y row)) ns'), (map (fed (reads y row)) ns').
  split; [destruct Hkd as [-> | ->]; cbn [body_output]; change (@F RNum) with R in *; rewrite E; reflexivity|]. split; [now rewrite map_length|]. split.
  - intros j n Hj. rewrite nth_error_map, Hj. reflexivity.
  - split; [apply map_length|]. intros j n Hj. rewrite nth_error_map, Hj. reflexivity.
Qed.
Lemma conv_bwd ns1 e : feds rows z ns ns1 -> List.length e = List.length ns ->
  exists r ns2, @body_back RNum o k (BFilter kd f ns1) e = Ok (r, BFilter kd f ns2) /\ List.length r = k /\
    (forall u, List.length u = k -> inner r u = Rsum (map (fun j => match nth_error ns j with Some n => nth j e 0 * @actd RNum (n_act n) (@neuron_sum RNum n (reads z (rows j))) * inner (reads u (rows j)) (n_w n) | None => 0 end) (seq 0 (List.length ns)))) /\
    forall j n1, nth_error ns1 j = Some n1 -> exists es n2, @simple_backOutput RNum o n1 (nth j e 0) = Ok (es, n2) /\ nth_error ns2 j = Some n2.
Proof.
  intros HFD He. pose proof (feds_wf rows z ns ns1 (f_nin f) k HFD conv_ok (fun j Hj => proj1 conv_row)) as W1. pose proof HFD as [HL HFD'].
  assert (Hle : (List.length ns1 <= List.length e)%nat) by rl. destruct (conv_one_adjoint o k f ns1 e row Hrow HR W1 Hle) as (r & ns2 & E & HT).
  exists r, ns2. split. { destruct Hkd as [-> | ->]; cbn [body_back]; change (@F RNum) with R in *; rewrite E; reflexivity. }
  destruct (feds_inner rows z ns ns1 k e r HFD conv_ok HT) as [Lr Hin]. split; [exact Lr|]. split; [exact Hin|].
  intros j n1 Hj. unfold conv_back in E. rewrite Hrow in E. cbn [ofold] in E. apply bind_Ok_inv in E as ([[r1 i1] ns3] & E1 & E). injection E as -> ->. apply bind_Ok_inv in E1 as ([[r2 i2] ns4] & E1 & E2). injection E2 as -> -> ->.
  apply bind_Ok_inv in E1 as ([es ns5] & Ee & E1). apply bind_Ok_inv in E1 as (r3 & Er & E1). injection E1 as -> <- ->. pose proof (each_inv _ _ _ _ Ee) as (L1 & L2 & Hje).
  destruct (Hje j n1 Hj) as (b & n' & _ & Hn' & En). assert (Hlt : (j < List.length ns)%nat) by (rewrite <- HL; apply nth_error_Some; congruence). change (@F RNum) with R in *. rewrite (lget_nth e _ 0) in En by lia. cbn [bind Nat.add] in En.
  eauto.
Qed.
Lemma conv_good : out_smooth (mkLayer k (BFilter kd f ns) []) z ->
  good o (mkLayer k (BFilter kd f ns) []) z (fun y => map (fun u => uval u y) (pus rows ns)) (List.length (pus rows ns)) (uL (pus rows ns) z).
Proof.
  intros Hs. apply (plain_good o k rows (BFilter kd f) ns z); auto.
  - exact conv_ok.
  - exact conv_fwd.
  - exact conv_bwd.
  - intros ns1 e. destruct Hkd as [-> | ->]; cbn [body_train]; destruct (each _ ns1) as [[us n3]| |]; reflexivity.
Qed.
End Conv.
