(* Layers with layer optimizers, compared with the same layers without. *)
From Coq Require Import Reals Lra.
From Coquelicot Require Import Coquelicot.
From Verif Require Import Base Num NumOrder ActModel ActProofs NeuronModel LayerModel NetModel NetSpec NeuronProofs LayerProofs SafeProofs GradProofs DenseProofs SafeLayers FactoryModel FactorySpec FactoryProofs SafeNet BuildProofs FilterSpec HistProofs FilterProps LOptSpec LOptProps BackSpec MixSpec MixProofs MixKinds MixBuilt ScaleSpec.
Local Open Scope nat_scope.

Section B.
Context {N : Num}.
Definition bare (l : Layer) : Layer := mkLayer (l_in l) (l_body l) [].
Lemma bare_output l x r o l1 : layer_output l x r = Ok (o, l1) -> exists o', layer_output (bare l) x r = Ok (o', bare l1).
Proof.
  unfold layer_output. intros H. apply bind_Ok_inv in H as ((a & b) & E & H). apply bind_Ok_inv in H as (c & _ & H). injection H as _ <-. cbn [bare l_body l_opts l_in]. rewrite E. cbn. eauto.
Qed.
Lemma bare_training rand l x r o l1 : layer_outputForTraining rand l x r = Ok (o, l1) -> exists o', layer_outputForTraining rand (bare l) x r = Ok (o', bare l1).
Proof.
  unfold layer_outputForTraining. intros H. apply bind_Ok_inv in H as ((a & b) & E & H). apply bind_Ok_inv in H as ((c & os) & _ & H). injection H as _ <-. cbn [bare l_body l_opts l_in]. rewrite E. cbn. eauto.
Qed.
Lemma bare_weights l : layer_weights (bare l) = layer_weights l. Proof. reflexivity. Qed.
Lemma bare_back opt l e r l1 : layer_backOutput opt l e = Ok (r, l1) -> layer_backOutput opt (bare l) (opts_back (layer_weights l) (l_opts l) e) = Ok (r, bare l1).
Proof. unfold layer_backOutput. cbn zeta. intros H. apply bind_Ok_inv in H as ((a & b) & E & H). injection H as <- <-. cbn [bare l_opts opts_back fold_left l_in l_body]. rewrite E. reflexivity. Qed.
Lemma bare_train opt l e l1 : layer_train opt l e = Ok l1 -> layer_train opt (bare l) (opts_back (layer_weights l) (l_opts l) e) = Ok (bare l1).
Proof. unfold layer_train. cbn zeta. intros H. apply bind_Ok_inv in H as (b & E & H). injection H as <-. cbn [bare l_opts opts_back fold_left l_in l_body]. rewrite E. reflexivity. Qed.
Lemma bare_works l l' : works l l' -> works (bare l) (bare l').
Proof.
  intros H. induction H as [l|l x r o l1 l2 Hx E _ IH|l rand x r o l1 l2 Hx E _ IH|l opt e r l1 l2 He E _ IH|l opt e l1 l2 He E _ IH|l opt e r l1 l2 Hn He E _ IH].
  - apply works_none.
  - destruct (bare_output _ _ _ _ _ E) as (o' & E'). eapply works_output; [|exact E'|exact IH]. exact Hx.
  - destruct (bare_training _ _ _ _ _ _ E) as (o' & E'). eapply works_training; [|exact E'|exact IH]. exact Hx.
  - apply bare_back in E. eapply works_back; [|exact E|exact IH]. rewrite opts_back_length. exact He.
  - apply bare_train in E. eapply works_train; [|exact E|exact IH]. rewrite opts_back_length. exact He.
  - apply bare_back in E. eapply works_pool; [| |exact E|exact IH]; [exact Hn|]. rewrite opts_back_length. exact He.
Qed.
Ltac follow H := repeat (cbv zeta in H |- *; match type of H with
  | bind ?a _ = Ok _ => let E := fresh "E" in let x := fresh "x" in apply bind_Ok_inv in H as (x & E & H); first [rewrite E; cbn [bind] | let T := type of E in match goal with |- bind ?b _ = _ => change b with a; rewrite E; cbn [bind] end]
  | (if ?c then _ else _) = Ok _ => destruct c; try discriminate H
  | match ?c with _ => _ end = Ok _ => destruct c; try discriminate H
  end).
Lemma bare_finish masks ni d b l : Ok (finish masks ni d b) = Ok l -> Ok (finish masks ni (without_opts d) b) = Ok (bare l).
Proof. intros H. assert (finish masks ni d b = l) as <- by congruence. reflexivity. Qed.
Lemma bare_build draws masks d sh l : build_layer draws masks d sh = Ok l -> build_layer draws masks (without_opts d) sh = Ok (bare l).
Proof.
  unfold build_layer, dims, build_conv1D, build_conv2D, build_loc1D, build_loc2D, build_pool1D, build_pool2D. cbn [without_opts d_type d_neurons d_filters d_ksize d_shape d_act d_bias]. intros H. follow H.
  all: exact (bare_finish _ _ _ _ _ H).
Qed.
Lemma bare_of d s l : layer_of d s l -> layer_of (without_opts d) s (bare l).
Proof.
  intros (draws & masks & l0 & B & V & W). exists draws, masks, (bare l0). split; [exact (bare_build _ _ _ _ _ B)|]. split; [exact V|exact (bare_works _ _ W)].
Qed.
End B.

(* ---------- a reset changes neither the outputs nor the sums ---------- *)
Section C.
Context {N : Num}.
Definition no_gru (b : Body) : Prop := match b with BGru _ => False | _ => True end.
Lemma rec_reset_same r x reset v r' : rec_output r x false = Ok (v, r') -> exists r2, rec_output r x reset = Ok (v, r2) /\ r_n r2 = r_n r'.
Proof.
  destruct reset; [|eauto]. unfold rec_output. cbn zeta. cbn [rec_reset r_n r_lastOut r_recErr]. intros H. apply bind_Ok_inv in H as (a & Ea & H). apply bind_Ok_inv in H as (b & Eb & H). apply bind_Ok_inv in H as (c & Ec & H). apply bind_Ok_inv in H as (e & Ee & H).
  rewrite Ea. cbn [bind]. rewrite Eb. cbn [bind]. rewrite Ec. cbn [bind]. rewrite Ee. cbn [bind]. eexists. split; [|].
  - apply (f_equal Ok). assert (Q := H). clear H. assert (G : forall A (p q : A), Ok p = Ok q -> p = q) by (intros; congruence). apply G in Q. apply (f_equal fst) in Q. cbn [fst] in Q. rewrite Q. reflexivity.
  - assert (G : forall A (p q : A), Ok p = Ok q -> p = q) by (intros; congruence). apply G in H. apply (f_equal snd) in H. cbn [snd] in H. rewrite <- H. reflexivity.
Qed.
Lemma each_reset rs x reset : forall i o rs', each_from (fun _ n => rec_output n x false) i rs = Ok (o, rs') -> exists rs2, each_from (fun _ n => rec_output n x reset) i rs = Ok (o, rs2) /\ map r_n rs2 = map r_n rs'.
Proof.
  induction rs as [|r t IH]; intros i o rs' H; cbn [each_from] in *; [injection H as <- <-; eexists; split; reflexivity|].
  apply bind_Ok_inv in H as ((v & r1) & E & H). apply bind_Ok_inv in H as ((vs & t1) & Et & H). cbn [fst snd] in H. assert (o = v :: vs /\ rs' = r1 :: t1) as [-> ->] by (split; congruence).
  destruct (rec_reset_same _ _ reset _ _ E) as (r2 & E2 & H2). destruct (IH _ _ _ Et) as (t2 & Et2 & Ht2). rewrite E2. cbn [bind]. rewrite Et2. cbn [bind fst snd]. eexists. split; [reflexivity|]. cbn [map]. now rewrite H2, Ht2.
Qed.
Lemma body_reset b x reset o b' : no_gru b -> body_output b x false = Ok (o, b') -> exists b2, body_output b x reset = Ok (o, b2) /\ forall k os k' os' n, unit_at (mkLayer k b2 os) n = unit_at (mkLayer k' b' os') n.
Proof.
  intros Hg H. destruct b as [ns|rs|gs|kd f ns]; [| |contradiction|].
  - exists b'. split; [exact H|]. reflexivity.
  - cbn [body_output] in *. unfold each in *. apply bind_Ok_inv in H as ((v & rs') & E & H). assert (v = o /\ BRec rs' = b') as [-> <-] by (split; congruence). destruct (each_reset _ _ reset _ _ _ E) as (rs2 & E2 & H2). rewrite E2. cbn [bind]. eexists. split; [reflexivity|].
    intros. unfold unit_at. cbn [l_body]. rewrite <- !nth_error_map. now rewrite H2.
  - exists b'. split; [exact H|]. reflexivity.
Qed.
Lemma bare_reset rand l x reset o l' : no_gru (l_body l) -> layer_output (bare l) x false = Ok (o, l') -> exists l2, layer_outputForTraining rand (bare l) x reset = Ok (o, l2) /\ forall n, unit_at l2 n = unit_at l' n.
Proof.
  intros Hg H. unfold layer_output in H. apply bind_Ok_inv in H as ((a & b) & E & H). cbn [bare l_opts opts_testing ofold bind l_body l_in] in *. assert (a = o /\ mkLayer (l_in l) b [] = l') as [-> <-] by (split; congruence).
  destruct (body_reset _ _ reset _ _ Hg E) as (b2 & E2 & H2). unfold layer_outputForTraining. cbn [bare l_opts l_body l_in]. rewrite E2. cbn [bind opts_training]. eexists. split; [reflexivity|]. intros n. apply H2.
Qed.
(* the masks drawn by a training pass *)
Definition redraw_one (rand : nat -> bool) (reset : bool) (o : LOpt) : LOpt :=
  match o with ODropout v r mask => ODropout v r (if reset then map rand (seq 0 (List.length mask)) else mask) | _ => o end.
Fixpoint redraw (rand : nat -> nat -> bool) (reset : bool) (i : nat) (os : list LOpt) : list LOpt :=
  match os with [] => [] | o :: t => redraw_one (rand i) reset o :: redraw rand reset (S i) t end.
Definition scaling_opt (o : LOpt) : Prop := match o with ODropout _ _ _ | OMult _ => True | _ => False end.
Lemma redraw_scaling rand reset os : forall i, Forall scaling_opt os -> Forall scaling_opt (redraw rand reset i os).
Proof. induction os as [|o t IH]; intros i H; [constructor|]. inversion H; subst. constructor; [destruct o; assumption|auto]. Qed.
End C.
Local Open Scope R_scope.
Definition km (mask : list bool) (j : nat) : R := if nth j mask true then 1 else 0.
Fixpoint kf (os : list (@LOpt RNum)) (j : nat) : R :=
  match os with [] => 1 | ODropout _ _ mask :: t => km mask j * kf t j | _ :: t => kf t j end.
Fixpoint pm (os : list (@LOpt RNum)) : R := match os with [] => 1 | OMult f :: t => f * pm t | _ :: t => pm t end.
Definition scale (c : nat -> R) (v : list R) : list R := vec (List.length v) (fun j => c j * nth j v 0).
Lemma scale_length c v : List.length (scale c v) = List.length v. Proof. apply vec_length. Qed.
Lemma nth_scale c v j : nth j (scale c v) 0 = c j * nth j v 0.
Proof.
  destruct (Nat.lt_ge_cases j (List.length v)) as [H|H]; [unfold scale; now rewrite nth_vec|]. rewrite !nth_overflow; [lra|exact H|now rewrite scale_length].
Qed.
Lemma scale_of c v v' : List.length v' = List.length v -> (forall j, (j < List.length v)%nat -> nth j v' 0 = c j * nth j v 0) -> v' = scale c v.
Proof. intros HL H. apply (nth_ext _ _ 0 0); [now rewrite scale_length|]. intros j Hj. rewrite nth_scale. apply H. lia. Qed.
Lemma scale_scale c c' v : scale c (scale c' v) = scale (fun j => c j * c' j) v.
Proof. apply scale_of; [now rewrite !scale_length|]. intros j _. rewrite !nth_scale. lra. Qed.
Lemma scale_one v : scale (fun _ => 1) v = v.
Proof. symmetry. apply scale_of; [reflexivity|]. intros. lra. Qed.
Lemma scale_ext c c' v : (forall j, c j = c' j) -> scale c v = scale c' v.
Proof. intros H. apply scale_of; [now rewrite scale_length|]. intros j _. now rewrite nth_scale, H. Qed.
Lemma mulMask_R (v : list R) mask : @mulMask RNum v mask = scale (km mask) v.
Proof.
  apply scale_of; [apply (@mulMask_length RNum)|]. intros j _. revert mask j. induction v as [|x v IH]; intros [|b mask] j; unfold mulMask in *; cbn [zipwith skipn app List.length nth].
  - destruct j; lra.
  - destruct j; cbn; lra.
  - unfold km. destruct j; cbn [nth]; lra.
  - destruct j as [|j]; [unfold km; cbn [nth]; destruct b; cbn [b2f fmul fone fzero RNum fofZ flit]; unfold fone, fzero, fofZ; cbn [flit RNum]; lra|]. rewrite (IH mask j). reflexivity.
Qed.
Lemma opts_training_R rand reset os : forall i (v : list R), Forall scaling_opt os -> @opts_training RNum rand reset i os v = Ok (scale (kf (redraw rand reset i os)) v, redraw rand reset i os).
Proof.
  induction os as [|o t IH]; intros i v H; cbn [opts_training redraw kf]; [now rewrite scale_one|]. inversion H as [|? ? Ho Ht]. destruct o as [p r mask| | |f|]; try contradiction; cbn [opt_training redraw_one bind].
  - rewrite (IH (S i) _ Ht). cbn [bind]. apply (f_equal Ok). f_equal. rewrite mulMask_R, scale_scale. apply scale_ext. intros j. cbn [kf]. lra.
  - rewrite (IH (S i) v Ht). reflexivity.
Qed.
Lemma opts_back_R ws os : forall e : list R, Forall scaling_opt os -> @opts_back RNum ws os e = scale (fun j => pm os * kf os j) e.
Proof.
  unfold opts_back. induction os as [|o t IH]; intros e H; cbn [fold_left kf pm]; [rewrite <- (scale_one e) at 1; apply scale_ext; intros; lra|]. inversion H as [|? ? Ho Ht]. destruct o as [p r mask| | |f|]; try contradiction; cbn [opt_back].
  - rewrite (IH _ Ht), mulMask_R, scale_scale. apply scale_ext. intros j. lra.
  - rewrite (IH _ Ht). replace (map (fun e0 => @fmul RNum e0 f) e) with (scale (fun _ => f) e). { rewrite scale_scale. apply scale_ext. intros j. lra. }
    symmetry. apply scale_of; [apply map_length|]. intros j Hj. rewrite (nth_map_in _ e j 0 0) by exact Hj. cbn [fmul RNum]. lra.
Qed.
Lemma pm_redraw rand reset os : forall i, pm (redraw rand reset i os) = pm os.
Proof. induction os as [|o t IH]; intros i; [reflexivity|]. destruct o; cbn [redraw redraw_one pm]; now rewrite IH. Qed.
