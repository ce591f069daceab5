(* C33, C34, C49: dropout, softmax, regularisers. *)
From Coq Require Import Reals Lra SpecFloat.
From Verif Require Import Base Num Witness ActModel NeuronModel LayerModel NetModel NeuronProofs LayerProofs SafeProofs SafeLayers FactoryModel FactorySpec FactoryProofs
  SafeNet BuildProofs FilterSpec FilterProofs HistProofs FilterProps LayerExamples FactoryProps LOptSpec.
Local Open Scope nat_scope.

Section P.
Context {N : Num}.
Definition same_opt (a b : LOpt) : Prop :=
  match a, b with ODropout v r m, ODropout v' r' m' => v = v' /\ r = r' /\ List.length m = List.length m' | _, _ => a = b end.
Lemma same_opt_refl a : same_opt a a. Proof. destruct a; cbn; auto. Qed.
Lemma same_opt_trans a b c : same_opt a b -> same_opt b c -> same_opt a c.
Proof. destruct a, b; cbn; try discriminate; auto; try (intros [= <-]; auto). intros (-> & -> & E). destruct c; cbn; try discriminate. intros (-> & -> & <-). auto. Qed.
Lemma same_opts_refl l : Forall2 same_opt l l. Proof. induction l; constructor; auto using same_opt_refl. Qed.
Lemma same_opts_trans l1 l2 l3 : Forall2 same_opt l1 l2 -> Forall2 same_opt l2 l3 -> Forall2 same_opt l1 l3.
Proof. intros H. revert l3. induction H; intros l3 H3; inversion H3; subst; constructor; eauto using same_opt_trans. Qed.
Lemma opts_training_same rand reset os : forall i v r os', opts_training rand reset i os v = Ok (r, os') -> Forall2 same_opt os os'.
Proof.
  induction os as [|o t IH]; intros i v r os' H; cbn [opts_training] in H; [injection H as _ <-; constructor|].
  apply bind_Ok_inv in H as ([v1 o1] & E & H). apply bind_Ok_inv in H as ([v2 t1] & E2 & H). injection H as _ <-. constructor; [|eauto].
  destruct o; cbn [opt_training] in E; try (injection E as _ <-; cbn; auto).
  - split; [reflexivity|]. split; [reflexivity|]. destruct reset; [|reflexivity]. now rewrite map_length, seq_length.
  - apply bind_Ok_inv in E as (? & _ & E). injection E as _ <-. reflexivity.
Qed.
Lemma layer_output_opts l x reset o l1 : layer_output l x reset = Ok (o, l1) -> l_opts l1 = l_opts l.
Proof. unfold layer_output. intros H. apply bind_Ok_inv in H as ([a b] & _ & H). apply bind_Ok_inv in H as (? & _ & H). injection H as _ <-. reflexivity. Qed.
Lemma layer_back_opts opt l e r l1 : layer_backOutput opt l e = Ok (r, l1) -> l_opts l1 = l_opts l.
Proof. unfold layer_backOutput. intros H. cbv zeta in H. apply bind_Ok_inv in H as ([a b] & _ & H). injection H as _ <-. reflexivity. Qed.
Lemma layer_train_opts opt l e l1 : layer_train opt l e = Ok l1 -> l_opts l1 = l_opts l.
Proof. unfold layer_train. intros H. cbv zeta in H. apply bind_Ok_inv in H as (b & _ & H). injection H as <-. reflexivity. Qed.
Lemma layer_training_opts rand l x reset o l1 : layer_outputForTraining rand l x reset = Ok (o, l1) -> Forall2 same_opt (l_opts l) (l_opts l1).
Proof. unfold layer_outputForTraining. intros H. apply bind_Ok_inv in H as ([a b] & _ & H). apply bind_Ok_inv in H as ([? ?] & E & H). injection H as _ <-. eapply opts_training_same; exact E. Qed.
Lemma works_opts l l' : works l l' -> Forall2 same_opt (l_opts l) (l_opts l').
Proof.
  intros H. induction H; try apply same_opts_refl.
  - apply layer_output_opts in H0. now rewrite <- H0.
  - eapply same_opts_trans; [eapply layer_training_opts; exact H0|assumption].
  - apply layer_back_opts in H0. now rewrite <- H0.
  - apply layer_train_opts in H0. now rewrite <- H0.
  - apply layer_back_opts in H1. now rewrite <- H1.
Qed.
Lemma mulMask_kept v mask : List.length v = List.length mask -> mulMask v mask = kept mask v.
Proof.
  revert mask. induction v as [|x t IH]; intros [|b mask] H; cbn in H; try discriminate; [reflexivity|].
  unfold mulMask, kept in *. cbn. f_equal. apply IH. now injection H.
Qed.
Lemma mulMask_firsts mask v i : List.length mask <= i -> nth_error (mulMask v mask) i = nth_error v i.
Proof.
  revert v i. induction mask as [|b mask IH]; intros v i Hi; unfold mulMask in *; cbn [List.length] in *.
  - destruct v; reflexivity.
  - destruct v as [|x t]; [reflexivity|]. destruct i as [|i]; [lia|]. cbn. apply IH. lia.
Qed.
(* the layers with one output per neuron *)
Definition one_each (d : LDesc) : Prop := match d_type d with t_full | t_rec | t_gru | t_local => True | _ => False end.
Lemma built_finish draws masks d s l0 : build_layer draws masks d (map Z.of_nat s) = Ok l0 -> exists nin b, l0 = finish masks nin d b.
Proof.
  intros Hb. unfold build_layer in Hb. binds Hb. destruct (map Z.of_nat s); [discriminate|]. destruct (_ <? _)%Z in Hb; [discriminate|].
  destruct (d_type d); unfold dims in Hb; try discriminate.
  all: unfold build_pool1D, build_pool2D, build_loc1D, build_loc2D, build_conv1D, build_conv2D in Hb.
  all: cbv zeta in Hb; repeat match type of Hb with (match ?x with _ => _ end) = _ => destruct x; try discriminate end; binds Hb;
       repeat match type of Hb with (match ?x with _ => _ end) = _ => destruct x; try discriminate end; binds Hb; try (injection Hb as <-; eauto).
Qed.
(* the optimizers a layer has in any state: those of its description *)
Lemma opts_state d s l : layer_of d s l -> Forall (fun x => 0 < x) s -> sane_kernel d -> (forall draws masks l0, built draws masks d s l0 -> supported_pooling l0) ->
  exists masks, Forall2 same_opt (build_opts masks (getNumberOfNeurons l) (d_opts d)) (l_opts l).
Proof.
  intros (draws & masks & l0 & Hb & HV & HW) Hs Hk HP. pose proof Hb as HB. apply build_layer_built in HB; auto. pose proof (built_wf _ _ _ _ _ Hs HB HV (HP _ _ _ HB)) as W0.
  destruct (works_wf _ _ _ _ W0 HW) as (W & SL & SS). apply works_opts in HW. exists masks. assert (E : getNumberOfNeurons l = getNumberOfNeurons l0) by apply SL. rewrite E.
  destruct (built_finish _ _ _ _ _ Hb) as (nin & b & ->). exact HW.
Qed.
Lemma dropout_state d s l p : layer_of d s l -> Forall (fun x => 0 < x) s -> sane_kernel d -> d_type d <> t_pool -> d_opts d = [d_dropout p] ->
  exists mask, l_opts l = [ODropout p (fsub fone p) mask] /\ List.length mask = getNumberOfNeurons l.
Proof.
  intros HL Hs Hk Ht Ho. destruct (opts_state d s l HL Hs Hk) as (masks & HO). { intros ? ? l0 B. destruct B; try congruence; exact I. }
  rewrite Ho in HO. inversion HO as [|? b ? t H1 H2]; subst. cbn in H2. inversion H2; subst. destruct b; cbn in H1; try discriminate. destruct H1 as (<- & <- & E).
  rewrite map_length, seq_length in E. eauto.
Qed.
Lemma inside_works l l' : works_inside l l' -> works l l'.
Proof. intros H. induction H; eauto using works_none, works_output, works_training, works_back, works_train. Qed.
Lemma layer_of_works d s l l' : layer_of d s l -> works l l' -> layer_of d s l'.
Proof. intros (draws & masks & l0 & Hb & HV & HW) H. exists draws, masks, l0. split; [exact Hb|]. split; [exact HV|]. eapply works_trans; eauto. Qed.
Lemma inside_dropout l l' v r m : works_inside l l' -> l_opts l = [ODropout v r m] -> l_opts l' = [ODropout v r m].
Proof.
  intros H. induction H as [|l x reset o l1 l2 Hx E _ IH|l rand x o l1 l2 Hx E _ IH|l opt e r0 l1 l2 He E _ IH|l opt e l1 l2 He E _ IH]; auto; intros Ho; apply IH.
  - apply layer_output_opts in E. congruence.
  - unfold layer_outputForTraining in E. apply bind_Ok_inv in E as ([a b] & _ & E). apply bind_Ok_inv in E as ([? ?] & E1 & E). injection E as _ <-. rewrite Ho in E1. cbn in E1. injection E1 as _ <-. reflexivity.
  - apply layer_back_opts in E. congruence.
  - apply layer_train_opts in E. congruence.
Qed.
Lemma type_wf d s l : layer_of d s l -> Forall (fun x => 0 < x) s -> sane_kernel d -> d_type d <> t_pool -> exists m, wf_layer (cell_count s) l m /\ m = cell_count (getShapeOfOutput l) /\
  (one_each d -> getNumberOfNeurons l = m).
Proof.
  intros HL Hs Hk Ht. destruct (layer_of_wf d s l HL Hs Hk) as (draws & masks & l0 & B & W0 & W & SL & SS). { intros ? ? l0 B. destruct B; try congruence; exact I. }
  exists (cell_count (getShapeOfOutput l0)). split; [exact W|]. destruct (same_layer_shape _ _ SL) as [E1 E2]. split; [now rewrite E1|]. intros H1. rewrite E2.
  destruct W0 as (_ & _ & _ & WB & _). unfold getNumberOfNeurons, layer_weights. unfold one_each in H1.
  destruct B; cbn [finish l_body body_weights wf_body wf_filter] in *; rewrite ?map_length; try (rewrite H in H1; contradiction); try (destruct WB as [WB _]; congruence); destruct WB as [_ WB]; try (decompose [and] WB; congruence).
Qed.
Lemma kept_length mask e : List.length e = List.length mask -> List.length (kept mask e) = List.length e.
Proof. intros H. unfold kept. rewrite map_length, combine_length. lia. Qed.
Lemma bare_wf k l m : wf_layer k l m -> wf_layer k (bare l) m.
Proof. intros H. exact H. Qed.
Lemma through_state k l m v r mask : wf_layer k l m -> getNumberOfNeurons l = m -> List.length mask = m -> l_opts l = [ODropout v r mask] -> trains_through mask l.
Proof.
  intros W Hn Hm Ho. pose proof (bare_wf _ _ _ W) as WB. pose proof W as (Hi & _ & _ & WBo & _). split; [|split].
  - intros rand x Hx. destruct (layer_output_wf k (bare l) m x false WB) as (raw & b & E & L & _); [lia|]. exists raw, b. unfold layer_outputForTraining. rewrite Ho.
    unfold layer_output in E. cbn [bare l_body l_opts] in E. destruct (body_output (l_body l) x false) as [[o1 b1]| |] eqn:Eb; cbn [bind opts_testing ofold] in E; try discriminate. injection E as -> <-. cbn [bind opts_training opt_training]. rewrite mulMask_kept by lia.
    eexists. split; [|split; [lia|reflexivity]]. unfold layer_output. cbn [bare l_body l_opts l_in]. rewrite Eb. reflexivity.
  - intros opt e He. assert (Hb : backable (l_body (bare l)) m (kept mask e)) by (eapply backable_full; [exact WBo|]; rewrite kept_length; lia).
    destruct (layer_back_wf opt k (bare l) m (kept mask e) WB Hb) as (r0 & b & E & _). exists r0, b. unfold layer_backOutput in E |- *. rewrite Ho. cbn [opts_back fold_left opt_back bare l_opts l_in l_body] in *. rewrite mulMask_kept by lia.
    destruct (body_back opt (l_in l) (l_body l) (kept mask e)) as [[a c]| |]; cbn [bind] in *; try discriminate. injection E as <- <-. eexists. split; [reflexivity|]. split; reflexivity.
  - intros opt e He. assert (Hb : getNumberOfNeurons (bare l) <= List.length (kept mask e)) by (rewrite kept_length by lia; change (getNumberOfNeurons (bare l)) with (getNumberOfNeurons l); lia).
    destruct (layer_train_wf opt k (bare l) m (kept mask e) WB Hb) as (b & E & _). exists b. unfold layer_train in E |- *. rewrite Ho. cbn [opts_back fold_left opt_back bare l_opts l_in l_body] in *. rewrite mulMask_kept by lia.
    destruct (body_train opt (l_body l) (kept mask e)) as [c| |]; cbn [bind] in *; try discriminate. injection E as <-. eexists. split; [reflexivity|]. split; reflexivity.
Qed.

(* A dropout of rate p, on a layer with one output per neuron, in any state:
   - test outputs are those of the bare layer times 1 - p;
   - there is one mask through which outputs and errors pass in training, kept by everything but a training output that starts a sequence;
   - such an output draws a new mask and uses it at once.
   Missing: convolutions and poolings, see the refutation. *)
Theorem C33_dropout_partial : forall (d : LDesc) (s : list nat) (l : Layer) (p : F),
  layer_of d s l -> Forall (fun x => 0 < x) s -> sane_kernel d -> one_each d -> d_opts d = [d_dropout p] ->
  (forall x reset, List.length x = cell_count s -> exists raw b l1, layer_output (bare l) x reset = Ok (raw, b) /\
     layer_output l x reset = Ok (map (fun y => fmul y (fsub fone p)) raw, l1)) /\
  (exists mask, List.length mask = cell_count (getShapeOfOutput l) /\ forall l', works_inside l l' -> trains_through mask l') /\
  (forall rand x, List.length x = cell_count s -> exists raw b l1, layer_output (bare l) x true = Ok (raw, b) /\
     let mask := map (rand 0) (seq 0 (List.length raw)) in
     layer_outputForTraining rand l x true = Ok (kept mask raw, l1) /\ forall l', works_inside l1 l' -> trains_through mask l').
Proof.
  intros d s l p HL Hs Hk H1 Ho. assert (Ht : d_type d <> t_pool) by (intros E; unfold one_each in H1; now rewrite E in H1).
  destruct (type_wf d s l HL Hs Hk Ht) as (m & W & Em & Hn). specialize (Hn H1). destruct (dropout_state d s l p HL Hs Hk Ht Ho) as (mask & Eo & Lm). rewrite Hn in Lm.
  pose proof (bare_wf _ _ _ W) as WB. assert (Hi : l_in l = cell_count s) by apply W.
  assert (Hin : forall l1 mask1 l', works l l1 -> l_opts l1 = [ODropout p (fsub fone p) mask1] -> List.length mask1 = m -> works_inside l1 l' -> trains_through mask1 l').
  { intros l1 mask1 l' Hw E1 Lm1 Hin. pose proof (inside_dropout _ _ _ _ _ Hin E1) as E2. apply inside_works in Hin. pose proof (works_trans _ _ _ Hw Hin) as Hw2.
    destruct (works_wf _ _ _ _ W Hw2) as (W2 & S2 & _). destruct (same_layer_shape _ _ S2) as [_ En]. eapply through_state; [exact W2|lia|exact Lm1|exact E2]. }
  split; [|split].
  - intros x reset Hx. destruct (layer_output_wf _ (bare l) m x reset WB Hx) as (raw & b & E & _). exists raw, b. unfold layer_output in E |- *. rewrite Eo. cbn [bare l_body l_opts l_in opts_testing ofold opt_testing] in *.
    destruct (body_output (l_body l) x reset) as [[o1 b1]| |]; cbn [bind] in *; try discriminate. injection E as -> <-. eauto.
  - exists mask. split; [lia|]. intros l'. eapply Hin; [apply works_none|exact Eo|exact Lm].
  - intros rand x Hx. destruct (layer_output_wf _ (bare l) m x true WB Hx) as (raw & b & E & L & _). exists raw, b.
    assert (Et : exists b1, layer_outputForTraining rand l x true = Ok (kept (map (rand 0) (seq 0 (List.length raw))) raw, mkLayer (l_in l) b1 [ODropout p (fsub fone p) (map (rand 0) (seq 0 (List.length raw)))])).
    { unfold layer_outputForTraining, layer_output in *. rewrite Eo. cbn [bare l_body l_opts l_in opts_testing ofold] in *. destruct (body_output (l_body l) x true) as [[o1 b1]| |]; cbn [bind] in *; try discriminate. injection E as -> <-.
      cbn [opts_training opt_training]. rewrite Lm, <- L. rewrite mulMask_kept by (now rewrite map_length, seq_length). cbn [bind]. eauto. }
    destruct Et as (b1 & Et). eexists. split; [exact E|]. split; [exact Et|]. intros l'. eapply Hin; [|reflexivity|rewrite map_length, seq_length; exact L].
    eapply works_training; [|exact Et|apply works_none]. lia.
Qed.

(* On a convolution only the outputs of the first position can be dropped: whatever the draws, every other output is what the bare layer gives. *)
Theorem C33_convolution_refuted : forall (d : LDesc) (s : list nat) (f : nat) (l : Layer) (p : F),
  layer_of d s l -> Forall (fun x => 0 < x) s -> sane_kernel d -> d_type d = t_conv -> d_filters d = Z.of_nat f -> d_opts d = [d_dropout p] ->
  forall rand x reset, List.length x = cell_count s -> exists raw b out l1, layer_output (bare l) x reset = Ok (raw, b) /\ List.length raw = cell_count (getShapeOfOutput l) /\
    layer_outputForTraining rand l x reset = Ok (out, l1) /\ forall i, f <= i -> nth_error out i = nth_error raw i.
Proof.
  intros d s f l p HL Hs Hk Ht Hf Ho rand x reset Hx. assert (Ht' : d_type d <> t_pool) by congruence.
  destruct (type_wf d s l HL Hs Hk Ht') as (m & W & Em & _). destruct (dropout_state d s l p HL Hs Hk Ht' Ho) as (mask & Eo & Lm).
  assert (Hn : getNumberOfNeurons l = f).
  { destruct (layer_of_wf d s l HL Hs Hk) as (draws & masks & l0 & B & W0 & _ & SL & _). { intros ? ? l0 B. destruct B; try congruence; exact I. }
    destruct (same_layer_shape _ _ SL) as [_ ->]. unfold getNumberOfNeurons, layer_weights. destruct B; try congruence; cbn [finish l_body body_weights]; rewrite map_length;
    match goal with HB : build_neurons _ _ = Ok _ |- _ => apply build_neurons_inv in HB as [LL _] end; lia. }
  destruct (layer_output_wf _ (bare l) m x reset (bare_wf _ _ _ W) Hx) as (raw & b & E & L & _). exists raw, b.
  unfold layer_outputForTraining, layer_output in *. rewrite Eo. cbn [bare l_body l_opts l_in opts_testing ofold] in *. destruct (body_output (l_body l) x reset) as [[o1 b1]| |]; cbn [bind] in *; try discriminate. injection E as -> <-.
  cbn [opts_training opt_training bind]. eexists _, _. split; [reflexivity|]. split; [lia|]. split; [reflexivity|]. intros i Hi. apply mulMask_firsts. destruct reset; rewrite ?map_length, ?seq_length; lia.
Qed.
End P.
Print Assumptions C33_dropout_partial.
Print Assumptions C33_convolution_refuted.
(* a dense layer and a convolution of two positions with dropout 1/4 *)
Definition dropout_dense := @FullyConnected N32 3 a_ReLU [@d_dropout N32 (b32q 1 4)].
Definition dropout_conv := @Convolution N32 2 3 a_ReLU [@d_dropout N32 (b32q 1 4)].
Example dropout_dense_example : (exists l, @layer_of N32 dropout_dense [4] l) /\ one_each dropout_dense. Proof. split; [layer_example dropout_dense [4] (vec 4)|exact I]. Qed.
Example dropout_conv_example : (exists l, @layer_of N32 dropout_conv [4] l). Proof. layer_example dropout_conv [4] (vec 4). Qed.

(* ---------- C49 ---------- *)
Lemma fold_sum_R (g : R -> R) (l : list R) : forall a, fold_left (fun s w => (s + g w)%R) l a = (a + Rsum (map g l))%R.
Proof. induction l as [|x t IH]; intros a; cbn; [lra|]. rewrite IH. lra. Qed.
Lemma fofnat_R n : @fofnat RNum n = INR n.
Proof. unfold fofnat, fofZ. cbn. rewrite <- INR_IZR_INZ. lra. Qed.
Definition plain_regulariser (o : @odesc RNum) : Prop := match o with d_l1 _ | d_l2 _ | d_mult _ => True | _ => False end.
Lemma opts_back_corrected o masks n os ws (e : list R) : plain_regulariser o -> Forall2 same_opt (build_opts masks n [o]) os ->
  @opts_back RNum ws os e = map (corrected o ws) e.
Proof.
  intros Hp H. inversion H as [|? b ? t H1 H2]; subst. cbn in H2. inversion H2; subst. destruct o; cbn in Hp; try contradiction; destruct b; cbn in H1; try discriminate; injection H1 as <-; cbn [opts_back fold_left opt_back]; apply map_ext; intros y; cbn [corrected].
  - unfold averageOfAbs. rewrite fofnat_R. change (y + fold_left (fun s w => s + Rabs w) (concat ws) (@fzero RNum) / INR (List.length ws) * v = y + v * Rsum (map Rabs (concat ws)) / INR (List.length ws))%R. rewrite fold_sum_R. unfold fzero, fofZ. cbn. unfold Rdiv. ring.
  - unfold averageOfSquare. rewrite fofnat_R. change (y + fold_left (fun s w => s + w * w) (concat ws) (@fzero RNum) / INR (List.length ws) * v = y + v * Rsum (map (fun w => w ^ 2) (concat ws)) / INR (List.length ws))%R. rewrite (fold_sum_R (fun w => w * w)%R).
    assert (E : Rsum (map (fun w => w * w)%R (concat ws)) = Rsum (map (fun w => w ^ 2)%R (concat ws))) by (f_equal; apply map_ext; intros; ring). rewrite E. unfold fzero, fofZ. cbn [flit RNum]. unfold Rdiv. ring.
  - reflexivity.
Qed.
Lemma opts_plain_outputs o masks n os : plain_regulariser o -> Forall2 same_opt (build_opts masks n [o]) os ->
  (forall v, @opts_testing RNum os v = Ok v) /\ (forall rand reset v, @opts_training RNum rand reset 0 os v = Ok (v, os)).
Proof.
  intros Hp H. inversion H as [|? b ? t H1 H2]; subst. cbn in H2. inversion H2; subst. destruct o; cbn in Hp; try contradiction; destruct b; cbn in H1; try discriminate; split; reflexivity.
Qed.
(* L1, L2 and the error multiplier, alone on any layer in any state: outputs are those of the bare layer, and the errors used for
   the backward pass and for the update of the weights are exactly the corrected ones. *)
Theorem C49_regularisers : forall (d : @LDesc RNum) (s : list nat) (l : @Layer RNum) (o : odesc),
  @layer_of RNum d s l -> Forall (fun x => 0 < x) s -> sane_kernel d -> d_type d <> t_pool -> d_opts d = [o] -> plain_regulariser o ->
  (forall x reset, List.length x = cell_count s -> exists out b l1 l2, layer_output (bare l) x reset = Ok (out, b) /\ layer_output l x reset = Ok (out, l1) /\
     forall rand, layer_outputForTraining rand l x reset = Ok (out, l2)) /\
  (forall opt e, List.length e = cell_count (getShapeOfOutput l) -> exists r b l1, layer_backOutput opt (bare l) (map (corrected o (layer_weights l)) e) = Ok (r, b) /\
     layer_backOutput opt l e = Ok (r, l1) /\ layer_weights l1 = layer_weights b) /\
  (forall opt e, getNumberOfNeurons l <= List.length e -> exists b l1, layer_train opt (bare l) (map (corrected o (layer_weights l)) e) = Ok b /\
     layer_train opt l e = Ok l1 /\ layer_weights l1 = layer_weights b).
Proof.
  intros d s l o HL Hs Hk Ht Ho Hp. destruct (type_wf d s l HL Hs Hk Ht) as (m & W & Em & _).
  destruct (opts_state d s l HL Hs Hk) as (masks & HO). { intros ? ? l0 B. destruct B; try congruence; exact I. } rewrite Ho in HO.
  pose proof (bare_wf _ _ _ W) as WB. destruct (opts_plain_outputs o _ _ _ Hp HO) as [Ht1 Ht2]. assert (Hb1 := fun ws e => opts_back_corrected o _ _ _ ws e Hp HO). pose proof W as (_ & _ & _ & WBo & _).
  split; [|split].
  - intros x reset Hx. destruct (layer_output_wf _ (bare l) m x reset WB Hx) as (out & b & E & _). exists out, b. unfold layer_output, layer_outputForTraining in *. cbn [bare l_body l_opts l_in opts_testing ofold] in E |- *.
    destruct (body_output (l_body l) x reset) as [[o1 b1]| |]; cbn [bind] in *; try discriminate. injection E as -> <-. rewrite Ht1. cbn [bind]. eexists _, _. split; [reflexivity|]. split; [reflexivity|]. intros rand. rewrite Ht2. reflexivity.
  - intros opt e He. assert (Hb : backable (l_body (bare l)) m (map (corrected o (layer_weights l)) e)) by (eapply backable_full; [exact WBo|]; rewrite map_length; lia).
    destruct (layer_back_wf opt _ (bare l) m _ WB Hb) as (r & b & E & _). exists r, b. unfold layer_backOutput in E |- *. cbv zeta in *. cbn [bare l_opts l_in l_body opts_back fold_left] in *. rewrite Hb1.
    destruct (body_back opt (l_in l) (l_body l) _) as [[a c]| |]; cbn [bind] in *; try discriminate. injection E as <- <-. eexists. split; [reflexivity|]. split; reflexivity.
  - intros opt e He. assert (Hb : getNumberOfNeurons (bare l) <= List.length (map (corrected o (layer_weights l)) e)) by (rewrite map_length; exact He).
    destruct (layer_train_wf opt _ (bare l) m _ WB Hb) as (b & E & _). exists b. unfold layer_train in E |- *. cbv zeta in *. cbn [bare l_opts l_in l_body opts_back fold_left] in *. rewrite Hb1.
    destruct (body_train opt (l_body l) _) as [c| |]; cbn [bind] in *; try discriminate. injection E as <-. eexists. split; [reflexivity|]. split; reflexivity.
Qed.
Print Assumptions C49_regularisers.

(* ---------- C34 ---------- *)
Local Open Scope R_scope.
Lemma Rsum_pos l : Forall (fun x => 0 < x) l -> l <> [] -> 0 < Rsum l.
Proof. intros H. induction H as [|x t Hx Ht IH]; [congruence|]. intros _. cbn. destruct t; cbn in *; [lra|]. assert (0 < r + Rsum t) by (apply IH; congruence). lra. Qed.
Lemma Rsum_scale c l : Rsum (map (fun x => x / c) l) = Rsum l / c.
Proof. induction l as [|x t IH]; cbn; [unfold Rdiv; ring|]. rewrite IH. unfold Rdiv. ring. Qed.
Lemma Rsum_ge l x : Forall (fun x => 0 < x) l -> In x l -> x <= Rsum l.
Proof.
  intros H. induction H as [|y t Hy Ht IH]; cbn; [contradiction|]. intros [->|Hi].
  - destruct t; cbn in *; [lra|]. pose proof (Rsum_pos (r :: t) Ht ltac:(congruence)). cbn in *. lra.
  - specialize (IH Hi). lra.
Qed.
(* the formula *)
Lemma softmax_formula (v : list R) : v <> [] -> @computeSoftmax RNum v = Ok (map (fun x => exp x / Rsum (map exp v)) v).
Proof.
  intros Hv. destruct v as [|x t]; [congruence|]. unfold computeSoftmax. set (mx := @fold_left (@F RNum) (@F RNum) (@fmax RNum) t x). cbv zeta. f_equal. rewrite map_map.
  change (map (fun y : R => exp (y - mx) / fold_left (fun s w => s + exp w) (map (fun y : R => y - mx) (x :: t)) (@fzero RNum)) (x :: t) = map (fun y => exp y / Rsum (map exp (x :: t))) (x :: t)).
  rewrite fold_sum_R. rewrite map_map. assert (E : Rsum (map (fun y => exp (y - mx)) (x :: t)) = Rsum (map exp (x :: t)) / exp mx).
  { rewrite <- Rsum_scale, map_map. f_equal. apply map_ext. intros y. unfold Rminus. rewrite exp_plus, exp_Ropp. reflexivity. }
  rewrite E. apply map_ext. intros y. unfold Rminus. rewrite exp_plus, exp_Ropp. unfold fzero, fofZ. cbn [flit RNum].
  assert (P : 0 < Rsum (map exp (x :: t))) by (apply Rsum_pos; [apply Forall_forall; intros z Hz; apply in_map_iff in Hz as (w & <- & _); apply exp_pos|discriminate]).
  pose proof (exp_pos mx). field. split; lra.
Qed.
(* outputs in ]0,1], of sum 1, in the order of the inputs; adding a constant to all of them changes nothing *)
Theorem C34_softmax : forall (v : list R), v <> [] -> exists w, @computeSoftmax RNum v = Ok w /\ List.length w = List.length v /\
  (forall x, In x w -> 0 < x <= 1) /\ Rsum w = 1 /\
  (forall i j a b a' b', nth_error v i = Some a -> nth_error v j = Some b -> nth_error w i = Some a' -> nth_error w j = Some b' -> (a < b <-> a' < b')) /\
  (forall c, @computeSoftmax RNum (map (fun x => x + c) v) = Ok w).
Proof.
  intros v Hv. rewrite softmax_formula by exact Hv. eexists. split; [reflexivity|].
  assert (Ha : Forall (fun x => 0 < x) (map exp v)) by (apply Forall_forall; intros z Hz; apply in_map_iff in Hz as (w & <- & _); apply exp_pos).
  assert (P : 0 < Rsum (map exp v)) by (apply Rsum_pos; [exact Ha|destruct v; [congruence|discriminate]]).
  split; [now rewrite map_length|]. split; [|split; [|split]].
  - intros x Hx. apply in_map_iff in Hx as (y & <- & Hy). split; [apply Rdiv_lt_0_compat; [apply exp_pos|exact P]|]. apply Rmult_le_reg_r with (Rsum (map exp v)); [exact P|]. unfold Rdiv. rewrite Rmult_assoc, Rinv_l by lra.
    pose proof (Rsum_ge _ (exp y) Ha (in_map exp _ _ Hy)). lra.
  - rewrite <- (map_map exp (fun x => x / Rsum (map exp v))), Rsum_scale. unfold Rdiv. apply Rinv_r. lra.
  - intros i j a b a' b' Hi Hj Hi' Hj'. rewrite nth_error_map, Hi in Hi'. rewrite nth_error_map, Hj in Hj'. injection Hi' as <-. injection Hj' as <-. split; intros H.
    + apply Rmult_lt_compat_r; [now apply Rinv_0_lt_compat|]. now apply exp_increasing.
    + apply exp_lt_inv. apply Rmult_lt_reg_r with (/ Rsum (map exp v)); [now apply Rinv_0_lt_compat|exact H].
  - intros c. rewrite softmax_formula by (destruct v; [congruence|discriminate]). f_equal. rewrite !map_map.
    assert (E : Rsum (map (fun x => exp (x + c)) v) = Rsum (map exp v) / / exp c).
    { rewrite <- Rsum_scale, map_map. f_equal. apply map_ext. intros y. rewrite exp_plus. unfold Rdiv. rewrite Rinv_inv. reflexivity. }
    rewrite E. apply (f_equal Ok). apply map_ext. intros y. rewrite exp_plus. pose proof (exp_pos c). field. lra.
Qed.
Print Assumptions C34_softmax.
(* a layer with a softmax gives the softmax of what the bare layer gives, at test and in training; errors pass unchanged *)
Theorem C34_softmax_layer : forall (d : @LDesc RNum) (s : list nat) (l : @Layer RNum),
  @layer_of RNum d s l -> Forall (fun x => (0 < x)%nat) s -> sane_kernel d -> d_type d <> t_pool -> d_opts d = [d_softmax] ->
  forall x reset, List.length x = cell_count s -> exists raw b out l1 l2, layer_output (bare l) x reset = Ok (raw, b) /\ raw <> [] /\ computeSoftmax raw = Ok out /\
    layer_output l x reset = Ok (out, l1) /\ forall rand, layer_outputForTraining rand l x reset = Ok (out, l2).
Proof.
  intros d s l HL Hs Hk Ht Ho x reset Hx. destruct (type_wf d s l HL Hs Hk Ht) as (m & W & Em & _).
  destruct (opts_state d s l HL Hs Hk) as (masks & HO). { intros ? ? l0 B. destruct B; try congruence; exact I. } rewrite Ho in HO.
  assert (Eo : l_opts l = [OSoftmax]).
  { inversion HO as [|? o ? t H1 H2]; subst. cbn in H2. inversion H2; subst. destruct o; cbn in H1; try discriminate. reflexivity. }
  pose proof W as (_ & _ & Hm & _). destruct (layer_output_wf _ (bare l) _ x reset (bare_wf _ _ _ W) Hx) as (raw & b & E & Lr & _). exists raw, b.
  assert (Hr : raw <> []) by (intros ->; cbn in Lr; lia). destruct (C34_softmax raw Hr) as (w & Ew & _). exists w. change (@F RNum) with R in *.
  unfold layer_output, layer_outputForTraining in *. rewrite Eo. cbn [bare l_body l_opts l_in opts_testing ofold opts_training opt_testing opt_training] in E |- *.
  destruct (body_output (l_body l) x reset) as [[o1 b1]| |]; cbn [bind] in *; try discriminate. injection E as -> <-. rewrite Ew. cbn [bind].
  eexists _, _. split; [reflexivity|]. split; [exact Hr|]. split; [reflexivity|]. split; [reflexivity|]. intros rand. reflexivity.
Qed.
Print Assumptions C34_softmax_layer.
Local Open Scope nat_scope.
(* a dense layer of 2 neurons on 3 inputs over the reals, with any list of optimizers *)
Lemma real_dense_layer os : exists l, @layer_of RNum (@FullyConnected RNum 2 a_sigmoid os) [3] l.
Proof.
  destruct (C26_dense_accepted (fun _ _ _ _ => 1%R) (fun _ _ _ => true) [3%Z] [(2%Z, a_sigmoid, os)] (1/100)%R (9/10)%R) as (net & E); try lra; try (intros; lra); try (cbn; lia); try (repeat constructor; cbn; lia); try congruence.
  - assert (L : layers_of [@FullyConnected RNum 2 a_sigmoid os] [3] (nn_layers net)).
    { eapply network_layers with (net := net) (lr := (1/100)%R) (m := (9/10)%R); [exact E|repeat constructor; lia|repeat constructor| |apply uses_none].
      apply construct_inv in E as (d0 & r & Er & _ & Hb & _). injection Er as <- <-. cbn [map build_rest] in Hb. apply bind_Ok_inv in Hb as (a & Ha & Hb). apply bind_Ok_inv in Hb as (? & Hn & Hb). injection Hn as <-. injection Hb as <-.
      constructor; [|constructor]. unfold build_layer in Ha. cbn [d_type FullyConnected fst snd] in Ha. apply bind_Ok_inv in Ha as (? & _ & Ha). cbn [map d_shape Input] in Ha. destruct (_ <? _)%Z in Ha; [discriminate|]. destruct (_ <=? _)%Z in Ha; [discriminate|]. binds Ha. injection Ha as <-. exact I. }
    destruct (nn_layers net) as [|l t]; [contradiction|]. cbn [layers_of] in L. exists l. apply L.
Qed.
Example C49_hypotheses : exists l, @layer_of RNum (@FullyConnected RNum 2 a_sigmoid [@d_l1 RNum (1/10)%R]) [3] l. Proof. apply real_dense_layer. Qed.
Example C34_hypotheses : exists l, @layer_of RNum (@FullyConnected RNum 2 a_sigmoid [@d_softmax RNum]) [3] l. Proof. apply real_dense_layer. Qed.
