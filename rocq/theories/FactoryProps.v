(* C25, C26, C27: networks built from layer descriptions. *)
From Coq Require Import SpecFloat Reals Lra.
From Verif Require Import Base Num Witness NumOrder ActModel NeuronModel LayerModel NetModel NeuronProofs LayerProofs SafeProofs SafeLayers
  FactoryModel FactorySpec FactoryProofs SafeNet BuildProofs.
Local Open Scope nat_scope.

(* ================= C25 =================
   Whatever the arithmetic, the initial weights and the history: a network the constructor accepts (positive input dimensions, no
   negative kernel size, poolings of the supported kind) computes outputs without any out-of-bounds access, every layer gives
   exactly the number of values its shape announces and the next one takes, and training steps are safe too unless the last layer
   is a convolution with several positions. *)
Theorem C25_partial : forall {N : Num} draws masks ds lr m net,
  construct draws masks ds lr m = Ok net -> sane_descriptions ds -> Forall supported_pooling (nn_layers net) ->
  exists inputs outputs,
    product (d_shape (hd (Input []) ds)) = Ok (Z.of_nat inputs) /\ net_numberOfInputs net = Ok inputs /\
    (exists l, lgetZ (nn_layers net) (Z.of_nat (List.length (nn_layers net)) - 1) = Ok l /\ outputs = cell_count (getShapeOfOutput l)) /\
    sizes_chain inputs (nn_layers net) /\
    forall net', uses inputs net net' ->
      map getShapeOfOutput (nn_layers net') = map getShapeOfOutput (nn_layers net) /\ sizes_chain inputs (nn_layers net') /\
      (forall x reset, List.length x = inputs -> exists o net2, net_output net' x reset = Ok (o, net2) /\ List.length o = outputs) /\
      (forall rand x reset, List.length x = inputs -> exists o net2, net_outputForTraining rand net' x reset = Ok (o, net2) /\ List.length o = outputs) /\
      (forall x, List.length x = inputs -> exists os net2, getLayerOutputs net' x = Ok (os, net2) /\
         Forall2 (fun l o => List.length o = cell_count (getShapeOfOutput l)) (nn_layers net') os) /\
      (trainable net -> forall rand x d reset, List.length x = inputs -> net_numberOfOutputs net = Ok (List.length d) ->
         exists net2, trainOnce rand net' x d reset = Ok net2).
Proof.
  intros N draws masks ds lr m net H Hs HP. destruct (construct_wf _ _ _ _ _ _ H Hs HP) as (k & mm & W & Hp). exists k, mm.
  split; [exact Hp|]. pose proof W as [Hne WC]. pose proof (wf_sizes _ _ _ WC) as SC.
  split. { unfold net_numberOfInputs. destruct (nn_layers net) as [|a t]; [congruence|]. cbn [lget nth_error bind]. destruct SC as [-> _]. reflexivity. }
  split. { destruct (nn_layers net) as [|a t]; [congruence|]. rewrite lget_last. eexists. split; [reflexivity|].
    destruct (wf_chain_last _ _ _ _ WC) as (k' & _ & _ & _ & _ & HS). exact HS. }
  split; [exact SC|]. intros net' U. destruct (uses_wf k mm net net' W U) as [W' S]. split.
  { clear -S. induction S as [|a b t u Hab _ IH]; cbn; auto. destruct (same_layer_shape _ _ Hab) as [E _]. now rewrite E, IH. }
  split. { destruct W' as [_ WC']. eapply wf_sizes; eauto. }
  split. { intros x reset Hx. destruct (net_output_wf k mm net' x reset W' Hx) as (o & n2 & E & L & _). eauto. }
  split. { intros rand x reset Hx. destruct (net_training_wf rand k mm net' x reset W' Hx) as (o & n2 & E & L & _). eauto. }
  split. { intros x Hx. destruct (getLayerOutputs_wf k mm net' x W' Hx) as (os & n2 & E & _ & _ & F2). eauto. }
  intros T rand x d reset Hx Hd. destruct (trainOnce_wf rand k mm net' x d reset W' (trainable_same _ _ S T) Hx) as (n2 & E & _); [|eauto].
  rewrite <- Hd. unfold net_numberOfOutputs. clear -S Hne. inversion S as [E1 E2|a a' t t' Ha Ht E1 E2]; [symmetry in E1; contradiction|].
  rewrite !lget_last. cbn [bind]. f_equal. apply same_layer_shape. now apply same_last.
Qed.
Print Assumptions C25_partial.

(* a convolution, a pooling, a recurrent layer and two dense layers, accepted and in the scope of the theorem *)
Definition zdraws : nat -> nat -> nat -> nat -> @F N32 := fun _ _ _ _ => b32 0.
Definition nomasks : nat -> nat -> nat -> bool := fun _ _ _ => true.
Definition demo : list (@LDesc N32) :=
  [@Input N32 [2; 4; 5]%Z; @Convolution N32 2 2 a_ReLU []; @MaxPooling N32 2; @FullyConnected N32 3 a_sigmoid []; @Recurrence N32 2 a_tanh []; @GruLayer N32 2 []; @FullyConnected N32 2 a_identity [@d_softmax N32]].
Definition pool_okb (l : @Layer N32) : bool :=
  match l_body l with
  | BFilter Pool1D f _ => nth 0 (f_shapeIn f) 0 =? 1
  | BFilter Pool2D f _ => nth 1 (f_shapeOut f) 0 <=? nth 2 (f_shapeOut f) 0
  | _ => true
  end.
Lemma pool_okb_ok ls : forallb pool_okb ls = true -> Forall (@supported_pooling N32) ls.
Proof.
  intros H. rewrite forallb_forall in H. apply Forall_forall. intros l Hl. specialize (H l Hl).
  unfold pool_okb in H. unfold supported_pooling. destruct (l_body l) as [| | |[] ? ?]; auto; [now apply Nat.eqb_eq|now apply Nat.leb_le].
Qed.
Example C25_hypotheses : exists net, @construct N32 zdraws nomasks demo (b32q 1 100) (b32q 9 10) = Ok net /\
  sane_descriptions demo /\ Forall (@supported_pooling N32) (nn_layers net) /\ trainable net /\ List.length (nn_layers net) = 6.
Proof.
  by_compute (run_check (@construct N32 zdraws nomasks demo (b32q 1 100) (b32q 9 10)) (fun net => (List.length (nn_layers net) =? 6) && forallb pool_okb (nn_layers net)
    && match nn_layers net with a :: b :: t => getNumberOfNeurons (last (b :: t) a) =? cell_count (getShapeOfOutput (last (b :: t) a)) | _ => false end)).
  exists w. split; [exact E|]. split.
  { split; [repeat constructor|]. repeat constructor; cbn; lia. }
  split; [now apply pool_okb_ok|]. split; [|now apply Nat.eqb_eq].
  unfold trainable. destruct (nn_layers w) as [|a [|b t]]; auto. left. now apply Nat.eqb_eq.
Qed.

(* Max pooling over several channels of a 1-D input: accepted, but gives 2 values where its shape announces 4. *)
Theorem C25_pooling1D_refuted : exists ds net x o net',
  @construct N32 zdraws nomasks ds (b32q 1 100) (b32 0) = Ok net /\ sane_descriptions ds /\
  net_numberOfInputs net = Ok (List.length x) /\ @net_output N32 net x true = Ok (o, net') /\
  (exists l, nn_layers net = [l] /\ List.length o <> cell_count (getShapeOfOutput l)).
Proof.
  exists [@Input N32 [2; 4]%Z; @MaxPooling N32 2].
  by_compute (run_check (@construct N32 zdraws nomasks [@Input N32 [2; 4]%Z; @MaxPooling N32 2] (b32q 1 100) (b32 0)) (fun net =>
    run_check (@net_numberOfInputs N32 net) (fun i => (i =? 8) && run_check (@net_output N32 net (repeat (b32 1) 8) true) (fun on =>
      match nn_layers net with [l] => negb (List.length (fst on) =? cell_count (getShapeOfOutput l)) | _ => false end)))).
  destruct w1 as [o net']. exists w, (repeat (b32 1) 8), o, net'. apply Nat.eqb_eq in K. split; [exact E|]. split; [split; repeat constructor; cbn; lia|].
  rewrite E0. subst w0. split; [reflexivity|]. split; [exact E1|]. destruct (nn_layers w) as [|l [|? ?]]; try discriminate. exists l. split; [reflexivity|].
  intros Heq. apply negb_true_iff, Nat.eqb_neq in H. apply H. exact Heq.
Qed.
Print Assumptions C25_pooling1D_refuted.
(* Max pooling of an image wider than high: accepted, but computing the output reads inputs[-1]. *)
Theorem C25_pooling2D_refuted : exists ds net x,
  @construct N32 zdraws nomasks ds (b32q 1 100) (b32 0) = Ok net /\ sane_descriptions ds /\
  net_numberOfInputs net = Ok (List.length x) /\ @net_output N32 net x true = UB.
Proof.
  exists [@Input N32 [1; 4; 2]%Z; @MaxPooling N32 2].
  by_compute (run_check (@construct N32 zdraws nomasks [@Input N32 [1; 4; 2]%Z; @MaxPooling N32 2] (b32q 1 100) (b32 0)) (fun net =>
    run_check (@net_numberOfInputs N32 net) (fun i => (i =? 8) && is_ub (@net_output N32 net (repeat (b32 1) 8) true)))).
  exists w, (repeat (b32 1) 8). apply Nat.eqb_eq in K. split; [exact E|]. split; [split; repeat constructor; cbn; lia|]. rewrite E0. subst w0. split; [reflexivity|]. leaf.
Qed.
Print Assumptions C25_pooling2D_refuted.
(* A convolution of several positions as last (not only) layer: accepted, but a training step reads past the error vector. *)
Theorem C25_last_convolution_refuted : exists ds net x d,
  @construct N32 zdraws nomasks ds (b32q 1 100) (b32 0) = Ok net /\ sane_descriptions ds /\
  net_numberOfInputs net = Ok (List.length x) /\ net_numberOfOutputs net = Ok (List.length d) /\
  @trainOnce N32 (fun _ _ _ => true) net x d true = UB.
Proof.
  exists [@Input N32 [2]%Z; @FullyConnected N32 3 a_identity []; @Convolution N32 1 2 a_identity []].
  by_compute (run_check (@construct N32 zdraws nomasks [@Input N32 [2]%Z; @FullyConnected N32 3 a_identity []; @Convolution N32 1 2 a_identity []] (b32q 1 100) (b32 0)) (fun net =>
    run_check (@net_numberOfInputs N32 net) (fun i => (i =? 2) && run_check (@net_numberOfOutputs N32 net) (fun j => (j =? 1) && is_ub (@trainOnce N32 (fun _ _ _ => true) net (repeat (b32 1) 2) [b32 1] true))))).
  exists w, (repeat (b32 1) 2), [b32 1]. apply Nat.eqb_eq in K, K0. split; [exact E|]. split; [split; repeat constructor; cbn; lia|]. rewrite E0, E1. subst w0 w1. split; [reflexivity|]. split; [reflexivity|]. leaf.
Qed.
Print Assumptions C25_last_convolution_refuted.

(* ================= C27 ================= *)
Lemma tiles_covering x k : 0 < k -> 0 < x -> tiles x k = covering x k.
Proof.
  intros Hk Hx. unfold covering. destruct (tiles_spec x k Hk Hx) as (T1 & T2 & T3). apply Nat.div_unique with (r := x + k - 1 - tiles x k * k).
  - nia.
  - nia.
Qed.
Section C27.
Context {N : Num}.
Lemma list_sum_const {A} (f : A -> nat) l c : (forall a, In a l -> f a = c) -> list_sum (map f l) = List.length l * c.
Proof.
  induction l as [|a t IH]; intros H; [reflexivity|]. change (list_sum (map f (a :: t))) with (f a + list_sum (map f t)). rewrite H by now left.
  rewrite IH; [reflexivity|]. intros; apply H. now right.
Qed.
Lemma params_of ws c n : List.length ws = n -> (forall w, In w ws -> List.length w = c) -> list_sum (map (@List.length F) ws) = n * c.
Proof. intros <- H. now apply list_sum_const. Qed.
Lemma plain_params nin ns m : List.length ns = m -> Forall (wf_plain nin) ns -> list_sum (map (@List.length F) (map n_w ns)) = m * (nin + 1).
Proof.
  intros L W. apply params_of; [now rewrite map_length|]. intros w Hw. apply in_map_iff in Hw as (n & <- & Hn). rewrite Forall_forall in W. destruct (W n Hn) as [(Hl & _) <-]. exact Hl.
Qed.
Lemma built_expected draws masks d s l : Forall (fun x => 0 < x) s -> built draws masks d s l -> layer_isValid l = 0%Z ->
  getShapeOfOutput l = expected_shape d s /\ layer_parameters l = expected_parameters d s /\ Forall (fun x => 0 < x) (getShapeOfOutput l).
Proof.
  intros Hs B HV. unfold layer_parameters, getShapeOfOutput, getNumberOfNeurons, layer_weights, expected_shape, expected_parameters.
  assert (Hcov : forall x k, 0 < k -> 0 < x -> covering x k = tiles x k) by (intros; symmetry; now apply tiles_covering).
  destruct B; cbn [finish l_in l_body body_weights f_shapeOut]; rewrite H.
  1,2,3: unfold layer_isValid in HV; cbn [finish l_body] in HV; match type of HV with (if ?b then _ else _) = _ => destruct b; [discriminate|] end; apply neurons_valid_pos in HV; rewrite map_length in HV;
         pose proof (build_neurons_inv _ _ _ H1) as (L & Hi); rewrite map_length, H0, Nat2Z.id, L; split; [reflexivity|]; split; [|constructor; [lia|constructor]].
  - apply neurons_wf in H1 as [_ W]; [|lia]. now apply plain_params.
  - apply params_of; [now rewrite map_length|]. intros w Hw. apply in_map_iff in Hw as (r & <- & Hr). apply In_nth_error in Hr as (i & Hr). apply Hi in Hr. apply rneuron_wf in Hr as [(Hl & _) E]. now rewrite Hl, E.
  - rewrite (params_of _ (3 * (cell_count s + 2)) n); [lia|now rewrite map_length|]. intros w Hw. apply in_map_iff in Hw as (r & <- & Hr). apply In_nth_error in Hr as (i & Hr). apply Hi in Hr.
    apply gru_wf in Hr as (_ & [(A1 & _) A2] & [(B1 & _) B2] & [(C1 & _) C2]). unfold gru_weights. rewrite !app_length, A1, B1, C1, A2, B2, C2. lia.
  - assert (Hx : 0 < x) by (destruct H0 as [->|[-> ->]]; inversion Hs as [|? ? ? Hs2]; subst; try inversion Hs2; subst; auto).
    assert (Hc : 0 < c) by (destruct H0 as [->|[-> ->]]; [inversion Hs; auto|lia]). destruct (tiles_spec x ks H2 Hx) as (T1 & _).
    rewrite H1, Nat2Z.id. split; [|split; [reflexivity|repeat constructor; auto]]. destruct H0 as [->|[-> ->]]; cbn [channels extents map]; now rewrite Hcov.
  - subst s. repeat match goal with Hf : Forall _ (_ :: _) |- _ => inversion Hf; clear Hf; subst end. rewrite H1, Nat2Z.id.
    destruct (tiles_spec x ks H2 ltac:(lia)) as (T1 & _). destruct (tiles_spec y ks H2 ltac:(lia)) as (T2 & _).
    split; [cbn [channels extents map]; now rewrite !Hcov by lia|]. split; [reflexivity|repeat constructor; auto].
  - assert (Hx : 0 < x) by lia. destruct (tiles_spec x ks H4 Hx) as (T1 & _). rewrite H1, H2, !Nat2Z.id. apply neurons_wf in H6 as [L W]; [|lia]. rewrite (plain_params _ _ _ L W).
    assert (E1 : extents s = [x]) by (destruct H0 as [->|[-> ->]]; reflexivity). assert (E2 : channels s = c) by (destruct H0 as [->|[-> ->]]; reflexivity). rewrite E1, E2. cbn [map List.length].
    rewrite Hcov by lia. split; [reflexivity|]. split; [|repeat constructor; auto]. rewrite Nat.pow_1_r. unfold cell_count. cbn [fold_left]. lia.
  - subst s. repeat match goal with Hf : Forall _ (_ :: _) |- _ => inversion Hf; clear Hf; subst end. rewrite H1, H2, !Nat2Z.id.
    destruct (tiles_spec x ks H4 ltac:(lia)) as (T1 & _). destruct (tiles_spec y ks H4 ltac:(lia)) as (T2 & _). apply neurons_wf in H7 as [L W]; [|lia]. rewrite (plain_params _ _ _ L W).
    cbn [channels extents map List.length]. rewrite !Hcov by lia. split; [reflexivity|]. split; [|repeat constructor; auto]. rewrite Nat.pow_2_r. unfold cell_count. cbn [fold_left]. rewrite Nat.mul_1_l. reflexivity.
  - rewrite H1, H2, !Nat2Z.id. apply neurons_wf in H5 as [L W]; [|lia]. rewrite (plain_params _ _ _ L W).
    assert (E1 : extents s = [x]) by (destruct H0 as [->|[-> ->]]; reflexivity). assert (E2 : channels s = c) by (destruct H0 as [->|[-> ->]]; reflexivity). rewrite E1, E2. cbn [map List.length].
    split; [reflexivity|]. split; [now rewrite Nat.pow_1_r|repeat constructor; auto; lia].
  - subst s. rewrite H1, H2, !Nat2Z.id. apply neurons_wf in H6 as [L W]; [|nia]. rewrite (plain_params _ _ _ L W).
    cbn [channels extents map List.length]. split; [reflexivity|]. split; [now rewrite Nat.pow_2_r|repeat constructor; auto; lia].
Qed.
Lemma rest_expected draws masks ds : forall i s ls, Forall (fun x => 0 < x) s -> Forall sane_kernel ds ->
  build_rest draws masks i ds (map Z.of_nat s) = Ok ls -> Forall (fun l => layer_isValid l = 0%Z) ls ->
  map getShapeOfOutput ls = expected_shapes ds s /\ list_sum (map layer_parameters ls) = expected_total ds s.
Proof.
  induction ds as [|d t IH]; intros i s ls Hs Hk H HV; cbn [build_rest] in H.
  - injection H as <-. auto.
  - apply bind_Ok_inv in H as (a & Ha & H). apply bind_Ok_inv in H as (r & Hr & H). injection H as <-. inversion Hk; inversion HV; subst.
    apply build_layer_built in Ha; auto. destruct (built_expected _ _ _ _ _ Hs Ha) as (E1 & E2 & E3); auto. rewrite E1 in *.
    destruct (IH (S i) (expected_shape d s) r) as (E4 & E5); auto. cbn [map expected_shapes expected_total list_sum fold_right]. split; [now rewrite E1, E4|].
    unfold list_sum in *. now rewrite E2, E5.
Qed.
End C27.
(* Every accepted network of the scope has exactly the shapes and the number of parameters the descriptions say. *)
Theorem C27_number_of_parameters : forall {N : Num} draws masks shape rest lr m net,
  construct draws masks (Input (map Z.of_nat shape) :: rest) lr m = Ok net ->
  Forall (fun n => 0 < n) shape -> Forall sane_kernel rest ->
  net_numberOfParameters net = expected_total rest shape /\ map getShapeOfOutput (nn_layers net) = expected_shapes rest shape.
Proof.
  intros N draws masks shape rest lr m net H Hs Hk. apply construct_inv in H as (d0 & r & E & Ht & Hb & HV & _ & _). injection E as <- <-.
  destruct (rest_expected _ _ _ _ _ _ Hs Hk Hb HV) as [E1 E2]. split; [exact E2|exact E1].
Qed.
Print Assumptions C27_number_of_parameters.
(* the number reported is the number of weights held *)
Theorem C27_counts_the_weights : forall {N : Num} (net : Net),
  net_numberOfParameters net = List.length (List.concat (List.concat (net_weights net))).
Proof.
  intros N net. unfold net_numberOfParameters, net_weights. induction (nn_layers net) as [|l t IH]; [reflexivity|].
  cbn [map list_sum fold_right List.concat]. unfold list_sum in *. rewrite IH, concat_app, app_length. f_equal. unfold layer_parameters.
  induction (layer_weights l) as [|w u IHu]; [reflexivity|]. cbn [map List.concat]. rewrite app_length, <- IHu. reflexivity.
Qed.
Print Assumptions C27_counts_the_weights.
Example C27_hypotheses : exists net, @construct N32 zdraws nomasks demo (b32q 1 100) (b32q 9 10) = Ok net /\
  demo = @Input N32 (map Z.of_nat [2; 4; 5]) :: tl demo /\ Forall (@sane_kernel N32) (tl demo) /\ net_numberOfParameters net = 85.
Proof.
  by_compute (run_check (@construct N32 zdraws nomasks demo (b32q 1 100) (b32q 9 10)) (fun net => net_numberOfParameters net =? 85)).
  exists w. split; [exact E|]. split; [reflexivity|]. split; [repeat constructor; cbn; lia|]. now apply Nat.eqb_eq.
Qed.

(* ================= C26 ================= *)
Section C26.
Context {N : Num}.
Lemma rest_In draws masks ds : forall i sh ls e, build_rest draws masks i ds sh = Ok ls -> In e ds ->
  exists j sh' l, build_layer (draws j) (masks j) e sh' = Ok l /\ In l ls.
Proof.
  induction ds as [|d t IH]; intros i sh ls e H Hin; [destruct Hin|]. cbn [build_rest] in H. apply bind_Ok_inv in H as (a & Ha & H). apply bind_Ok_inv in H as (r & Hr & H). injection H as <-.
  destruct Hin as [->|Hin]; [exists i, sh, a; split; [exact Ha|now left]|]. destruct (IH _ _ _ _ Hr Hin) as (j & sh' & l & E & Hl). exists j, sh', l. split; [exact E|now right].
Qed.
Ltac ifs H := repeat match type of H with
  | (if ?b then _ else _) = Ok _ => destruct b eqn:?; [discriminate|]
  | bind _ _ = Ok _ => apply bind_Ok_inv in H as (? & ? & H)
  end.
Definition kernel_fits (k : Z) (sh : list Z) : Prop :=
  match sh with [x] => (k <= x)%Z | [_; x] => (k <= x)%Z | [_; x; y] => (k <= x /\ k <= y)%Z | _ => False end.
Lemma fits1 draws masks d i c x l : (build_pool1D masks d i c x = Ok l \/ build_loc1D draws masks d i c x = Ok l \/ build_conv1D draws masks d i c x = Ok l) -> (d_ksize d <= x)%Z.
Proof.
  intros [H|[H|H]]; unfold build_pool1D, build_loc1D, build_conv1D in H; cbv zeta in H; (destruct (Z.ltb_spec x (d_ksize d)); [discriminate|lia]).
Qed.
Lemma fits2 draws masks d i c x y l : (build_pool2D masks d i c x y = Ok l \/ build_loc2D draws masks d i c x y = Ok l \/ build_conv2D draws masks d i c x y = Ok l) -> (d_ksize d <= x /\ d_ksize d <= y)%Z.
Proof.
  intros [H|[H|H]]; unfold build_pool2D, build_loc2D, build_conv2D in H; cbv zeta in H; (destruct (Z.ltb_spec x (d_ksize d)); [discriminate|]; destruct (Z.ltb_spec y (d_ksize d)); [discriminate|lia]).
Qed.
Lemma filters1 draws masks d i c x l : (build_loc1D draws masks d i c x = Ok l \/ build_conv1D draws masks d i c x = Ok l) -> d_filters d <> 0%Z.
Proof.
  intros [H|H]; unfold build_loc1D, build_conv1D in H; cbv zeta in H; ifs H; intros E; rewrite E in *; discriminate.
Qed.
Lemma filters2 draws masks d i c x y l : (build_loc2D draws masks d i c x y = Ok l \/ build_conv2D draws masks d i c x y = Ok l) -> d_filters d <> 0%Z.
Proof.
  intros [H|H]; unfold build_loc2D, build_conv2D in H; cbv zeta in H; ifs H; intros E; rewrite E in *; discriminate.
Qed.
Definition isFilter (e : LDesc) : Prop := d_type e = t_pool \/ d_type e = t_local \/ d_type e = t_conv.
Definition isSimple (e : LDesc) : Prop := d_type e = t_full \/ d_type e = t_rec \/ d_type e = t_gru.
Lemma build_shape draws masks e sh l : build_layer draws masks e sh = Ok l -> sh <> [] /\ d_type e <> t_input.
Proof.
  intros H. unfold build_layer in H. apply bind_Ok_inv in H as (inputs & Hi & H). destruct sh as [|z t]; [discriminate|]. split; [discriminate|].
  destruct (_ <? _)%Z; [discriminate|]. intros E. rewrite E in H. discriminate.
Qed.
Lemma build_fits draws masks e sh l : build_layer draws masks e sh = Ok l -> isFilter e -> kernel_fits (d_ksize e) sh.
Proof.
  intros H K. unfold build_layer in H. apply bind_Ok_inv in H as (inputs & Hi & H). destruct sh as [|z t]; [discriminate|].
  destruct (_ <? _)%Z; [discriminate|]. destruct K as [K|[K|K]]; rewrite K in H; destruct t as [|b [|c [|? ?]]]; cbn [dims] in H; try discriminate; cbn [kernel_fits];
    solve [eapply (fits1 draws masks); eauto|eapply (fits2 draws masks); eauto].
Qed.
Lemma build_filters draws masks e sh l : build_layer draws masks e sh = Ok l -> (d_type e = t_local \/ d_type e = t_conv) -> d_filters e <> 0%Z.
Proof.
  intros H K. unfold build_layer in H. apply bind_Ok_inv in H as (inputs & Hi & H). destruct sh as [|z t]; [discriminate|].
  destruct (_ <? _)%Z; [discriminate|]. destruct K as [K|K]; rewrite K in H; destruct t as [|b [|c [|? ?]]]; cbn [dims] in H; try discriminate;
    solve [eapply (filters1 draws masks); eauto|eapply (filters2 draws masks); eauto].
Qed.
Lemma build_neurons_count draws masks e sh l : build_layer draws masks e sh = Ok l -> isSimple e -> (d_neurons e <= 0)%Z -> layer_isValid l <> 0%Z.
Proof.
  intros H K Hz. unfold build_layer in H. apply bind_Ok_inv in H as (inputs & Hi & H). destruct sh as [|z t]; [discriminate|].
  destruct (_ <? _)%Z; [discriminate|].
  assert (Hsz : forall n, size (d_neurons e) = Ok n -> n = 0) by (intros n Hs; apply size_inv in Hs as [? ?]; lia).
  destruct K as [K|[K|K]]; rewrite K in H; ifs H; injection H as <-;
    match goal with Hn : size (d_neurons e) = Ok _ |- _ => apply Hsz in Hn; subst end;
    match goal with Hb : build_neurons _ 0 = Ok ?ns |- _ => apply build_neurons_inv in Hb as [L _]; destruct ns; [|discriminate] end; cbn; discriminate.
Qed.
Theorem C26_invalid_rejected : forall draws masks ds lr m, wrong ds -> forall net, construct draws masks ds lr m <> Ok net.
Proof.
  intros draws masks ds lr m W net H. pose proof H as H0. apply construct_inv in H as (d0 & rest & E & Ht & Hb & HV & Hne & _).
  assert (Hall : forall e, In e rest -> exists j sh' l, build_layer (draws j) (masks j) e sh' = Ok l /\ layer_isValid l = 0%Z).
  { intros e He. destruct (rest_In _ _ _ _ _ _ _ Hb He) as (j & sh' & l & Hl & Hin). exists j, sh', l. split; [exact Hl|]. rewrite Forall_forall in HV. auto. }
  assert (Hfst : forall e u, rest = e :: u -> exists l, build_layer (draws 0) (masks 0) e (d_shape d0) = Ok l).
  { intros e u ->. cbn [build_rest] in Hb. apply bind_Ok_inv in Hb as (a & Ha & _). eauto. }
  destruct W; try (injection E as -> ->); try discriminate; try congruence.
  - injection E as -> <-. cbn [build_rest] in Hb. injection Hb as Hb. congruence.
  - subst ds. unfold construct, build_all in H0. destruct (Z.ltb_spec 1000 (Z.of_nat (List.length (d0 :: rest)))); [discriminate|lia].
  - unfold construct, build_all in H0. destruct (1000 <? _)%Z; [discriminate|]. rewrite Ht in H0. destruct rest; [discriminate|].
    apply bind_Ok_inv in H0 as (ls & H0 & _). apply bind_Ok_inv in H0 as (n & Hn & H0). apply product_inv in Hn. subst n. destruct (Z.ltb_spec 2073600 (fold_left Z.mul (d_shape d0) 1%Z)); [discriminate|lia].
  - destruct rest as [|e u]; [cbn in Hb; injection Hb as Hb; congruence|]. destruct (Hfst e u eq_refl) as (l & Hl). apply build_shape in Hl as [? _]. congruence.
  - match goal with Hi : In e rest |- _ => destruct (Hall e Hi) as (j & sh & l & Hl & _) end. apply build_shape in Hl as [_ ?]. congruence.
  - match goal with Hi : In e rest |- _ => destruct (Hall e Hi) as (j & sh & l & Hl & Hv) end. eapply build_neurons_count in Hl; eauto.
  - match goal with Hi : In e rest |- _ => destruct (Hall e Hi) as (j & sh & l & Hl & _) end. eapply build_filters in Hl; eauto.
  - injection E as -> <-. destruct (Hfst e t eq_refl) as (l & Hl). eapply build_fits in Hl; [|exact H1]. destruct (d_shape d0) as [|? [|? [|? [|? ?]]]]; cbn in H; try lia. exact Hl.
  - injection E as -> <-. destruct (Hfst e t eq_refl) as (l & Hl). eapply build_fits in Hl; [|exact H1]. rewrite H in Hl. cbn in Hl. lia.
  - injection E as -> <-. destruct (Hfst e t eq_refl) as (l & Hl). eapply build_fits in Hl; [|exact H1]. rewrite H in Hl. cbn in Hl. lia.
  - injection E as -> <-. destruct (Hfst e t eq_refl) as (l & Hl). eapply build_fits in Hl; [|exact H1]. rewrite H in Hl. cbn in Hl. lia.
Qed.
(* the learning rate and the momentum are checked too *)
Theorem C26_optimizer_checked : forall draws masks ds lr m net, construct draws masks ds lr m = Ok net ->
  fleb lr fzero = false /\ fgeb lr fone = false /\ fltb m fzero = false /\ fgtb m fone = false.
Proof.
  intros draws masks ds lr m net H. unfold construct in H. apply bind_Ok_inv in H as (ls & Hl & H). apply bind_Ok_inv in H as (e & He & H).
  destruct (Z.eqb_spec e 0); [|discriminate]. subst e. unfold net_isValid in He. apply bind_Ok_inv in He as (l0 & Hl0 & He). cbn [nn_layers nn_opt] in *.
  match type of He with (if ?b then _ else _) = _ => destruct b; [discriminate|] end. match type of He with (if ?b then _ else _) = _ => destruct b; [discriminate|] end.
  destruct (Z.eqb_spec (sgd_isValid (mkSGD lr m)) 0) as [E0|E0]; cbn [negb] in He; [|congruence]. unfold sgd_isValid in E0. cbn [o_lr o_m] in E0.
  destruct (fleb lr fzero), (fgeb lr fone); cbn [orb] in E0; try discriminate. destruct (fltb m fzero), (fgtb m fone); cbn [orb] in E0; try discriminate. auto.
Qed.

(* --- acceptance of dense architectures --- *)
Lemma product_small shape : forall a, (1 <= a)%Z -> Forall (fun z => 1 <= z)%Z shape -> (fold_left Z.mul shape a <= 2147483647)%Z ->
  ofold imul shape a = Ok (fold_left Z.mul shape a).
Proof.
  assert (Hge : forall s b, (1 <= b)%Z -> Forall (fun z => 1 <= z)%Z s -> (b <= fold_left Z.mul s b)%Z).
  { induction s as [|z t IH]; intros b Hb Hs; cbn [fold_left]; [lia|]. inversion Hs; subst. specialize (IH (b * z)%Z ltac:(nia) ltac:(auto)). nia. }
  induction shape as [|z t IH]; intros a Ha Hs Hm; cbn [fold_left ofold] in *; [reflexivity|]. inversion Hs; subst.
  pose proof (Hge t (a * z)%Z ltac:(nia) ltac:(auto)). unfold imul, int32. destruct (Z.ltb_spec (a * z) (-2147483648)); [nia|]. destruct (Z.ltb_spec 2147483647 (a * z)); [lia|].
  cbn [orb bind]. apply IH; auto; nia.
Qed.
(* a value the library accepts as weight or bias *)
Definition acceptable (x : F) : Prop := fltb x (fofZ (-100000)) = false /\ fgtb x (fofZ 10000) = false.
Lemma mk_full_valid nin d dr n : (Z.of_nat nin + 1 <= 1000000)%Z -> acceptable (d_bias d) -> (forall w, acceptable (dr w) /\ acceptable (fabs (dr w))) ->
  neuron_init nin 1 (nin + 1) (d_bias d) (d_act d) dr = Ok n -> neuron_isValid n = 0%Z.
Proof.
  intros Hn [B1 B2] Hd H. rewrite Nat.add_1_r in H. cbn [neuron_init] in H. injection H as <-. unfold neuron_isValid. cbn [n_bias n_w]. rewrite B1, B2. cbn [orb].
  rewrite app_length, map_length, seq_length. cbn [List.length]. destruct (Nat.eqb_spec (nin + 1) 0); [lia|]. destruct (Z.ltb_spec 1000000 (Z.of_nat (nin + 1))); [lia|]. cbn [orb].
  match goal with |- (if ?b then _ else _) = _ => destruct b eqn:E; [|reflexivity] end. apply existsb_exists in E as (w & Hw & E).
  apply in_app_iff in Hw as [Hw|[<-|[]]]; [apply in_map_iff in Hw as (i & <- & _); destruct (Hd i) as [[W1 W2] _]|destruct (Hd nin) as [_ [W1 W2]]]; rewrite W1, W2 in E; discriminate.
Qed.
Lemma omap_total {A B} (f : A -> outcome B) l : (forall a, In a l -> exists b, f a = Ok b) -> exists r, omap f l = Ok r.
Proof.
  induction l as [|a t IH]; intros H; cbn; [eauto|]. destruct (H a (or_introl eq_refl)) as (b & ->). destruct IH as (r & ->); [intros; apply H; now right|]. cbn. eauto.
Qed.
Lemma firstError_all l : Forall (fun e => e = 0%Z) l -> firstError l = 0%Z.
Proof. intros H. unfold firstError. induction H as [|e t He _ IH]; [reflexivity|]. subst e. cbn [List.find]. cbn [Z.eqb negb]. exact IH. Qed.
Lemma dense_layer draws masks n a os shape :
  shape <> [] -> Forall (fun z => 1 <= z)%Z shape -> (fold_left Z.mul shape 1 + 1 <= 1000000)%Z -> (1 <= n <= 1000000)%Z ->
  acceptable fone -> (forall i w, acceptable (draws i 0 w) /\ acceptable (fabs (draws i 0 w))) ->
  exists l, build_layer draws masks (FullyConnected n a os) shape = Ok l /\ layer_isValid l = 0%Z /\ map Z.of_nat (getShapeOfOutput l) = [n] /\ l_in l = Z.to_nat (fold_left Z.mul shape 1%Z).
Proof.
  intros Hne Hs Hm Hn Hb Hd. unfold build_layer.
  assert (Hge : (1 <= fold_left Z.mul shape 1)%Z).
  { clear -Hs. assert (G : forall s b, (1 <= b)%Z -> Forall (fun z => 1 <= z)%Z s -> (1 <= fold_left Z.mul s b)%Z) by (induction s as [|z t IH]; intros b Hb Hs'; cbn [fold_left]; [lia|]; inversion Hs'; subst; apply IH; auto; nia). now apply G. }
  unfold product. rewrite product_small by (auto; lia). cbn [bind]. destruct shape as [|z t]; [congruence|]. remember (fold_left Z.mul (z :: t) 1%Z) as p.
  destruct (Z.ltb_spec 1000000 p); [lia|]. cbn [d_type FullyConnected d_neurons]. destruct (Z.leb_spec p 0); [lia|].
  unfold size. destruct (Z.ltb_spec n 0); [lia|]. destruct (Z.ltb_spec p 0); [lia|]. cbn [bind].
  destruct (omap_total (mk_full draws (Z.to_nat p) 1 (Z.to_nat p + 1) (FullyConnected n a os)) (seq 0 (Z.to_nat n))) as (ns & E).
  { intros i _. unfold mk_full. rewrite Nat.add_1_r. cbn [neuron_init]. eauto. }
  change (build_neurons (mk_full draws (Z.to_nat p) 1 (Z.to_nat p + 1) (FullyConnected n a os)) (Z.to_nat n)) with (omap (mk_full draws (Z.to_nat p) 1 (Z.to_nat p + 1) (FullyConnected n a os)) (seq 0 (Z.to_nat n))).
  rewrite E. cbn [bind]. eexists. split; [reflexivity|].
  pose proof (build_neurons_inv _ _ _ E) as (L & Hi). pose proof (neurons_wf _ _ _ _ _ _ (Nat.lt_0_succ 0) E) as (_ & W).
  assert (V : Forall (fun x => neuron_isValid x = 0%Z) ns).
  { apply Forall_of_nth. intros i x Hx. apply Hi in Hx. unfold mk_full in Hx. eapply mk_full_valid; [| | |exact Hx]; [rewrite Z2Nat.id by lia; lia|exact Hb|]. intros w. apply Hd. }
  split; [|split].
  - unfold layer_isValid. cbn [finish l_body l_in].
    match goal with |- (if ?b then _ else _) = _ => destruct b eqn:E0 end.
    { apply existsb_exists in E0 as (x & Hx & E0). rewrite Forall_forall in W. destruct (W x Hx) as [_ Wx]. rewrite Wx, Nat.eqb_refl in E0. discriminate. }
    unfold neurons_isValid. rewrite map_length, L. rewrite Z2Nat.id by lia. destruct (Z.ltb_spec n 1); [lia|]. destruct (Z.ltb_spec 1000000 n); [lia|]. cbn [orb].
    apply firstError_all. clear -V. induction V; cbn; constructor; auto.
  - unfold getShapeOfOutput, getNumberOfNeurons, layer_weights. cbn [finish l_body body_weights map]. rewrite map_length, L. now rewrite Z2Nat.id by lia.
  - reflexivity.
Qed.
Lemma dense_rest draws masks specs : forall i shape,
  shape <> [] -> Forall (fun z => 1 <= z)%Z shape -> (fold_left Z.mul shape 1 + 1 <= 1000000)%Z ->
  Forall (fun p => 1 <= fst (fst p) <= 999999)%Z specs ->
  acceptable fone -> (forall l i w, acceptable (draws l i 0 w) /\ acceptable (fabs (draws l i 0 w))) ->
  exists ls, build_rest draws masks i (map (fun p => FullyConnected (fst (fst p)) (snd (fst p)) (snd p)) specs) shape = Ok ls /\
    Forall (fun l => layer_isValid l = 0%Z) ls /\ List.length ls = List.length specs /\
    (forall l t, ls = l :: t -> l_in l = Z.to_nat (fold_left Z.mul shape 1%Z)).
Proof.
  induction specs as [|[[n a] os] t IH]; intros i shape Hne Hs Hm Hn Hb Hd; cbn [map build_rest fst snd].
  - exists []. split; [reflexivity|]. split; [constructor|]. split; [reflexivity|discriminate].
  - inversion Hn; subst. cbn [fst snd] in *. destruct (dense_layer (draws i) (masks i) n a os shape) as (l & E & V & Sh & Li); auto; [lia|]. rewrite E. cbn [bind]. rewrite Sh.
    destruct (IH (S i) [n]) as (r & Er & Vr & Lr & _); auto; [discriminate|constructor; [lia|constructor]|cbn [fold_left]; lia|].
    rewrite Er. cbn [bind]. exists (l :: r). split; [reflexivity|]. split; [now constructor|]. split; [cbn; now rewrite Lr|]. intros l' t' E'. injection E' as <- <-. exact Li.
Qed.
Lemma dense_accepted draws masks shape specs lr m :
  shape <> [] -> Forall (fun z => 1 <= z)%Z shape -> (fold_left Z.mul shape 1 <= 999999)%Z ->
  specs <> [] -> (Z.of_nat (List.length specs) <= 999)%Z -> Forall (fun p => 1 <= fst (fst p) <= 999999)%Z specs ->
  acceptable fone -> (forall l i w, acceptable (draws l i 0 w) /\ acceptable (fabs (draws l i 0 w))) ->
  fleb lr fzero = false -> fgeb lr fone = false -> fltb m fzero = false -> fgtb m fone = false ->
  exists net, construct draws masks (Input shape :: map (fun p => FullyConnected (fst (fst p)) (snd (fst p)) (snd p)) specs) lr m = Ok net.
Proof.
  intros Hne Hs Hm Hsp Hlen Hn Hb Hd L1 L2 M1 M2.
  destruct (dense_rest draws masks specs 0 shape Hne Hs ltac:(lia) Hn Hb Hd) as (ls & E & V & Ll & Hi).
  assert (Hge : (1 <= fold_left Z.mul shape 1)%Z).
  { clear -Hs. assert (G : forall s b, (1 <= b)%Z -> Forall (fun z => 1 <= z)%Z s -> (1 <= fold_left Z.mul s b)%Z) by (induction s as [|z t IH]; intros b Hb Hs'; cbn [fold_left]; [lia|]; inversion Hs'; subst; apply IH; auto; nia). now apply G. }
  unfold construct, build_all. cbn [List.length]. rewrite map_length. destruct (Z.ltb_spec 1000 (Z.of_nat (S (List.length specs)))); [lia|]. cbn [d_type Input d_shape].
  destruct (map (fun p => FullyConnected (fst (fst p)) (snd (fst p)) (snd p)) specs) as [|x y] eqn:Em; [destruct specs; [congruence|discriminate]|].
  unfold product. rewrite product_small by (auto; lia). cbn [bind]. destruct (Z.ltb_spec 2073600 (fold_left Z.mul shape 1%Z)); [lia|]. rewrite E. cbn [bind].
  destruct ls as [|l t]; [destruct specs; [congruence|discriminate]|].
  unfold net_isValid. cbn [nn_layers lget nth_error bind nn_opt]. rewrite (Hi l t eq_refl).
  destruct (Nat.ltb_spec (Z.to_nat (fold_left Z.mul shape 1%Z)) 1); [lia|]. rewrite Z2Nat.id by lia. destruct (Z.ltb_spec 2073600 (fold_left Z.mul shape 1%Z)); [lia|]. cbn [orb].
  rewrite Ll. destruct (Nat.ltb_spec (List.length specs) 1); [destruct specs; [congruence|cbn in *; lia]|]. destruct (Z.ltb_spec 1000 (Z.of_nat (List.length specs))); [lia|]. cbn [orb].
  unfold sgd_isValid. cbn [o_lr o_m]. rewrite L1, L2, M1, M2. cbn [orb]. change (negb (0 =? 0)%Z) with false. cbn [bind].
  rewrite firstError_all. { eexists. reflexivity. } { clear -V. induction V; cbn [map]; constructor; auto. }
Qed.
End C26.
Print Assumptions C26_invalid_rejected.
Print Assumptions C26_optimizer_checked.

(* Every dense architecture with at most 999999 inputs and neurons per layer (and 1000 descriptions in all) is accepted, with any
   activations, any layer optimizers, any masks and any initial weights between -10000 and 10000. *)
Theorem C26_dense_accepted : forall (draws : nat -> nat -> nat -> nat -> R) masks shape specs (lr m : R),
  shape <> [] -> Forall (fun z => 1 <= z)%Z shape -> (fold_left Z.mul shape 1 <= 999999)%Z ->
  specs <> [] -> (Z.of_nat (List.length specs) <= 999)%Z -> Forall (fun p => 1 <= fst (fst p) <= 999999)%Z specs ->
  (forall l i g w, -10000 <= draws l i g w <= 10000)%R -> (0 < lr < 1)%R -> (0 <= m <= 1)%R ->
  exists net, @construct RNum draws masks (@Input RNum shape :: map (fun p => @FullyConnected RNum (fst (fst p)) (snd (fst p)) (snd p)) specs) lr m = Ok net.
Proof.
  intros draws masks shape specs lr m Hne Hs Hm Hsp Hl Hn Hd Hlr Hmm.
  assert (A : forall x : R, (-10000 <= x <= 10000)%R -> @acceptable RNum x).
  { intros x Hx. unfold acceptable, fgtb, fofZ. cbn [fltb flit RNum]. unfold Rltb. split; destruct (Rlt_dec _ _) as [r|r]; auto; exfalso; lra. }
  apply (@dense_accepted RNum); auto.
  - apply A. unfold fone, fofZ. cbn [flit RNum]. lra.
  - intros l i w. split; apply A; [apply Hd|]. cbn [fabs RNum]. specialize (Hd l i 0 w). split; [pose proof (Rabs_pos (draws l i 0 w)); lra|]. apply Rabs_le. lra.
  - unfold fzero, fofZ. cbn [fleb flit RNum]. unfold Rleb. destruct (Rle_dec _ _) as [r|r]; auto. exfalso; lra.
  - unfold fgeb, fone, fofZ. cbn [fleb flit RNum]. unfold Rleb. destruct (Rle_dec _ _) as [r|r]; auto. exfalso; lra.
  - unfold fzero, fofZ. cbn [fltb flit RNum]. unfold Rltb. destruct (Rlt_dec _ _) as [r|r]; auto. exfalso; lra.
  - unfold fgtb, fone, fofZ. cbn [fltb flit RNum]. unfold Rltb. destruct (Rlt_dec _ _) as [r|r]; auto. exfalso; lra.
Qed.
Print Assumptions C26_dense_accepted.
Example C26_dense_hypotheses : exists shape (specs : list (Z * activation * list (@odesc RNum))) (draws : nat -> nat -> nat -> nat -> R) (lr m : R),
  shape = [3; 28; 28]%Z /\ List.length specs = 2 /\ (fold_left Z.mul shape 1 <= 999999)%Z /\ Forall (fun p => 1 <= fst (fst p) <= 999999)%Z specs /\
  (forall l i g w, -10000 <= draws l i g w <= 10000)%R /\ (0 < lr < 1)%R /\ (0 <= m <= 1)%R.
Proof.
  exists [3; 28; 28]%Z, [(100%Z, a_sigmoid, []); (10%Z, a_sigmoid, [])], (fun l i g w => 1 / 10)%R, (1 / 100)%R, (9 / 10)%R.
  split; [reflexivity|]. split; [reflexivity|]. split; [cbn; lia|]. split; [repeat constructor; cbn; lia|]. split; [intros; lra|]. split; lra.
Qed.
(* The announced limit is 2073600 inputs, but every input between 1000001 and 2073600 values is refused, whatever follows. *)
Theorem C26_large_inputs_refuted : forall {N : Num} draws masks shape rest lr m,
  Forall (fun z => 1 <= z)%Z shape -> (1000000 < fold_left Z.mul shape 1 <= 2073600)%Z ->
  forall net, construct draws masks (Input shape :: rest) lr m <> Ok net.
Proof.
  intros N draws masks shape rest lr m Hs Hp net H. apply construct_inv in H as (d0 & r & E & _ & Hb & _ & Hne & _). injection E as <- <-.
  destruct rest as [|d t]; [cbn in Hb; injection Hb as Hb; congruence|]. cbn [build_rest] in Hb. apply bind_Ok_inv in Hb as (a & Ha & _).
  cbn [d_shape Input] in Ha. unfold build_layer in Ha. apply bind_Ok_inv in Ha as (i & Hi & Ha). apply product_inv in Hi. subst i. destruct shape; [discriminate|].
  match type of Ha with (if ?b then _ else _) = _ => destruct b eqn:Eb; [discriminate|] end. apply Z.ltb_ge in Eb. lia.
Qed.
Print Assumptions C26_large_inputs_refuted.
Example C26_wrong_cases : @wrong N32 [@Input N32 [28; 28]%Z; @FullyConnected N32 5 a_tanh []; @FullyConnected N32 0 a_tanh []] /\
  @wrong N32 [@Input N32 [1; 28; 28]%Z; @Convolution N32 4 29 a_ReLU []; @FullyConnected N32 3 a_tanh []].
Proof.
  split.
  - eapply empty_layer; [right; left; reflexivity|left; reflexivity|cbn; lia].
  - eapply big_kernel3; [reflexivity|right; right; reflexivity|cbn; lia].
Qed.
