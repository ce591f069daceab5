(* C47: the pictures. *)
From Coq Require Import SpecFloat.
From Verif Require Import Base Num Float32 Witness ActModel NeuronModel LayerModel NetModel NeuronProofs LayerProofs SafeProofs SafeLayers
  FactoryModel FactorySpec FactoryProofs FilterSpec SafeNet BuildProofs FilterProofs HistProofs FilterProps PoolProofs PoolProps PureProps FactoryProps
  StatModel WaitModel DataModel TrainModel VisualModel VisualSpec VisualProofs VisualFloat.
Local Open Scope nat_scope.
Local Open Scope outcome_scope.

(* ---------- the outputs of the filter layers ---------- *)
Section A.
Context {N : Num}.
Lemma neurons_valid_max errs : neurons_isValid errs = 0%Z -> (Z.of_nat (List.length errs) <= 1000000)%Z.
Proof.
  unfold neurons_isValid. destruct (Z.ltb_spec (Z.of_nat (List.length errs)) 1); cbn [orb]; [discriminate|]. destruct (Z.ltb_spec 1000000 (Z.of_nat (List.length errs))); [discriminate|]. auto.
Qed.
Lemma build_layer_max draws masks d s l : build_layer draws masks d (map Z.of_nat s) = Ok l -> (Z.of_nat (cell_count s) <= 1000000)%Z.
Proof.
  intros H. unfold build_layer in H. apply bind_Ok_inv in H as (inputs & Hi & H).
  apply product_inv in Hi. change 1%Z with (Z.of_nat 1) in Hi. rewrite fold_mul_nat in Hi. fold (cell_count s) in Hi. subst inputs.
  destruct s as [|z t]; [discriminate|]. cbn [map] in H. destruct (Z.ltb_spec 1000000 (Z.of_nat (cell_count (z :: t)))); [discriminate|]. assumption.
Qed.
Lemma layer_dims d s l C X Y : layer_of d s l -> Forall (fun x => 0 < x) s -> sane_kernel d -> supported_pooling l -> getShapeOfOutput l = [C; X; Y] ->
  0 < C /\ 0 < X /\ 0 < Y /\ (Z.of_nat C <= 1000000)%Z.
Proof.
  intros HL Hs Hk HP ES. destruct (layer_of_wf d s l HL Hs Hk (pooling_of d s l HL Hs Hk HP)) as (dr0 & ms0 & l0 & _ & _ & W & SL0 & _).
  assert (Hpos : Forall (fun x => 0 < x) (getShapeOfOutput l)) by (destruct (same_layer_shape _ _ SL0) as [-> _]; apply cell_count_pos; apply W).
  rewrite ES in Hpos. apply Forall_cons_iff in Hpos as [HC Hpos]. apply Forall_cons_iff in Hpos as [HX Hpos]. apply Forall_cons_iff in Hpos as [HY _].
  split; [exact HC|]. split; [exact HX|]. split; [exact HY|]. clear W SL0.
  destruct HL as (draws & masks & l1 & Hb & HV & HW). pose proof (build_layer_max _ _ _ _ _ Hb) as HM. apply build_layer_built in Hb; auto.
  pose proof (works_kind _ _ HW) as K. unfold getShapeOfOutput in ES. destruct (l_body l) as [ns|ns|ns|kd f ns] eqn:Eb; try discriminate.
  unfold layer_isValid in HV. destruct Hb; cbn [finish l_body] in K, HV; try contradiction; destruct K as (-> & _ & E2); rewrite ES in E2; cbn [f_shapeOut] in E2; try discriminate; injection E2 as -> -> ->.
  - subst s. rewrite cells3 in HM. assert (c * 1 <= c * x * y) by (rewrite <- Nat.mul_assoc; apply Nat.mul_le_mono_l; nia). lia.
  - cbn [f_nin f_shapeOut f_kernels] in HV. destruct (existsb _ ns0); [discriminate|]. destruct (negb _); [discriminate|]. apply neurons_valid_max in HV. rewrite map_length in HV.
    match goal with HB : build_neurons _ _ = Ok ns0 |- _ => apply omap_Ok_length in HB; rewrite seq_length in HB; rewrite HB in HV end.
    assert (f0 * 1 <= f0 * (tiles x ks * tiles y ks)) by (apply Nat.mul_le_mono_l; nia). lia.
  - cbn [f_nin f_shapeOut f_kernels] in HV. destruct (existsb _ ns0); [discriminate|]. destruct (negb _); [discriminate|]. apply neurons_valid_max in HV. rewrite map_length in HV.
    match goal with HB : build_neurons _ _ = Ok ns0 |- _ => apply omap_Ok_length in HB; rewrite seq_length in HB; rewrite HB in HV end. lia.
Qed.
Lemma layers_dims ds : forall s ls, layers_of ds s ls -> Forall (fun x => 0 < x) s -> Forall sane_kernel ds -> Forall supported_pooling ls ->
  forall l C X Y, In l ls -> getShapeOfOutput l = [C; X; Y] -> 0 < C /\ 0 < X /\ 0 < Y /\ (Z.of_nat C <= 1000000)%Z.
Proof.
  induction ds as [|d ds IH]; intros s [|a ls] HL Hs Hk HP l C X Y Hin ES; try contradiction. cbn [layers_of] in HL. destruct HL as [Ha HL].
  inversion Hk; subst. inversion HP; subst. destruct Hin as [<-|Hin]; [eapply layer_dims; eauto|].
  apply (IH (getShapeOfOutput a) ls) with (l := l); auto.
  destruct (layer_of_wf d s a Ha Hs ltac:(assumption) (pooling_of d s a Ha Hs ltac:(assumption) ltac:(assumption))) as (dr0 & ms0 & l0 & _ & _ & W & SL0 & _).
  destruct (same_layer_shape _ _ SL0) as [-> _]. apply cell_count_pos. apply W.
Qed.
Lemma Forall2_at {A B} (R : A -> B -> Prop) l m : Forall2 R l m -> forall i a, nth_error l i = Some a -> exists b, nth_error m i = Some b /\ R a b.
Proof. induction 1; intros [|i] a; cbn; try discriminate; auto. intros E. injection E as <-. eauto. Qed.

(* For a network in any state in which it is not training, and a test row of the right size, if all outputs of the layers can be shown as
   levels of grey (255 v between 0 and 255), then one file per layer with a two-dimensional output is written and none for the others;
   picture c of the file shows output channel c: the pixel in column i and row j is the level of output ((j X + i) C + c). The pictures are
   in a square grid (as small as possible) in reading order with a black line between them. Nothing about the weights changes. *)
Theorem C47_outputs_drawn : forall (cv : Conv) draws masks lr m shape rest net s d index x (level : nat -> nat -> Z),
  good_grid cv ->
  construct draws masks (Input (map Z.of_nat shape) :: rest) lr m = Ok net ->
  Forall (fun n => 0 < n) shape -> Forall sane_kernel rest -> Forall supported_pooling (nn_layers net) ->
  uses (cell_count shape) net (sn_net s) -> sn_idle s = true ->
  getTestingData d index = Ok x -> List.length x = cell_count shape ->
  (forall outs net1 l out n v, getLayerOutputs (sn_net s) x = Ok (outs, net1) -> nth_error outs l = Some out -> nth_error out n = Some v -> showable cv v (level l n)) ->
  exists pictures s', saveFilterLayersAsBitmap cv s d index = Ok (pictures, s') /\ List.length pictures = List.length (nn_layers net) /\
    s' = with_net s (sn_net s') /\ net_weights (sn_net s') = net_weights (sn_net s) /\
    forall l layer, nth_error (nn_layers (sn_net s)) l = Some layer ->
      match getShapeOfOutput layer with
      | [C; X; Y] => exists im side, nth_error pictures l = Some (Some im) /\ square_side C side /\
                       shows side C X Y (fun c i j => grey (level l ((j * X + i) * C + c))) im
      | _ => nth_error pictures l = Some None
      end.
Proof.
  intros cv draws masks lr m shape rest net s d index x level GG H Hs Hk HP U Hidle Ex Hx HS.
  pose proof (network_layers _ _ _ _ _ _ _ _ H Hs Hk HP U) as HL.
  assert (Hsane : sane_descriptions (Input (map Z.of_nat shape) :: rest)).
  { split; [|exact Hk]. cbn [d_shape Input]. clear -Hs. induction Hs; cbn; constructor; auto; lia. }
  destruct (construct_wf _ _ _ _ _ _ H Hsane HP) as (k & mm & W & Hp).
  assert (Ek : k = cell_count shape).
  { apply construct_inv in H as (d0 & r & E & _ & Hb & HV & _ & _). injection E as <- <-.
    cbn [hd d_shape Input] in Hp. unfold product in Hp. apply product_inv in Hp. change 1%Z with (Z.of_nat 1) in Hp. rewrite fold_mul_nat in Hp. apply Nat2Z.inj in Hp. exact Hp. }
  subst k. destruct (uses_wf _ _ _ _ W U) as [W' SL]. destruct (getLayerOutputs_wf _ _ _ x W' Hx) as (outs & net1 & E & W1 & S1 & F2).
  assert (HP' : Forall supported_pooling (nn_layers (sn_net s))).
  { clear -HP SL. induction SL as [|a b t u Hab _ IH]; constructor; inversion HP; subst; auto. destruct Hab as (_ & _ & Hw). pose proof (works_kind _ _ Hw) as K.
    unfold supported_pooling in *. destruct (l_body a), (l_body b); try contradiction; auto. destruct K as (-> & E1 & E2). destruct k; auto; congruence. }
  assert (Step : forall l, In l (seq 0 (List.length (nn_layers net1))) -> exists p,
      (let* layer := lget (nn_layers net1) l in let* o := lget outs l in pictureOfOutputs cv layer o) = Ok p /\
      forall layer, nth_error (nn_layers (sn_net s)) l = Some layer ->
      match getShapeOfOutput layer with
      | [C; X; Y] => exists im side, p = Some im /\ square_side C side /\ shows side C X Y (fun c i j => grey (level l ((j * X + i) * C + c))) im
      | _ => p = None
      end).
  { intros l Hl. apply in_seq in Hl. pose proof (Forall2_len _ _ _ S1) as L1.
    destruct (nth_error (nn_layers (sn_net s)) l) as [layer|] eqn:El; [|apply nth_error_None in El; lia].
    destruct (Forall2_at _ _ _ S1 _ _ El) as (layer1 & El1 & SL1). destruct (Forall2_at _ _ _ F2 _ _ El) as (o & Eo & Lo).
    unfold lget. rewrite El1, Eo. cbn [bind]. destruct (same_layer_shape _ _ SL1) as [Sh _]. unfold pictureOfOutputs.
    pose proof (layers_dims _ _ _ HL Hs Hk HP' layer) as Dims. specialize (fun C X Y => Dims C X Y (nth_error_In _ _ El)).
    assert (Eq : forall layer0, Some layer = Some layer0 -> layer0 = layer) by congruence.
    assert (Shape : match l_body layer1 with BFilter _ f _ => f_shapeOut f = getShapeOfOutput layer | _ => exists n, getShapeOfOutput layer = [n] end).
    { rewrite <- Sh. unfold getShapeOfOutput. destruct (l_body layer1); eauto. }
    destruct (l_body layer1) as [ns|ns|ns|kd f ns].
    1-3: destruct Shape as (n & En); exists None; split; [reflexivity|]; intros ? EE; rewrite (Eq _ EE), En; reflexivity.
    rewrite Shape. destruct (getShapeOfOutput layer) as [|C [|X [|Y [|? ?]]]] eqn:Es; try (exists None; split; [reflexivity|]; intros ? EE; rewrite (Eq _ EE), Es; reflexivity).
    destruct (Dims _ _ _ eq_refl) as (HC & HX & HY & HM). destruct (drawOutputs_shows cv C X Y o (level l) HC HX HY (GG C HC HM)) as (im & Ed & Hshow).
    { rewrite Lo. apply cells3. } { intros n v Hv. eapply HS; eauto. }
    rewrite Ed. cbn [bind]. exists (Some im). split; [reflexivity|]. intros ? EE. rewrite (Eq _ EE), Es. exists im, (ceilSqrt cv C). split; [reflexivity|]. split; [now apply GG|exact Hshow]. }
  apply omap_Forall2 in Step as (pics & Ep & FP). exists pics, (with_net s net1). unfold saveFilterLayersAsBitmap. rewrite Hidle. cbn [negb]. rewrite Ex. cbn [bind]. rewrite E. cbn [bind].
  rewrite Ep. cbn [bind]. split; [reflexivity|]. pose proof (Forall2_len _ _ _ FP) as LP. rewrite seq_length in LP. pose proof (Forall2_len _ _ _ S1) as L1. pose proof (Forall2_len _ _ _ SL) as L2.
  split; [lia|]. split; [reflexivity|]. split; [apply (inspect_w _ _ _ _ E)|]. intros l layer El. assert (Hl : l < List.length (nn_layers (sn_net s))) by (apply nth_error_Some; congruence).
  assert (Eseq : nth_error (seq 0 (List.length (nn_layers net1))) l = Some l).
  { rewrite (nth_error_nth' _ 0) by (rewrite seq_length; lia). rewrite seq_nth by lia. reflexivity. }
  destruct (Forall2_at _ _ _ FP _ _ Eseq) as (p & -> & HQ). specialize (HQ _ El). destruct (getShapeOfOutput layer) as [|C [|X [|Y [|? ?]]]]; try (now rewrite HQ).
  destruct HQ as (im & side & -> & ?). eauto.
Qed.
(* while a training is under way both functions throw *)
Theorem C47_not_while_training : forall (cv : Conv) s d index, sn_idle s = false ->
  (exists e, saveFilterLayersAsBitmap cv s d index = Throw e) /\ (exists e, saveFeatureMapsAsBitmap cv s = Throw e).
Proof. intros cv s d index H. unfold saveFilterLayersAsBitmap, saveFeatureMapsAsBitmap. rewrite H. split; eexists; reflexivity. Qed.
End A.
(* binary32: the grid is the right one *)
Theorem C47_grid_binary32 : forall e t, good_grid (conv32 e t).
Proof. exact grid32. Qed.
Print Assumptions C47_outputs_drawn.

(* ---------- what goes wrong with the pictures ---------- *)
Section B.
Context {N : Num} (cv : Conv).
Definition quiet {A} (x : outcome A) : Prop := match x with Throw _ => False | _ => True end.
Lemma quiet_bind {A B} (x : outcome A) (f : A -> outcome B) : quiet x -> (forall a, quiet (f a)) -> quiet (bind x f).
Proof. destruct x; cbn; auto. Qed.
Lemma quiet_fold {A S} (f : S -> A -> outcome S) l : (forall s a, quiet (f s a)) -> forall s, quiet (ofold f l s).
Proof. intros H. induction l as [|a l IH]; intros s; cbn; auto. apply quiet_bind; auto. Qed.
Lemma quiet_lget {A} (l : list A) i : quiet (lget l i). Proof. unfold lget. destruct (nth_error l i); exact I. Qed.
Lemma quiet_lset {A} (l : list A) i v : quiet (lset l i v). Proof. unfold lset. destruct (_ <? _); exact I. Qed.
Lemma quiet_uchar v : quiet (uchar cv v). Proof. unfold uchar. destruct (trunc cv v); [destruct (_ && _)|]; exact I. Qed.
Lemma quiet_pixel im x y p : quiet (set_pixel im x y p). Proof. unfold set_pixel. apply quiet_bind; [apply quiet_lset|intros; exact I]. Qed.
Lemma quiet_UB {A} (x : outcome A) : quiet x -> (forall a, x <> Ok a) -> x = UB.
Proof. destruct x; cbn; intros; [now destruct (H0 a)|contradiction|reflexivity]. Qed.
Lemma ofold_all {A S} (f : S -> A -> outcome S) l a : In a l -> (forall s r, f s a <> Ok r) -> forall s r, ofold f l s <> Ok r.
Proof.
  induction l as [|b l IH]; intros Hin Hno s r; [contradiction|]. cbn. destruct Hin as [->|Hin]; intros H; apply bind_Ok_inv in H as (s' & E & H); [exact (Hno _ _ E)|exact (IH Hin Hno _ _ H)].
Qed.
Lemma quiet_weights f nin ns oX oY inX n : quiet (getWeights f nin ns oX oY inX n).
Proof.
  unfold getWeights. apply quiet_fold. intros w k. apply quiet_bind; [apply quiet_lget|]. intros j. destruct (oX * oY =? 0); [exact I|]. cbv zeta. apply quiet_fold. intros. apply quiet_fold. intros.
  apply quiet_bind; [apply quiet_lget|]. intros. apply quiet_bind; [apply quiet_lget|]. intros. apply quiet_lset.
Qed.
Lemma quiet_drawWeights f nin ns C oX oY inX inY : quiet (drawWeights cv f nin ns C oX oY inX inY).
Proof.
  unfold drawWeights. apply quiet_fold. intros im x. apply quiet_fold. intros im1 y. destruct (_ <? _); [|exact I]. apply quiet_bind; [apply quiet_weights|]. intros w. apply quiet_fold. intros. apply quiet_fold. intros.
  apply quiet_bind; [apply quiet_lget|]. intros. apply quiet_bind; [apply quiet_uchar|]. intros. apply quiet_pixel.
Qed.
Lemma quiet_picture l : quiet (pictureOfWeights cv l).
Proof.
  unfold pictureOfWeights. destruct (l_body l) as [| | |kd f ns]; try exact I. destruct (f_shapeIn f) as [|? [|? [|? [|]]]]; try exact I. destruct (f_shapeOut f) as [|? [|? [|? [|]]]]; try exact I.
  apply quiet_bind; [apply quiet_drawWeights|intros; exact I].
Qed.
(* a neuron that is missing *)
Lemma weights_missing f nin ns oX oY inX num n : n < oX * oY -> List.length ns <= n * (num + 1) -> forall w, getWeights f nin ns oX oY inX num <> Ok w.
Proof.
  intros Hn HL. unfold getWeights. apply (ofold_all _ _ n); [apply in_seq; lia|]. intros s r H. apply bind_Ok_inv in H as (j & E & _). unfold lget in E.
  rewrite (proj2 (nth_error_None _ _) HL) in E. discriminate.
Qed.
Lemma draw_missing f nin ns C oX oY inX inY num n : 0 < C -> square_side C (ceilSqrt cv C) -> num < C -> n < oX * oY -> List.length ns <= n * (num + 1) ->
  drawWeights cv f nin ns C oX oY inX inY = UB.
Proof.
  intros HC HS Hnum Hn HL. apply quiet_UB; [apply quiet_drawWeights|]. destruct (grid_room cv C HC HS) as (Hg & Hroom & Hgy). intros im.
  assert (En : num = gridX cv C * (num / gridX cv C) + num mod gridX cv C) by (apply Nat.div_mod; lia).
  unfold drawWeights. apply (ofold_all _ _ (num mod gridX cv C)); [apply in_seq; pose proof (Nat.mod_upper_bound num (gridX cv C)); lia|].
  intros s r. apply (ofold_all _ _ (num / gridX cv C)); [apply in_seq; pose proof (Nat.div_lt_upper_bound num (gridX cv C) (gridY cv C)); lia|].
  intros s1 r1. destruct (Nat.ltb_spec (num / gridX cv C * gridX cv C + num mod gridX cv C) C); [|lia]. intros H1. apply bind_Ok_inv in H1 as (w & E & _). revert E. rewrite <- En. now apply (weights_missing _ _ _ _ _ _ _ n).
Qed.
Lemma network_UB s l : sn_idle s = true -> In l (nn_layers (sn_net s)) -> pictureOfWeights cv l = UB -> saveFeatureMapsAsBitmap cv s = UB.
Proof.
  intros HI Hin HU. unfold saveFeatureMapsAsBitmap. rewrite HI. cbn [negb]. apply In_nth_error in Hin as (p & Hp). apply (omap_UB _ _ p l); auto.
  intros x _. pose proof (quiet_picture x) as Q. destruct (pictureOfWeights cv x); [left; eauto|contradiction|right; reflexivity].
Qed.

(* The picture of the weights of a 2-D convolution with at least two positions cannot be drawn: the function reads a neuron past the last one,
   whatever the weights; so with any network that has such a layer. *)
Theorem C47_convolution_weights_refuted : forall (d : LDesc) c x y k l s, good_grid cv ->
  layer_of d [c; x; y] l -> d_type d = t_conv -> 0 < c -> 0 < x -> 0 < y -> d_ksize d = Z.of_nat k -> 2 <= (x - k + 1) * (y - k + 1) ->
  pictureOfWeights cv l = UB /\ (sn_idle s = true -> In l (nn_layers (sn_net s)) -> saveFeatureMapsAsBitmap cv s = UB).
Proof.
  intros d c x y k l s GG HL Ht Hc Hx Hy Hk H2. assert (Hsane : sane_kernel d) by (unfold sane_kernel; rewrite Ht; lia).
  assert (U : pictureOfWeights cv l = UB).
  { assert (Hpos : Forall (fun x => 0 < x) [c; x; y]) by (repeat constructor; auto).
    assert (HP : forall draws masks l0, built draws masks d [c; x; y] l0 -> supported_pooling l0) by (intros ? ? ? B; destruct B; try congruence; exact I).
    destruct (layer_of_wf d _ l HL Hpos Hsane HP) as (draws & masks & l0 & B & W0 & W & SL & SS).
    destruct HL as (dr1 & ms1 & l1 & Hb & HV & HW). apply build_layer_built in Hb; auto.
    assert (HF : (d_filters d <= 1000000)%Z).
    { destruct Hb; try congruence; [destruct H0 as [H0|[H0 _]]; discriminate|]. cbn [finish l_body layer_isValid] in HV. unfold layer_isValid in HV. cbn [finish l_body f_nin f_shapeOut f_kernels] in HV.
      destruct (existsb _ ns); [discriminate|]. destruct (negb _); [discriminate|]. apply neurons_valid_max in HV. rewrite map_length in HV.
      match goal with HB : build_neurons _ _ = Ok ns |- _ => apply omap_Ok_length in HB; rewrite seq_length in HB; rewrite HB in HV end. lia. }
    destruct B; try congruence; [destruct H0 as [H0|[H0 _]]; discriminate|]. match goal with E : [c; x; y] = _ |- _ => injection E as <- <- <- end.
    assert (ks = k) by lia. subst ks. destruct (filter_state _ _ _ l _ _ ns _ _ SL SS W I) as (mi & ns' & Eb & L & _). unfold pictureOfWeights. rewrite Eb. cbn [f_shapeIn f_shapeOut set_maxIndex].
    match goal with HB : build_neurons _ _ = Ok ns |- _ => apply omap_Ok_length in HB; rewrite seq_length in HB end.
    rewrite (draw_missing _ _ _ f (x - k + 1) (y - k + 1) x y (f - 1) 1); [reflexivity|assumption|apply GG; [assumption|lia]|lia|lia|lia]. }
  split; [exact U|]. intros HI Hin. exact (network_UB s l HI Hin U).
Qed.
(* ... and with any network that has a 2-D max pooling: it has no neurons *)
Theorem C47_pooling_weights_refuted : forall (d : LDesc) c x y l s, good_grid cv ->
  layer_of d [c; x; y] l -> d_type d = t_pool -> 0 < c -> 0 < x -> 0 < y -> sane_kernel d -> supported_pooling l ->
  pictureOfWeights cv l = UB /\ (sn_idle s = true -> In l (nn_layers (sn_net s)) -> saveFeatureMapsAsBitmap cv s = UB).
Proof.
  intros d c x y l s GG HL Ht Hc Hx Hy Hsane HP0.
  assert (U : pictureOfWeights cv l = UB).
  { assert (Hpos : Forall (fun x => 0 < x) [c; x; y]) by (repeat constructor; auto).
    destruct (layer_of_wf d _ l HL Hpos Hsane (pooling_of _ _ _ HL Hpos Hsane HP0)) as (draws & masks & l0 & B & W0 & W & SL & SS).
    pose proof (fun C X Y => layer_dims d _ l C X Y HL Hpos Hsane HP0) as Dims.
    destruct B; try congruence; [destruct H0 as [H0|[H0 _]]; discriminate|].
    destruct (pool_state _ _ _ l _ _ _ _ SL W I) as (mi & Eb & _). unfold pictureOfWeights, getShapeOfOutput in *. rewrite Eb in *. cbn [f_shapeIn f_shapeOut set_maxIndex] in *.
    destruct (Dims _ _ _ eq_refl) as (HC & HX & HY & HM).
    rewrite (draw_missing _ _ _ c0 (tiles x0 ks) (tiles y0 ks) x0 y0 0 0); [reflexivity|assumption|now apply GG|lia|nia|cbn; lia]. }
  split; [exact U|]. intros HI Hin. exact (network_UB s l HI Hin U).
Qed.
(* The picture of the weights of a 2-D locally connected layer with two filters or more does not depend on the weights of its last neuron. *)
Theorem C47_local_weights_refuted : forall (d : LDesc) c x y l kd f ns ns' l', good_grid cv ->
  layer_of d [c; x; y] l -> d_type d = t_local -> 0 < c -> 0 < x -> 0 < y -> sane_kernel d -> (2 <= d_filters d)%Z ->
  l_body l = BFilter kd f ns -> l_body l' = BFilter kd f ns' -> l_in l' = l_in l ->
  (forall i, i + 1 < List.length ns -> nth_error ns' i = nth_error ns i) ->
  pictureOfWeights cv l' = pictureOfWeights cv l.
Proof.
  intros d c x y l kd f ns ns' l' GG HL Ht Hc Hx Hy Hsane H2 Eb Eb' Ein Agree. assert (Hpos : Forall (fun x => 0 < x) [c; x; y]) by (repeat constructor; auto).
  assert (HP : forall draws masks l0, built draws masks d [c; x; y] l0 -> supported_pooling l0) by (intros ? ? ? B; destruct B; try congruence; exact I).
  destruct (layer_of_wf d _ l HL Hpos Hsane HP) as (draws & masks & l0 & B & W0 & W & SL & SS).
  assert (HS0 : supported_pooling l) by (unfold supported_pooling; destruct SL as (_ & (_ & SK) & _); rewrite Eb in *; destruct B; try congruence; cbn [finish l_body] in SK; try contradiction; destruct SK as (-> & _); exact I).
  pose proof (fun C X Y => layer_dims d _ l C X Y HL Hpos Hsane HS0) as Dims.
  destruct B; try congruence; [destruct H0 as [H0|[H0 _]]; discriminate|]. match goal with E : [c; x; y] = _ |- _ => injection E as <- <- <- end.
  destruct (filter_state _ _ _ l _ _ ns0 _ _ SL SS W I) as (mi & ns1 & Eb1 & L & _). rewrite Eb in Eb1. injection Eb1 as -> -> <-.
  match goal with HB : build_neurons _ _ = Ok ns0 |- _ => apply omap_Ok_length in HB; rewrite seq_length in HB; rewrite HB in L end.
  unfold getShapeOfOutput in Dims. rewrite Eb in Dims. cbn [f_shapeOut set_maxIndex] in Dims. destruct (Dims _ _ _ eq_refl) as (HC & HX & HY & HM).
  set (K := tiles x ks * tiles y ks) in *. assert (HK : 0 < K) by (unfold K; nia). assert (Hf : 2 <= f0) by lia.
  unfold pictureOfWeights. rewrite Eb, Eb', Ein. cbn [f_shapeIn f_shapeOut set_maxIndex].
  apply (f_equal (fun z => bind z _)). unfold drawWeights. apply ofold_ext_in. intros im u Hu. apply ofold_ext_in. intros im1 v Hv.
  destruct (Nat.ltb_spec (v * gridX cv f0 + u) f0) as [Hlt|]; [|reflexivity]. apply (f_equal (fun z => bind z _)). unfold getWeights. apply ofold_ext_in. intros w n Hn. apply in_seq in Hn.
  unfold lget at 1 3. rewrite Agree; [reflexivity|]. rewrite L. assert (n * (gridX cv f0 * v + u + 1) <= (K - 1) * f0) by (apply Nat.mul_le_mono; lia). nia.
Qed.
End B.

(* ---------- the input ---------- *)
Section C.
Context {N : Num} (cv : Conv).
Lemma nth_some {A} (l : list A) n : n < List.length l -> exists v, nth_error l n = Some v.
Proof. intros H. destruct (nth_error l n) eqn:E; [eauto|]. apply nth_error_None in E. lia. Qed.
(* A test row that is shown as a picture: one level of grey or three colours per pixel, pixel (i, j) is number (j X + i) of the row. *)
Lemma drawInput_grey X Y inputs (level : nat -> Z) : List.length inputs = X * Y -> (forall n v, nth_error inputs n = Some v -> showable cv v (level n)) ->
  exists im, drawInput cv inputs [1; X; Y] = Ok (Some im) /\ bm_width im = X /\ bm_height im = Y /\
    forall i j, i < X -> j < Y -> pixel_at im i j = Some (grey (level (j * X + i))).
Proof.
  intros L HS. unfold drawInput. cbn [Nat.eqb].
  rewrite (grid_fold (fun s y x => bind (lget inputs (fst s)) (fun v => bind (uchar cv (fmul v (fofZ 255))) (fun c => bind (set_pixel (snd s) x y (grey c)) (fun im => Ok (S (fst s), im))))) X Y).
  destruct (draw_fold X Y (Y * X) (fun n => bind (bind (lget inputs n) (fun v => uchar cv (fmul v (fofZ 255)))) (fun l => Ok (grey l))) (fun n => n mod X) (fun n => n / X) (fun n => grey (level n)) (newBitmap X Y)) as (im & E & Ew & Eh & Ld & Hp & Ho).
  { unfold newBitmap. cbn [bm_data]. now rewrite repeat_length. } { reflexivity. } { reflexivity. }
  { intros n Hn. destruct (nth_some inputs n ltac:(lia)) as (v & Ev). unfold lget. rewrite Ev. cbn [bind]. rewrite (uchar_showable _ _ _ (HS _ _ Ev)). reflexivity. }
  { intros n Hn. assert (0 < X) by nia. split; [apply Nat.mod_upper_bound; lia|apply Nat.div_lt_upper_bound; lia]. }
  { intros n n' Hn Hn' E1 E2. assert (0 < X) by nia. rewrite (Nat.div_mod n X), (Nat.div_mod n' X) by lia. now rewrite E1, E2. }
  assert (E2 : ofold (fun s n => bind (lget inputs (fst s)) (fun v => bind (uchar cv (fmul v (fofZ 255))) (fun c => bind (set_pixel (snd s) (n mod X) (n / X) (grey c)) (fun im => Ok (S (fst s), im))))) (seq 0 (Y * X)) (0, newBitmap X Y) = Ok (Y * X, im)).
  { rewrite <- E. clear. generalize (newBitmap X Y) as im0. intros im0.
    enough (G : forall m k s, fst s = k -> ofold (fun s n => bind (lget inputs (fst s)) (fun v => bind (uchar cv (fmul v (fofZ 255))) (fun c => bind (set_pixel (snd s) (n mod X) (n / X) (grey c)) (fun im => Ok (S (fst s), im))))) (seq k m) s =
      ofold (fun s n => bind (bind (bind (lget inputs n) (fun v => uchar cv (fmul v (fofZ 255)))) (fun l => Ok (grey l))) (fun c => bind (set_pixel (snd s) (n mod X) (n / X) c) (fun im => Ok (S (fst s), im)))) (seq k m) s) by (apply G; auto).
    induction m as [|m IH]; intros k s Hs; [reflexivity|]. cbn [seq ofold]. rewrite Hs. destruct (lget inputs k) as [v| |]; cbn [bind]; auto. destruct (uchar cv _) as [z| |]; cbn [bind]; auto.
    destruct (set_pixel _ _ _ _); cbn [bind]; auto. }
  rewrite E2. cbn [bind]. exists im. split; [reflexivity|]. split; [exact Ew|]. split; [exact Eh|]. intros i j Hi Hj. specialize (Hp (j * X + i) ltac:(nia)).
  rewrite Nat.div_add_l, Nat.div_small, Nat.add_0_r in Hp by lia. rewrite (Nat.add_comm _ i), Nat.mod_add, Nat.mod_small in Hp by lia. rewrite (Nat.add_comm (j * X) i). exact Hp.
Qed.
Lemma drawInput_colour C X Y inputs (level : nat -> Z) : C <> 1 -> 3 * X * Y <= List.length inputs -> (forall n v, n < 3 * X * Y -> nth_error inputs n = Some v -> showable cv v (level n)) ->
  exists im, drawInput cv inputs [C; X; Y] = Ok (Some im) /\ bm_width im = X /\ bm_height im = Y /\
    forall i j, i < X -> j < Y -> pixel_at im i j = Some (level (3 * (j * X + i)), level (3 * (j * X + i) + 1), level (3 * (j * X + i) + 2)).
Proof.
  intros HC L HS. unfold drawInput. destruct (Nat.eqb_spec C 1) as [|_]; [contradiction|].
  set (step := fun (s : nat * bitmap) x y => bind (lget inputs (fst s)) (fun r => bind (uchar cv (fmul r (fofZ 255))) (fun r =>
          bind (lget inputs (fst s + 1)) (fun g => bind (uchar cv (fmul g (fofZ 255))) (fun g =>
          bind (lget inputs (fst s + 2)) (fun b => bind (uchar cv (fmul b (fofZ 255))) (fun b =>
          bind (set_pixel (snd s) x y (r, g, b)) (fun im => Ok (fst s + 3, im))))))))).
  change (exists im, bind (ofold (fun s y => ofold (fun s x => step s x y) (seq 0 X) s) (seq 0 Y) (0, newBitmap X Y)) (fun '(_, im) => Ok (Some im)) = Ok (Some im) /\ bm_width im = X /\ bm_height im = Y /\
    forall i j, i < X -> j < Y -> pixel_at im i j = Some (level (3 * (j * X + i)), level (3 * (j * X + i) + 1), level (3 * (j * X + i) + 2))).
  rewrite (grid_fold (fun s y x => step s x y) X Y).
  set (p := fun n => (level (3 * n), level (3 * n + 1), level (3 * n + 2))).
  destruct (draw_fold X Y (Y * X) (fun n => Ok (p n)) (fun n => n mod X) (fun n => n / X) p (newBitmap X Y)) as (im & E & Ew & Eh & Ld & Hp & Ho).
  { unfold newBitmap. cbn [bm_data]. now rewrite repeat_length. } { reflexivity. } { reflexivity. } { reflexivity. }
  { intros n Hn. assert (0 < X) by nia. split; [apply Nat.mod_upper_bound; lia|apply Nat.div_lt_upper_bound; lia]. }
  { intros n n' Hn Hn' E1 E2. assert (0 < X) by nia. rewrite (Nat.div_mod n X), (Nat.div_mod n' X) by lia. now rewrite E1, E2. }
  assert (Get : forall n, n < 3 * X * Y -> exists v, lget inputs n = Ok v /\ uchar cv (fmul v (fofZ 255)) = Ok (level n)).
  { intros n Hn. destruct (nth_some inputs n ltac:(lia)) as (v & Ev). exists v. unfold lget. rewrite Ev. split; [reflexivity|]. apply uchar_showable. eauto. }
  assert (E2 : ofold (fun s n => step s (n mod X) (n / X)) (seq 0 (Y * X)) (0, newBitmap X Y) = Ok (3 * (Y * X), im)).
  { clear -E Get. revert E. generalize (newBitmap X Y) as im0. intros im0.
    enough (G : forall m k im0, k + m <= Y * X -> ofold (fun s n => bind (Ok (p n)) (fun c => bind (set_pixel (snd s) (n mod X) (n / X) c) (fun im => Ok (S (fst s), im)))) (seq k m) (k, im0) = Ok (k + m, im) ->
      ofold (fun s n => step s (n mod X) (n / X)) (seq k m) (3 * k, im0) = Ok (3 * (k + m), im)) by (intros E; apply (G (Y * X) 0); [lia|exact E]).
    induction m as [|m IH]; intros k im1 Hk H; cbn [seq ofold] in *.
    - assert (im1 = im) by congruence. subst im1. rewrite Nat.add_0_r. reflexivity.
    - cbn [bind fst snd] in H. unfold step at 1. cbn [fst snd].
      destruct (Get (3 * k) ltac:(lia)) as (r & -> & Er). cbn [bind]. rewrite Er. cbn [bind]. destruct (Get (3 * k + 1) ltac:(lia)) as (g & -> & Eg). cbn [bind]. rewrite Eg. cbn [bind].
      destruct (Get (3 * k + 2) ltac:(lia)) as (b & -> & Ebl). cbn [bind]. rewrite Ebl. cbn [bind]. fold (p k). destruct (set_pixel im1 (k mod X) (k / X) (p k)) as [im2| |] eqn:Ep; cbn [bind] in H; try discriminate.
      cbn [bind]. replace (3 * k + 3) with (3 * S k) by lia. replace (k + S m) with (S k + m) by lia. replace (k + S m) with (S k + m) in H by lia. apply IH; [lia|exact H]. }
  rewrite E2. cbn [bind]. exists im. split; [reflexivity|]. split; [exact Ew|]. split; [exact Eh|]. intros i j Hi Hj. specialize (Hp (j * X + i) ltac:(nia)).
  rewrite Nat.div_add_l, Nat.div_small, Nat.add_0_r in Hp by lia. rewrite (Nat.add_comm (j * X) i), Nat.mod_add, Nat.mod_small in Hp by lia. rewrite (Nat.add_comm (j * X) i). exact Hp.
Qed.
(* the shape of the input of a filter layer is the one it was given *)
Lemma input_shape d c x y l : layer_of d [c; x; y] l -> 0 < c -> 0 < x -> 0 < y -> sane_kernel d -> d_type d = t_conv \/ d_type d = t_local \/ d_type d = t_pool -> getShapeOfInput l = [c; x; y].
Proof.
  intros HL Hc Hx Hy Hk Ht. destruct HL as (dr & ms & l1 & Hb & HV & HW). apply build_layer_built in Hb; auto. pose proof (works_kind _ _ HW) as K. unfold getShapeOfInput.
  destruct Hb; try (exfalso; destruct Ht as [Ht|[Ht|Ht]]; congruence); try (match goal with H : [_; _; _] = _ \/ _ |- _ => destruct H as [H|[H _]]; discriminate end);
    cbn [finish l_body] in K; destruct (l_body l); try contradiction; destruct K as (_ & -> & _); cbn [f_shapeIn]; congruence.
Qed.
(* The test row shown for a network whose first layer is a 2-D filter layer, with one channel or three. *)
Theorem C47_input_drawn : forall draws masks lr m C X Y first rest net s d index x (level : nat -> Z),
  construct draws masks (Input (map Z.of_nat [C; X; Y]) :: first :: rest) lr m = Ok net ->
  C = 1 \/ C = 3 -> 0 < X -> 0 < Y -> Forall sane_kernel (first :: rest) -> Forall supported_pooling (nn_layers net) ->
  d_type first = t_conv \/ d_type first = t_local \/ d_type first = t_pool ->
  uses (C * X * Y) net (sn_net s) -> getTestingData d index = Ok x -> List.length x = C * X * Y ->
  (forall n v, nth_error x n = Some v -> showable cv v (level n)) ->
  exists im, saveData2DAsBitmap cv s d index = Ok (Some im) /\ bm_width im = X /\ bm_height im = Y /\
    forall i j, i < X -> j < Y -> pixel_at im i j = Some (if C =? 1 then grey (level (j * X + i)) else (level (3 * (j * X + i)), level (3 * (j * X + i) + 1), level (3 * (j * X + i) + 2))).
Proof.
  intros draws masks lr m C X Y first rest net s d index x level H HC HX HY Hk HP Ht U Ex Lx HS. assert (HC0 : 0 < C) by (destruct HC; subst; lia).
  assert (Hs : Forall (fun n => 0 < n) [C; X; Y]) by (repeat constructor; auto).
  assert (HL : layers_of (first :: rest) [C; X; Y] (nn_layers (sn_net s))) by (eapply network_layers; eauto; rewrite cells3; exact U).
  unfold saveData2DAsBitmap. rewrite Ex. cbn [bind]. destruct (nn_layers (sn_net s)) as [|l t]; [contradiction|]. cbn [layers_of] in HL. destruct HL as [HL _]. unfold lget. cbn [nth_error bind].
  inversion Hk; subst. rewrite (input_shape first C X Y l) by auto. destruct HC as [-> | ->]; cbn [Nat.eqb].
  - apply drawInput_grey; [lia|exact HS].
  - apply drawInput_colour; [lia|lia|]. intros n v _. apply HS.
Qed.
(* With four channels or more, pixel (i, j) shows the values 3 (j X + i) to 3 (j X + i) + 2 of the row, although cell (i, j) starts at C (j X + i), and the values
   from 3 X Y on are not shown at all. *)
Theorem C47_many_channels_refuted : forall C X Y inputs (level : nat -> Z), 4 <= C -> List.length inputs = C * X * Y -> (forall n v, nth_error inputs n = Some v -> showable cv v (level n)) ->
  exists im, drawInput cv inputs [C; X; Y] = Ok (Some im) /\ bm_width im = X /\ bm_height im = Y /\
    (forall i j, i < X -> j < Y -> pixel_at im i j = Some (level (3 * (j * X + i)), level (3 * (j * X + i) + 1), level (3 * (j * X + i) + 2))) /\
    (forall i j, i < X -> j < Y -> (i, j) <> (0, 0) -> 3 * (j * X + i) < C * (j * X + i)) /\
    forall inputs', List.length inputs' = C * X * Y -> (forall n, n < 3 * X * Y -> nth_error inputs' n = nth_error inputs n) ->
      exists im', drawInput cv inputs' [C; X; Y] = Ok (Some im') /\ forall i j, i < X -> j < Y -> pixel_at im' i j = pixel_at im i j.
Proof.
  intros C X Y inputs level HC L HS. assert (LB : 3 * X * Y <= C * X * Y) by nia. destruct (drawInput_colour C X Y inputs level ltac:(lia) ltac:(lia) (fun n v _ => HS n v)) as (im & E & Ew & Eh & Hp).
  exists im. split; [exact E|]. split; [exact Ew|]. split; [exact Eh|]. split; [exact Hp|]. split.
  - intros i j Hi Hj Hne. assert (0 < j * X + i). { destruct i; [|lia]. destruct j; [congruence|nia]. } nia.
  - intros inputs' L' HA. destruct (drawInput_colour C X Y inputs' level ltac:(lia) ltac:(lia)) as (im' & E' & _ & _ & Hp').
    { intros n v Hn Hv. rewrite (HA n Hn) in Hv. eauto. }
    exists im'. split; [exact E'|]. intros i j Hi Hj. rewrite Hp by auto. now apply Hp'.
Qed.
(* With two channels the function always reads past the end of the row. *)
Theorem C47_two_channels_refuted : forall X Y inputs, 0 < X -> 0 < Y -> List.length inputs = 2 * X * Y -> drawInput cv inputs [2; X; Y] = UB.
Proof.
  intros X Y inputs HX HY L. unfold drawInput. cbn [Nat.eqb].
  set (step := fun (s : nat * bitmap) x y => bind (lget inputs (fst s)) (fun r => bind (uchar cv (fmul r (fofZ 255))) (fun r =>
          bind (lget inputs (fst s + 1)) (fun g => bind (uchar cv (fmul g (fofZ 255))) (fun g =>
          bind (lget inputs (fst s + 2)) (fun b => bind (uchar cv (fmul b (fofZ 255))) (fun b =>
          bind (set_pixel (snd s) x y (r, g, b)) (fun im => Ok (fst s + 3, im))))))))).
  assert (Q : forall s x y, quiet (step s x y)).
  { intros. unfold step. repeat (apply quiet_bind; [apply quiet_lget || apply quiet_uchar || apply quiet_pixel|intros]). exact I. }
  change (bind (ofold (fun s y => ofold (fun s x => step s x y) (seq 0 X) s) (seq 0 Y) (0, newBitmap X Y)) (fun '(_, im) => Ok (Some im)) = UB).
  rewrite (grid_fold (fun s y x => step s x y) X Y).
  assert (G : forall m k im0 r, ofold (fun s n => step s (n mod X) (n / X)) (seq k m) (3 * k, im0) = Ok r -> 0 < m -> 3 * (k + m) <= List.length inputs).
  { induction m as [|m IH]; intros k im0 r H Hm; [lia|]. cbn [seq ofold] in H. apply bind_Ok_inv in H as ([n1 im1] & E & H). unfold step in E. cbn [fst snd] in E.
    repeat (apply bind_Ok_inv in E as (? & ? & E)). injection E as <- <-. replace (k + (k + (k + 0)) + 3) with (3 * S k) in H by lia. destruct m as [|m].
    - match goal with H : lget inputs (3 * k + 2) = Ok _ |- _ => unfold lget in H; destruct (nth_error inputs (3 * k + 2)) eqn:En; [|discriminate] end. assert (3 * k + 2 < List.length inputs) by (apply nth_error_Some; congruence). lia.
    - match goal with HH : ofold _ _ _ = Ok r |- _ => pose proof (IH (S k) _ r HH) end. lia. }
  assert (EU : ofold (fun s n => step s (n mod X) (n / X)) (seq 0 (Y * X)) (0, newBitmap X Y) = UB).
  { apply quiet_UB; [apply quiet_fold; auto|]. intros r H. specialize (G (Y * X) 0 (newBitmap X Y) r H). nia. }
  rewrite EU. reflexivity.
Qed.
(* Values outside the range: if 255 v does not fit in a byte for one output, the conversion is undefined (so with ReLU, tanh, identity outputs
   above 1 or below 0). *)
Theorem C47_range_refuted : forall C X Y outputs n v, 0 < C -> 0 < X -> 0 < Y -> good_grid cv -> (Z.of_nat C <= 1000000)%Z -> List.length outputs = C * X * Y ->
  nth_error outputs n = Some v -> (forall l, ~ showable cv v l) -> drawOutputs cv C X Y outputs = UB.
Proof.
  intros C X Y outputs n v HC HX HY GG HM L Hv Hno. destruct (grid_room cv C HC (GG C HC HM)) as (Hg & Hroom & Hgy). unfold drawOutputs.
  set (gx := gridX cv C) in *. set (gy := gridY cv C) in *.
  pose (one := fun (s : nat * bitmap) c i j => bind (lget outputs (fst s)) (fun v => bind (uchar cv (fmul v (fofZ 255))) (fun l =>
     bind (set_pixel (snd s) (c mod gx * (X + 1) + i) (c / gx * (Y + 1) + j) (grey l)) (fun im => Ok (S (fst s), im))))).
  assert (E : forall s0, ofold (fun s j => ofold (fun s i => ofold (fun s y => ofold (fun s x =>
      if y * gx + x <? C then bind (lget outputs (fst s)) (fun v => bind (uchar cv (fmul v (fofZ 255))) (fun c =>
        bind (set_pixel (snd s) (x * (X + 1) + i) (y * (Y + 1) + j) (grey c)) (fun im => Ok (S (fst s), im))))
      else Ok s) (seq 0 gx) s) (seq 0 gy) s) (seq 0 X) s) (seq 0 Y) s0
    = ofold (fun s n => one s (n mod C) ((n / C) mod X) (n / C / X)) (seq 0 (Y * X * C)) s0).
  { intros s0. rewrite <- (grid_fold (fun s a c => one s c (a mod X) (a / X)) C (Y * X) s0).
    rewrite <- (grid_fold (fun s j i => ofold (fun s c => one s c i j) (seq 0 C) s) X Y s0).
    apply ofold_ext_in. intros s j _. apply ofold_ext_in. intros s1 i _.
    rewrite (grid_fold (fun s y x => if y * gx + x <? C then bind (lget outputs (fst s)) (fun v => bind (uchar cv (fmul v (fofZ 255))) (fun c =>
        bind (set_pixel (snd s) (x * (X + 1) + i) (y * (Y + 1) + j) (grey c)) (fun im => Ok (S (fst s), im)))) else Ok s) gx gy s1).
    rewrite <- (cut_fold (fun s c => one s c i j) C (gy * gx)) by exact Hroom. apply ofold_ext_in. intros s2 n0 _.
    replace (n0 / gx * gx + n0 mod gx) with n0 by (pose proof (Nat.div_mod n0 gx ltac:(lia)); lia). reflexivity. }
  rewrite E. clear E.
  assert (Hn : n < Y * X * C) by (assert (n < List.length outputs) by (apply nth_error_Some; congruence); nia).
  assert (Q : forall s c i j, quiet (one s c i j)).
  { intros. unfold one. repeat (apply quiet_bind; [apply quiet_lget || apply quiet_uchar || apply quiet_pixel|intros]). exact I. }
  assert (EU : ofold (fun s n => one s (n mod C) ((n / C) mod X) (n / C / X)) (seq 0 (Y * X * C)) (0, canvas cv C X Y) = UB).
  { apply quiet_UB; [apply quiet_fold; auto|]. intros r. enough (G : forall m k im0 r, k <= n < k + m -> ofold (fun s n => one s (n mod C) ((n / C) mod X) (n / C / X)) (seq k m) (k, im0) <> Ok r) by (apply G; lia).
    clear r. induction m as [|m IH]; intros k im0 r Hk H; [lia|]. cbn [seq ofold] in H. apply bind_Ok_inv in H as ([n1 im1] & E & H). unfold one in E. cbn [fst snd] in E.
    apply bind_Ok_inv in E as (w & E1 & E). apply bind_Ok_inv in E as (z & E2 & E). apply bind_Ok_inv in E as (im2 & E3 & E). injection E as <- <-.
    destruct (Nat.eq_dec n k) as [->|Hne]; [|apply (IH (S k) im2 r); [lia|exact H]]. unfold lget in E1. rewrite Hv in E1. injection E1 as <-. apply (Hno z). unfold uchar in E2. unfold showable.
    destruct (trunc cv (fmul v (fofZ 255))) as [z'|]; [|discriminate]. destruct ((0 <=? z')%Z && (z' <=? 255)%Z) eqn:EB; [|discriminate]. injection E2 as <-. apply andb_prop in EB as [A B]. apply Z.leb_le in A, B. auto. }
  rewrite EU. reflexivity.
Qed.
End C.
Print Assumptions C47_convolution_weights_refuted.
Print Assumptions C47_pooling_weights_refuted.
Print Assumptions C47_local_weights_refuted.
Print Assumptions C47_input_drawn.
Print Assumptions C47_two_channels_refuted.
Print Assumptions C47_many_channels_refuted.
Print Assumptions C47_range_refuted.
Print Assumptions C47_grid_binary32.

From Verif Require Import DataProps.
(* ---------- binary32: a network and a row that meet the hypotheses ---------- *)
Definition cv32 : @Conv N32 := conv32 (fun x => x) (fun x => x).
Definition levelb (v : @F N32) : Z := match trunc32 (@fmul N32 v (@fofZ N32 255)) with Some z => z | None => (-1)%Z end.
Definition showb (v : @F N32) : bool := (0 <=? levelb v)%Z && (levelb v <=? 255)%Z.
Lemma showb_ok v : showb v = true -> @showable N32 cv32 v (levelb v).
Proof.
  unfold showb, showable, levelb. cbn [cv32 conv32 trunc]. destruct (trunc32 _) as [z|]; [|discriminate]. intros H. apply andb_prop in H as [A B]. apply Z.leb_le in A, B. auto.
Qed.
Definition demo_v : list (@LDesc N32) := [@Input N32 [1; 4; 3]%Z; @Convolution N32 3 2 a_identity []; @FullyConnected N32 2 a_identity []].
Definition draws_v : nat -> nat -> nat -> nat -> @F N32 := fun _ n _ i => b32q (Z.of_nat (1 + n + i)) 128.
Definition demo_row : list (@F N32) := map (fun i => b32q (Z.of_nat i) 16) (seq 0 12).
Definition demo_v_check : bool :=
  run_check (@newSnn N32 draws_v nomasks demo_v (b32q 1 100) (b32q 9 10)) (fun s =>
  run_check (@mkData4 N32 classification [demo_row] (rows32 [[0;1]]%Z) [demo_row] (rows32 [[1;0]]%Z) nonTemporal 0) (fun d =>
  row32_is (@getTestingData N32 d 0) demo_row && forallb showb demo_row &&
  run_check (@getLayerOutputs N32 (sn_net s) demo_row) (fun o => forallb (forallb showb) (fst o) && negb (levelb (nth 0 (nth 0 (fst o) []) (b32 0)) =? levelb (nth 1 (nth 0 (fst o) []) (b32 0)))%Z))).
Example C47_hypotheses : exists s d,
  @newSnn N32 draws_v nomasks demo_v (b32q 1 100) (b32q 9 10) = Ok s /\ sn_idle s = true /\ @getTestingData N32 d 0 = Ok demo_row /\
  (forall n v, nth_error demo_row n = Some v -> @showable N32 cv32 v (levelb v)) /\
  (exists level, forall outs net1 l out n v, @getLayerOutputs N32 (sn_net s) demo_row = Ok (outs, net1) -> nth_error outs l = Some out -> nth_error out n = Some v -> @showable N32 cv32 v (level l n)).
Proof.
  assert (H : demo_v_check = true) by (vm_compute; reflexivity). unfold demo_v_check in H. unpack_all. exists w, w0. split; [exact E|].
  split. { unfold newSnn in E. apply bind_Ok_inv in E as (net & _ & E). apply bind_Ok_inv in E as (o & _ & E). injection E as <-. reflexivity. }
  split; [now apply row32_is_ok|]. split.
  { intros n v Hv. apply showb_ok. match goal with HH : forallb showb demo_row = true |- _ => rewrite forallb_forall in HH; apply HH end. eapply nth_error_In; eauto. }
  exists (fun l n => levelb (nth n (nth l (fst w1) []) (b32 0))). intros outs net1 l out n v E3 El En. rewrite E3 in E1. injection E1 as <-. cbn [fst] in *.
  rewrite (nth_error_nth _ _ _ El), (nth_error_nth _ _ _ En). apply showb_ok. match goal with HH : forallb (forallb showb) outs = true |- _ => rewrite forallb_forall in HH; specialize (HH out (nth_error_In _ _ El)); rewrite forallb_forall in HH; apply HH end.
  eapply nth_error_In; eauto.
Qed.
(* 2 and -1 cannot be shown *)
Example C47_range_hypotheses : (forall l, ~ @showable N32 cv32 (b32 2) l) /\ (forall l, ~ @showable N32 cv32 (b32 (-1)) l).
Proof.
  assert (H : (match trunc32 (@fmul N32 (b32 2) (@fofZ N32 255)), trunc32 (@fmul N32 (b32 (-1)) (@fofZ N32 255)) with Some a, Some b => (a =? 510)%Z && (b =? -255)%Z | _, _ => false end) = true) by (vm_compute; reflexivity).
  unfold showable. cbn [cv32 conv32 trunc]. destruct (trunc32 _) as [a|]; [|discriminate]. destruct (trunc32 _) as [b|]; [|discriminate]. apply andb_prop in H as [A B]. apply Z.eqb_eq in A, B. subst.
  split; intros l [E1 E2]; injection E1 as <-; lia.
Qed.
(* four channels: two pixels of four values *)
Example C47_many_hypotheses : exists im, @drawInput N32 cv32 (map b32 [0; 1; 0; 1; 1; 0; 1; 0]%Z) [4; 2; 1] = Ok (Some im) /\ bm_data im = [(0, 255, 0); (255, 255, 0)]%Z.
Proof. eexists. split; vm_compute; reflexivity. Qed.
