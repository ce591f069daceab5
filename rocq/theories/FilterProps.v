(* C28, C29: what convolution and locally connected layers compute. *)
From Coq Require Import SpecFloat.
From Verif Require Import Base Num Witness ActModel NeuronModel LayerModel NetModel NeuronProofs LayerProofs SafeProofs SafeLayers
  FactoryModel FactorySpec FactoryProofs FilterSpec SafeNet BuildProofs FilterProofs HistProofs.
Local Open Scope nat_scope.

(* The layers of every accepted network, after any history of predictions and training steps, are layers of their descriptions:
   the theorems below apply to each of them. *)
Theorem network_layers : forall {N : Num} draws masks shape rest lr m net net',
  construct draws masks (Input (map Z.of_nat shape) :: rest) lr m = Ok net ->
  Forall (fun n => 0 < n) shape -> Forall sane_kernel rest -> Forall supported_pooling (nn_layers net) ->
  uses (cell_count shape) net net' -> layers_of rest shape (nn_layers net').
Proof.
  intros N draws masks shape rest lr m net net' H Hs Hk HP U.
  assert (Hsane : sane_descriptions (Input (map Z.of_nat shape) :: rest)).
  { split; [|exact Hk]. cbn [d_shape Input]. clear -Hs. induction Hs; cbn; constructor; auto; lia. }
  destruct (construct_wf _ _ _ _ _ _ H Hsane HP) as (k & mm & W & Hp). apply construct_inv in H as (d0 & r & E & _ & Hb & HV & _ & _). injection E as <- <-.
  assert (Ek : k = cell_count shape).
  { cbn [hd d_shape Input] in Hp. unfold product in Hp. apply product_inv in Hp. change 1%Z with (Z.of_nat 1) in Hp. rewrite fold_mul_nat in Hp. apply Nat2Z.inj in Hp. exact Hp. }
  subst k. destruct (uses_wf _ _ _ _ W U) as [_ S]. eapply rest_layers; eauto.
Qed.
Print Assumptions network_layers.

Lemma shape1 (s : list nat) C X : s = [C; X] \/ s = [X] /\ C = 1 -> 0 < C -> 0 < X -> Forall (fun x => 0 < x) s /\ cell_count s = C * X.
Proof. intros [->|[-> ->]] ? ?; (split; [repeat constructor; auto|]); unfold cell_count; cbn; lia. Qed.

Section C28.
Context {N : Num}.
Lemma conv1D_window C k K v p : p < K -> map (fun i => nth (Z.to_nat i) v fzero) (nth p (conv1D_index C k K) []) = window1 C k v p.
Proof.
  intros Hp. unfold conv1D_index. rewrite (nth_map_in _ _ _ _ 0) by (rewrite seq_length; lia). rewrite seq_nth by lia. unfold cells, window1, cell1.
  rewrite map_flat_map. apply flat_map_ext. intros dx. rewrite map_map. apply map_ext. intros c. now rewrite Nat2Z.id.
Qed.
Lemma conv2D_window C X k oX K v p : p < K -> map (fun i => nth (Z.to_nat i) v fzero) (nth p (conv2D_index C X k oX K) []) = window2 C X k v (p mod oX) (p / oX).
Proof.
  intros Hp. unfold conv2D_index. rewrite (nth_map_in _ _ _ _ 0) by (rewrite seq_length; lia). rewrite seq_nth by lia. unfold cells, window2, cell2. cbn [plus].
  rewrite map_flat_map. apply flat_map_ext. intros dy. rewrite map_flat_map. apply flat_map_ext. intros dx. rewrite map_map. apply map_ext. intros c. rewrite Nat2Z.id. f_equal. lia.
Qed.
Lemma conv_state_values f mi ns x k : rowsOK 0 k (f_nin f) (f_index f) -> f_kernels f = List.length (f_index f) * List.length ns ->
  Forall (wf_plain (f_nin f)) ns -> List.length x = k ->
  exists out ns', conv_output (set_maxIndex f mi) ns x = Ok (out, ns') /\ List.length out = f_kernels f /\
    forall p n j, nth_error ns n = Some j -> p < List.length (f_index f) ->
      nth_error out (p * List.length ns + n) = Some (fires (n_act j) (n_bias j) (n_w j) (map (fun i => nth (Z.to_nat i) x fzero) (nth p (f_index f) []))).
Proof.
  intros HR Hk Hw Hx. destruct (conv_values k (set_maxIndex f mi) ns x HR Hk Hw Hx) as (ns' & E). cbn [f_index set_maxIndex] in E. eexists _, ns'. split; [exact E|].
  split. { rewrite (flat_map_length_const _ _ (List.length ns)); [symmetry; exact Hk|]. intros; apply map_length. }
  intros p n j Hj Hp. assert (n < List.length ns) by (apply nth_error_Some; congruence).
  rewrite (nth_error_flat_map_const _ _ (List.length ns) (fun a _ => map_length _ _) p n (nth p (f_index f) [])); auto; [|now apply nth_error_nth'].
  rewrite nth_error_map, Hj. reflexivity.
Qed.

(* 1-D: filter n at position p is the neuron n applied to the window of all channels starting at p, for every position where the
   window fits; all positions use the weights of the same neuron; outputs are laid out position by position. *)
Theorem C28_convolution1D : forall (d : LDesc) (s : list nat) (C X f k : nat) (l : Layer) (v : list F) reset,
  d_type d = t_conv -> d_filters d = Z.of_nat f -> d_ksize d = Z.of_nat k ->
  (s = [C; X] \/ s = [X] /\ C = 1) -> 0 < C -> 0 < X -> layer_of d s l -> List.length v = C * X ->
  k <= X /\ (forall p dx c, p < X - k + 1 -> dx < k -> c < C -> cell1 C (p + dx) c < C * X) /\
  List.length (layer_weights l) = f /\ (forall w, In w (layer_weights l) -> List.length w = k * C + 1) /\
  exists out b', body_output (l_body l) v reset = Ok (out, b') /\ List.length out = f * (X - k + 1) /\
    forall p n w, p < X - k + 1 -> nth_error (layer_weights l) n = Some w ->
      nth_error out (p * f + n) = Some (fires (d_act d) (d_bias d) w (window1 C k v p)).
Proof.
  intros d s C X f k l v reset Ht Hf Hk Hs HC HX HL Hv. destruct (shape1 s C X Hs HC HX) as [Hpos Hcells].
  assert (Hsane : sane_kernel d) by (unfold sane_kernel; rewrite Ht; lia).
  destruct (layer_of_wf d s l HL Hpos Hsane) as (draws & masks & l0 & B & W0 & W & SL & SS).
  { intros ? ? l0 B. destruct B; try congruence; exact I. }
  destruct B; try congruence; [|subst s; destruct Hs as [Hs|[Hs _]]; discriminate].
  assert (E1 : c = C /\ x = X) by (destruct H0 as [H0|[H0 ?]], Hs as [Hs|[Hs ?]]; rewrite H0 in Hs; try discriminate; injection Hs; intros; subst; auto). destruct E1 as [-> ->].
  assert (f0 = f) by lia. assert (ks = k) by lia. subst f0 ks. pose proof (neurons_wf _ _ _ _ _ _ (Nat.add_pos_r _ _ Nat.lt_0_1) H5) as [Ln _].
  destruct (filter_state _ _ _ l _ _ ns _ _ SL SS W I) as (mi & ns' & Eb & L & ES & FW & EW). cbn [f_nin] in FW. rewrite EW, Eb.
  split; [assumption|]. split. { intros p dx c ? ? ?. unfold cell1. nia. }
  split; [rewrite map_length; lia|]. split. { intros w Hw. apply in_map_iff in Hw as (j & <- & Hj). rewrite Forall_forall in FW. destruct (FW j Hj) as [(Hl & _) ?]. rewrite Hl. f_equal. assumption. }
  destruct (conv_state_values (mkFilter f (f * (X - k + 1)) (X - k + 1) 1 k (k * C) [C; X] [f; X - k + 1] (conv1D_index C k (X - k + 1)) 0 []) mi ns' v (C * X)) as (out & ns2 & E & Lo & Hval).
  - apply conv1D_rows; auto.
  - cbn [f_kernels f_index]. unfold conv1D_index. rewrite map_length, seq_length. lia.
  - exact FW.
  - exact Hv.
  - cbn [f_kernels f_index] in *. cbn [body_output]. rewrite E. cbn [bind]. eexists _, _. split; [reflexivity|]. split; [exact Lo|].
    intros p n w Hp Hw. rewrite nth_error_map in Hw. destruct (nth_error ns' n) as [j|] eqn:Ej; [|discriminate]. injection Hw as <-.
    assert (Hlen : List.length (conv1D_index C k (X - k + 1)) = X - k + 1) by (unfold conv1D_index; now rewrite map_length, seq_length).
    specialize (Hval p n j Ej ltac:(lia)). rewrite conv1D_window in Hval by lia. rewrite <- Ln, <- L. rewrite Hval.
    rewrite (mk_full_settings _ _ _ _ _ _ H5) in ES. destruct (settings_at _ _ _ _ ES _ _ Ej) as [-> ->]. reflexivity.
Qed.
(* 2-D: the same with k x k windows; position (px, py) is number py * width + px. *)
Theorem C28_convolution2D : forall (d : LDesc) (C X Y f k : nat) (l : Layer) (v : list F) reset,
  d_type d = t_conv -> d_filters d = Z.of_nat f -> d_ksize d = Z.of_nat k ->
  0 < C -> 0 < X -> 0 < Y -> layer_of d [C; X; Y] l -> List.length v = C * X * Y ->
  k <= X /\ k <= Y /\ (forall px py dx dy c, px < X - k + 1 -> py < Y - k + 1 -> dx < k -> dy < k -> c < C -> cell2 C X (px + dx) (py + dy) c < C * X * Y) /\
  List.length (layer_weights l) = f /\ (forall w, In w (layer_weights l) -> List.length w = k * k * C + 1) /\
  exists out b', body_output (l_body l) v reset = Ok (out, b') /\ List.length out = f * (X - k + 1) * (Y - k + 1) /\
    forall px py n w, px < X - k + 1 -> py < Y - k + 1 -> nth_error (layer_weights l) n = Some w ->
      nth_error out ((py * (X - k + 1) + px) * f + n) = Some (fires (d_act d) (d_bias d) w (window2 C X k v px py)).
Proof.
  intros d C X Y f k l v reset Ht Hf Hk HC HX HY HL Hv.
  assert (Hpos : Forall (fun x => 0 < x) [C; X; Y]) by (repeat constructor; auto).
  assert (Hsane : sane_kernel d) by (unfold sane_kernel; rewrite Ht; lia).
  destruct (layer_of_wf d [C; X; Y] l HL Hpos Hsane) as (draws & masks & l0 & B & W0 & W & SL & SS).
  { intros ? ? l0 B. destruct B; try congruence; exact I. }
  destruct B; try congruence; [destruct H0 as [H0|[H0 _]]; discriminate|].
  injection H0 as <- <- <-. assert (f0 = f) by lia. assert (ks = k) by lia. subst f0 ks. pose proof (neurons_wf _ _ _ _ _ _ (Nat.mul_pos_pos _ _ (Nat.add_pos_r _ _ Nat.lt_0_1) (Nat.add_pos_r _ _ Nat.lt_0_1)) H6) as [Ln _].
  destruct (filter_state _ _ _ l _ _ ns _ _ SL SS W I) as (mi & ns' & Eb & L & ES & FW & EW). cbn [f_nin] in FW. rewrite EW, Eb.
  split; [assumption|]. split; [assumption|]. split. { intros px py dx dy c ? ? ? ? ?. unfold cell2. apply grid_bound; lia. }
  split; [rewrite map_length; lia|]. split. { intros w Hw. apply in_map_iff in Hw as (j & <- & Hj). rewrite Forall_forall in FW. destruct (FW j Hj) as [(Hl & _) ?]. rewrite Hl. f_equal. assumption. }
  destruct (conv_state_values (mkFilter f (f * ((X - k + 1) * (Y - k + 1))) ((X - k + 1) * (Y - k + 1)) 1 k (k * k * C) [C; X; Y] [f; X - k + 1; Y - k + 1] (conv2D_index C X k (X - k + 1) ((X - k + 1) * (Y - k + 1))) 0 []) mi ns' v (C * X * Y)) as (out & ns2 & E & Lo & Hval).
  - apply conv2D_rows; auto.
  - cbn [f_kernels f_index]. unfold conv2D_index. rewrite map_length, seq_length. lia.
  - exact FW.
  - exact Hv.
  - cbn [f_kernels f_index] in *. cbn [body_output]. rewrite E. cbn [bind]. eexists _, _. split; [reflexivity|]. split; [rewrite Lo; lia|].
    intros px py n w Hpx Hpy Hw. rewrite nth_error_map in Hw. destruct (nth_error ns' n) as [j|] eqn:Ej; [|discriminate]. injection Hw as <-.
    assert (Hlen : List.length (conv2D_index C X k (X - k + 1) ((X - k + 1) * (Y - k + 1))) = (X - k + 1) * (Y - k + 1)) by (unfold conv2D_index; now rewrite map_length, seq_length).
    set (p := py * (X - k + 1) + px). assert (Hp : p < (X - k + 1) * (Y - k + 1)) by (unfold p; nia).
    specialize (Hval p n j Ej ltac:(lia)). rewrite conv2D_window in Hval by lia. rewrite <- Ln, <- L. rewrite Hval.
    assert (E1 : p mod (X - k + 1) = px) by (symmetry; apply Nat.mod_unique with py; unfold p; nia).
    assert (E2 : p / (X - k + 1) = py) by (symmetry; apply Nat.div_unique with px; unfold p; nia). rewrite E1, E2.
    rewrite (mk_full_settings _ _ _ _ _ _ H6) in ES. destruct (settings_at _ _ _ _ ES _ _ Ej) as [-> ->]. reflexivity.
Qed.
End C28.
Print Assumptions C28_convolution1D.
Print Assumptions C28_convolution2D.
