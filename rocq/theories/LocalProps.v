(* C29: locally connected layers. *)
From Coq Require Import SpecFloat.
From Verif Require Import Base Num Witness ActModel NeuronModel LayerModel NetModel NeuronProofs LayerProofs SafeProofs SafeLayers
  FactoryModel FactorySpec FactoryProofs FilterSpec SafeNet BuildProofs FactoryProps FilterProofs HistProofs FilterProps.
Local Open Scope nat_scope.

(* The tiles are disjoint and cover the array: every coordinate is at exactly one place of exactly one tile. *)
Theorem C29_tiles_partition : forall X k, 0 < k -> 0 < X ->
  forall x, x < X -> exists p dx, p < covering X k /\ dx < k /\ x = p * k + dx /\
    forall p' dx', dx' < k -> x = p' * k + dx' -> p' = p /\ dx' = dx.
Proof.
  intros X k Hk HX x Hx. rewrite <- (tiles_covering X k Hk HX). destruct (tiles_spec X k Hk HX) as (T1 & T2 & T3).
  pose proof (Nat.div_mod x k ltac:(lia)) as E. pose proof (Nat.mod_upper_bound x k ltac:(lia)) as M.
  exists (x / k), (x mod k). split; [apply Nat.div_lt_upper_bound; lia|]. split; [exact M|]. split; [lia|].
  intros p' dx' Hd Ex. assert (p' = x / k) by (apply Nat.div_unique with dx'; lia). subst p'. split; [reflexivity|lia].
Qed.
Print Assumptions C29_tiles_partition.

Section C29.
Context {N : Num}.
Lemma orNone_value (v : list F) b i : valueAt v (orNone b i) = if b then nth i v fzero else fzero.
Proof. unfold valueAt, orNone. destruct b; [|reflexivity]. destruct (Z.leb_spec 0 (Z.of_nat i)); [|lia]. now rewrite Nat2Z.id. Qed.
Lemma loc1D_window C k X K v p : p < K -> map (valueAt v) (nth p (loc1D_index C k (C * X) K) []) = tile1 C X k v p.
Proof.
  intros Hp. unfold loc1D_index. rewrite (nth_map_in _ _ _ _ 0) by (rewrite seq_length; lia). rewrite seq_nth by lia. cbn [plus]. unfold cells, tile1, cell1. cbv zeta.
  rewrite map_flat_map. apply flat_map_ext_in. intros dx Hd. rewrite map_map. apply map_ext_in. intros c Hc. apply in_seq in Hc. rewrite orNone_value.
  replace ((p * k + dx) * C + c <? C * X) with (p * k + dx <? X); [reflexivity|].
  destruct (Nat.ltb_spec (p * k + dx) X); symmetry; [apply Nat.ltb_lt|apply Nat.ltb_ge]; nia.
Qed.
Lemma loc2D_window C X Y k oX oY K v p : p < K ->
  map (valueAt v) (nth p (loc2D_index C X k oX oY (C * X * Y) K) []) = tile2 C X Y k v (p mod oX) (p / oY).
Proof.
  intros Hp. unfold loc2D_index. rewrite (nth_map_in _ _ _ _ 0) by (rewrite seq_length; lia). rewrite seq_nth by lia. cbn [plus]. unfold cells, tile2, cell2. cbv zeta.
  rewrite map_flat_map. apply flat_map_ext_in. intros dy Hy. rewrite map_flat_map. apply flat_map_ext_in. intros dx Hd. rewrite map_map. apply map_ext_in. intros c Hc. apply in_seq in Hc. rewrite orNone_value.
  set (x := p mod oX * k + dx). set (y := p / oY * k + dy).
  replace ((x * C + c <? X * C) && (y * X * C + x * C + c <? C * X * Y)) with ((x <? X) && (y <? Y)).
  - destruct ((x <? X) && (y <? Y)); [|reflexivity]. f_equal. lia.
  - destruct (Nat.ltb_spec x X) as [H1|H1]; cbn [andb].
    + assert (E : (x * C + c <? X * C) = true) by (apply Nat.ltb_lt; nia). rewrite E. cbn [andb].
      destruct (Nat.ltb_spec y Y); symmetry; [apply Nat.ltb_lt|apply Nat.ltb_ge]; [|pose proof (Nat.mul_le_mono_r _ _ (X * C) H); nia].
      pose proof (grid_bound C X Y x y c ltac:(lia) H1 H). lia.
    + assert (E : (x * C + c <? X * C) = false) by (apply Nat.ltb_ge; pose proof (Nat.mul_le_mono_r _ _ C H1); lia). now rewrite E.
Qed.
Lemma loc_state_values f mi ns x k : rowsOK (-1) k (f_nin f) (f_index f) -> 0 < f_filters f -> f_kernels f = List.length (f_index f) * f_filters f -> List.length ns = f_kernels f ->
  Forall (wf_plain (f_nin f)) ns -> List.length x = k ->
  exists out ns', loc_output (set_maxIndex f mi) ns x = Ok (out, ns') /\ List.length out = f_kernels f /\
    forall p n j, n < f_filters f -> nth_error ns (p * f_filters f + n) = Some j ->
      nth_error out (p * f_filters f + n) = Some (fires (n_act j) (n_bias j) (n_w j) (map (valueAt x) (nth p (f_index f) []))).
Proof.
  intros HR Hf Hk Hn Hw Hx. destruct (loc_values k (set_maxIndex f mi) ns x HR Hf Hk Hn Hw Hx) as (out & ns' & E & L & HV). cbn [f_index f_filters f_kernels set_maxIndex] in *.
  exists out, ns'. split; [exact E|]. split; [exact L|]. intros p n j Hnf Hj.
  assert (p * f_filters f + n < List.length ns) by (apply nth_error_Some; congruence).
  assert (Ep : (p * f_filters f + n) / f_filters f = p) by (symmetry; apply Nat.div_unique with n; lia).
  assert (p < List.length (f_index f)) by nia.
  rewrite (HV (p * f_filters f + n) j (nth p (f_index f) []) Hj); [reflexivity|]. rewrite Ep. now apply nth_error_nth'.
Qed.

(* 1-D: output (position p, filter n) is the activation of its own weights on tile p, padded with zeros at the border; outputs are laid
   out position by position. *)
Theorem C29_locally1D : forall (d : LDesc) (s : list nat) (C X f k : nat) (l : Layer) (v : list F) reset,
  d_type d = t_local -> d_filters d = Z.of_nat f -> d_ksize d = Z.of_nat k ->
  (s = [C; X] \/ s = [X] /\ C = 1) -> 0 < C -> 0 < X -> layer_of d s l -> List.length v = C * X ->
  0 < k <= X /\ List.length (layer_weights l) = covering X k * f /\ (forall w, In w (layer_weights l) -> List.length w = k * C + 1) /\
  exists out b', body_output (l_body l) v reset = Ok (out, b') /\ List.length out = covering X k * f /\
    forall p n w, n < f -> nth_error (layer_weights l) (p * f + n) = Some w ->
      nth_error out (p * f + n) = Some (fires (d_act d) (d_bias d) w (tile1 C X k v p)).
Proof.
  intros d s C X f k l v reset Ht Hf Hk Hs HC HX HL Hv. destruct (shape1 s C X Hs HC HX) as [Hpos Hcells].
  assert (Hsane : sane_kernel d) by (unfold sane_kernel; rewrite Ht; lia).
  destruct (layer_of_wf d s l HL Hpos Hsane) as (draws & masks & l0 & B & W0 & W & SL & SS).
  { intros ? ? l0 B. destruct B; try congruence; exact I. }
  destruct B; try congruence; [|subst s; destruct Hs as [Hs|[Hs _]]; discriminate].
  assert (E1 : c = C /\ x = X) by (destruct H0 as [H0|[H0 ?]], Hs as [Hs|[Hs ?]]; rewrite H0 in Hs; try discriminate; injection Hs; intros; subst; auto). destruct E1 as [-> ->].
  assert (f0 = f) by lia. assert (ks = k) by lia. subst f0 ks. pose proof (neurons_wf _ _ _ _ _ _ Nat.lt_0_1 H6) as [Ln _].
  destruct (filter_state _ _ _ l _ _ ns _ _ SL SS W I) as (mi & ns' & Eb & L & ES & FW & EW). cbn [f_nin] in FW. rewrite EW, Eb.
  rewrite <- (tiles_covering X k) by auto.
  split; [lia|]. split; [rewrite map_length; lia|]. split. { intros w Hw. apply in_map_iff in Hw as (j & <- & Hj). rewrite Forall_forall in FW. destruct (FW j Hj) as [(Hl & _) ?]. rewrite Hl. f_equal. assumption. }
  destruct (loc_state_values (mkFilter f (f * tiles X k) (tiles X k) (tiles X k) k (k * C) [C; X] [f; tiles X k] (loc1D_index C k (C * X) (tiles X k)) 0 []) mi ns' v (C * X)) as (out & ns2 & E & Lo & Hval).
  - apply loc1D_rows.
  - exact H3.
  - cbn [f_kernels f_index f_filters]. unfold loc1D_index. rewrite map_length, seq_length. lia.
  - cbn [f_kernels]. lia.
  - exact FW.
  - exact Hv.
  - cbn [f_kernels f_index f_filters] in *. cbn [body_output]. rewrite E. cbn [bind]. eexists _, _. split; [reflexivity|]. split; [lia|].
    intros p n w Hnf Hw. rewrite nth_error_map in Hw. destruct (nth_error ns' (p * f + n)) as [j|] eqn:Ej; [|discriminate]. injection Hw as <-.
    assert (p * f + n < List.length ns') by (apply nth_error_Some; congruence).
    specialize (Hval p n j Hnf Ej). rewrite loc1D_window in Hval by nia. rewrite Hval.
    rewrite (mk_full_settings _ _ _ _ _ _ H6) in ES. destruct (settings_at _ _ _ _ ES _ _ Ej) as [-> ->]. reflexivity.
Qed.

(* 2-D, what the code does: position p reads the tile at column p mod columns and row p / rows. *)
Lemma locally2D_values : forall (d : LDesc) (C X Y f k : nat) (l : Layer) (v : list F) reset,
  d_type d = t_local -> d_filters d = Z.of_nat f -> d_ksize d = Z.of_nat k ->
  0 < C -> 0 < X -> 0 < Y -> layer_of d [C; X; Y] l -> List.length v = C * X * Y ->
  0 < k /\ k <= X /\ k <= Y /\ List.length (layer_weights l) = covering X k * covering Y k * f /\ (forall w, In w (layer_weights l) -> List.length w = k * k * C + 1) /\
  exists out b', body_output (l_body l) v reset = Ok (out, b') /\ List.length out = covering X k * covering Y k * f /\
    forall p n w, n < f -> nth_error (layer_weights l) (p * f + n) = Some w ->
      nth_error out (p * f + n) = Some (fires (d_act d) (d_bias d) w (tile2 C X Y k v (p mod covering X k) (p / covering Y k))).
Proof.
  intros d C X Y f k l v reset Ht Hf Hk HC HX HY HL Hv.
  assert (Hpos : Forall (fun x => 0 < x) [C; X; Y]) by (repeat constructor; auto).
  assert (Hsane : sane_kernel d) by (unfold sane_kernel; rewrite Ht; lia).
  destruct (layer_of_wf d [C; X; Y] l HL Hpos Hsane) as (draws & masks & l0 & B & W0 & W & SL & SS).
  { intros ? ? l0 B. destruct B; try congruence; exact I. }
  destruct B; try congruence; [destruct H0 as [H0|[H0 _]]; discriminate|].
  injection H0 as <- <- <-. assert (f0 = f) by lia. assert (ks = k) by lia. subst f0 ks. pose proof (neurons_wf _ _ _ _ _ _ Nat.lt_0_1 H7) as [Ln _].
  destruct (filter_state _ _ _ l _ _ ns _ _ SL SS W I) as (mi & ns' & Eb & L & ES & FW & EW). cbn [f_nin] in FW. rewrite EW, Eb.
  rewrite <- (tiles_covering X k), <- (tiles_covering Y k) by auto.
  split; [assumption|]. split; [assumption|]. split; [assumption|]. split; [rewrite map_length; lia|]. split. { intros w Hw. apply in_map_iff in Hw as (j & <- & Hj). rewrite Forall_forall in FW. destruct (FW j Hj) as [(Hl & _) ?]. rewrite Hl. f_equal. assumption. }
  destruct (loc_state_values (mkFilter f (f * (tiles X k * tiles Y k)) (tiles X k * tiles Y k) (tiles X k * tiles Y k) k (k * k * C) [C; X; Y] [f; tiles X k; tiles Y k]
    (loc2D_index C X k (tiles X k) (tiles Y k) (C * X * Y) (tiles X k * tiles Y k)) 0 []) mi ns' v (C * X * Y)) as (out & ns2 & E & Lo & Hval).
  - apply loc2D_rows.
  - exact H3.
  - cbn [f_kernels f_index f_filters]. unfold loc2D_index. rewrite map_length, seq_length. lia.
  - cbn [f_kernels]. lia.
  - exact FW.
  - exact Hv.
  - cbn [f_kernels f_index f_filters] in *. cbn [body_output]. rewrite E. cbn [bind]. eexists _, _. split; [reflexivity|]. split; [lia|].
    intros p n w Hnf Hw. rewrite nth_error_map in Hw. destruct (nth_error ns' (p * f + n)) as [j|] eqn:Ej; [|discriminate]. injection Hw as <-.
    assert (p * f + n < List.length ns') by (apply nth_error_Some; congruence).
    specialize (Hval p n j Hnf Ej). rewrite loc2D_window in Hval by nia. rewrite Hval.
    rewrite (mk_full_settings _ _ _ _ _ _ H7) in ES. destruct (settings_at _ _ _ _ ES _ _ Ej) as [-> ->]. reflexivity.
Qed.
(* 2-D with as many tiles in both directions (missing: the other shapes, see the refutation). *)
Theorem C29_locally2D_partial : forall (d : LDesc) (C X Y f k : nat) (l : Layer) (v : list F) reset,
  d_type d = t_local -> d_filters d = Z.of_nat f -> d_ksize d = Z.of_nat k ->
  0 < C -> 0 < X -> 0 < Y -> covering X k = covering Y k -> layer_of d [C; X; Y] l -> List.length v = C * X * Y ->
  0 < k /\ k <= X /\ k <= Y /\ List.length (layer_weights l) = covering X k * covering Y k * f /\ (forall w, In w (layer_weights l) -> List.length w = k * k * C + 1) /\
  exists out b', body_output (l_body l) v reset = Ok (out, b') /\ List.length out = covering X k * covering Y k * f /\
    forall px py n w, px < covering X k -> n < f -> nth_error (layer_weights l) ((py * covering X k + px) * f + n) = Some w ->
      nth_error out ((py * covering X k + px) * f + n) = Some (fires (d_act d) (d_bias d) w (tile2 C X Y k v px py)).
Proof.
  intros d C X Y f k l v reset Ht Hf Hk HC HX HY HE HL Hv. destruct (locally2D_values d C X Y f k l v reset Ht Hf Hk HC HX HY HL Hv) as (K0 & K1 & K2 & LW & HW & out & b' & E & L & HV).
  do 5 (split; [assumption|]). exists out, b'. split; [exact E|]. split; [exact L|]. intros px py n w Hpx Hn Hw. rewrite (HV _ _ _ Hn Hw). rewrite <- HE.
  assert (E1 : (py * covering X k + px) mod covering X k = px) by (symmetry; apply Nat.mod_unique with py; lia).
  assert (E2 : (py * covering X k + px) / covering X k = py) by (symmetry; apply Nat.div_unique with px; lia). now rewrite E1, E2.
Qed.

(* With different numbers of tiles in the two directions some input cell is read by nobody. *)
Lemma tile2_unread C X Y k v v' px py x y : 0 < k -> (x / k, y / k) <> (px, py) ->
  (forall x' y' c, (x', y') <> (x, y) -> c < C -> x' < X -> y' < Y -> nth (cell2 C X x' y' c) v fzero = nth (cell2 C X x' y' c) v' fzero) ->
  tile2 C X Y k v px py = tile2 C X Y k v' px py.
Proof.
  intros Hk Hne Hv. unfold tile2. apply flat_map_ext_in. intros dy Hy. apply flat_map_ext_in. intros dx Hx. apply map_ext_in. intros c Hc. apply in_seq in Hy, Hx, Hc.
  destruct (Nat.ltb_spec (px * k + dx) X); cbn [andb]; [|reflexivity]. destruct (Nat.ltb_spec (py * k + dy) Y); [|reflexivity].
  apply Hv; [|lia|assumption|assumption]. intros E. injection E as <- <-. apply Hne. f_equal; symmetry.
  - apply Nat.div_unique with dx; lia.
  - apply Nat.div_unique with dy; lia.
Qed.
Theorem C29_locally2D_refuted : forall (d : LDesc) (C X Y f k : nat) (l : Layer),
  d_type d = t_local -> d_filters d = Z.of_nat f -> d_ksize d = Z.of_nat k ->
  0 < C -> 0 < X -> 0 < Y -> covering X k <> covering Y k -> layer_of d [C; X; Y] l ->
  exists x y, x < X /\ y < Y /\ forall (v v' : list F) reset, List.length v = C * X * Y -> List.length v' = C * X * Y ->
    (forall x' y' c, (x', y') <> (x, y) -> c < C -> x' < X -> y' < Y -> nth (cell2 C X x' y' c) v fzero = nth (cell2 C X x' y' c) v' fzero) ->
    exists out b b', body_output (l_body l) v reset = Ok (out, b) /\ body_output (l_body l) v' reset = Ok (out, b').
Proof.
  intros d C X Y f k l Ht Hf Hk HC HX HY HE HL.
  assert (K : 0 < k /\ 0 < f).
  { assert (Hpos : Forall (fun x => 0 < x) [C; X; Y]) by (repeat constructor; auto).
    assert (Hsane : sane_kernel d) by (unfold sane_kernel; rewrite Ht; lia).
    destruct (layer_of_wf d [C; X; Y] l HL Hpos Hsane) as (draws & masks & l0 & B & _). { intros ? ? l0 B. destruct B; try congruence; exact I. } destruct B; try congruence; lia. }
  destruct K as [Hk0 Hf0]. set (x := if covering Y k <? covering X k then covering Y k * k else 0). set (y := if covering Y k <? covering X k then 0 else covering X k * k).
  pose proof (tiles_spec X k Hk0 HX) as (T1 & T2 & _). pose proof (tiles_spec Y k Hk0 HY) as (T4 & T5 & _). rewrite tiles_covering in * by auto.
  assert (Hx : x < X) by (unfold x; destruct (Nat.ltb_spec (covering Y k) (covering X k)); nia).
  assert (Hy : y < Y) by (unfold y; destruct (Nat.ltb_spec (covering Y k) (covering X k)); nia).
  assert (Hread : forall p, p < covering X k * covering Y k -> (x / k, y / k) <> (p mod covering X k, p / covering Y k)).
  { intros p Hp E. injection E as E1 E2. unfold x, y in *. destruct (Nat.ltb_spec (covering Y k) (covering X k)).
    - rewrite Nat.div_mul in E1 by lia. rewrite Nat.div_0_l in E2 by lia. symmetry in E2. apply Nat.div_small_iff in E2; [|lia]. rewrite Nat.mod_small in E1 by lia. lia.
    - rewrite Nat.div_mul in E2 by lia. assert (p / covering Y k < covering X k) by (apply Nat.div_lt_upper_bound; lia). lia. }
  exists x, y. split; [exact Hx|]. split; [exact Hy|]. intros v v' reset Hv Hv' Hsame.
  destruct (locally2D_values d C X Y f k l v reset Ht Hf Hk HC HX HY HL Hv) as (_ & _ & _ & LW & _ & out & b & E & L & HV).
  destruct (locally2D_values d C X Y f k l v' reset Ht Hf Hk HC HX HY HL Hv') as (_ & _ & _ & _ & _ & out' & b' & E' & L' & HV').
  assert (out = out'); [|subst; eauto]. apply nth_error_ext. intros i. destruct (Nat.lt_ge_cases i (List.length out)) as [Hi|Hi].
  - pose proof (Nat.div_mod i f ltac:(lia)) as Ei. pose proof (Nat.mod_upper_bound i f ltac:(lia)) as Em. replace i with (i / f * f + i mod f) by lia.
    destruct (nth_error (layer_weights l) (i / f * f + i mod f)) as [w|] eqn:Ew.
    + rewrite (HV _ _ _ Em Ew), (HV' _ _ _ Em Ew). do 2 f_equal. eapply tile2_unread; [exact Hk0| |exact Hsame]. apply Hread. apply Nat.div_lt_upper_bound; lia.
    + apply nth_error_None in Ew. lia.
  - rewrite !(proj2 (nth_error_None _ _)) by lia. reflexivity.
Qed.
End C29.
Print Assumptions C29_locally1D.
Print Assumptions C29_locally2D_partial.
Print Assumptions C29_locally2D_refuted.
