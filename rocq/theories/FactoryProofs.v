(* The layer factory builds well-formed layers. *)
From Verif Require Import Base Num ActModel NeuronModel LayerModel NetModel NeuronProofs LayerProofs SafeProofs SafeLayers FactoryModel.
Local Open Scope nat_scope.

(* ---------- index tables ---------- *)
Lemma cells_length n (f : nat -> list Z) c : (forall i, i < n -> List.length (f i) = c) -> List.length (cells n f) = n * c.
Proof.
  unfold cells. intros H. assert (G : forall a, (forall i, a <= i < a + n -> List.length (f i) = c) -> List.length (flat_map f (seq a n)) = n * c).
  { clear H. induction n as [|n IH]; intros a H; cbn; auto. rewrite app_length, H, IH by (try intros; try apply H; lia). lia. }
  apply G. intros; apply H; lia.
Qed.
Lemma cells_Forall n (f : nat -> list Z) P : (forall i, i < n -> Forall P (f i)) -> Forall P (cells n f).
Proof.
  intros H. unfold cells. apply Forall_flat_map. apply Forall_forall. intros i Hi. apply in_seq in Hi. apply H. lia.
Qed.
Lemma map_seq_Forall {A} (P : A -> Prop) (f : nat -> A) n : (forall i, i < n -> P (f i)) -> Forall P (map f (seq 0 n)).
Proof. intros H. apply Forall_forall. intros a Ha. apply in_map_iff in Ha as (i & <- & Hi). apply in_seq in Hi. apply H. lia. Qed.
Lemma orNone_range b i k : (b = true -> i < k) -> (-1 <= orNone b i < Z.of_nat k)%Z.
Proof. intros H. unfold orNone. destruct b; [specialize (H eq_refl)|]; lia. Qed.

Lemma conv1D_rows C ks X : 0 < C -> ks <= X -> rowsOK 0 (C * X) (ks * C) (conv1D_index C ks (X - ks + 1)).
Proof.
  intros HC HX. unfold conv1D_index, rowsOK. apply map_seq_Forall. intros k Hk. split.
  - apply cells_length. intros. now rewrite map_length, seq_length.
  - apply cells_Forall. intros x Hx. apply map_seq_Forall. intros c Hc. split; [lia|]. apply inj_lt.
    assert (k + x + 1 <= X) by lia. assert ((k + x + 1) * C <= X * C) by now apply Nat.mul_le_mono_r. nia.
Qed.
Lemma divmod_bounds k a b : 0 < a -> k < a * b -> k mod a < a /\ k / a < b.
Proof. intros Ha Hk. split; [apply Nat.mod_upper_bound; lia|apply Nat.div_lt_upper_bound; lia]. Qed.
Lemma grid_bound C X Y px py c : c < C -> px < X -> py < Y -> (py * X + px) * C + c < C * X * Y.
Proof.
  intros Hc Hx Hy. assert (H1 : py * X + px + 1 <= X * Y) by nia.
  assert (H2 : (py * X + px + 1) * C <= X * Y * C) by now apply Nat.mul_le_mono_r. nia.
Qed.
Lemma conv2D_rows C ks X Y : 0 < C -> ks <= X -> ks <= Y ->
  rowsOK 0 (C * X * Y) (ks * ks * C) (conv2D_index C X ks (X - ks + 1) ((X - ks + 1) * (Y - ks + 1))).
Proof.
  intros HC HX HY. unfold conv2D_index, rowsOK. apply map_seq_Forall. intros k Hk.
  destruct (divmod_bounds k (X - ks + 1) (Y - ks + 1)) as [Hm Hd]; [lia|auto|]. cbv zeta. split.
  - rewrite <- Nat.mul_assoc. apply cells_length. intros y Hy. apply cells_length. intros. now rewrite map_length, seq_length.
  - apply cells_Forall. intros y Hy. apply cells_Forall. intros x Hx. apply map_seq_Forall. intros c Hc. split; [lia|]. apply inj_lt.
    set (px := k mod _) in *. set (py := k / _) in *. rewrite <- Nat.add_assoc. apply grid_bound; lia.
Qed.
Lemma loc1D_rows C ks inputs K : rowsOK (-1) inputs (ks * C) (loc1D_index C ks inputs K).
Proof.
  unfold loc1D_index, rowsOK. apply map_seq_Forall. intros k Hk. split.
  - apply cells_length. intros. now rewrite map_length, seq_length.
  - apply cells_Forall. intros x Hx. apply map_seq_Forall. intros c Hc. cbv zeta. apply orNone_range. now apply Nat.ltb_lt.
Qed.
Lemma loc2D_rows C X ks oX oY inputs K : rowsOK (-1) inputs (ks * ks * C) (loc2D_index C X ks oX oY inputs K).
Proof.
  unfold loc2D_index, rowsOK. apply map_seq_Forall. intros k Hk. cbv zeta. split.
  - rewrite <- Nat.mul_assoc. apply cells_length. intros y Hy. apply cells_length. intros. now rewrite map_length, seq_length.
  - apply cells_Forall. intros y Hy. apply cells_Forall. intros x Hx. apply map_seq_Forall. intros c Hc. apply orNone_range.
    intros H. apply andb_prop in H as [_ H]. now apply Nat.ltb_lt.
Qed.
Lemma pool1D_rows C ks inputs K : rowsOK (-1) inputs ks (pool1D_index C ks inputs K).
Proof.
  unfold pool1D_index, rowsOK. apply map_seq_Forall. intros k Hk. cbv zeta. split; [now rewrite map_length, seq_length|].
  apply map_seq_Forall. intros x Hx. apply orNone_range. now apply Nat.ltb_lt.
Qed.
Lemma pool2D_rows C X ks oX oY inputs K : rowsOK (-1) inputs (ks * ks) (pool2D_index C X ks oX oY inputs K).
Proof.
  unfold pool2D_index, rowsOK. apply map_seq_Forall. intros k Hk. cbv zeta. split.
  - apply cells_length. intros y Hy. now rewrite map_length, seq_length.
  - apply cells_Forall. intros y Hy. apply map_seq_Forall. intros x Hx. apply orNone_range.
    intros H. apply andb_prop in H as [_ H]. now apply Nat.ltb_lt.
Qed.
Lemma pool1D_nonempty ks X oX : 0 < ks -> (oX - 1) * ks < X -> Forall (fun row => exists i, In i row /\ (0 <= i)%Z) (pool1D_index 1 ks X oX).
Proof.
  intros Hk HX. unfold pool1D_index. apply map_seq_Forall. intros k Hk'. cbv zeta. rewrite Nat.div_1_r. change (k mod 1) with 0.
  exists (Z.of_nat (k * ks)). split; [|lia]. apply in_map_iff. exists 0. split; [|apply in_seq; lia].
  replace ((k * ks + 0) * 1 + 0) with (k * ks) by lia. unfold orNone. assert (Hlt : k * ks < X) by nia. apply Nat.ltb_lt in Hlt. now rewrite Hlt.
Qed.
Lemma pool2D_nonempty C X Y ks oX oY : 0 < C -> 0 < ks -> 0 < X -> (oX - 1) * ks < X -> (oY - 1) * ks < Y -> 0 < oX -> oX <= oY ->
  Forall (fun row => exists i, In i row /\ (0 <= i)%Z) (pool2D_index C X ks oX oY (C * X * Y) (C * oX * oY)).
Proof.
  intros HC Hk HX0 HX HY Ho HXY. unfold pool2D_index. apply map_seq_Forall. intros k Hk'. cbv zeta.
  assert (Hc : k mod C < C) by (apply Nat.mod_upper_bound; lia).
  assert (Hp : k / C < oX * oY) by (apply Nat.div_lt_upper_bound; lia).
  assert (Hx : (k / C) mod oX < oX) by (apply Nat.mod_upper_bound; lia).
  assert (Hy : (k / C) / oY < oX) by (apply Nat.div_lt_upper_bound; lia).
  set (px := (k / C) mod oX) in *. set (py := k / C / oY) in *. set (c := k mod C) in *.
  assert (Hpx : px * ks < X) by nia. assert (Hpy : py * ks < Y) by nia.
  exists (Z.of_nat ((py * ks * X + px * ks) * C + c)). split; [|lia]. apply in_flat_map. exists 0. split; [apply in_seq; lia|].
  apply in_map_iff. exists 0. split; [|apply in_seq; lia].
  replace ((py * ks + 0) * X * C + (px * ks + 0) * C + c) with ((py * ks * X + px * ks) * C + c) by ring.
  pose proof (grid_bound C X Y (px * ks) (py * ks) c Hc Hpx Hpy) as Hlt. apply Nat.ltb_lt in Hlt. rewrite Hlt.
  assert (H2 : (px * ks + 0) * C + c < X * C) by nia. apply Nat.ltb_lt in H2. rewrite H2. reflexivity.
Qed.

(* ---------- int arithmetic ---------- *)
Lemma int32_inv z r : int32 z = Ok r -> r = z.
Proof. unfold int32. destruct (_ || _); [discriminate|]. now intros [= <-]. Qed.
Lemma imul_inv a b r : imul a b = Ok r -> r = (a * b)%Z.
Proof. apply int32_inv. Qed.
Lemma size_inv z n : size z = Ok n -> (0 <= z)%Z /\ z = Z.of_nat n.
Proof. unfold size. destruct (Z.ltb_spec z 0); [discriminate|]. intros [= <-]. lia. Qed.
Lemma product_inv shape : forall a r, ofold imul shape a = Ok r -> r = fold_left Z.mul shape a.
Proof.
  induction shape as [|x t IH]; intros a r H; cbn in H |- *; [congruence|]. apply bind_Ok_inv in H as (b & Hb & H). apply imul_inv in Hb. subst b. auto.
Qed.
Lemma pos_nat z : (0 < z)%Z -> exists n, z = Z.of_nat n /\ 0 < n.
Proof. intros H. exists (Z.to_nat z). lia. Qed.
Lemma nonneg_nat z : (0 <= z)%Z -> exists n, z = Z.of_nat n.
Proof. intros H. exists (Z.to_nat z). lia. Qed.
(* how many windows of k cells cover x cells *)
Definition tiles (x k : nat) : nat := x / k + (if x mod k =? 0 then 0 else 1).
Lemma tiles_spec x k : 0 < k -> 0 < x -> 0 < tiles x k /\ (tiles x k - 1) * k < x /\ x <= tiles x k * k.
Proof.
  intros Hk Hx. unfold tiles. pose proof (Nat.div_mod x k ltac:(lia)) as E. pose proof (Nat.mod_upper_bound x k ltac:(lia)) as Hm.
  destruct (Nat.eqb_spec (x mod k) 0).
  - assert (0 < x / k) by (destruct (x / k); lia). nia.
  - nia.
Qed.
Lemma cdiv_inv x k r : cdiv (Z.of_nat x) (Z.of_nat k) = Ok r -> 0 < k /\ r = Z.of_nat (tiles x k).
Proof.
  unfold cdiv. destruct (Z.eqb_spec (Z.of_nat k) 0); [discriminate|]. intros [= <-]. split; [lia|]. unfold tiles.
  rewrite Z.quot_div_nonneg, Z.rem_mod_nonneg by lia. rewrite <- Nat2Z.inj_div, <- Nat2Z.inj_mod.
  destruct (Nat.eqb_spec (x mod k) 0) as [E|E]; [rewrite E; cbn; lia|]. destruct (Z.eqb_spec (Z.of_nat (x mod k)) 0); lia.
Qed.

Section P.
Context {N : Num}.
Variable draws : nat -> nat -> nat -> F.
Variable masks : nat -> nat -> bool.

Lemma build_neurons_inv {A} (mk : nat -> outcome A) n ns : build_neurons mk n = Ok ns ->
  List.length ns = n /\ forall i a, nth_error ns i = Some a -> mk i = Ok a.
Proof.
  unfold build_neurons. intros H. apply omap_seq_inv in H as [L Hi]. split; [exact L|]. intros i a Ha.
  assert (Hlt : i < n) by (rewrite <- L; apply nth_error_Some; congruence). rewrite (Hi i a Hlt). f_equal. now apply nth_error_nth.
Qed.
Lemma neurons_wf d nin batch m ns : 0 < batch -> build_neurons (mk_full draws nin batch (nin + 1) d) m = Ok ns ->
  List.length ns = m /\ Forall (wf_plain nin) ns.
Proof.
  intros Hb H. apply build_neurons_inv in H as [L Hi]. split; [exact L|]. apply Forall_forall. intros n Hn. apply In_nth_error in Hn as (i & Hn).
  specialize (Hi i n Hn). unfold mk_full in Hi. destruct (neuron_init_wf nin batch 1 (d_bias d) (d_act d) (draws i 0) Hb ltac:(lia)) as (n' & E & W & E1 & _).
  rewrite E in Hi. injection Hi as <-. split; auto.
Qed.
Lemma filter_neurons_inv d neurons nin batch ns : filter_neurons draws d neurons nin batch = Ok ns ->
  (0 <= neurons)%Z /\ (0 <= nin)%Z /\ (0 <= batch)%Z /\
  build_neurons (mk_full draws (Z.to_nat nin) (Z.to_nat batch) (Z.to_nat nin + 1) d) (Z.to_nat neurons) = Ok ns.
Proof.
  unfold filter_neurons. intros H. apply bind_Ok_inv in H as (m & Hm & H). apply bind_Ok_inv in H as (ni & Hi & H). apply bind_Ok_inv in H as (b & Hb & H).
  apply size_inv in Hm as [? ->], Hi as [? ->], Hb as [? ->]. rewrite !Nat2Z.id. auto.
Qed.

Ltac ob H := let a := fresh "v" in let E := fresh "Ev" in apply bind_Ok_inv in H as (a & E & H).
Lemma quot_mul_pos f o : 0 < f -> Z.quot (Z.of_nat f * Z.of_nat o) (Z.of_nat f) = Z.of_nat o.
Proof. intros H. rewrite Z.mul_comm. apply Z.quot_mul. lia. Qed.

Lemma build_conv1D_inv d inputs c x l : 0 < c -> 0 < x -> (0 <= d_ksize d)%Z ->
  build_conv1D draws masks d (Z.of_nat inputs) (Z.of_nat c) (Z.of_nat x) = Ok l ->
  exists f ks ns, d_filters d = Z.of_nat f /\ d_ksize d = Z.of_nat ks /\ 0 < f /\ ks <= x /\
    build_neurons (mk_full draws (ks * c) (x - ks + 1) (ks * c + 1) d) f = Ok ns /\
    l = finish masks inputs d (BFilter Conv1D (mkFilter f (f * (x - ks + 1)) (x - ks + 1) 1 ks (ks * c) [c; x] [f; x - ks + 1]
              (conv1D_index c ks (x - ks + 1)) 0 []) ns).
Proof.
  intros Hc Hx Hk. unfold build_conv1D. destruct (nonneg_nat _ Hk) as (ks & Ek). rewrite Ek. cbv zeta.
  destruct (Z.ltb_spec (Z.of_nat x) (Z.of_nat ks)) as [|Hkx]; [discriminate|]. intros H.
  ob H. apply imul_inv in Ev. destruct (Z.eqb_spec (d_filters d) 0) as [|Hf]; [discriminate|]. ob H. apply imul_inv in Ev0. ob H.
  apply filter_neurons_inv in Ev1 as (Hf0 & Hn0 & Hb0 & Hns). destruct (nonneg_nat _ Hf0) as (f & Ef). rewrite Ef in *.
  assert (Eo : (Z.of_nat x - (Z.of_nat ks - 1) = Z.of_nat (x - ks + 1))%Z) by lia. rewrite Eo in *. subst v v0. rewrite quot_mul_pos in * by lia.
  rewrite <- !Nat2Z.inj_mul in *. rewrite !Nat2Z.id in *. unfold size in H.
  repeat match type of H with context [(Z.of_nat ?a <? 0)%Z] => destruct (Z.ltb_spec (Z.of_nat a) 0); [lia|] end. cbn [bind] in H. rewrite !Nat2Z.id in H. injection H as <-.
  exists f, ks, v1. split; [reflexivity|]. split; [reflexivity|]. split; [lia|]. split; [lia|]. auto.
Qed.
Lemma build_conv2D_inv d inputs c x y l : 0 < c -> 0 < x -> 0 < y -> (0 <= d_ksize d)%Z ->
  build_conv2D draws masks d (Z.of_nat inputs) (Z.of_nat c) (Z.of_nat x) (Z.of_nat y) = Ok l ->
  exists f ks ns, d_filters d = Z.of_nat f /\ d_ksize d = Z.of_nat ks /\ 0 < f /\ ks <= x /\ ks <= y /\
    build_neurons (mk_full draws (ks * ks * c) ((x - ks + 1) * (y - ks + 1)) (ks * ks * c + 1) d) f = Ok ns /\
    l = finish masks inputs d (BFilter Conv2D (mkFilter f (f * ((x - ks + 1) * (y - ks + 1))) ((x - ks + 1) * (y - ks + 1)) 1 ks (ks * ks * c) [c; x; y]
              [f; x - ks + 1; y - ks + 1] (conv2D_index c x ks (x - ks + 1) ((x - ks + 1) * (y - ks + 1))) 0 []) ns).
Proof.
  intros Hc Hx Hy Hk. unfold build_conv2D. destruct (nonneg_nat _ Hk) as (ks & Ek). rewrite Ek. cbv zeta.
  destruct (Z.ltb_spec (Z.of_nat x) (Z.of_nat ks)) as [|Hkx]; [discriminate|]. destruct (Z.ltb_spec (Z.of_nat y) (Z.of_nat ks)) as [|Hky]; [discriminate|]. cbn [orb]. intros H.
  ob H. ob H. apply imul_inv in Ev, Ev0. destruct (Z.eqb_spec (d_filters d) 0) as [|Hf]; [discriminate|]. ob H. ob H. apply imul_inv in Ev1, Ev2. ob H.
  apply filter_neurons_inv in Ev3 as (Hf0 & Hn0 & Hb0 & Hns). destruct (nonneg_nat _ Hf0) as (f & Ef). rewrite Ef in *.
  assert (Eo : (Z.of_nat x - (Z.of_nat ks - 1) = Z.of_nat (x - ks + 1))%Z) by lia. rewrite Eo in *.
  assert (Eo2 : (Z.of_nat y - (Z.of_nat ks - 1) = Z.of_nat (y - ks + 1))%Z) by lia. rewrite Eo2 in *. subst v v0 v1 v2.
  rewrite <- !Nat2Z.inj_mul in *.
  assert (Eq : (Z.of_nat (f * (x - ks + 1) * (y - ks + 1)) ÷ Z.of_nat f)%Z = Z.of_nat ((x - ks + 1) * (y - ks + 1))) by (rewrite <- Nat.mul_assoc, Nat2Z.inj_mul; apply quot_mul_pos; lia).
  rewrite Eq in *.
  rewrite !Nat2Z.id in *. unfold size in H.
  repeat match type of H with context [(Z.of_nat ?a <? 0)%Z] => destruct (Z.ltb_spec (Z.of_nat a) 0); [lia|] end. cbn [bind] in H. rewrite !Nat2Z.id in H. injection H as <-.
  exists f, ks, v3. split; [reflexivity|]. split; [reflexivity|]. rewrite (Nat.mul_assoc f).
  split; [lia|]. split; [lia|]. split; [lia|]. auto.
Qed.
Lemma build_loc1D_inv d inputs c x l : 0 < c -> 0 < x -> (0 <= d_ksize d)%Z ->
  build_loc1D draws masks d (Z.of_nat inputs) (Z.of_nat c) (Z.of_nat x) = Ok l ->
  exists f ks ns, d_filters d = Z.of_nat f /\ d_ksize d = Z.of_nat ks /\ 0 < f /\ 0 < ks /\ ks <= x /\
    build_neurons (mk_full draws (ks * c) 1 (ks * c + 1) d) (f * tiles x ks) = Ok ns /\
    l = finish masks inputs d (BFilter Loc1D (mkFilter f (f * tiles x ks) (tiles x ks) (tiles x ks) ks (ks * c) [c; x] [f; tiles x ks]
              (loc1D_index c ks inputs (tiles x ks)) 0 []) ns).
Proof.
  intros Hc Hx Hk. unfold build_loc1D. destruct (nonneg_nat _ Hk) as (ks & Ek). rewrite Ek. cbv zeta.
  destruct (Z.ltb_spec (Z.of_nat x) (Z.of_nat ks)) as [|Hkx]; [discriminate|]. intros H.
  ob H. apply cdiv_inv in Ev as [Hks ->]. ob H. apply imul_inv in Ev. destruct (Z.eqb_spec (d_filters d) 0) as [|Hf]; [discriminate|]. ob H. apply imul_inv in Ev0. ob H.
  apply filter_neurons_inv in Ev1 as (Hf0 & Hn0 & Hb0 & Hns). pose proof (tiles_spec x ks Hks Hx) as (Ht & _). subst v v0.
  assert (Hfn : (0 <= d_filters d)%Z) by nia. destruct (nonneg_nat _ Hfn) as (f & Ef). rewrite Ef in *. rewrite quot_mul_pos in * by lia.
  rewrite <- !Nat2Z.inj_mul in *. rewrite !Nat2Z.id in *. unfold size in H.
  repeat match type of H with context [(Z.of_nat ?a <? 0)%Z] => destruct (Z.ltb_spec (Z.of_nat a) 0); [lia|] end. cbn [bind] in H. rewrite !Nat2Z.id in H. injection H as <-.
  exists f, ks, v1. split; [reflexivity|]. split; [reflexivity|]. split; [lia|]. split; [lia|]. split; [lia|]. auto.
Qed.
Lemma build_loc2D_inv d inputs c x y l : 0 < c -> 0 < x -> 0 < y -> (0 <= d_ksize d)%Z ->
  build_loc2D draws masks d (Z.of_nat inputs) (Z.of_nat c) (Z.of_nat x) (Z.of_nat y) = Ok l ->
  exists f ks ns, d_filters d = Z.of_nat f /\ d_ksize d = Z.of_nat ks /\ 0 < f /\ 0 < ks /\ ks <= x /\ ks <= y /\
    build_neurons (mk_full draws (ks * ks * c) 1 (ks * ks * c + 1) d) (f * (tiles x ks * tiles y ks)) = Ok ns /\
    l = finish masks inputs d (BFilter Loc2D (mkFilter f (f * (tiles x ks * tiles y ks)) (tiles x ks * tiles y ks) (tiles x ks * tiles y ks) ks (ks * ks * c) [c; x; y]
              [f; tiles x ks; tiles y ks] (loc2D_index c x ks (tiles x ks) (tiles y ks) inputs (tiles x ks * tiles y ks)) 0 []) ns).
Proof.
  intros Hc Hx Hy Hk. unfold build_loc2D. destruct (nonneg_nat _ Hk) as (ks & Ek). rewrite Ek. cbv zeta.
  destruct (Z.ltb_spec (Z.of_nat x) (Z.of_nat ks)) as [|Hkx]; [discriminate|]. destruct (Z.ltb_spec (Z.of_nat y) (Z.of_nat ks)) as [|Hky]; [discriminate|]. cbn [orb]. intros H.
  ob H. apply cdiv_inv in Ev as [Hks ->]. ob H. apply cdiv_inv in Ev as [_ ->]. ob H. ob H. apply imul_inv in Ev, Ev0.
  destruct (Z.eqb_spec (d_filters d) 0) as [|Hf]; [discriminate|]. ob H. ob H. apply imul_inv in Ev1, Ev2. ob H.
  apply filter_neurons_inv in Ev3 as (Hf0 & Hn0 & Hb0 & Hns). pose proof (tiles_spec x ks Hks Hx) as (Ht & _). pose proof (tiles_spec y ks Hks Hy) as (Ht2 & _). subst v v0 v1 v2.
  assert (Hfn : (0 <= d_filters d)%Z).
  { assert (0 < Z.of_nat (tiles x ks) * Z.of_nat (tiles y ks))%Z by lia. rewrite <- Z.mul_assoc in Hf0. nia. }
  destruct (nonneg_nat _ Hfn) as (f & Ef). rewrite Ef in *.
  rewrite <- !Nat2Z.inj_mul in *.
  assert (Eq : (Z.of_nat (f * tiles x ks * tiles y ks) ÷ Z.of_nat f)%Z = Z.of_nat (tiles x ks * tiles y ks)) by (rewrite <- Nat.mul_assoc, Nat2Z.inj_mul; apply quot_mul_pos; lia).
  rewrite Eq in *. rewrite !Nat2Z.id in *. unfold size in H.
  repeat match type of H with context [(Z.of_nat ?a <? 0)%Z] => destruct (Z.ltb_spec (Z.of_nat a) 0); [lia|] end. cbn [bind] in H. rewrite !Nat2Z.id in H. injection H as <-.
  exists f, ks, v3. split; [reflexivity|]. split; [reflexivity|]. rewrite (Nat.mul_assoc f). split; [lia|]. split; [lia|]. split; [lia|]. split; [lia|]. auto.
Qed.
Lemma build_pool1D_inv d inputs c x l : 0 < c -> 0 < x -> (0 <= d_ksize d)%Z ->
  build_pool1D masks d (Z.of_nat inputs) (Z.of_nat c) (Z.of_nat x) = Ok l ->
  exists ks, d_ksize d = Z.of_nat ks /\ 0 < ks /\ ks <= x /\
    l = finish masks inputs d (BFilter Pool1D (mkFilter c (tiles x ks) 0 0 ks ks [c; x] [c; tiles x ks]
              (pool1D_index c ks inputs (tiles x ks)) (tiles x ks) (repeat 0%Z (tiles x ks))) []).
Proof.
  intros Hc Hx Hk. unfold build_pool1D. destruct (nonneg_nat _ Hk) as (ks & Ek). rewrite Ek. cbv zeta.
  destruct (Z.ltb_spec (Z.of_nat x) (Z.of_nat ks)) as [|Hkx]; [discriminate|]. intros H. ob H. apply cdiv_inv in Ev as [Hks ->].
  unfold size in H. repeat match type of H with context [(Z.of_nat ?a <? 0)%Z] => destruct (Z.ltb_spec (Z.of_nat a) 0); [lia|] end. cbn [bind] in H. rewrite !Nat2Z.id in H.
  destruct (tiles x ks =? 0) in H; cbn [bind] in H; injection H as <-; (exists ks; split; [reflexivity|]; split; [lia|]; split; [lia|]; auto).
Qed.
Lemma build_pool2D_inv d inputs c x y l : 0 < c -> 0 < x -> 0 < y -> (0 <= d_ksize d)%Z ->
  build_pool2D masks d (Z.of_nat inputs) (Z.of_nat c) (Z.of_nat x) (Z.of_nat y) = Ok l ->
  exists ks, d_ksize d = Z.of_nat ks /\ 0 < ks /\ ks <= x /\ ks <= y /\
    l = finish masks inputs d (BFilter Pool2D (mkFilter c (c * tiles x ks * tiles y ks) 0 0 ks (ks * ks) [c; x; y] [c; tiles x ks; tiles y ks]
              (pool2D_index c x ks (tiles x ks) (tiles y ks) inputs (c * tiles x ks * tiles y ks)) (c * tiles x ks * tiles y ks) (repeat 0%Z (c * tiles x ks * tiles y ks))) []).
Proof.
  intros Hc Hx Hy Hk. unfold build_pool2D. destruct (nonneg_nat _ Hk) as (ks & Ek). rewrite Ek. cbv zeta.
  destruct (Z.ltb_spec (Z.of_nat x) (Z.of_nat ks)) as [|Hkx]; [discriminate|]. destruct (Z.ltb_spec (Z.of_nat y) (Z.of_nat ks)) as [|Hky]; [discriminate|]. cbn [orb]. intros H.
  ob H. apply cdiv_inv in Ev as [Hks ->]. ob H. apply cdiv_inv in Ev as [_ ->]. ob H. ob H. ob H. apply imul_inv in Ev, Ev0, Ev1. subst v v0 v1. rewrite <- !Nat2Z.inj_mul in *.
  unfold size in H. repeat match type of H with context [(Z.of_nat ?a <? 0)%Z] => destruct (Z.ltb_spec (Z.of_nat a) 0); [lia|] end. cbn [bind] in H. rewrite !Nat2Z.id in H. injection H as <-.
  exists ks. split; [reflexivity|]. split; [lia|]. split; [lia|]. split; [lia|]. auto.
Qed.
End P.
