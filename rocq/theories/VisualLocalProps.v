(* C47: the picture of the weights of a 2-D locally connected layer, in any state. *)
From Coq Require Import Reals Lra Lia SpecFloat.
From Flocq Require Import Core.Core IEEE754.BinarySingleNaN.
From Verif Require Import Base Num NumOrder Float32 F1Float ActFloatProps Witness ActModel NeuronModel LayerModel NetModel NeuronProofs LayerProofs SafeProofs SafeLayers
  FactoryModel FactorySpec FactoryProofs FilterSpec SafeNet BuildProofs FilterProofs HistProofs FilterProps PoolProofs PoolProps FactoryProps
  StatModel WaitModel DataModel TrainModel VisualModel VisualSpec VisualProofs VisualFloat VisualProps VisualLocal.
Local Open Scope nat_scope.
Local Open Scope outcome_scope.

Section A.
Context {N : Num} (cv : Conv).

Lemma tiles_room x k : 0 < k -> k <= x -> 0 < tiles x k /\ tiles x k - 1 + k <= x.
Proof. intros Hk Hx. destruct (tiles_spec x k Hk ltac:(lia)) as (A & B & C). split; [exact A|]. destruct (tiles x k) as [|t]; [lia|]. cbn [Nat.sub] in *. rewrite Nat.sub_0_r in *. nia. Qed.

(* the layer, in any state *)
Lemma local_layer d c x y f k l : d_type d = t_local -> d_filters d = Z.of_nat f -> d_ksize d = Z.of_nat k -> 0 < c -> 0 < x -> 0 < y -> layer_of d [c; x; y] l ->
  exists fl ns, l_body l = BFilter Loc2D fl ns /\ f_shapeIn fl = [c; x; y] /\ f_shapeOut fl = [f; tiles x k; tiles y k] /\ f_ksize fl = k /\ l_in l = c * x * y /\
    layer_weights l = map n_w ns /\ List.length ns = f * (tiles x k * tiles y k) /\ Forall (fun n => k * k <= List.length (n_w n)) ns /\
    0 < f /\ 0 < k /\ k <= x /\ k <= y /\ (Z.of_nat f <= 1000000)%Z.
Proof.
  intros Ht Hf Hk Hc Hx Hy HL. assert (Hpos : Forall (fun x => 0 < x) [c; x; y]) by (repeat constructor; auto).
  assert (Hsane : sane_kernel d) by (unfold sane_kernel; rewrite Ht; lia).
  assert (HP : forall draws masks l0, built draws masks d [c; x; y] l0 -> supported_pooling l0) by (intros ? ? ? B; destruct B; try congruence; exact I).
  destruct (layer_of_wf d _ l HL Hpos Hsane HP) as (draws & masks & l0 & B & W0 & W & SL & SS).
  assert (HS0 : supported_pooling l).
  { unfold supported_pooling. destruct SL as (_ & (_ & SK) & _). destruct B; try congruence; cbn [finish l_body] in SK; destruct (l_body l) as [ns1|ns1|ns1|k1 f1 ns1]; try exact I; destruct SK as (-> & _); exact I. }
  pose proof (fun C X Y => layer_dims d _ l C X Y HL Hpos Hsane HS0) as Dims.
  destruct B; try congruence; [destruct H0 as [H0|[H0 _]]; discriminate|]. injection H0 as <- <- <-. assert (f0 = f) by lia. assert (ks = k) by lia. subst f0 ks.
  assert (Ein : l_in l = c * x * y) by (destruct SL as (E & _); cbn [finish l_in] in E; congruence).
  destruct (filter_state _ _ _ l _ _ ns _ _ SL SS W I) as (mi & ns1 & Eb & L & _ & FW & EW).
  match goal with HB : build_neurons _ _ = Ok ns |- _ => apply omap_Ok_length in HB; rewrite seq_length in HB; rewrite HB in L end.
  unfold getShapeOfOutput in Dims. rewrite Eb in Dims. cbn [f_shapeOut set_maxIndex] in Dims. destruct (Dims _ _ _ eq_refl) as (_ & _ & _ & HM).
  eexists _, ns1. split; [exact Eb|]. cbn [set_maxIndex f_shapeIn f_shapeOut f_ksize]. repeat (split; [first [reflexivity|assumption]|]). split; [|auto 10].
  cbn [f_nin] in FW. clear -FW Hc. induction FW as [|a t Ha _ IH]; constructor; auto. destruct Ha as ((Hw & _) & Hn). rewrite Hw, Hn. nia.
Qed.

(* a colour that could be drawn is a level *)
Lemma weightColour_inv v z : weightColour cv v = Ok z -> tinted cv v z.
Proof.
  unfold weightColour, uchar, tinted. destruct (trunc cv _) as [w|]; [|discriminate]. destruct (Z.leb_spec 0 w); [|discriminate]. destruct (Z.leb_spec w 255); [|discriminate]. cbn [andb]. intros E. injection E as <-. auto.
Qed.
Lemma drawn_colours f nin ns C oX oY inX inY im c i j : 0 < C -> square_side C (ceilSqrt cv C) -> 0 < oX -> 0 < oY -> oX - 1 + f_ksize f <= inX -> oY - 1 + f_ksize f <= inY -> inX * inY <= nin ->
  List.length ns = C * (oX * oY) -> Forall (fun n => f_ksize f * f_ksize f <= List.length (n_w n)) ns -> c < C -> i < inX -> j < inY ->
  drawWeights cv f nin ns C oX oY inX inY = Ok im -> exists z, weightColour cv (total (piled (map n_w ns) (f_ksize f) oX oY c i j)) = Ok z.
Proof.
  intros HC HS HoX HoY Hkx Hky Hnin Hns Hw Hc Hi Hj E. destruct (weightColour cv (total (piled (map n_w ns) (f_ksize f) oX oY c i j))) as [z|s|] eqn:Ez; [eauto| |]; exfalso.
  1: assert (Bad : forall z, weightColour cv (total (piled (map n_w ns) (f_ksize f) oX oY c i j)) <> Ok z) by (rewrite Ez; discriminate).
  2: assert (Bad : forall z, weightColour cv (total (piled (map n_w ns) (f_ksize f) oX oY c i j)) <> Ok z) by (rewrite Ez; discriminate).
  all: clear Ez; revert im E.
  all: destruct (grid_room cv C HC HS) as (Hg & Hroom & Hgy); set (gx := gridX cv C) in *; set (gy := gridY cv C) in *.
  all: assert (P3 : c mod gx < gx) by (apply Nat.mod_upper_bound; lia).
  all: assert (P4 : c / gx < gy) by (apply Nat.div_lt_upper_bound; lia).
  all: assert (Q1 : c / gx * gx + c mod gx = c) by (pose proof (Nat.div_mod c gx ltac:(lia)); lia).
  all: assert (Q2 : gx * (c / gx) + c mod gx = c) by (pose proof (Nat.div_mod c gx ltac:(lia)); lia).
  all: assert (Q3 : (oX * oY - 1) * (c + 1) < List.length ns) by (rewrite Hns; assert (0 < oX * oY) by nia; nia).
  all: destruct (getWeights_shows f nin ns oX oY inX inY c HoX HoY Hkx Hky Hnin Q3 Hw) as (w & Ew & Lw & Aw).
  all: assert (Hb : j * inX + i < List.length w) by (rewrite Lw; nia).
  all: unfold drawWeights; fold gx gy; apply (ofold_all _ _ (c mod gx)); [apply in_seq; split; [apply Nat.le_0_l|exact P3]|]; intros im0 r; apply (ofold_all _ _ (c / gx)); [apply in_seq; split; [apply Nat.le_0_l|exact P4]|]; intros im1 r1.
  all: rewrite Q1, Q2; (destruct (Nat.ltb_spec c C); [|lia]); rewrite Ew; cbn [bind].
  all: apply (ofold_all _ _ i); [apply in_seq; lia|]; intros im2 r2; apply (ofold_all _ _ j); [apply in_seq; lia|]; intros im3 r3.
  all: unfold lget; rewrite (nth_error_nth' _ fzero) by exact Hb; cbn [bind]; rewrite Aw by lia; destruct (weightColour cv _) as [z|s'|]; [exfalso; exact (Bad z eq_refl)|discriminate|discriminate].
Qed.

(* For a 2-D locally connected layer (k x k kernels, f filters), in any state: if every sum of weights has a level of grey, the file is
   written; and whenever it is written, picture c of the file has at (i, j) the level of the sum of the weights [piled] there. *)
Theorem C47_local_weights_partial : forall (d : LDesc) c x y f k l, good_grid cv ->
  d_type d = t_local -> d_filters d = Z.of_nat f -> d_ksize d = Z.of_nat k -> 0 < c -> 0 < x -> 0 < y -> layer_of d [c; x; y] l ->
  (forall level, (forall n i j, n < f -> i < x -> j < y -> tinted cv (total (piled (layer_weights l) k (tiles x k) (tiles y k) n i j)) (level n i j)) ->
     exists im, pictureOfWeights cv l = Ok (Some im)) /\
  (forall p, pictureOfWeights cv l = Ok p -> exists im side level, p = Some im /\ square_side f side /\
     (forall n i j, n < f -> i < x -> j < y -> tinted cv (total (piled (layer_weights l) k (tiles x k) (tiles y k) n i j)) (level n i j)) /\
     shows side f x y (fun n i j => grey (level n i j)) im).
Proof.
  intros d c x y f k l GG Ht Hf Hk Hc Hx Hy HL.
  destruct (local_layer d c x y f k l Ht Hf Hk Hc Hx Hy HL) as (fl & ns & Eb & E1 & E2 & E3 & E4 & EW & L & FW & Hf0 & Hk0 & Hkx & Hky & HM).
  destruct (tiles_room x k Hk0 Hkx) as [T1 T2]. destruct (tiles_room y k Hk0 Hky) as [T3 T4]. pose proof (GG f Hf0 HM) as SQ.
  assert (Hnin : x * y <= l_in l) by (rewrite E4; nia). unfold pictureOfWeights. rewrite Eb, E1, E2, EW.
  assert (Draw : forall level, (forall n i j, n < f -> i < x -> j < y -> tinted cv (total (piled (map n_w ns) k (tiles x k) (tiles y k) n i j)) (level n i j)) ->
     exists im, drawWeights cv fl (l_in l) ns f (tiles x k) (tiles y k) x y = Ok im /\ shows (ceilSqrt cv f) f x y (fun n i j => grey (level n i j)) im).
  { intros level HT. apply drawWeights_shows; rewrite ?E3; auto. }
  split.
  - intros level HT. destruct (Draw level HT) as (im & -> & _). eexists. reflexivity.
  - intros p Hp. destruct (drawWeights cv fl (l_in l) ns f (tiles x k) (tiles y k) x y) as [im0| |] eqn:Ed; try discriminate. cbn [bind] in Hp. injection Hp as <-.
    set (level := fun n i j => match weightColour cv (total (piled (map n_w ns) k (tiles x k) (tiles y k) n i j)) with Ok z => z | _ => 0%Z end).
    assert (HT : forall n i j, n < f -> i < x -> j < y -> tinted cv (total (piled (map n_w ns) k (tiles x k) (tiles y k) n i j)) (level n i j)).
    { intros n i j Hn Hi Hj. pose proof (drawn_colours fl (l_in l) ns f (tiles x k) (tiles y k) x y im0 n i j) as D. rewrite E3 in D. destruct D as (z & Ez); auto.
      unfold level. rewrite Ez. now apply weightColour_inv. }
    destruct (Draw level HT) as (im & Ed' & Hs). injection Ed' as <-. exists im0, (ceilSqrt cv f), level. auto.
Qed.

(* The last columns of the picture of a filter are the same for all weights: when the kernel is not 1 x 1 and the input is at least two
   kernels wide, the right edge has in every picture the level of zero, although every input is connected to some neuron. *)
Theorem C47_local_edge_refuted : forall (d : LDesc) c x y f k l im, good_grid cv ->
  d_type d = t_local -> d_filters d = Z.of_nat f -> d_ksize d = Z.of_nat k -> 0 < c -> 0 < x -> 0 < y -> layer_of d [c; x; y] l ->
  2 <= k -> 2 * k <= x -> pictureOfWeights cv l = Ok (Some im) ->
  exists side, square_side f side /\ forall n j, n < f -> j < y ->
    exists z, tinted cv fzero z /\ pixel_at im (column side x n (x - 1)) (row side y n j) = Some (grey z).
Proof.
  intros d c x y f k l im GG Ht Hf Hk Hc Hx Hy HL H2 Hx2 Hp.
  destruct (C47_local_weights_partial d c x y f k l GG Ht Hf Hk Hc Hx Hy HL) as [_ B]. destruct (B _ Hp) as (im' & side & level & E & SQ & HT & (Hs & _)). injection E as <-.
  exists side. split; [exact SQ|]. intros n j Hn Hj. exists (level n (x - 1) j). split; [|apply Hs; lia].
  specialize (HT n (x - 1) j Hn ltac:(lia) Hj).
  assert (Ep : piled (layer_weights l) k (tiles x k) (tiles y k) n (x - 1) j = []).
  { unfold piled. destruct (tiles_spec x k ltac:(lia) Hx) as (T1 & T2 & T3). assert (Hfar : forall n0, covers k (tiles x k) n0 (x - 1) j = false).
    { intros n0. unfold covers. assert (n0 mod tiles x k < tiles x k) by (apply Nat.mod_upper_bound; lia).
      assert (tiles x k + k <= x) by (destruct (tiles x k) as [|[|t]]; [lia|lia|]; cbn [Nat.sub] in *; nia).
      destruct (Nat.ltb_spec (x - 1) (n0 mod tiles x k + k)); [lia|]. now rewrite Bool.andb_false_r. }
    induction (seq 0 (tiles x k * tiles y k)) as [|a t IH]; [reflexivity|]. cbn [flat_map]. now rewrite Hfar, IH. }
  rewrite Ep in HT. exact HT.
Qed.

(* When the kernel is as big as the picture, all filters are drawn with the weights of the first one. *)
Theorem C47_local_filters_refuted : forall (d : LDesc) c x f l im, good_grid cv ->
  d_type d = t_local -> d_filters d = Z.of_nat f -> d_ksize d = Z.of_nat x -> 0 < c -> 0 < x -> layer_of d [c; x; x] l ->
  pictureOfWeights cv l = Ok (Some im) ->
  exists side, square_side f side /\ forall n i j, n < f -> i < x -> j < x ->
    pixel_at im (column side x n i) (row side x n j) = pixel_at im (column side x 0 i) (row side x 0 j) /\
    exists z, tinted cv (fadd fzero (nth (j * x + i) (nth 0 (layer_weights l) []) fzero)) z /\ pixel_at im (column side x n i) (row side x n j) = Some (grey z).
Proof.
  intros d c x f l im GG Ht Hf Hk Hc Hx HL Hp.
  destruct (C47_local_weights_partial d c x x f x l GG Ht Hf Hk Hc Hx Hx HL) as [_ B]. destruct (B _ Hp) as (im' & side & level & E & SQ & HT & (Hs & _)). injection E as <-.
  exists side. split; [exact SQ|].
  assert (T : tiles x x = 1) by (unfold tiles; rewrite Nat.mod_same, Nat.div_same by lia; reflexivity). rewrite T in HT.
  assert (Ep : forall n i j, i < x -> j < x -> piled (layer_weights l) x 1 1 n i j = [nth (j * x + i) (nth 0 (layer_weights l) []) fzero]).
  { intros n i j Hi Hj. unfold piled. cbn [seq flat_map Nat.mul Nat.add]. unfold covers. rewrite Nat.mod_1_r, Nat.div_1_r. destruct (Nat.ltb_spec i (0 + x)); [|lia]. destruct (Nat.ltb_spec j (0 + x)); [|lia].
    cbn [Nat.leb andb]. now rewrite !Nat.sub_0_r. }
  assert (Same : forall n i j, n < f -> i < x -> j < x -> exists z, tinted cv (fadd fzero (nth (j * x + i) (nth 0 (layer_weights l) []) fzero)) z /\ pixel_at im (column side x n i) (row side x n j) = Some (grey z)).
  { intros n i j Hn Hi Hj. exists (level n i j). split; [|now apply Hs]. specialize (HT n i j Hn Hi Hj). rewrite Ep in HT by assumption. exact HT. }
  intros n i j Hn Hi Hj. split; [|now apply Same]. destruct (Same n i j Hn Hi Hj) as (z & [Z1 _] & ->). destruct (Same 0 i j ltac:(lia) Hi Hj) as (z0 & [Z0 _] & ->). congruence.
Qed.

(* The one case in which it is right: one filter, one channel, kernels of one pixel. *)
Theorem C47_local_pixels_partial : forall (d : LDesc) x y l im, good_grid cv ->
  d_type d = t_local -> d_filters d = 1%Z -> d_ksize d = 1%Z -> 0 < x -> 0 < y -> layer_of d [1; x; y] l ->
  pictureOfWeights cv l = Ok (Some im) ->
  forall i j, i < x -> j < y -> exists z, tinted cv (fadd fzero (nth 0 (nth (j * x + i) (layer_weights l) []) fzero)) z /\ pixel_at im i j = Some (grey z).
Proof.
  intros d x y l im GG Ht Hf Hk Hx Hy HL Hp i j Hi Hj.
  destruct (C47_local_weights_partial d 1 x y 1 1 l GG Ht Hf Hk ltac:(lia) Hx Hy HL) as [_ B]. destruct (B _ Hp) as (im' & side & level & E & SQ & HT & (Hs & _)). injection E as <-.
  assert (T : forall a, 0 < a -> tiles a 1 = a) by (intros a Ha; unfold tiles; rewrite Nat.mod_1_r, Nat.div_1_r; cbn; lia).
  exists (level 0 i j). specialize (HT 0 i j ltac:(lia) Hi Hj). specialize (Hs 0 i j ltac:(lia) Hi Hj). unfold column, row in Hs. rewrite !T in HT by assumption.
  assert (Hside : side <> 0) by (unfold square_side in SQ; nia). rewrite Nat.mod_0_l, Nat.div_0_l in Hs by assumption. cbn [Nat.mul Nat.add] in Hs. split; [|exact Hs].
  assert (Ep : piled (layer_weights l) 1 x y 0 i j = [nth 0 (nth (j * x + i) (layer_weights l) []) fzero]).
  { unfold piled. assert (G : forall m, m <= x * y -> flat_map (fun n => if covers 1 x n i j then [nth ((j - n / x) * 1 + (i - n mod x)) (nth (n * (0 + 1)) (layer_weights l) []) fzero] else []) (seq 0 m)
        = if j * x + i <? m then [nth 0 (nth (j * x + i) (layer_weights l) []) fzero] else []).
    { induction m as [|m IH]; intros Hm; [now destruct (Nat.ltb_spec (j * x + i) 0); [lia|]|]. rewrite seq_S, flat_map_app, IH by lia. cbn [flat_map Nat.add]. rewrite app_nil_r. pose proof (Nat.div_mod m x ltac:(lia)) as Em.
      assert (m mod x < x) by (apply Nat.mod_upper_bound; lia). unfold covers.
      destruct (Nat.ltb_spec (j * x + i) m), (Nat.ltb_spec (j * x + i) (S m)); try lia.
      - destruct (Nat.leb_spec (m mod x) i), (Nat.ltb_spec i (m mod x + 1)), (Nat.leb_spec (m / x) j), (Nat.ltb_spec j (m / x + 1)); cbn [andb]; try reflexivity. exfalso. assert (i = m mod x) by lia. assert (j = m / x) by lia. subst i j. lia.
      - assert (Em' : m = j * x + i) by lia. assert (Ej : m / x = j) by (rewrite Em', Nat.div_add_l, Nat.div_small by lia; lia). assert (Ei : m mod x = i) by (rewrite Em', (Nat.add_comm (j * x)), Nat.mod_add, Nat.mod_small by lia; lia).
        rewrite Ei, Ej. destruct (Nat.leb_spec i i), (Nat.ltb_spec i (i + 1)), (Nat.leb_spec j j), (Nat.ltb_spec j (j + 1)); try lia. cbn [andb]. replace ((j - j) * 1 + (i - i)) with 0 by lia. replace (m * 1) with (j * x + i) by lia. reflexivity.
      - destruct (Nat.leb_spec (m mod x) i), (Nat.ltb_spec i (m mod x + 1)), (Nat.leb_spec (m / x) j), (Nat.ltb_spec j (m / x + 1)); cbn [andb]; try reflexivity. exfalso. assert (i = m mod x) by lia. assert (j = m / x) by lia. subst i j. lia. }
    rewrite G by lia. destruct (Nat.ltb_spec (j * x + i) (x * y)); [reflexivity|nia]. }
  rewrite Ep in HT. exact HT.
Qed.
End A.

(* ---------- binary32 ---------- *)
Section F.
Variables expf tanhf : f32 -> f32.
Notation N := (Num32 expf tanhf).
Local Open Scope R_scope.
Lemma byte_exact z : (0 <= z <= 255)%Z -> trunc32 (f32_of_Z z) = Some z.
Proof.
  intros Hz. assert (A : forallb (fun n => match trunc32 (f32_of_Z (Z.of_nat n)) with Some w => (w =? Z.of_nat n)%Z | None => false end) (seq 0 256) = true) by (vm_compute; reflexivity).
  rewrite forallb_forall in A. specialize (A (Z.to_nat z) ltac:(apply in_seq; lia)). rewrite Z2Nat.id in A by lia. destruct (trunc32 _) as [w|]; [|discriminate]. apply Z.eqb_eq in A. now subst.
Qed.
Lemma round_byte x r : fin32 x r -> 0 <= r <= 255 -> exists z, trunc32 (round32 x) = Some z /\ (0 <= z <= 255)%Z.
Proof.
  intros (b & <- & Fb & <-) Hr. destruct b as [s|s| |s m e Hb]; try discriminate; cbn [B2SF B2R] in *.
  - exists 0%Z. cbn. split; [reflexivity|lia].
  - destruct s. { exfalso. assert (F2R (Float radix2 (Z.neg m) e) < 0) by (now apply F2R_lt_0). change (cond_Zopp true (Z.pos m)) with (Z.neg m) in Hr. lra. }
    change (cond_Zopp false (Z.pos m)) with (Z.pos m) in Hr. unfold round32. destruct (Z.leb_spec 0 e) as [He|He].
    + cbn [trunc32]. destruct (Z.leb_spec 0 e); [|lia]. eexists. split; [reflexivity|]. assert (E : F2R (Float radix2 (Z.pos m) e) = IZR (Z.pos m * 2 ^ e)).
      { unfold F2R. cbn [Fnum Fexp]. rewrite <- IZR_Zpower by lia. now rewrite <- mult_IZR. }
      rewrite E in Hr. split; apply le_IZR; lra.
    + set (q := (2 ^ (- e))%Z). assert (Hq : (0 < q)%Z) by (apply Z.pow_pos_nonneg; lia).
      assert (E : IZR (Z.pos m) = F2R (Float radix2 (Z.pos m) e) * IZR q).
      { unfold F2R, q. cbn [Fnum Fexp]. change 2%Z with (radix_val radix2). rewrite IZR_Zpower by lia. rewrite Rmult_assoc, <- bpow_plus. replace (e + - e)%Z with 0%Z by lia. cbn [bpow]. ring. }
      assert (Hm : (Z.pos m <= 255 * q)%Z) by (apply le_IZR; rewrite mult_IZR, E; apply Rmult_le_compat_r; [apply IZR_le; lia|lra]).
      rewrite byte_exact.
      * eexists. split; [reflexivity|]. split; [apply Z.div_pos; lia|]. apply Z.lt_succ_r. apply Z.div_lt_upper_bound; lia.
      * split; [apply Z.div_pos; lia|]. apply Z.lt_succ_r. apply Z.div_lt_upper_bound; lia.
Qed.
(* every float that is not NaN has a level of grey *)
Theorem C47_weight_level : bounded_tanh tanhf -> forall v, number v -> exists level, @tinted N (conv32 expf tanhf) v level.
Proof.
  intros HT v Hv. destruct (HT _ (half_number expf tanhf v Hv)) as (t & Ht & Bt).
  assert (B1 : 0 <= rnd (t + IZR 1) <= 2) by (split; [apply rnd_ge_fmt; [apply (int_format 0); lia|lra]|apply rnd_le_fmt; [apply (int_format 2); lia|lra]]).
  assert (F1 : fin32 (@fadd N (@ftanh N (@fdiv N v (@fofZ N 2))) (@fone N)) (rnd (t + IZR 1))) by (apply fin32_add; [exact Ht|apply (fin32_fofZ expf tanhf 1); lia|apply (small _ 2); [lra|apply IZR_le; lia]]).
  assert (L1 : fin32 (@flit N 1275 10) (IZR 255 / IZR 2)).
  { assert (E : @flit N 1275 10 = @fdiv N (@fofZ N 255) (@fofZ N 2)) by (vm_compute; reflexivity). rewrite E.
    assert (G : rnd (IZR 255 / IZR 2) = IZR 255 / IZR 2).
    { apply round_generic; [typeclasses eauto|]. apply generic_format_FLT. change (SpecFloat.emin 24 128) with (-149)%Z. exists (Float radix2 255 (-1)); cbn; try lia. unfold F2R. cbn. lra. }
    rewrite <- G. apply fin32_div; [apply (fin32_fofZ expf tanhf 255); lia|apply (fin32_fofZ expf tanhf 2); lia|lra|]. apply (small _ 255); [rewrite G; lra|apply IZR_le; lia]. }
  assert (B2 : 0 <= rnd (rnd (t + IZR 1) * (IZR 255 / IZR 2)) <= 255) by (split; [apply rnd_ge_fmt; [apply (int_format 0); lia|nra]|apply rnd_le_fmt; [apply (int_format 255); lia|nra]]).
  assert (F2 : fin32 (@fmul N (@fadd N (@ftanh N (@fdiv N v (@fofZ N 2))) (@fone N)) (@flit N 1275 10)) (rnd (rnd (t + IZR 1) * (IZR 255 / IZR 2)))).
  { apply fin32_mul; [exact F1|exact L1|]. apply (small _ 255); [lra|apply IZR_le; lia]. }
  destruct (round_byte _ _ F2 B2) as (z & Ez & Bz). exists z. split; [exact Ez|exact Bz].
Qed.
(* so the picture is always drawn as long as no sum is NaN *)
Theorem C47_local_drawn_partial : bounded_tanh tanhf -> forall (d : @LDesc N) c x y f k l,
  d_type d = t_local -> d_filters d = Z.of_nat f -> d_ksize d = Z.of_nat k -> (0 < c)%nat -> (0 < x)%nat -> (0 < y)%nat -> @layer_of N d [c; x; y] l ->
  (forall n i j, (n < f)%nat -> (i < x)%nat -> (j < y)%nat -> number (@total N (@piled N (layer_weights l) k (tiles x k) (tiles y k) n i j))) ->
  exists im, @pictureOfWeights N (conv32 expf tanhf) l = Ok (Some im).
Proof.
  intros HT d c x y f k l Ht Hf Hk Hc Hx Hy HL HN.
  destruct (C47_local_weights_partial (conv32 expf tanhf) d c x y f k l (C47_grid_binary32 expf tanhf) Ht Hf Hk Hc Hx Hy HL) as [A _].
  apply (A (fun n i j => match trunc32 (round32 (@fmul N (@fadd N (@ftanh N (@fdiv N (@total N (@piled N (layer_weights l) k (tiles x k) (tiles y k) n i j)) (@fofZ N 2))) (@fone N)) (@flit N 1275 10))) with Some z => z | None => 0%Z end)).
  intros n i j Hn Hi Hj. destruct (C47_weight_level HT _ (HN n i j Hn Hi Hj)) as (z & Ez & Bz). split; [|]; change (trunc (conv32 expf tanhf)) with trunc32 in *; change (rounded (conv32 expf tanhf)) with round32 in *.
  - rewrite Ez. reflexivity.
  - rewrite Ez. exact Bz.
Qed.
End F.

(* ---------- a layer that meets the hypotheses ---------- *)
Definition loc_d : @LDesc N32 := @LocallyConnected N32 2 2 a_identity [].
Definition loc_draws : nat -> nat -> nat -> @F N32 := fun n _ i => b32q (Z.of_nat (7 * n + i)) 64.
Definition loc_check : bool :=
  run_check (@build_layer N32 loc_draws (fun _ _ => true) loc_d [1; 4; 4]%Z) (fun l => (layer_isValid l =? 0)%Z &&
  run_check (@pictureOfWeights N32 cv32 l) (fun p => match p with Some im => negb ((fst (fst (nth 0 (bm_data im) black)) =? fst (fst (nth 1 (bm_data im) black)))%Z) | None => false end)).
Example C47_local_hypotheses : exists l im, @layer_of N32 loc_d [1; 4; 4] l /\ @pictureOfWeights N32 cv32 l = Ok (Some im) /\ nth 0 (bm_data im) black <> nth 1 (bm_data im) black.
Proof.
  assert (H : loc_check = true) by (vm_compute; reflexivity). unfold loc_check in H. unpack_all. destruct w0 as [im|]; [|discriminate].
  exists w, im. split; [|split; [assumption|]].
  - exists loc_draws, (fun _ _ => true), w. split; [assumption|]. split; [now apply Z.eqb_eq|constructor].
  - intros C. match goal with HH : negb _ = true |- _ => rewrite C, Z.eqb_refl in HH; discriminate end.
Qed.
Example C47_level_hypotheses : bounded_tanh (fun _ => S754_zero false) /\ number (b32 3).
Proof.
  split.
  - intros y _. exists 0%R. split; [exists (B754_zero false); repeat split|lra].
  - destruct (fin32_of_Z 3 ltac:(lia)) as (b & E & F & _). exists b. split; [exact E|]. destruct b; try discriminate; reflexivity.
Qed.
