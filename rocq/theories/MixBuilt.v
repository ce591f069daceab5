(* The layers a factory makes, in any later state, are good layers (C67). *)
From Coq Require Import Reals Lra.
From Verif Require Import Base Num NumOrder ActModel ActProofs NeuronModel LayerModel NetModel NetSpec NeuronProofs LayerProofs SafeProofs GradProofs DenseProofs SafeLayers FactoryModel FactorySpec FactoryProofs SafeNet BuildProofs FilterSpec FilterProofs HistProofs FilterProps FactoryProps LOptSpec BackSpec BackProps PoolProofs PoolProps BatchProofs MixSpec MixProofs MixLayers MixKinds MixRec MixFilter MixPool.
Local Open Scope nat_scope.

Lemma kind_supported (d : @LDesc RNum) s : @gradient_kind RNum d s -> Forall (fun x => 0 < x) s -> forall draws masks l0, @built RNum draws masks d s l0 -> supported_pooling l0.
Proof.
  intros HK Hs draws masks l0 B. destruct HK as [s Ho Ht|s Ho Ht|C X Y Ho Ht|s C X k Ho Ht Hsh Hk HO|s C X Ho Ht Hsh Hk|C X Ho Ht Hk|s X Ho Ht Hsh|C X Y k Ho Ht Hk HE]; destruct B; try congruence; try exact I.
  - cbn [supported_pooling finish l_body f_shapeIn nth]. destruct H0 as [->|[-> ->]]; [|reflexivity]. destruct Hsh as [Q|Q]; [injection Q; auto|discriminate].
  - exfalso. subst s. destruct Hsh; discriminate.
  - exfalso. destruct H0 as [H0|[H0 _]]; discriminate.
  - injection H0 as <- <- <-. cbn [supported_pooling finish l_body f_shapeOut nth]. assert (ks = k) by lia. subst ks. inversion Hs as [|? ? _ Hs1]. inversion Hs1 as [|? ? Hx Hs2]. inversion Hs2 as [|? ? Hy _].
    rewrite !tiles_covering by auto. lia.
Qed.

Lemma wf_batch (nin : nat) (ns : list RNeu) : Forall (wf_plain nin) ns -> Forall (fun n => n_batch n = 1) ns -> Forall (fun n => wf_plain nin n /\ n_batch n = 1) ns.
Proof. intros A B. apply Forall_and; auto. Qed.

Lemma kind_good o (d : @LDesc RNum) s (l : RLay) (z : list R) : @layer_of RNum d s l -> @gradient_kind RNum d s -> Forall (fun x => 0 < x) s -> sane_kernel d -> List.length z = cell_count s ->
  no_ties d s z -> out_smooth l z ->
  exists val L, good o l z val (cell_count (getShapeOfOutput l)) L /\ Forall (fun x => 0 < x) (getShapeOfOutput l) /\ wf_layer (cell_count s) l (cell_count (getShapeOfOutput l)).
Proof.
  intros HL HK Hpos Hsane Hz HT HO. pose proof (kind_supported d s HK Hpos) as HP.
  assert (Hopts : d_opts d = []) by (destruct HK; assumption). pose proof (no_opts d Hopts s l HL) as Hlo.
  destruct (layer_of_wf d s l HL Hpos Hsane HP) as (draws & masks & l0 & B & W0 & W & SL & SS).
  destruct (same_layer_shape _ _ SL) as [ES _]. rewrite <- ES in W. pose proof (works_batches _ _ (proj2 (proj2 SL))) as HB.
  assert (Hso : Forall (fun x => 0 < x) (getShapeOfOutput l)).
  { assert (G : forall t a, fold_left Nat.mul t a <> 0 -> a <> 0 /\ Forall (fun x => 0 < x) t).
    { induction t as [|x t IH]; intros a Ha; cbn in Ha; [auto|]. apply IH in Ha as [Ha Ht]. split; [lia|]. constructor; [lia|exact Ht]. }
    apply (G _ 1). assert (0 < cell_count (getShapeOfOutput l)) by apply W. unfold cell_count in *. lia. }
  cut (exists val L, good o l z val (cell_count (getShapeOfOutput l)) L). { intros (val & L & G). eauto. }
  clear HP Hsane Hso. destruct l as [i b os]. cbn [l_opts] in Hlo. subst os. pose proof W as (Wi & _ & _ & WB & Wm). cbn [l_in l_body] in *. subst i. fold (cell_count (getShapeOfOutput (mkLayer (cell_count s) b []))) in Wm.
  set (m := cell_count (getShapeOfOutput (mkLayer (cell_count s) b []))) in *. destruct SL as (_ & SK & _). cbn [l_body] in SK.
  destruct B; cbn [finish l_body batches] in SK, HB.
  - (* full *) destruct b as [ns'| | |]; try (destruct SK as [_ SK]; contradiction). cbn [wf_body batches] in WB, HB. destruct WB as [-> WB].
    apply made_batches in H1. pose proof (same_batches n_batch 1 ns' ns HB H1) as HB1.
    do 2 eexists. rewrite <- (pus_length (fun _ => all_cells (cell_count s)) ns'). apply full_good; auto.
    apply Forall_forall. intros n0 Hn0. rewrite Forall_forall in WB, HB1. destruct (WB n0 Hn0). specialize (HB1 n0 Hn0). auto.
  - (* recurrent *) destruct b as [|rs'| |]; try (destruct SK as [_ SK]; contradiction). cbn [wf_body batches] in WB, HB. destruct WB as [-> WB].
    apply (made_rec_batches _ _ _ _ (fun i => draws i 0)) in H1. pose proof (same_batches (fun r => n_batch (r_n r)) 1 rs' ns HB H1) as HB1.
    do 2 eexists. rewrite <- (map_length (ru_of (cell_count s)) rs'). apply rec_good; auto.
    apply Forall_forall. intros n0 Hn0. rewrite Forall_forall in WB, HB1. split; [exact (WB n0 Hn0)|exact (HB1 n0 Hn0)].
  - (* gru *) exfalso. destruct HK; congruence.
  - (* pool1D *) destruct b as [| | |kd f0 ns']; try (destruct SK as [_ SK]; contradiction). destruct SK as (_ & -> & Ef). cbn [wf_body wf_filter] in WB. destruct WB as (Hmk & HR & Hex & Hm & Hm2 & _ & ->).
    assert (Hsh : exists X, (s = [1; X] \/ s = [X]) /\ c = 1 /\ x = X).
    { destruct HK as [?|?|?|?|?|?|s0 X0 _ _ Hsh|]; try congruence; [|destruct H0 as [H0|[H0 _]]; discriminate]. exists X0. clear -H0 Hsh. split; [exact Hsh|]. destruct H0 as [H0|[H0 ?]], Hsh as [Q|Q]; rewrite H0 in Q; try discriminate; injection Q; intros; subst; auto. }
    destruct Hsh as (X & Hsh & -> & ->). assert (HX : 0 < X) by lia. destruct (HT H ks H1) as [HT1 _].
    assert (Ei : f_index f0 = pool1D_index 1 ks (1 * X) (tiles X ks)) by (rewrite Ef; reflexivity). rewrite Nat.mul_1_l in Ei.
    assert (Em : m = tiles X ks) by (rewrite Hm, Ei; unfold pool1D_index; now rewrite map_length, seq_length).
    destruct (pool_good o (cell_count s) m Pool1D f0 z) as (L & HG); auto.
    + intros p p' i0 Hp Hp'. rewrite Ei, !pool1D_row by lia. intros (_ & dx & D1 & D2) (_ & dx' & D3 & D4). eapply tile_unique; [exact D1|exact D3|lia].
    + intros p Hp. rewrite Em, tiles_covering in Hp by auto. destruct (HT1 X p Hsh Hp) as (i & Hi & Hg). rewrite <- tiles_covering in Hp by auto. exists i. rewrite Ei. split; [now apply pool1D_row|]. intros i' Hi'. apply Hg. now apply pool1D_row in Hi'.
    + eauto.
  - (* pool2D *) destruct b as [| | |kd f0 ns']; try (destruct SK as [_ SK]; contradiction). destruct SK as (_ & -> & Ef). cbn [wf_body wf_filter] in WB. destruct WB as (Hmk & HR & Hex & Hm & Hm2 & _ & ->).
    assert (HE : covering x ks = covering y ks).
    { destruct HK as [?|?|?|?|?|?|s0 X0 _ _ Hsh|C0 X0 Y0 k0 _ _ Hk0 HE]; try congruence; [subst s0; destruct Hsh; discriminate|]. injection H0 as -> -> ->. assert (k0 = ks) by lia. now subst k0. }
    subst s. clear HK. inversion Hpos as [|? ? Hc Hs1]. inversion Hs1 as [|? ? Hx Hs2]. inversion Hs2 as [|? ? Hy _]. clear Hs1 Hs2. destruct (HT H ks H1) as [_ HT2].
    assert (Ei : f_index f0 = pool2D_index c x ks (tiles x ks) (tiles y ks) (c * x * y) (c * tiles x ks * tiles y ks)) by (rewrite Ef; reflexivity).
    rewrite <- !tiles_covering in HE by auto. pose proof (fun px py c0 => HT2 c x y px py c0 eq_refl) as HT3. rewrite <- (tiles_covering x ks), <- (tiles_covering y ks) in HT3 by auto.
    destruct (tiles_spec x ks H2 Hx) as (T1 & T2 & T3). destruct (tiles_spec y ks H2 Hy) as (T4 & T5 & T6). set (oX := tiles x ks) in *. set (oY := tiles y ks) in *.
    assert (Em : m = c * oX * oY) by (rewrite Hm, Ei; unfold pool2D_index; now rewrite map_length, seq_length).
    destruct (pool_good o (cell_count [c; x; y]) m Pool2D f0 z) as (L & HG); auto.
    + intros p p' i Hp Hp'. rewrite Ei, !pool2D_row by lia. intros A B. pose proof (Nat.mod_upper_bound p c ltac:(lia)) as M1. pose proof (Nat.mod_upper_bound p' c ltac:(lia)) as M2.
      destruct (in_tile2_unique c x y ks _ _ _ _ _ _ i M1 M2 A B) as (E1 & E2 & E3).
      rewrite <- HE in E2. assert (E4 : p / c = p' / c) by (rewrite (Nat.div_mod (p / c) oX), (Nat.div_mod (p' / c) oX), E1, E2 by lia; reflexivity).
      rewrite (Nat.div_mod p c), (Nat.div_mod p' c), E3, E4 by lia. reflexivity.
    + intros p Hp. rewrite Em in Hp. destruct (HT3 (p / c mod oX) (p / c / oY) (p mod c)) as (i & Hi & Hg).
      * apply Nat.mod_upper_bound. lia.
      * apply Nat.div_lt_upper_bound; [lia|]. apply Nat.div_lt_upper_bound; lia.
      * apply Nat.mod_upper_bound. lia.
      * exists i. rewrite Ei. split; [now apply pool2D_row|]. intros i' Hi'. apply Hg. now apply pool2D_row in Hi'.
    + eauto.
  - (* loc1D *) destruct b as [| | |kd f0 ns']; try (destruct SK as [_ SK]; contradiction). destruct SK as (_ & -> & Ef). cbn [wf_body wf_filter batches] in WB, HB. destruct WB as (Hmk & HR & HF & Hm & Hm2 & Hkp & WB).
    apply made_batches in H6. pose proof (same_batches n_batch 1 ns' ns HB H6) as HB1.
    do 2 eexists. rewrite Hm2. rewrite <- (pus_length (fun j => nth (j / f_filters f0) (f_index f0) []) ns'). apply loc_good; auto; try congruence. { apply wf_batch; auto. }
    intros _ j Hj. rewrite Hkp. assert (Ei : List.length (f_index f0) = tiles x ks) by (rewrite Ef; cbn [f_index set_maxIndex]; unfold loc1D_index; now rewrite map_length, seq_length).
    assert (Efi : f_filters f0 = f) by (rewrite Ef; reflexivity). rewrite Ei, Efi. rewrite Ei, Efi in Hm. clear Ef Ei Efi.
    destruct HK as [?|?|C0 X0 Y0 _ _|s0 C0 X0 k0 _ _ Hsh Hk0 HO1|?|?|?|?]; try congruence. { destruct H0 as [H0|[H0 _]]; discriminate. }
    assert (E1 : x = X0) by (destruct H0 as [H0|[H0 ?]], Hsh as [Hs|[Hs ?]]; rewrite H0 in Hs; try discriminate; injection Hs; intros; subst; auto). subst X0.
    assert (k0 = ks) by lia. subst k0. rewrite <- tiles_covering in HO1 by lia. destruct HO1 as [HO1|HO1].
    + assert (f = 1) by lia. subst f. rewrite Nat.div_1_r, Nat.mod_small by lia. reflexivity.
    + rewrite HO1 in *. rewrite Nat.mod_1_r, Nat.div_small by lia. reflexivity.
  - (* loc2D *) destruct b as [| | |kd f0 ns']; try (destruct SK as [_ SK]; contradiction). destruct SK as (_ & -> & Ef). cbn [wf_body wf_filter batches] in WB, HB. destruct WB as (Hmk & HR & HF & Hm & Hm2 & Hkp & WB).
    apply made_batches in H7. pose proof (same_batches n_batch 1 ns' ns HB H7) as HB1.
    do 2 eexists. rewrite Hm2. rewrite <- (pus_length (fun j => nth (j / f_filters f0) (f_index f0) []) ns'). apply loc_good; auto; try congruence. { apply wf_batch; auto. } all: try discriminate.
  - (* conv1D *) destruct b as [| | |kd f0 ns']; try (destruct SK as [_ SK]; contradiction). destruct SK as (_ & -> & Ef). cbn [wf_body wf_filter batches] in WB, HB. destruct WB as (Hmk & HR & Hm & WB).
    assert (Ek : ks = x).
    { destruct HK as [?|?|?|?|s0 C0 X0 _ _ Hsh Hk0|C0 X0 _ _ Hk0|?|?]; try congruence; [|destruct H0 as [H0|[H0 _]]; discriminate].
      assert (E1 : x = X0) by (destruct H0 as [H0|[H0 ?]], Hsh as [Hs|[Hs ?]]; rewrite H0 in Hs; try discriminate; injection Hs; intros; subst; auto). subst X0. lia. }
    subst ks. apply made_batches in H5. assert (HX1 : x - x + 1 = 1) by lia. rewrite HX1 in H5. pose proof (same_batches n_batch 1 ns' ns HB H5) as HB1.
    assert (Ei : f_index f0 = [nth 0 (conv1D_index c x 1) []]) by (rewrite Ef; cbn [f_index set_maxIndex]; rewrite HX1; reflexivity).
    rewrite Ei in Hm. cbn [List.length] in Hm. rewrite Nat.mul_1_l in Hm.
    do 2 eexists. rewrite Hm. rewrite <- (pus_length (fun j => nth 0 (conv1D_index c x 1) []) ns'). apply conv_good; auto; try congruence. apply wf_batch; auto.
  - (* conv2D *) destruct b as [| | |kd f0 ns']; try (destruct SK as [_ SK]; contradiction). destruct SK as (_ & -> & Ef). cbn [wf_body wf_filter batches] in WB, HB. destruct WB as (Hmk & HR & Hm & WB).
    assert (Ek : ks = x /\ ks = y).
    { destruct HK as [?|?|?|?|s0 C0 X0 _ _ Hsh Hk0|C0 X0 _ _ Hk0|?|?]; try congruence; [subst s0; destruct Hsh as [Q|[Q _]]; discriminate|]. injection H0 as <- <- <-. lia. }
    destruct Ek as [-> ->]. apply made_batches in H6. assert (HX1 : y - y + 1 = 1) by lia. rewrite HX1 in H6. cbn [Nat.mul Nat.add] in H6. pose proof (same_batches n_batch 1 ns' ns HB H6) as HB1.
    assert (Ei : f_index f0 = [nth 0 (conv2D_index c y y 1 1) []]) by (rewrite Ef; cbn [f_index set_maxIndex]; rewrite HX1; reflexivity).
    rewrite Ei in Hm. cbn [List.length] in Hm. rewrite Nat.mul_1_l in Hm.
    do 2 eexists. rewrite Hm. rewrite <- (pus_length (fun j => nth 0 (conv2D_index c y y 1 1) []) ns'). apply conv_good; auto; try congruence. apply wf_batch; auto.
Qed.
