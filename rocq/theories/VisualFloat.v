(* ceil(sqrt((float)n)) in binary32 is the integer it should be, up to 2^24. *)
From Coq Require Import Reals ZArith Lia Lra SpecFloat Bool.
From Flocq Require Import Core.Core IEEE754.BinarySingleNaN.
From Verif Require Import Base Num Float32 VisualModel VisualSpec.

Local Instance Hprec32 : Prec_gt_0 24 := eq_refl.
Local Instance Hmax32 : Prec_lt_emax 24 128 := eq_refl.
Lemma sqrt_equiv32 (x : bf) : SFsqrt 24 128 (B2SF x) = B2SF (Bsqrt mode_NE x).
Proof.
  case x as [sx|[]| |[] mx ex Bx]; try reflexivity. simpl. rewrite B2SF_SF2B.
  set (melz := SFsqrt_core_binary _ _ _ _). case melz as [[mz ez] lz]. apply binary_round_aux_equiv32.
Qed.
Lemma fin32_sqrt e t x a : fin32 x a -> (0 <= a)%R -> fin32 (@fsqrt (Num32 e t) x) (rnd (R_sqrt.sqrt a)).
Proof.
  intros (bx & <- & Fx & <-) Ha. pose proof (Bsqrt_correct 24 128 _ _ mode_NE bx) as (H1 & H2 & _).
  exists (Bsqrt mode_NE bx). split; [symmetry; exact (sqrt_equiv32 bx)|]. split; [|exact H1]. rewrite H2.
  destruct bx as [s|s| |[] m ex Hb]; try discriminate; auto.
  exfalso. simpl in Ha. assert (F2R (Float radix2 (Z.neg m) ex) < 0)%R by (now apply F2R_lt_0). lra.
Qed.
Lemma up32_ceil x r : fin32 x r -> up32 x = Zceil r.
Proof.
  intros (b & <- & Fb & <-). destruct b as [s|s| |s m ex Hb]; try discriminate; simpl.
  - unfold Zceil. rewrite Ropp_0. change 0%R with (IZR 0). rewrite Zfloor_IZR. reflexivity.
  - set (z := cond_Zopp s (Z.pos m)). replace (if s then Z.neg m else Z.pos m) with z by (unfold z; now destruct s).
    destruct (Z.leb_spec 0 ex).
    + unfold F2R. simpl. rewrite <- IZR_Zpower by lia. rewrite <- mult_IZR. rewrite Zceil_IZR. reflexivity.
    + unfold Zceil. f_equal. unfold F2R. simpl.
      assert (E : (- (IZR z * bpow radix2 ex) = IZR (- z) / IZR (2 ^ (- ex)))%R).
      { rewrite opp_IZR. replace ex with (- (- ex))%Z at 1 by lia. rewrite bpow_opp, <- IZR_Zpower by lia. unfold Rdiv. simpl. ring. }
      rewrite E. symmetry. apply Zfloor_div. apply Z.pow_nonzero; lia.
Qed.
(* the numbers m + 2^-12 below 2^12 are binary32 numbers *)
Lemma half_format m : (0 <= m < 4096)%Z -> generic_format radix2 (SpecFloat.fexp 24 128) (IZR m + bpow radix2 (-12)).
Proof.
  intros Hm. apply generic_format_FLT. change (SpecFloat.emin 24 128) with (-149)%Z.
  exists (Float radix2 (m * 4096 + 1) (-12)); simpl; try lia. unfold F2R. simpl. rewrite plus_IZR, mult_IZR. lra.
Qed.
Lemma rnd_above m v : (0 <= m < 4096)%Z -> (IZR m + bpow radix2 (-12) / 2 < v)%R -> (IZR m < rnd v)%R.
Proof.
  intros Hm Hv. destruct (Rlt_or_le (IZR m) (rnd v)) as [|Hle]; auto. exfalso.
  destruct (round_N_pt radix2 (SpecFloat.fexp 24 128) (fun x => negb (Z.even x)) v) as [_ K].
  specialize (K _ (half_format m Hm)). change (Znearest (fun x => negb (Z.even x))) with (round_mode mode_NE) in K.
  set (d := bpow radix2 (-12)) in *. assert (0 < d)%R by (apply bpow_gt_0). revert K. unfold Rabs. destruct (Rcase_abs _), (Rcase_abs _); intros; lra.
Qed.
Theorem grid32 e t : good_grid (conv32 e t).
Proof.
  intros n Hn Hmax. unfold square_side, conv32. cbn [ceilSqrt].
  assert (Hz : (Z.abs (Z.of_nat n) <= 2 ^ 24)%Z) by lia.
  assert (Ff : fin32 (@fsqrt (Num32 e t) (@fofnat (Num32 e t) n)) (rnd (R_sqrt.sqrt (IZR (Z.of_nat n))))).
  { apply fin32_sqrt; [unfold fofnat; now apply fin32_fofZ|]. apply IZR_le. lia. }
  rewrite (up32_ceil _ _ Ff). clear Ff. set (N := Z.of_nat n) in *. assert (HN : (1 <= N <= 1000000)%Z) by lia. clear Hz.
  (* the integer square root, rounded up *)
  set (s := Z.sqrt_up N). pose proof (Z.sqrt_up_spec N ltac:(lia)) as [H1 H2]. fold s in H1, H2.
  assert (Hs : (1 <= s)%Z) by (unfold s; apply (Z.sqrt_up_le_mono 1); lia).
  assert (Hs2 : (s <= 1000)%Z) by (change 1000%Z with (Z.sqrt_up 1000000); apply Z.sqrt_up_le_mono; lia).
  assert (E : Zceil (rnd (R_sqrt.sqrt (IZR N))) = s).
  { apply Zceil_imp. rewrite minus_IZR. assert (Hsq : (R_sqrt.sqrt (IZR N) * R_sqrt.sqrt (IZR N) = IZR N)%R) by (apply sqrt_sqrt, IZR_le; lia).
    assert (Hpos : (0 <= R_sqrt.sqrt (IZR N))%R) by apply sqrt_pos. split.
    - rewrite <- minus_IZR. apply rnd_above; [lia|]. apply Rnot_le_lt. intros Hc.
      assert (K : (IZR (Z.pred s * Z.pred s) + 1 <= IZR N)%R) by (change 1%R with (IZR 1); rewrite <- plus_IZR; apply IZR_le; lia).
      unfold Z.pred in K. rewrite mult_IZR in K. change (s + -1)%Z with (s - 1)%Z in K.
      assert (Hm : (0 <= IZR (s - 1) <= 999)%R) by (split; apply IZR_le; lia). change (bpow radix2 (-12)) with (/ 4096)%R in Hc. nra.
    - apply rnd_le_fmt; [apply int_format; lia|]. apply Rnot_lt_le. intros Hc.
      assert (K : (IZR N <= IZR s * IZR s)%R) by (rewrite <- mult_IZR; apply IZR_le; lia). assert (0 < IZR s)%R by (apply IZR_lt; lia). nra. }
  rewrite E. assert (Hd : Z.of_nat (Z.to_nat s) = s) by lia. split; [apply Nat2Z.inj_le|apply Nat2Z.inj_lt]; rewrite ?Nat2Z.inj_mul, ?Nat2Z.inj_sub by lia; rewrite ?Hd; fold N. { exact H2. } change (s - Z.of_nat 1)%Z with (Z.pred s). exact H1.
Qed.
Print Assumptions grid32.
