(* Bridge from the executable binary32 arithmetic of [Num32] to rounded real arithmetic, through Flocq. *)
From Coq Require Import Reals ZArith Lia Lra SpecFloat Bool.
From Flocq Require Import Core.Core IEEE754.BinarySingleNaN.
From Verif Require Import Base Num.

Local Instance Hprec32 : Prec_gt_0 24 := eq_refl.
Local Instance Hmax32 : Prec_lt_emax 24 128 := eq_refl.
Notation bf := (binary_float 24 128).
Notation rnd := (round radix2 (SpecFloat.fexp 24 128) (round_mode mode_NE)).

Lemma round_nearest_even_equiv32 s m l : round_nearest_even m l = choice_mode mode_NE s m l.
Proof.
  case l; [reflexivity|intro c]. case c; [ | reflexivity..]. now simpl; unfold Round.cond_incr; case Z.even.
Qed.
Lemma binary_round_aux_equiv32 sx mx ex lx :
  SpecFloat.binary_round_aux 24 128 sx mx ex lx = binary_round_aux 24 128 mode_NE sx mx ex lx.
Proof.
  unfold SpecFloat.binary_round_aux, binary_round_aux.
  set (mrse' := shr_fexp _ _ _ _ _). case mrse' as [mrs' e']; simpl.
  now rewrite (round_nearest_even_equiv32 sx).
Qed.
Lemma binary_round_equiv32 s m e :
  SpecFloat.binary_round 24 128 s m e = binary_round 24 128 mode_NE s m e.
Proof.
  unfold SpecFloat.binary_round, binary_round, shl_align_fexp.
  set (mez := shl_align _ _ _); case mez as [mz ez]. apply binary_round_aux_equiv32.
Qed.
Lemma binary_normalize_equiv32 m e szero :
  SpecFloat.binary_normalize 24 128 m e szero = B2SF (binary_normalize 24 128 _ _ mode_NE m e szero).
Proof.
  case m as [ | p | p]; simpl; auto; rewrite B2SF_SF2B; apply binary_round_equiv32.
Qed.
Lemma add_equiv32 (x y : bf) : SFadd 24 128 (B2SF x) (B2SF y) = B2SF (Bplus mode_NE x y).
Proof.
  case x as [sx|sx| |sx mx ex Bx]; case y as [sy|sy| |sy my ey By];
  [now (trivial || simpl; case Bool.eqb).. | ]. apply binary_normalize_equiv32.
Qed.
Lemma sub_equiv32 (x y : bf) : SFsub 24 128 (B2SF x) (B2SF y) = B2SF (Bminus mode_NE x y).
Proof.
  case x as [sx|sx| |sx mx ex Bx]; case y as [sy|sy| |sy my ey By];
  [now (trivial || simpl; case Bool.eqb).. | ]. simpl. unfold Zminus. rewrite <- cond_Zopp_negb.
  apply binary_normalize_equiv32.
Qed.
Lemma mul_equiv32 (x y : bf) : SFmul 24 128 (B2SF x) (B2SF y) = B2SF (Bmult mode_NE x y).
Proof.
  case x as [sx|sx| |sx mx ex Bx]; case y as [sy|sy| |sy my ey By]; [now trivial.. | ].
  simpl. rewrite B2SF_SF2B. apply binary_round_aux_equiv32.
Qed.
Lemma div_equiv32 (x y : bf) : SFdiv 24 128 (B2SF x) (B2SF y) = B2SF (Bdiv mode_NE x y).
Proof.
  case x as [sx|sx| |sx mx ex Bx]; case y as [sy|sy| |sy my ey By];
  [now (trivial || simpl; case Bool.eqb).. | ]. simpl. rewrite B2SF_SF2B.
  set (melz := SFdiv_core_binary _ _ _ _ _ _). case melz as [[mz ez] lz]. apply binary_round_aux_equiv32.
Qed.

(* [x] is a finite binary32 number of value [r] *)
Definition fin32 (x : f32) (r : R) : Prop := exists b : bf, B2SF b = x /\ is_finite b = true /\ B2R b = r.

Section B.
Variables expf tanhf : f32 -> f32.
Let N := Num32 expf tanhf.

Lemma fin32_add x y a b : fin32 x a -> fin32 y b -> (Rabs (rnd (a + b)) < bpow radix2 128)%R ->
  fin32 (@fadd N x y) (rnd (a + b)).
Proof.
  intros (bx & <- & Fx & <-) (by_ & <- & Fy & <-) H.
  pose proof (Bplus_correct 24 128 _ _ mode_NE bx by_ Fx Fy) as HC.
  rewrite (Rlt_bool_true _ _ H) in HC. destruct HC as (H1 & H2 & _).
  exists (Bplus mode_NE bx by_). split; [symmetry; exact (add_equiv32 bx by_)|]. auto.
Qed.
Lemma fin32_sub x y a b : fin32 x a -> fin32 y b -> (Rabs (rnd (a - b)) < bpow radix2 128)%R ->
  fin32 (@fsub N x y) (rnd (a - b)).
Proof.
  intros (bx & <- & Fx & <-) (by_ & <- & Fy & <-) H.
  pose proof (Bminus_correct 24 128 _ _ mode_NE bx by_ Fx Fy) as HC.
  rewrite (Rlt_bool_true _ _ H) in HC. destruct HC as (H1 & H2 & _).
  exists (Bminus mode_NE bx by_). split; [symmetry; exact (sub_equiv32 bx by_)|]. auto.
Qed.
Lemma fin32_mul x y a b : fin32 x a -> fin32 y b -> (Rabs (rnd (a * b)) < bpow radix2 128)%R ->
  fin32 (@fmul N x y) (rnd (a * b)).
Proof.
  intros (bx & <- & Fx & <-) (by_ & <- & Fy & <-) H.
  pose proof (Bmult_correct 24 128 _ _ mode_NE bx by_) as HC.
  rewrite (Rlt_bool_true _ _ H) in HC. destruct HC as (H1 & H2 & _). rewrite Fx, Fy in H2.
  exists (Bmult mode_NE bx by_). split; [symmetry; exact (mul_equiv32 bx by_)|]. auto.
Qed.
Lemma fin32_div x y a b : fin32 x a -> fin32 y b -> b <> 0%R -> (Rabs (rnd (a / b)) < bpow radix2 128)%R ->
  fin32 (@fdiv N x y) (rnd (a / b)).
Proof.
  intros (bx & <- & Fx & <-) (by_ & <- & Fy & <-) Hb H.
  pose proof (Bdiv_correct 24 128 _ _ mode_NE bx by_ Hb) as HC.
  rewrite (Rlt_bool_true _ _ H) in HC. destruct HC as (H1 & H2 & _). rewrite Fx in H2.
  exists (Bdiv mode_NE bx by_). split; [symmetry; exact (div_equiv32 bx by_)|]. auto.
Qed.

Lemma fin32_unique x y r : fin32 x r -> fin32 y r -> r <> 0%R -> x = y.
Proof.
  intros (bx & <- & Fx & Rx) (by_ & <- & Fy & Ry) Hr. f_equal.
  assert (S : forall b : bf, is_finite b = true -> B2R b <> 0%R -> is_finite_strict b = true).
  { intros [s|s| |s m e Hb] Hf Hz; simpl in *; auto. }
  apply B2R_inj; try (apply S; auto; congruence). congruence.
Qed.
Lemma fin32_lt x y a b : fin32 x a -> fin32 y b -> @fltb N x y = Rlt_bool a b.
Proof.
  intros (bx & <- & Fx & <-) (by_ & <- & Fy & <-). change (SFltb (B2SF bx) (B2SF by_) = Rlt_bool (B2R bx) (B2R by_)).
  exact (Bltb_correct 24 128 bx by_ Fx Fy).
Qed.
Lemma fin32_le x y a b : fin32 x a -> fin32 y b -> @fleb N x y = Rle_bool a b.
Proof.
  intros (bx & <- & Fx & <-) (by_ & <- & Fy & <-). change (SFleb (B2SF bx) (B2SF by_) = Rle_bool (B2R bx) (B2R by_)).
  exact (Bleb_correct 24 128 bx by_ Fx Fy).
Qed.
Lemma fin32_format x r : fin32 x r -> generic_format radix2 (SpecFloat.fexp 24 128) r.
Proof. intros (b & _ & _ & <-). apply generic_format_B2R. Qed.
Lemma fin32_bound x r : fin32 x r -> (Rabs r < bpow radix2 128)%R.
Proof. intros (b & _ & _ & <-). apply abs_B2R_lt_emax. Qed.

(* integers up to 2^24 are exact *)
Lemma int_format z : (Z.abs z <= 2 ^ 24)%Z -> generic_format radix2 (SpecFloat.fexp 24 128) (IZR z).
Proof.
  intros Hz. apply generic_format_FLT. change (SpecFloat.emin 24 128) with (-149)%Z.
  destruct (Z.eq_dec (Z.abs z) (2 ^ 24)) as [E|E].
  - destruct (Z.abs_eq_or_opp z) as [E'|E'].
    + exists (Float radix2 1 24); simpl; try lia. unfold F2R; simpl. rewrite E' in E. subst z. simpl. lra.
    + exists (Float radix2 (-1) 24); simpl; try lia. unfold F2R; simpl.
      assert (z = - 2 ^ 24)%Z as -> by lia. simpl. lra.
  - exists (Float radix2 z 0); simpl; try lia. unfold F2R; simpl. lra.
Qed.
Lemma rnd_int z : (Z.abs z <= 2 ^ 24)%Z -> rnd (IZR z) = IZR z.
Proof. intros H. apply round_generic; [apply valid_rnd_round_mode|]. now apply int_format. Qed.
Lemma int_lt_emax z : (Z.abs z <= 2 ^ 24)%Z -> (Rabs (IZR z) < bpow radix2 128)%R.
Proof.
  intros H. rewrite <- abs_IZR. apply Rle_lt_trans with (IZR (2 ^ 24)); [now apply IZR_le|].
  change (bpow radix2 128) with (IZR (2 ^ 128)). apply IZR_lt. reflexivity.
Qed.
Lemma fin32_of_Z z : (Z.abs z <= 2 ^ 24)%Z -> fin32 (f32_of_Z z) (IZR z).
Proof.
  intros Hz. destruct (Z.eq_dec z 0) as [->|H0].
  - exists (B754_zero false). repeat split.
  - replace (f32_of_Z z) with (SpecFloat.binary_normalize 24 128 z 0 (Z.ltb z 0)) by (now destruct z).
    rewrite binary_normalize_equiv32.
    pose proof (binary_normalize_correct 24 128 _ _ mode_NE z 0 (Z.ltb z 0)) as H. cbv zeta in H.
    replace (F2R (Float radix2 z 0)) with (IZR z) in H by (unfold F2R; simpl; lra).
    rewrite (rnd_int z Hz) in H. rewrite Rlt_bool_true in H by now apply int_lt_emax.
    destruct H as (H1 & H2 & _). eexists. split; [reflexivity|]. auto.
Qed.
Lemma fin32_fofZ z : (Z.abs z <= 2 ^ 24)%Z -> fin32 (@fofZ N z) (IZR z).
Proof.
  intros Hz. replace (IZR z) with (rnd (IZR z / IZR 1)).
  - apply fin32_div.
    + now apply fin32_of_Z.
    + apply (fin32_of_Z 1). lia.
    + lra.
    + unfold Rdiv. rewrite Rinv_1, Rmult_1_r, rnd_int by auto. now apply int_lt_emax.
  - unfold Rdiv. rewrite Rinv_1, Rmult_1_r. now apply rnd_int.
Qed.
Lemma fofZ_of_Z z : (Z.abs z <= 2 ^ 24)%Z -> @fofZ N z = f32_of_Z z.
Proof.
  intros Hz. destruct (Z.eq_dec z 0) as [->|H0]; [reflexivity|].
  apply fin32_unique with (r := IZR z); [now apply fin32_fofZ|now apply fin32_of_Z|].
  now apply not_0_IZR.
Qed.
(* rounding keeps inequalities against representable numbers *)
Lemma rnd_le_fmt a b : generic_format radix2 (SpecFloat.fexp 24 128) b -> (a <= b)%R -> (rnd a <= b)%R.
Proof.
  intros Fb H. rewrite <- (round_generic radix2 (SpecFloat.fexp 24 128) (round_mode mode_NE) b Fb).
  apply round_le; [apply fexp_correct; reflexivity|apply valid_rnd_round_mode|exact H].
Qed.
Lemma rnd_ge_fmt a b : generic_format radix2 (SpecFloat.fexp 24 128) b -> (b <= a)%R -> (b <= rnd a)%R.
Proof.
  intros Fb H. rewrite <- (round_generic radix2 (SpecFloat.fexp 24 128) (round_mode mode_NE) b Fb).
  apply round_le; [apply fexp_correct; reflexivity|apply valid_rnd_round_mode|exact H].
Qed.
Lemma rnd_mono a b : (a <= b)%R -> (rnd a <= rnd b)%R.
Proof. intros H. apply round_le; [apply fexp_correct; reflexivity|apply valid_rnd_round_mode|exact H]. Qed.
End B.
