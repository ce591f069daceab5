(* binary32 as Flocq's type of floating-point numbers, in which every value is a number of the format (not so in [f32] of Num.v). *)
From Coq Require Import Reals ZArith Lia Lra.
From Flocq Require Import Core.Core IEEE754.BinarySingleNaN.
From Coq Require Import SpecFloat.
From Verif Require Import Base Num Float32.
Local Instance Hprec : Prec_gt_0 24 := eq_refl.
Local Instance Hmax : Prec_lt_emax 24 128 := eq_refl.
(* a number of [f32] that is one of the format *)
Definition bf_of (x : f32) : bf := (if SpecFloat.valid_binary 24 128 x as b return SpecFloat.valid_binary 24 128 x = b -> bf then fun H => SF2B x H else fun _ => B754_nan) eq_refl.
Definition NumB (expf tanhf : f32 -> f32) : Num := {|
  F := bf; fadd := Bplus mode_NE; fsub := Bminus mode_NE; fmul := Bmult mode_NE; fdiv := Bdiv mode_NE;
  fltb := Bltb; fleb := Bleb; feqb := Beqb;
  flit := fun n d => Bdiv mode_NE (bf_of (f32_of_Z n)) (bf_of (f32_of_Z (Zpos d)));
  fabs := Babs; fopp := Bopp; fsqrt := Bsqrt mode_NE; fexp := fun x => bf_of (expf (B2SF x)); ftanh := fun x => bf_of (tanhf (B2SF x));
  fnormal := fun x => f32_normal (B2SF x) |}.
Lemma one_value expf tanhf : B2SF (@fone (NumB expf tanhf)) = B2SF (Bone : bf).
Proof. vm_compute. reflexivity. Qed.
Lemma one_is expf tanhf : @fone (NumB expf tanhf) = (Bone : bf).
Proof. apply B2SF_inj, one_value. Qed.
Lemma mult_one expf tanhf (x : bf) : @fmul (NumB expf tanhf) x (@fone (NumB expf tanhf)) = x.
Proof.
  rewrite one_is. change (Bmult mode_NE x Bone = x). destruct x as [s|s| |s m e Hb].
  - destruct s; vm_compute; apply B2SF_inj; reflexivity.
  - destruct s; reflexivity.
  - reflexivity.
  - set (x := B754_finite s m e Hb). pose proof (Bmult_correct 24 128 _ _ mode_NE x Bone) as C. rewrite Bone_correct, Rmult_1_r in C.
    rewrite round_generic in C; [|apply valid_rnd_round_mode|apply generic_format_B2R]. rewrite Rlt_bool_true in C by apply abs_B2R_lt_emax. destruct C as (V & Fi & Sg).
    apply B2R_Bsign_inj; [now rewrite Fi|reflexivity|exact V|]. rewrite Sg; [|destruct (Bmult mode_NE x Bone); try reflexivity; discriminate Fi]. destruct s; reflexivity.
Qed.
Lemma minus_zero expf tanhf : @fsub (NumB expf tanhf) (@fone (NumB expf tanhf)) (@fzero (NumB expf tanhf)) = @fone (NumB expf tanhf).
Proof. apply B2SF_inj. vm_compute. reflexivity. Qed.
