(* Property theorems about activation functions: C35, C36. *)
From Coq Require Import Reals Lra SpecFloat.
From Coquelicot Require Import Coquelicot.
From Flocq Require Import Core.Core.
From Verif Require Import Base Num NumOrder ActModel ActProofs Float32.
Local Open Scope R_scope.

(* ===== C35 ===== *)
(* missing: GELU, see the refutation *)
Theorem C35_range_partial : forall (a : activation) (x : R), a <> a_GELU ->
  (forall m, @act_min RNum a = Some m -> m <= @act RNum a x) /\
  (forall m, @act_max RNum a = Some m -> @act RNum a x <= m).
Proof. exact act_range. Qed.
Print Assumptions C35_range_partial.
(* binary32, with any libm whose tanhf returns finite values in [-1,1] *)
Theorem C35_range_float_partial : forall expf tanhf,
  (forall y, exists t, fin32 (tanhf y) t /\ -1 <= t <= 1) ->
  forall x : f32,
  (exists r, fin32 (@act (Num32 expf tanhf) a_sigmoid x) r /\ 0 <= r <= 1) /\
  (exists r, fin32 (@act (Num32 expf tanhf) a_tanh x) r /\ -1 <= r <= 1).
Proof.
  intros expf tanhf Hlib x. split; [|apply Hlib]. set (NN := Num32 expf tanhf).
  destruct (Hlib (@fdiv NN x (@fofZ NN 2))) as (t & Ht & Hb).
  assert (Hsmall : forall v, 0 <= v <= 2 -> Rabs v < bpow radix2 128).
  { intros v Hv. rewrite Rabs_pos_eq by lra. apply Rle_lt_trans with 2; [lra|].
    change (bpow radix2 128) with (IZR (2 ^ 128)). apply IZR_lt. reflexivity. }
  set (r1 := Generic_fmt.round radix2 (SpecFloat.fexp 24 128) (BinarySingleNaN.round_mode BinarySingleNaN.mode_NE) (t + IZR 1)).
  assert (B1 : 0 <= r1 <= 2).
  { split; [apply rnd_ge_fmt; [apply (int_format 0); lia|lra]|apply rnd_le_fmt; [apply (int_format 2); lia|lra]]. }
  assert (F1 : fin32 (@fadd NN (@ftanh NN (@fdiv NN x (@fofZ NN 2))) (@fone NN)) r1).
  { apply fin32_add; [exact Ht|apply fin32_fofZ; lia|apply Hsmall, B1]. }
  set (r2 := Generic_fmt.round radix2 (SpecFloat.fexp 24 128) (BinarySingleNaN.round_mode BinarySingleNaN.mode_NE) (r1 / IZR 2)).
  assert (B2 : 0 <= r2 <= 1).
  { split; [apply rnd_ge_fmt; [apply (int_format 0); lia|lra]|apply rnd_le_fmt; [apply (int_format 1); lia|lra]]. }
  exists r2. split; [|exact B2]. apply fin32_div; [exact F1|apply fin32_fofZ; lia|lra|]. apply Hsmall. fold r2. lra.
Qed.
Print Assumptions C35_range_float_partial.
Example C35_hypotheses_met : forall y : f32, exists t, fin32 ((fun _ => @fofZ N32 0) y) t /\ -1 <= t <= 1.
Proof. intros y. exists 0. split; [apply (fin32_fofZ (fun x => x) (fun x => x) 0); lia|lra]. Qed.
(* GELU declares the minimum 0 and is below it on all negative numbers *)
Theorem C35_gelu_refuted : @act_min RNum a_GELU = Some (@fzero RNum) /\ @fzero RNum = 0 /\
  forall x, x < 0 -> @act RNum a_GELU x < 0.
Proof.
  split; [reflexivity|]. split; [apply RNum_lit|]. intros x Hx. runfold.
  pose proof (tanh_bound (IZR 1702 / IZR 1000 * x / 2)). nra.
Qed.
Print Assumptions C35_gelu_refuted.

(* ===== C36 ===== *)
(* missing: iSigmoid *)
Theorem C36_derivative_partial : forall (a : activation) (x : R),
  a <> a_iSigmoid -> (a = a_ReLU -> x <> 0) -> derivable_pt_lim (@act RNum a) x (@actd RNum a x).
Proof. intros a x H1 H2. apply is_derive_Reals. now apply act_derive. Qed.
Print Assumptions C36_derivative_partial.
Example C36_hypotheses_met : derivable_pt_lim (@act RNum a_ReLU) 2 1.
Proof.
  replace 1 with (@actd RNum a_ReLU 2); [apply C36_derivative_partial; [discriminate|lra]|].
  unfold actd, fgtb. replace (@fltb RNum fzero 2) with true; [apply RNum_lit|].
  symmetry. apply RNum_ltb. unfold fzero. rewrite RNum_lit. lra.
Qed.
(* iSigmoid's derivative misses the linear term everywhere; in binary32 it is NaN as soon as exp overflows *)
Theorem C36_iSigmoid_refuted :
  (forall x : R, derivable_pt_lim (@act RNum a_iSigmoid) x (@actd RNum a_iSigmoid x + 5 / 100)) /\
  (forall x : R, ~ derivable_pt_lim (@act RNum a_iSigmoid) x (@actd RNum a_iSigmoid x)) /\
  (forall expf tanhf (x : f32), expf x = S754_infinity false -> @actd (Num32 expf tanhf) a_iSigmoid x = S754_nan).
Proof.
  assert (H : forall x : R, derivable_pt_lim (@act RNum a_iSigmoid) x (@actd RNum a_iSigmoid x + 5 / 100)).
  { intros x. apply is_derive_Reals, iSigmoid_derive. }
  split; [exact H|]. split.
  - intros x Hx. pose proof (uniqueness_limite _ _ _ _ (H x) Hx) as E. cbn in *. lra.
  - intros expf tanhf x Hx. unfold actd. cbn [fexp Num32]. rewrite Hx. vm_compute. reflexivity.
Qed.
Print Assumptions C36_iSigmoid_refuted.
