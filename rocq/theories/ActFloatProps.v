(* C35 in binary32: every activation function but GELU stays inside its declared range, for every float that is not NaN, infinities included. *)
From Coq Require Import Reals Lra Lia SpecFloat.
From Flocq Require Import Core.Core IEEE754.BinarySingleNaN.
From Verif Require Import Base Num NumOrder ActModel Float32 F1Float.
Local Open Scope R_scope.
#[local] Existing Instance Float32.Hprec32. #[local] Existing Instance Float32.Hmax32.

(* a float that is not NaN: finite or infinite *)
Definition number (x : f32) : Prop := exists b : binary_float 24 128, B2SF b = x /\ is_nan b = false.
(* what is asked of the library: tanhf is between -1 and 1; expf of what is at most 0 is between 0 and 1 *)
Definition bounded_tanh (tanhf : f32 -> f32) : Prop := forall y, number y -> exists t, fin32 (tanhf y) t /\ -1 <= t <= 1.
Definition bounded_exp (expf : f32 -> f32) : Prop := forall y, y = S754_infinity true \/ (exists r, fin32 y r /\ r <= 0) -> exists e, fin32 (expf y) e /\ 0 <= e <= 1.

Section A.
Variables expf tanhf : f32 -> f32.
Let N := Num32 expf tanhf.
Lemma half_number x : number x -> number (@fdiv N x (@fofZ N 2)).
Proof.
  intros (b & <- & Hb). destruct (fin32_fofZ expf tanhf 2 ltac:(lia)) as (t & Et & Ft & Rt). exists (Bdiv mode_NE b t). split.
  - change (@fdiv N (B2SF b) (@fofZ N 2)) with (SFdiv 24 128 (B2SF b) (@fofZ N 2)). unfold N. rewrite <- Et. symmetry. apply div_equiv32.
  - destruct b as [s|s| |s m e Hbb]; try discriminate; destruct t as [s'|s'| |s' m' e' Hb']; try discriminate; try (cbn in Rt; lra); try reflexivity.
    assert (Q := Bdiv_correct 24 128 _ _ mode_NE (B754_finite s m e Hbb) (B754_finite s' m' e' Hb')). rewrite Rt in Q. specialize (Q ltac:(lra)). destruct (Rlt_bool _ _) in Q.
    + destruct Q as (_ & F & _). destruct (Bdiv _ _ _); try reflexivity; discriminate F.
    + destruct (Bdiv _ _ _); try reflexivity; discriminate Q.
Qed.
Lemma neg_square x : number x -> @fopp N (@fsqr N x) = S754_infinity true \/ exists r, fin32 (@fopp N (@fsqr N x)) r /\ r <= 0.
Proof.
  intros (b & <- & Hb). assert (E : @fsqr N (B2SF b) = B2SF (Bmult mode_NE b b)) by (change (@fsqr N (B2SF b)) with (SFmul 24 128 (B2SF b) (B2SF b)); apply mul_equiv32). rewrite E.
  destruct b as [s|s| |s m e Hbb]; try discriminate.
  - right. exists 0. split; [|lra]. exists (B754_zero (negb (xorb s s))). repeat split.
  - left. destruct s; reflexivity.
  - assert (Q := Bmult_correct 24 128 _ _ mode_NE (B754_finite s m e Hbb) (B754_finite s m e Hbb)). destruct (Rlt_bool _ _) in Q.
    + destruct Q as (V & F & _). right. exists (- B2R (Bmult mode_NE (B754_finite s m e Hbb) (B754_finite s m e Hbb))). split.
      * exists (Bopp (Bmult mode_NE (B754_finite s m e Hbb) (B754_finite s m e Hbb))). split; [|split]; [|rewrite is_finite_Bopp; exact F|apply B2R_Bopp]. destruct (Bmult mode_NE _ _); reflexivity.
      * rewrite V. assert (0 <= rnd (B2R (B754_finite s m e Hbb) * B2R (B754_finite s m e Hbb))); [|lra]. apply rnd_ge_fmt; [apply fmt_0|]. apply Rle_0_sqr.
    + left. rewrite Bool.xorb_nilpotent in Q. destruct (Bmult mode_NE _ _); try discriminate Q. cbn in Q. injection Q as ->. reflexivity.
Qed.
Lemma le32 x y a b : fin32 x a -> fin32 y b -> a <= b -> @fleb N x y = true.
Proof. intros Hx Hy H. assert (L : @fleb N x y = Rle_bool a b) by exact (fin32_le expf tanhf _ _ _ _ Hx Hy). rewrite L. now apply Rle_bool_true. Qed.
Lemma int32 z : (Z.abs z <= 2 ^ 24)%Z -> fin32 (@fofZ N z) (IZR z).
Proof. apply fin32_fofZ. Qed.

Theorem C35_range_float : bounded_tanh tanhf -> bounded_exp expf -> forall (a : activation) (x : f32), number x -> a <> a_GELU ->
  (forall m, @act_min N a = Some m -> @fleb N m (@act N a x) = true) /\ (forall m, @act_max N a = Some m -> @fleb N (@act N a x) m = true).
Proof.
  intros HT HE a x Hx Ha.
  assert (R : forall y r, fin32 y r -> -1 <= r <= 1 -> @fleb N (@fofZ N (-1)) y = true /\ @fleb N y (@fone N) = true).
  { intros y r Hy Hr. split; [eapply le32; [apply (int32 (-1)); lia|exact Hy|lra]|eapply le32; [exact Hy|apply (int32 1); lia|lra]]. }
  assert (R' : forall y r, fin32 y r -> 0 <= r <= 1 -> @fleb N (@fzero N) y = true /\ @fleb N y (@fone N) = true).
  { intros y r Hy Hr. split; [eapply le32; [apply (int32 0); lia|exact Hy|lra]|eapply le32; [exact Hy|apply (int32 1); lia|lra]]. }
  destruct a; try congruence; cbn [act_min act_max]; (split; [intros m Hm|intros m Hm]); try discriminate; injection Hm as <-.
  all: try (destruct (HT _ (half_number x Hx)) as (t & Ht & Bt);
    assert (B1 : 0 <= rnd (t + IZR 1) <= 2) by (split; [apply rnd_ge_fmt; [apply (int_format 0); lia|lra]|apply rnd_le_fmt; [apply (int_format 2); lia|lra]]);
    assert (F1 : fin32 (@fadd N (@ftanh N (@fdiv N x (@fofZ N 2))) (@fone N)) (rnd (t + IZR 1))) by (apply fin32_add; [exact Ht|apply (int32 1); lia|apply (small _ 2); [lra|apply IZR_le; lia]]);
    assert (B2 : 0 <= rnd (rnd (t + IZR 1) / IZR 2) <= 1) by (split; [apply rnd_ge_fmt; [apply (int_format 0); lia|lra]|apply rnd_le_fmt; [apply (int_format 1); lia|lra]]);
    assert (F2 : fin32 (@act N a_sigmoid x) (rnd (rnd (t + IZR 1) / IZR 2))) by (apply fin32_div; [exact F1|apply (int32 2); lia|lra|apply (small _ 1); [lra|apply IZR_le; lia]]);
    apply (R' _ _ F2 B2)).
  all: try (destruct (HT x Hx) as (t & Ht & Bt); apply (R _ t Ht Bt)).
  all: try (destruct (HE _ (neg_square x Hx)) as (e & He & Be); apply (R' _ e He Be)).
  (* ReLU *)
  cbn [act]. unfold fgtb. destruct (@fltb N (@fzero N) x) eqn:E; [|reflexivity]. change (SFltb (@fzero N) x = true) in E. change (SFleb (@fzero N) x = true). unfold SFltb, SFleb in *. destruct (SFcompare (@fzero N) x) as [[]|]; congruence.
Qed.
End A.
Print Assumptions C35_range_float.
(* such a library: the constants 0 *)
Example C35_float_hypotheses_met : bounded_tanh (fun _ => f32_of_Z 0) /\ bounded_exp (fun _ => f32_of_Z 0) /\ number (S754_infinity true) /\ number (f32_of_Z 3).
Proof.
  assert (Z0 : fin32 (f32_of_Z 0) 0) by (apply (fin32_of_Z 0); lia). split; [intros y _; exists 0; split; [exact Z0|lra]|]. split; [intros y _; exists 0; split; [exact Z0|lra]|]. split; [exists (B754_infinity true); split; reflexivity|].
  destruct (fin32_of_Z 3 ltac:(lia)) as (b & E & F & _). exists b. split; [exact E|]. destruct b; try reflexivity; discriminate.
Qed.
