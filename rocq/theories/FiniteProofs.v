(* Proofs for C70. *)
From Coq Require Import Reals Lra Lia Floats.SpecFloat.
From Flocq Require Import Core.Core IEEE754.BinarySingleNaN.
From Verif Require Import Base Num NumOrder ActModel NeuronModel LayerModel NetModel Float32 StatModel F1Spec F1Float SoftSpec SoftProps FiniteSpec.
Local Open Scope R_scope.

#[local] Existing Instance Float32.Hprec32.
#[local] Existing Instance Float32.Hmax32.
(* ---------- bounds that floats represent ---------- *)
Lemma fmt_bpow e : (-149 <= e)%Z -> fmt (two_to e).
Proof. intros H. replace (two_to e) with (F2R (Float radix2 1 e)) by (unfold F2R; cbn [Fnum Fexp]; ring). apply fmt_float; lia. Qed.
Lemma fmt_times n e : (0 <= n < 2 ^ 24)%Z -> (-149 <= e)%Z -> fmt (IZR n * two_to e).
Proof. intros Hn He. change (IZR n * two_to e) with (F2R (Float radix2 n e)). apply fmt_float; lia. Qed.
Lemma rnd_bound v b : fmt b -> Rabs v <= b -> Rabs (rnd v) <= b.
Proof.
  intros Fb H. apply Rabs_le. assert (A := Rle_abs v). assert (B := Rle_abs (- v)). rewrite Rabs_Ropp in B. split; [apply rnd_ge_fmt; [now apply generic_format_opp|lra]|apply rnd_le_fmt; [exact Fb|lra]].
Qed.
Lemma within_le a b x : within a x -> a <= b -> within b x.
Proof. intros (r & H & L) B. exists r. split; [exact H|lra]. Qed.

Section B.
Variables expf tanhf : f32 -> f32.
Let N := Num32 expf tanhf.
Lemma within_int z : (Z.abs z <= 2 ^ 24)%Z -> within (IZR (Z.abs z)) (@fofZ N z).
Proof. intros H. exists (IZR z). split; [now apply fin32_fofZ|]. rewrite abs_IZR. lra. Qed.
Lemma within_zero b : 0 <= b -> within b (@fzero N).
Proof. intros H. exists 0. split; [apply (fin32_fofZ expf tanhf 0); lia|]. rewrite Rabs_R0. exact H. Qed.
Lemma within_mul x y a b c : within a x -> within b y -> a * b <= c -> fmt c -> c < bpow radix2 128 -> within c (@fmul N x y).
Proof.
  intros (r & Hr & Lr) (s & Hs & Ls) H Fc Hc. assert (A : Rabs (rnd (r * s)) <= c). { apply rnd_bound; [exact Fc|]. rewrite Rabs_mult. apply Rle_trans with (a * b); [|exact H]. apply Rmult_le_compat; auto using Rabs_pos. }
  exists (rnd (r * s)). split; [|exact A]. apply fin32_mul; auto. lra.
Qed.
Lemma within_add x y a b c : within a x -> within b y -> a + b <= c -> fmt c -> c < bpow radix2 128 -> within c (@fadd N x y).
Proof.
  intros (r & Hr & Lr) (s & Hs & Ls) H Fc Hc. assert (A : Rabs (rnd (r + s)) <= c). { apply rnd_bound; [exact Fc|]. eapply Rle_trans; [apply Rabs_triang|]. lra. }
  exists (rnd (r + s)). split; [|exact A]. apply fin32_add; auto. lra.
Qed.
Lemma within_half x a : within a x -> fmt a -> a < bpow radix2 128 -> within a (@fdiv N x (@fofZ N 2)).
Proof.
  intros (r & Hr & Lr) Fa Ha. assert (P := Rabs_pos r). assert (A : Rabs (rnd (r / 2)) <= a). { apply rnd_bound; [exact Fa|]. unfold Rdiv. rewrite Rabs_mult, (Rabs_pos_eq (/ 2)) by lra. lra. }
  exists (rnd (r / 2)). split; [|exact A]. apply fin32_div; [exact Hr|apply (fin32_fofZ expf tanhf 2); lia|lra|lra].
Qed.
Lemma bpow_lt128 e : (e <= 127)%Z -> two_to e < bpow radix2 128.
Proof. intros H. apply bpow_lt. lia. Qed.
Lemma bpow_ge1 e : (0 <= e)%Z -> 1 <= two_to e.
Proof. intros H. change 1 with (bpow radix2 0). now apply bpow_le. Qed.
Lemma within_fmul x y a b : within (two_to a) x -> within (two_to b) y -> (-149 <= a + b <= 127)%Z -> within (two_to (a + b)) (@fmul N x y).
Proof. intros Hx Hy H. eapply within_mul; eauto; [rewrite bpow_plus; lra|apply fmt_bpow; lia|apply bpow_lt128; lia]. Qed.
Lemma within_one x : within 1 x <-> within (two_to 0) x.
Proof. reflexivity. Qed.

(* ---------- the activation functions ---------- *)
Hypothesis HM : good_math expf tanhf.
Lemma flit_005 : within (two_to (-1)) (@flit N 5 100).
Proof.
  assert (A : fin32 (@flit N 5 100) (rnd (5 / 100))).
  { change (@flit N 5 100) with (@fdiv N (f32_of_Z 5) (f32_of_Z 100)). apply fin32_div; [apply (fin32_of_Z 5); lia|apply (fin32_of_Z 100); lia|lra|].
    apply Rle_lt_trans with 1; [apply rnd_bound; [apply (int_format 1); lia|rewrite Rabs_pos_eq; lra]|]. change 1 with (bpow radix2 0). apply bpow_lt. lia. }
  exists (rnd (5 / 100)). split; [exact A|]. apply rnd_bound; [apply fmt_bpow; lia|]. change (two_to (-1)) with (/ 2). rewrite Rabs_pos_eq; lra.
Qed.
Lemma logistic x r : fin32 x r -> within 1 (@fdiv N (@fone N) (@fadd N (@fone N) (expf (@fopp N x)))).
Proof.
  intros Hx. assert (Ho : fin32 (@fopp N x) (- r)). { destruct Hx as (b & <- & Fb & <-). exists (Bopp b). split; [destruct b; reflexivity|]. rewrite is_finite_Bopp, B2R_Bopp. auto. }
  assert (H1 : fin32 (@fone N) 1) by (apply (fin32_fofZ expf tanhf 1); lia).
  destruct (math_exp _ _ HM _ _ Ho) as [E|(e & He & Pe)].
  - rewrite E. assert (A : @fadd N (@fone N) (S754_infinity false) = S754_infinity false). { destruct H1 as (b & <- & Fb & _). destruct b as [s|s| |s m e Hb]; try discriminate; reflexivity. }
    rewrite A. exists 0. split; [|rewrite Rabs_R0; lra]. destruct H1 as (b & <- & Fb & Eb). destruct b as [s|s| |s m e Hb]; try discriminate; [cbn in Eb; lra|]. exists (B754_zero (xorb s false)). repeat split.
  - assert (Q := Bplus_correct 24 128 _ _ mode_NE). destruct H1 as (b1 & E1 & F1 & V1). destruct He as (be & Ee & Fe & Ve). specialize (Q b1 be F1 Fe). rewrite V1, Ve in Q.
    assert (Ea : @fadd N (@fone N) (expf (@fopp N x)) = B2SF (Bplus mode_NE b1 be)). { rewrite <- E1, <- Ee. exact (add_equiv32 b1 be). }
    assert (G1 : 1 <= rnd (1 + e)) by (apply rnd_ge_fmt; [apply (int_format 1); lia|lra]).
    destruct (Rlt_bool (Rabs (rnd (1 + e))) (bpow radix2 128)) eqn:L.
    + destruct Q as (QV & QF & _). rewrite Ea. exists (rnd (1 / rnd (1 + e))). assert (B : 0 <= 1 / rnd (1 + e) <= 1).
      { split; [apply Rmult_le_pos; [lra|left; apply Rinv_0_lt_compat; lra]|]. apply Rmult_le_reg_r with (rnd (1 + e)); [lra|]. unfold Rdiv. rewrite Rmult_assoc, Rinv_l by lra. lra. }
      assert (B' : Rabs (rnd (1 / rnd (1 + e))) <= 1) by (apply rnd_bound; [apply (int_format 1); lia|rewrite Rabs_pos_eq; lra]).
      split; [|exact B']. apply (fin32_div expf tanhf); [exists b1; auto|exists (Bplus mode_NE b1 be); auto|lra|]. eapply Rle_lt_trans; [exact B'|]. change 1 with (bpow radix2 0). apply bpow_lt. lia.
    + destruct Q as (Q & QS). assert (Es : Bsign b1 = false). { destruct b1 as [s|s| |s m e1 Hb]; try discriminate; try (cbn in V1; lra). cbn [B2R] in V1. destruct s; [|reflexivity]. exfalso. assert (F2R (Float radix2 (Zneg m) e1) < 0) by (apply F2R_lt_0; reflexivity). cbn [cond_Zopp] in V1. change (Z.neg m) with (- Z.pos m)%Z in H. cbn in V1, H. lra. }
      assert (Ei : B2SF (Bplus mode_NE b1 be) = S754_infinity false) by (rewrite Q, Es; reflexivity). rewrite Ea, Ei.
      exists 0. split; [|rewrite Rabs_R0; lra]. rewrite <- E1. destruct b1 as [s|s| |s m e1 Hb]; try discriminate; try (cbn in V1; lra). exists (B754_zero (xorb s false)). repeat split.
Qed.
Lemma act_within (a : activation) x m : (1 <= m <= 125)%Z -> within (two_to m) x -> within (two_to (if bounded_act a then 0 else m)%Z) (@act N a x).
Proof.
  intros Hm Hx. assert (H1 : fin32 (@fone N) 1) by (apply (fin32_fofZ expf tanhf 1); lia). assert (W1 : within 1 (@fone N)) by (exists 1; split; [exact H1|rewrite Rabs_pos_eq; lra]).
  assert (T : forall y, within (two_to m) y -> within 1 (tanhf y)). { intros y (r & Hy & _). destruct (math_tanh _ _ HM _ _ Hy) as (t & Ht & B). exists t. split; [exact Ht|]. apply Rabs_le. lra. }
  destruct a; cbn [bounded_act act].
  - (* sigmoid *) assert (A : within (two_to m) (@fdiv N x (@fofZ N 2))) by (apply within_half; [exact Hx|apply fmt_bpow; lia|apply bpow_lt128; lia]).
    destruct A as (q & Hq & _). destruct (math_tanh _ _ HM _ _ Hq) as (t & Ht & Bt).
    assert (S1 : fin32 (@fadd N (tanhf (@fdiv N x (@fofZ N 2))) (@fone N)) (rnd (t + 1)) /\ 0 <= rnd (t + 1) <= 2).
    { assert (Bd : 0 <= rnd (t + 1) <= 2) by (split; [apply rnd_ge_fmt; [apply fmt_0|lra]|apply rnd_le_fmt; [apply (int_format 2); lia|lra]]). split; [|exact Bd].
      apply fin32_add; auto. rewrite Rabs_pos_eq by lra. apply Rle_lt_trans with 2; [lra|]. change 2 with (bpow radix2 1). apply bpow_lt. lia. }
    destruct S1 as (S1 & S2). assert (B2 : Rabs (rnd (rnd (t + 1) / 2)) <= 1) by (apply rnd_bound; [apply (int_format 1); lia|rewrite Rabs_pos_eq; lra]).
    exists (rnd (rnd (t + 1) / 2)). split; [|exact B2]. apply fin32_div; [exact S1|apply (fin32_fofZ expf tanhf 2); lia|lra|]. eapply Rle_lt_trans; [exact B2|]. change 1 with (bpow radix2 0). apply bpow_lt. lia.
  - (* iSigmoid *) destruct Hx as (r & Hr & Lr). assert (A := logistic x r Hr).
    assert (M : within (two_to (m - 1)) (@fmul N x (@flit N 5 100))). { replace (m - 1)%Z with (m + (-1))%Z by lia. apply within_fmul; [exists r; auto|exact flit_005|lia]. }
    eapply within_add; [exact A|exact M| |apply fmt_bpow; lia|apply bpow_lt128; lia]. assert (1 <= two_to (m - 1)) by (apply bpow_ge1; lia). replace m with (m - 1 + 1)%Z at 2 by lia. rewrite bpow_plus. change (two_to 1) with 2. lra.
  - apply T. exact Hx.
  - (* ReLU *) destruct (@fgtb N x (@fzero N)); [exact Hx|apply within_zero, bpow_ge_0].
  - (* GELU *) assert (G : exists t, fin32 (@gelu_t N x) t /\ -1 <= t <= 1).
    { unfold gelu_t. assert (L : within 2 (@flit N 1702 1000)).
      { assert (Bq : Rabs (rnd (1702 / 1000)) <= 2) by (apply rnd_bound; [apply (int_format 2); lia|rewrite Rabs_pos_eq; lra]). exists (rnd (1702 / 1000)). split; [|exact Bq].
        change (@flit N 1702 1000) with (@fdiv N (f32_of_Z 1702) (f32_of_Z 1000)). apply fin32_div; [apply (fin32_of_Z 1702); lia|apply (fin32_of_Z 1000); lia|lra|]. eapply Rle_lt_trans; [exact Bq|]. change 2 with (bpow radix2 1). apply bpow_lt. lia. }
      assert (P : within (two_to (1 + m)) (@fmul N (@flit N 1702 1000) x)) by (apply within_fmul; [exact L|exact Hx|lia]).
      destruct (within_half _ _ P) as (q & Hq & _); [apply fmt_bpow; lia|apply bpow_lt128; lia|]. destruct (math_tanh _ _ HM _ _ Hq) as (t & Ht & Bt). eauto. }
    destruct G as (t & Ht & Bt).
    assert (S1 : within 2 (@fadd N (@gelu_t N x) (@fone N))).
    { apply (within_add _ _ 1 1 2); [exists t; split; [exact Ht|apply Rabs_le; lra]|exact W1|lra|apply (int_format 2); lia|change 2 with (bpow radix2 1); apply bpow_lt; lia]. }
    assert (P : within (two_to (m + 1)) (@fmul N x (@fadd N (@gelu_t N x) (@fone N)))) by (apply within_fmul; [exact Hx|exact S1|lia]).
    destruct P as (p & Hp & Lp). assert (B : Rabs (rnd (p / 2)) <= two_to m).
    { apply rnd_bound; [apply fmt_bpow; lia|]. unfold Rdiv. rewrite Rabs_mult, (Rabs_pos_eq (/ 2)) by lra. rewrite bpow_plus in Lp. change (two_to 1) with 2 in Lp. lra. }
    exists (rnd (p / 2)). split; [|exact B]. apply fin32_div; [exact Hp|apply (fin32_fofZ expf tanhf 2); lia|lra|]. eapply Rle_lt_trans; [exact B|]. apply bpow_lt. lia.
  - (* gaussian *) destruct Hx as (r & Hr & Lr). destruct Hr as (b & <- & Fb & <-). assert (E : @fsqr N (B2SF b) = B2SF (Bmult mode_NE b b)) by exact (mul_equiv32 b b). rewrite E.
    assert (Q := Bmult_correct 24 128 _ _ mode_NE b b). destruct (Rlt_bool _ _) in Q.
    + destruct Q as (V & F & _). rewrite Fb in F. assert (P : fin32 (@fopp N (B2SF (Bmult mode_NE b b))) (- rnd (B2R b * B2R b))).
      { exists (Bopp (Bmult mode_NE b b)). split; [destruct (Bmult mode_NE b b); reflexivity|]. rewrite is_finite_Bopp, B2R_Bopp. split; [exact F|]. now rewrite V. }
      assert (Z0 : 0 <= rnd (B2R b * B2R b)) by (apply rnd_ge_fmt; [apply fmt_0|apply Rle_0_sqr]). destruct (exp_range _ (math_sound _ _ HM) _ _ P ltac:(lra)) as (e & He & Be). exists e. split; [exact He|]. apply Rabs_le. change (two_to 0) with 1. lra.
    + assert (Ei : B2SF (Bmult mode_NE b b) = S754_infinity false). { rewrite Q. now rewrite Bool.xorb_nilpotent. } rewrite Ei. change (@fopp N (S754_infinity false)) with (S754_infinity true).
      destruct (math_inf _ _ HM) as (e & He & Be). exists e. split; [exact He|]. apply Rabs_le. change (two_to 0) with 1. lra.
  - exact Hx.
Qed.
End B.
