(* Real analysis of the activation functions. *)
From Coq Require Import Reals Lra.
From Coquelicot Require Import Coquelicot.
From Verif Require Import Base Num NumOrder ActModel.
Local Open Scope R_scope.

Lemma tanh_exp x : tanh x = 1 - 2 / (exp (2 * x) + 1).
Proof.
  unfold tanh, sinh, cosh. replace (2 * x) with (x + x) by lra. rewrite exp_plus, exp_Ropp.
  assert (0 < exp x) by apply exp_pos. field. split; nra.
Qed.
Lemma tanh_bound x : -1 < tanh x < 1.
Proof.
  rewrite tanh_exp. assert (0 < exp (2 * x)) by apply exp_pos.
  assert (0 < 2 / (exp (2 * x) + 1) < 2); [|lra]. split.
  - apply Rdiv_lt_0_compat; lra.
  - apply Rmult_lt_reg_r with (exp (2 * x) + 1); [lra|]. unfold Rdiv. rewrite Rmult_assoc, Rinv_l by lra. lra.
Qed.
Lemma tanh_derive (x : R) : is_derive tanh x (1 - tanh x * tanh x).
Proof.
  apply is_derive_ext with (f := fun x => 1 - 2 / (exp (2 * x) + 1)); [intros; symmetry; apply tanh_exp|].
  rewrite tanh_exp. assert (0 < exp (2 * x)) by apply exp_pos.
  auto_derive; [lra|]. field. lra.
Qed.

Lemma RNum_fofZ z : @fofZ RNum z = IZR z.
Proof. apply RNum_lit. Qed.
Lemma flit_R n d : @flit RNum n d = IZR n / IZR (Zpos d).
Proof. reflexivity. Qed.
Ltac runfold := unfold act, actd, gelu_t, fsqr, fone, fzero, fgtb; rewrite ?RNum_fofZ, ?flit_R;
  cbn [F fadd fsub fmul fdiv fopp fexp ftanh fltb RNum].

Lemma gelu_inner x : is_derive (fun x => IZR 1702 / IZR 1000 * x / 2) x (IZR 1702 / IZR 1000 / 2).
Proof. auto_derive; auto. lra. Qed.

Lemma act_derive a (x : R) : a <> a_iSigmoid -> (a = a_ReLU -> x <> 0) ->
  is_derive (fun x => @act RNum a x) x (@actd RNum a x).
Proof.
  intros Ha Hx. destruct a; try congruence.
  - apply is_derive_ext with (f := fun x => (tanh (x / 2) + 1) / 2); [intros; runfold; reflexivity|].
    runfold. auto_derive; [eexists; apply tanh_derive|]. rewrite (is_derive_unique _ _ _ (tanh_derive _)). lra.
  - apply is_derive_ext with (f := tanh); [intros; runfold; reflexivity|]. runfold. apply tanh_derive.
  - specialize (Hx eq_refl). destruct (Rlt_or_le 0 x) as [Hp|Hn].
    + replace (@actd RNum a_ReLU x) with 1.
      * apply is_derive_ext_loc with (f := fun y => y); [|auto_derive; auto].
        exists (mkposreal x Hp). intros y Hy. unfold act, fgtb.
        replace (@fltb RNum fzero y) with true; [reflexivity|].
        symmetry. apply RNum_ltb. unfold fzero. rewrite RNum_fofZ. apply Rabs_def2 in Hy. cbn in Hy. unfold minus, plus, opp in Hy; cbn in Hy. lra.
      * unfold actd, fgtb. replace (@fltb RNum fzero x) with true; [symmetry; apply RNum_fofZ|].
        symmetry. apply RNum_ltb. unfold fzero. rewrite RNum_fofZ. exact Hp.
    + assert (Hlt : x < 0) by lra. replace (@actd RNum a_ReLU x) with 0.
      * apply is_derive_ext_loc with (f := fun y => 0); [|auto_derive; auto].
        exists (mkposreal (- x) ltac:(lra)). intros y Hy. unfold act, fgtb.
        replace (@fltb RNum fzero y) with false; [symmetry; apply RNum_fofZ|].
        symmetry. apply RNum_ltb_false. unfold fzero. rewrite RNum_fofZ. apply Rabs_def2 in Hy. cbn in Hy. unfold minus, plus, opp in Hy; cbn in Hy. lra.
      * unfold actd, fgtb. replace (@fltb RNum fzero x) with false; [symmetry; apply RNum_fofZ|].
        symmetry. apply RNum_ltb_false. unfold fzero. rewrite RNum_fofZ. exact Hn.
  - apply is_derive_ext with (f := fun x => x * (tanh (IZR 1702 / IZR 1000 * x / 2) + 1) / 2); [intros; runfold; reflexivity|].
    runfold. auto_derive; [eexists; apply tanh_derive|]. rewrite (is_derive_unique _ _ _ (tanh_derive _)). lra.
  - apply is_derive_ext with (f := fun x => exp (- (x * x))); [intros; runfold; reflexivity|]. runfold.
    auto_derive; auto. lra.
  - apply is_derive_ext with (f := fun x => x); [intros; runfold; reflexivity|]. runfold. auto_derive; auto.
Qed.

Lemma iSigmoid_derive (x : R) : is_derive (fun x => @act RNum a_iSigmoid x) x (@actd RNum a_iSigmoid x + 5 / 100).
Proof.
  apply is_derive_ext with (f := fun x => 1 / (1 + exp (- x)) + x * (IZR 5 / IZR 100)); [intros; runfold; reflexivity|].
  runfold. assert (0 < exp x) by apply exp_pos. assert (0 < exp (- x)) by apply exp_pos.
  auto_derive; [lra|]. rewrite exp_Ropp. field. split; nra.
Qed.

Lemma act_range a (x : R) : a <> a_GELU ->
  (forall m, @act_min RNum a = Some m -> m <= @act RNum a x) /\ (forall m, @act_max RNum a = Some m -> @act RNum a x <= m).
Proof.
  intros Ha. destruct a; try congruence; unfold act_min, act_max; runfold;
    (split; intros m Hm; try discriminate; injection Hm as <-).
  1, 2: pose proof (tanh_bound (x / 2)); lra.
  1, 2: pose proof (tanh_bound x); lra.
  - destruct (Rltb 0 x) eqn:E; [|lra]. apply RNum_ltb in E. cbn in E. lra.
  - apply Rlt_le, exp_pos.
  - rewrite <- exp_0. destruct (Rle_lt_or_eq_dec 0 (x * x)) as [H|H]; [nra| |].
    + apply Rlt_le, exp_increasing. lra.
    + rewrite <- H, Ropp_0. lra.
Qed.
