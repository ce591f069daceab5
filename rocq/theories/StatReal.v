(* Statistics over the reals and over binary32; histories of tests. *)
From Coq Require Import Reals Lra.
From Flocq Require Import Core.Core.
From Verif Require Import Base Num NumOrder StatModel StatSpec StatProofs Float32.
Local Open Scope outcome_scope.

Lemma R_fofnat n : @fofnat RNum n = INR n.
Proof. unfold fofnat. rewrite RNum_lit. symmetry. apply INR_IZR_INZ. Qed.
Lemma counts_R B : @counts_exactly_below RNum B.
Proof. intros k _. unfold fone. rewrite !R_fofnat, RNum_lit, S_INR. reflexivity. Qed.
Lemma counts_32 expf tanhf B : (Z.of_nat B <= 2 ^ 24)%Z -> @counts_exactly_below (Num32 expf tanhf) B.
Proof.
  intros HB k Hk. unfold fofnat, fone.
  assert (E : Flocq.Core.Generic_fmt.round radix2 (SpecFloat.fexp 24 128) (BinarySingleNaN.round_mode BinarySingleNaN.mode_NE) (IZR (Z.of_nat k) + IZR 1) = IZR (Z.of_nat (S k))).
  { rewrite <- plus_IZR. replace (Z.of_nat k + 1)%Z with (Z.of_nat (S k)) by lia. apply rnd_int. lia. }
  apply fin32_unique with (r := IZR (Z.of_nat (S k))).
  - rewrite <- E. apply fin32_add; try (apply fin32_fofZ; lia). rewrite E. apply int_lt_emax. lia.
  - apply fin32_fofZ. lia.
  - apply not_0_IZR. lia.
Qed.

Section G.
Context {N : Num}.
Lemma test_spec ok (OL : order_laws N ok) B (HB : counts_exactly_below B) n js s :
  length (st_clusters s) = n -> Forall (judged_ok ok n) js -> length js <= B ->
  exists s', count_test s js = Ok s' /\ counted n js s s' /\ test s js = Ok (stopTesting s').
Proof.
  intros H1 H2 H3. destruct (count_test_spec ok OL B HB n js s H1 H2 H3) as (s' & E & Hc).
  exists s'. split; [exact E|]. split; [exact Hc|]. unfold test. now rewrite E.
Qed.

(* ---- histories ---- *)
Lemma judge_keeps s j s' : judge s j = Ok s' ->
  st_rateMax s' = st_rateMax s /\ st_wrateMax s' = st_wrateMax s /\ st_f1Max s' = st_f1Max s /\
  st_maeMin s' = st_maeMin s /\ st_rmseMin s' = st_rmseMin s.
Proof.
  destruct j; cbn; unfold evaluateOnceForRegression, evaluateOnceForMultipleClassification, evaluateOnceForClassification;
    intros H; apply bind_Ok_inv in H as ((cl & w) & _ & H); injection H as <-;
    unfold countSample; destruct_with_eqn (snd (cl, w)); cbn;
    repeat match goal with |- context [if ?b then _ else _] => destruct b end; cbn; auto.
Qed.
Lemma count_keeps s js s' : count_test s js = Ok s' ->
  st_rateMax s' = st_rateMax s /\ st_wrateMax s' = st_wrateMax s /\ st_f1Max s' = st_f1Max s /\
  st_maeMin s' = st_maeMin s /\ st_rmseMin s' = st_rmseMin s.
Proof.
  unfold count_test. intros H.
  assert (G : forall js a s', ofold judge js a = Ok s' ->
     st_rateMax s' = st_rateMax a /\ st_wrateMax s' = st_wrateMax a /\ st_f1Max s' = st_f1Max a /\
     st_maeMin s' = st_maeMin a /\ st_rmseMin s' = st_rmseMin a).
  { clear. induction js as [|j js IH]; cbn; intros a s' H; [injection H as <-; auto|].
    apply bind_Ok_inv in H as (a' & E & H). apply judge_keeps in E as (? & ? & ? & ? & ?).
    destruct (IH a' s' H) as (? & ? & ? & ? & ?). intuition congruence. }
  apply G in H. cbn in H. exact H.
Qed.

Definition best_max (m : F) (rs : list F) : Prop :=
  (rs = [] -> m = fofZ (-1)) /\ (rs <> [] -> In m rs) /\ Forall (fun r => fltb m r = false) rs.
Definition best_min (m : F) (rs : list F) : Prop :=
  (rs = [] -> m = fofZ (-1)) /\ (rs <> [] -> In m rs) /\ Forall (fun r => fltb r m = false) rs.

Lemma best_max_step ok (OL : order_laws N ok) m rs r : ok r -> fltb (fofZ (-1)) r = true ->
  Forall ok rs -> best_max m rs -> best_max (if fgtb r m then r else m) (rs ++ [r]).
Proof.
  intros Hr Hp Hrs (H1 & H2 & H3). assert (Hm : ok m).
  { destruct rs as [|a rs']; [rewrite H1 by auto; apply (ol_lit _ _ OL); lia|].
    rewrite Forall_forall in Hrs. apply Hrs, H2. discriminate. }
  unfold best_max, fgtb. split; [intros E; apply app_eq_nil in E as [_ E]; discriminate|].
  destruct (fltb m r) eqn:E.
  - split; [intros _; apply in_or_app; right; now left|]. apply Forall_app. split.
    + rewrite Forall_forall in *. intros x Hx. specialize (H3 x Hx). specialize (Hrs x Hx).
      apply (lt_asym OL); auto. now apply (nlt_lt_trans OL x m r).
    + constructor; auto. now apply (ol_irrefl _ _ OL).
  - split.
    + intros _. apply in_or_app. destruct rs as [|a rs']; [|left; apply H2; discriminate].
      exfalso. rewrite (H1 eq_refl) in E. congruence.
    + apply Forall_app. split; auto.
Qed.
Lemma best_min_step ok (OL : order_laws N ok) m rs r : ok r -> fltb r fzero = false ->
  Forall ok rs -> Forall (fun r => fltb r fzero = false) rs -> best_min m rs ->
  best_min (if fltb r m || fltb m fzero then r else m) (rs ++ [r]).
Proof.
  intros Hr Hp Hrs Hnn (H1 & H2 & H3). assert (Hm : ok m).
  { destruct rs as [|a rs']; [rewrite H1 by auto; apply (ol_lit _ _ OL); lia|].
    rewrite Forall_forall in Hrs. apply Hrs, H2. discriminate. }
  unfold best_min. split; [intros E; apply app_eq_nil in E as [_ E]; discriminate|].
  destruct rs as [|a rs'].
  - rewrite (H1 eq_refl).
    assert (fltb (fofZ (-1)) fzero = true) as -> by (unfold fzero; rewrite (ol_lit_lt _ _ OL) by lia; reflexivity).
    rewrite orb_true_r. split; [intros _; now left|]. repeat constructor. now apply (ol_irrefl _ _ OL).
  - assert (Hin : In m (a :: rs')) by (apply H2; discriminate).
    assert (fltb m fzero = false) as -> by (rewrite Forall_forall in Hnn; now apply Hnn).
    rewrite orb_false_r. destruct (fltb r m) eqn:E.
    + split; [intros _; apply in_or_app; right; now left|]. apply Forall_app. split.
      * rewrite Forall_forall in *. intros x Hx. specialize (H3 x Hx). specialize (Hrs x Hx).
        apply (lt_asym OL); auto. now apply (lt_nlt_trans OL r m x).
      * constructor; auto. now apply (ol_irrefl _ _ OL).
    + split; [intros _; apply in_or_app; now left|]. apply Forall_app. auto.
Qed.

Lemma reports_app {A} (get : Stats -> A) es : forall s e s1, ofold happen es s = Ok s1 ->
  reports get s (es ++ [e]) = reports get s es ++ reports get s1 [e].
Proof.
  induction es as [|e0 es IH]; intros s e s1 H; [injection H as <-; reflexivity|].
  cbn [ofold] in H. apply bind_Ok_inv in H as (s2 & E & H). cbn [app reports]. rewrite E.
  rewrite (IH s2 e s1 H). cbn [reports]. destruct e0; reflexivity.
Qed.

Section H.
Variables (n : nat) (ok : F -> Prop) (OL : order_laws N ok).

Lemma history_snoc es e s : history n (es ++ [e]) = Ok s ->
  exists s1, history n es = Ok s1 /\ happen s1 e = Ok s.
Proof.
  unfold history. rewrite ofold_app. intros H. apply bind_Ok_inv in H as (s1 & E & H). exists s1. split; auto.
  cbn in H. apply bind_Ok_inv in H as (s2 & E2 & H). injection H as <-. exact E2.
Qed.
Lemma happen_best s e s' : happen s e = Ok s' ->
  match e with
  | Tested _ => st_rateMax s' = (if fgtb (st_rate s') (st_rateMax s) then st_rate s' else st_rateMax s) /\
      st_wrateMax s' = (if fgtb (st_wrate s') (st_wrateMax s) then st_wrate s' else st_wrateMax s) /\
      st_maeMin s' = (if fltb (st_mae s') (st_maeMin s) || fltb (st_maeMin s) fzero then st_mae s' else st_maeMin s) /\
      st_f1Max s' = st_f1Max s
  | Abandoned _ _ => st_rateMax s' = st_rateMax s /\ st_wrateMax s' = st_wrateMax s /\ st_maeMin s' = st_maeMin s /\
      st_f1Max s' = st_f1Max s
  end.
Proof.
  destruct e as [js|js nan]; cbn [happen]; unfold test; intros H; apply bind_Ok_inv in H as (s1 & E & H);
    injection H as <-; apply count_keeps in E as (H1 & H2 & H3 & H4 & H5); cbn; rewrite ?H1, ?H2, ?H3, ?H4; auto.
Qed.

Lemma history_best es : forall s, history n es = Ok s ->
  let rates := reports st_rate (initialStats n) es in
  let wrates := reports st_wrate (initialStats n) es in
  let maes := reports st_mae (initialStats n) es in
  (Forall (fun r => ok r /\ fltb (fofZ (-1)) r = true) rates -> best_max (st_rateMax s) rates) /\
  (Forall (fun r => ok r /\ fltb (fofZ (-1)) r = true) wrates -> best_max (st_wrateMax s) wrates) /\
  (Forall (fun r => ok r /\ fltb r fzero = false) maes -> best_min (st_maeMin s) maes) /\
  st_f1Max s = fofZ (-1).
Proof.
  cbv zeta. induction es as [|e es IH] using rev_ind; intros s Hs.
  - injection Hs as <-. cbn [reports]. unfold best_max, best_min.
    split; [|split; [|split]]; try reflexivity; intros _;
    (split; [reflexivity|]; split; [congruence|constructor]).
  - apply history_snoc in Hs as (s1 & E & Hh). specialize (IH s1 E). destruct IH as (I1 & I2 & I3 & I4).
    assert (R : forall {A} (get : Stats -> A), reports get (initialStats n) (es ++ [e]) =
       reports get (initialStats n) es ++ reports get s1 [e]) by (intros; now apply reports_app).
    rewrite !R. cbn [reports]. rewrite Hh. pose proof (happen_best s1 e s Hh) as Hb.
    destruct e as [js|js nan].
    + destruct Hb as (-> & -> & -> & ->). split; [|split; [|split; [|exact I4]]]; intros HF;
        apply Forall_app in HF as [HF Hl]; inversion_clear Hl as [|? ? [Hok Hpos] _];
        assert (Hoks := HF); apply Forall_impl with (Q := ok) in Hoks; try (intros ? [? ?]; auto; fail).
      * apply best_max_step with (ok := ok); auto.
      * apply best_max_step with (ok := ok); auto.
      * apply best_min_step with (ok := ok); auto. eapply Forall_impl; [|exact HF]. now intros ? [? ?].
    + rewrite !app_nil_r. destruct Hb as (-> & -> & -> & ->). auto.
Qed.
End H.
End G.

(* ---- binary32 accuracy ---- *)
Lemma rate_32 expf tanhf a b : (0 < Z.of_nat (a + b) <= 2 ^ 24)%Z ->
  exists r, fin32 (@fdiv (Num32 expf tanhf) (fofnat a) (fadd (fofnat a) (fofnat b))) r /\
    r = Generic_fmt.round radix2 (SpecFloat.fexp 24 128) (BinarySingleNaN.round_mode BinarySingleNaN.mode_NE) (INR a / INR (a + b)) /\
    (0 <= r <= 1)%R.
Proof.
  intros H.
  assert (Hs : fin32 (@fadd (Num32 expf tanhf) (fofnat a) (fofnat b)) (INR (a + b))).
  { assert (E : Flocq.Core.Generic_fmt.round radix2 (SpecFloat.fexp 24 128) (BinarySingleNaN.round_mode BinarySingleNaN.mode_NE) (IZR (Z.of_nat a) + IZR (Z.of_nat b)) = INR (a + b)).
    { rewrite INR_IZR_INZ, <- plus_IZR, Nat2Z.inj_add. apply rnd_int. lia. }
    rewrite <- E. apply fin32_add; try (apply fin32_fofZ; lia). rewrite E, INR_IZR_INZ. apply int_lt_emax. lia. }
  assert (P : (0 < INR (a + b))%R) by (apply lt_0_INR; lia).
  assert (Q : (0 <= INR a / INR (a + b) <= 1)%R).
  { split; [apply Rmult_le_pos; [apply pos_INR|apply Rlt_le, Rinv_0_lt_compat, P]|].
    apply Rmult_le_reg_r with (INR (a + b)); auto. unfold Rdiv. rewrite Rmult_assoc, Rinv_l, Rmult_1_l, Rmult_1_r by lra.
    apply le_INR. lia. }
  set (r := Generic_fmt.round radix2 (SpecFloat.fexp 24 128) (BinarySingleNaN.round_mode BinarySingleNaN.mode_NE) (INR a / INR (a + b))).
  assert (B : (0 <= r <= 1)%R).
  { split; [apply rnd_ge_fmt; [apply (int_format 0); lia|lra]|apply rnd_le_fmt; [apply (int_format 1); lia|lra]]. }
  exists r. split; [|auto]. apply fin32_div; auto; try lra.
  - rewrite INR_IZR_INZ. apply fin32_fofZ. lia.
  - fold r. rewrite Rabs_pos_eq by lra. apply Rle_lt_trans with (1 := proj2 B).
    change (bpow radix2 128) with (IZR (2 ^ 128)). apply IZR_lt. reflexivity.
Qed.

(* ---- errors over the reals ---- *)
Definition Rsum (l : list R) : R := fold_right Rplus 0%R l.
Lemma fsum_R (l : list R) : @fsum RNum l = Rsum l.
Proof.
  unfold fsum. replace (@fzero RNum) with 0%R by (symmetry; apply RNum_lit).
  assert (G : forall l a, fold_left (@fadd RNum) l a = (a + Rsum l)%R).
  { clear. induction l as [|x l IH]; intros a; cbn [fold_left Rsum fold_right]; [lra|]. rewrite IH. cbn. unfold Rsum. lra. }
  rewrite G. lra.
Qed.
Lemma fold_err_R {A} (f : A -> R) (l : list A) (a : R) :
  fold_left (fun r c => @fadd RNum r (f c)) l a = (a + Rsum (map f l))%R.
Proof.
  revert a; induction l as [|x l IH]; intros a; cbn [fold_left map Rsum fold_right]; [lra|]. rewrite IH. cbn. unfold Rsum. lra.
Qed.
Lemma Rsum_nonneg l : Forall (fun x => 0 <= x)%R l -> (0 <= Rsum l)%R.
Proof. induction 1; cbn; [lra|]. unfold Rsum in *. lra. Qed.
