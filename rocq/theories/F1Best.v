(* C16 in binary32: the best rates and the smallest error after any history of tests, without hypotheses on the reports. *)
From Coq Require Import Reals Lra Lia SpecFloat.
From Flocq Require Import Core.Core IEEE754.BinarySingleNaN.
From Verif Require Import Base Num NumOrder StatModel StatSpec StatProofs StatReal Float32 Witness F1Spec F1Proofs F1Float StatProps.
Local Open Scope outcome_scope.
#[local] Existing Instance Float32.Hprec32.
#[local] Existing Instance Float32.Hmax32.

(* a float that is a number of positive sign, possibly infinite *)
Definition pos32 (x : f32) : Prop := exists b : bf, B2SF b = x /\ is_nan b = false /\ Bsign b = false.
Definition finite32 (x : f32) : Prop := exists r, fin32 x r.
Section B.
Variables expf tanhf : f32 -> f32.
Let N := Num32 expf tanhf.
Lemma pos_not_nan x : pos32 x -> not_nan x.
Proof. intros (b & <- & H & _) E. destruct b; cbn in *; congruence. Qed.
Lemma pos_not_neg x : pos32 x -> @fltb N x (@fzero N) = false.
Proof. intros (b & <- & H & S0). destruct b as [[|]|[|]| |[|] m e He]; cbn in *; try discriminate; reflexivity. Qed.
Lemma pos_zero : pos32 (@fzero N).
Proof. exists (B754_zero false). repeat split. Qed.
Lemma B2R_sign (b : bf) : is_finite b = true -> Bsign b = false -> (0 <= B2R b)%R.
Proof. intros F0 H. destruct b as [s|s| |s m e He]; cbn in *; try discriminate; [lra|]. subst s. apply F2R_ge_0. cbn. lia. Qed.
Lemma overflow_pos (b : bf) s : B2SF b = binary_overflow 24 128 mode_NE s -> b = B754_infinity s.
Proof. intros H. apply B2SF_inj. rewrite H. reflexivity. Qed.
Lemma pos_add x y : pos32 x -> pos32 y -> pos32 (@fadd N x y).
Proof.
  intros (a & <- & A & SA) (b & <- & B & SB). exists (Bplus mode_NE a b). split; [symmetry; apply add_equiv32|].
  destruct a as [sa|sa| |sa ma ea Ha]; cbn in A, SA; try discriminate; subst; destruct b as [sb|sb| |sb mb eb Hb]; cbn in B, SB; try discriminate; subst; try (now split).
  set (a := B754_finite false ma ea Ha). set (b := B754_finite false mb eb Hb). pose proof (Bplus_correct 24 128 _ _ mode_NE a b eq_refl eq_refl) as HC.
  destruct (Rlt_bool _ _).
  - destruct HC as (_ & HF & HS). split; [clear - HF; revert HF; generalize (Bplus mode_NE a b); intros c H; destruct c; cbn in *; congruence|]. rewrite HS. pose proof (B2R_sign a eq_refl eq_refl). pose proof (B2R_sign b eq_refl eq_refl).
    destruct (Rcompare_spec (B2R a + B2R b) 0); [lra|reflexivity|reflexivity].
  - destruct HC as (HC & _). apply overflow_pos in HC. rewrite HC. now split.
Qed.
Lemma pos_div x k : pos32 x -> (0 < k)%nat -> (Z.of_nat k <= 2 ^ 24)%Z -> pos32 (@fdiv N x (@fofnat N k)).
Proof.
  intros (a & <- & A & SA) Hk HB. destruct (nat32 expf tanhf k HB) as (b & EB & FB & RB). fold N in EB. rewrite <- EB. exists (Bdiv mode_NE a b). split; [symmetry; apply div_equiv32|].
  assert (P : (0 < INR k)%R) by (apply lt_0_INR; lia). assert (SB : Bsign b = false).
  { destruct b as [s|s| |s m e He]; cbn in *; try discriminate; [lra|]. destruct s; [|reflexivity]. assert (X : (F2R (Float radix2 (Z.neg m) e) < 0)%R) by (apply F2R_lt_0; cbn; lia). cbn in RB, X. lra. }
  assert (NB : B2R b <> 0%R) by lra. destruct a as [sa|sa| |sa ma ea Ha]; cbn in A, SA; try discriminate; subst sa.
  - destruct b as [s|s| |s m e He]; cbn in *; try discriminate; [lra|]. subst s. now split.
  - destruct b as [s|s| |s m e He]; cbn in *; try discriminate; [lra|]. subst s. now split.
  - set (a := B754_finite false ma ea Ha) in *. pose proof (Bdiv_correct 24 128 _ _ mode_NE a b NB) as HC. destruct (Rlt_bool _ _).
    + destruct HC as (_ & HF & HS). assert (NN : is_nan (Bdiv mode_NE a b) = false) by (clear - HF; subst a; revert HF; generalize (Bdiv mode_NE (B754_finite false ma ea Ha) b); intros c H; cbn in H; destruct c; cbn in *; congruence).
      split; [exact NN|]. rewrite (HS NN), SB. reflexivity.
    + apply overflow_pos in HC. rewrite HC. rewrite SB. now split.
Qed.
Lemma pos_abs_sub x y : finite32 x -> finite32 y -> pos32 (@fabs N (@fsub N x y)).
Proof.
  intros (rx & a & <- & FA & _) (ry & b & <- & FB & _). change (@fsub N (B2SF a) (B2SF b)) with (SFsub 24 128 (B2SF a) (B2SF b)). rewrite sub_equiv32. set (c := Bminus mode_NE a b).
  assert (HN : is_nan c = false).
  { pose proof (Bminus_correct 24 128 _ _ mode_NE a b FA FB) as HC. fold c in HC. clearbody c. destruct (Rlt_bool _ _); [destruct HC as (_ & HF & _); destruct c; cbn in *; congruence|]. destruct HC as (HC & _). apply overflow_pos in HC. now rewrite HC. }
  exists (Babs c). split; [destruct c; reflexivity|]. split; destruct c; cbn in *; auto; discriminate.
Qed.
Lemma pos_fold (l : list f32) : Forall pos32 l -> forall z, pos32 z -> pos32 (fold_left (@fadd N) l z).
Proof. induction 1 as [|x l Hx _ IH]; intros z Hz; cbn [fold_left]; [exact Hz|]. apply IH, pos_add; auto. Qed.
(* samples whose values are all finite *)
Lemma error_pos n i (j : @judged N) : i < n -> @judged_ok N finite32 n j -> pos32 (@error_of N i j).
Proof.
  intros Hi H. destruct j as [o d p|o d p|o l p]; cbn [judged_ok error_of] in *.
  - destruct H as (Lo & Ld & Fo & Fd). apply pos_abs_sub; apply at_ok; auto; lia.
  - destruct H as (Lo & Ld & Fo & Fd & _). apply pos_abs_sub; apply at_ok; auto; lia.
  - destruct H as (Lo & Fo). apply pos_abs_sub; [|apply at_ok; auto; lia]. destruct (Nat.eqb i l); [exists 1%R; apply (fin32_fofZ expf tanhf 1); lia|exists 0%R; apply (fin32_fofZ expf tanhf 0); lia].
Qed.
Lemma finite_not_nan x : finite32 x -> not_nan x.
Proof. intros (r & b & <- & F0 & _) E. destruct b; cbn in *; discriminate. Qed.
Lemma finite_ok n (j : @judged N) : @judged_ok N finite32 n j -> @judged_ok N not_nan n j.
Proof.
  assert (G : forall l : list (@F N), Forall finite32 l -> Forall not_nan l) by (intros l; apply Forall_impl; apply finite_not_nan).
  destruct j as [o d p|o d p|o l p]; cbn [judged_ok]; intuition auto using finite_not_nan.
Qed.

(* one test *)
Lemma test_reports n (s s' : @Stats N) js : 0 < n -> (Z.of_nat n <= 2 ^ 24)%Z -> length (st_clusters s) = n -> Forall (@judged_ok N finite32 n) js -> js <> [] -> (Z.of_nat (length js) <= 2 ^ 24)%Z ->
  test s js = Ok s' -> length (st_clusters s') = n /\ (exists r, fin32 (st_rate s') r /\ (0 <= r)%R) /\ (exists r, fin32 (st_wrate s') r /\ (0 <= r)%R) /\ pos32 (st_mae s').
Proof.
  intros H0 H24 Hn HF Hne HB T. assert (Hok : Forall (@judged_ok N not_nan n) js) by (revert HF; apply Forall_impl; apply finite_ok).
  destruct (test_spec _ (order_laws_32 expf tanhf) _ (counts_32 expf tanhf (length js) HB) n js s Hn Hok (le_n _)) as (s1 & _ & Hc & E). fold N in E, Hc. rewrite T in E. injection E as ->.
  destruct (C15_accuracy_float expf tanhf n s js Hn Hok Hne HB) as (s2 & r & E2 & R & _ & Rb). fold N in E2. rewrite T in E2. injection E2 as <-.
  split; [unfold counted in Hc; rewrite Hc; cbn [stopTesting with_counters st_clusters]; now rewrite map_length, seq_length|]. split; [exists r; split; [exact R|apply Rb]|]. clear R. unfold counted in Hc. rewrite Hc. split.
  - destruct (scores32 expf tanhf n s js (fofnat (count (correct n) js)) (fofnat (count (fun j => negb (correct n j)) js)) H0 H24 HB) as ((w & Ew & Rw & _) & _). exists w. split; [exact Ew|apply Rw].
  - cbn [stopTesting st_mae]. unfold computeMeanAbsoluteError. cbn [with_counters st_clusters st_well st_mis].
    assert (D : @fadd N (fofnat (count (correct n) js)) (fofnat (count (fun j => negb (correct n j)) js)) = @fofnat N (length js)).
    { pose proof (count_partition n js) as K. assert (Hl : 0 < length js) by (destruct js; [congruence|cbn; lia]). apply (fin32_unique _ _ (INR (length js))); [|now apply nat32|apply not_0_INR; lia].
      assert (Q : rnd (INR (count (correct n) js) + INR (count (fun j => negb (correct n j)) js)) = INR (length js)) by (rewrite <- plus_INR, K; rewrite INR_IZR_INZ; apply rnd_int; lia).
      rewrite <- Q. apply fin32_add; [apply nat32; lia|apply nat32; lia|]. rewrite Q. apply (small _ (INR (length js))); [split; [apply pos_INR|lra]|]. apply Rle_trans with (1 := inr_bound _ HB). apply IZR_le. lia. }
    rewrite D. apply pos_div; [|destruct js; [congruence|cbn; lia]|exact HB].
    rewrite (fold_map _ (fun r i => @fadd N r (@fsum N (map (error_of i) js)))) by reflexivity. clear D. assert (G : forall i, In i (seq 0 n) -> i < n) by (intros i Hi; apply in_seq in Hi; lia). revert G. generalize (seq 0 n). intros l G. generalize pos_zero. generalize (@fzero N).
    induction l as [|i l IH]; intros z Hz; cbn [fold_left]; [exact Hz|]. apply IH; [intros k Hk; apply G; now right|]. apply pos_add; [exact Hz|]. apply pos_fold; [|apply pos_zero].
    apply Forall_map. assert (Hi : i < n) by (apply G; now left). revert HF. apply Forall_impl. intros j Hj. now apply (error_pos n).
Qed.
(* a history: every completed test has samples, of finite values, at most 2^24 *)
Definition proper_event (n : nat) (e : @event N) : Prop :=
  match e with
  | Tested js => js <> [] /\ Forall (@judged_ok N finite32 n) js /\ (Z.of_nat (length js) <= 2 ^ 24)%Z
  | Abandoned js _ => Forall (@judged_ok N not_nan n) js /\ (Z.of_nat (length js) <= 2 ^ 24)%Z
  end.
Lemma reports_forall {A} (P : A -> Prop) (get : @Stats N -> A) n : 
  (forall s s' js, length (st_clusters s) = n -> proper_event n (Tested js) -> test s js = Ok s' -> length (st_clusters s') = n /\ P (get s')) ->
  forall es s, length (st_clusters s) = n -> Forall (proper_event n) es -> Forall P (reports get s es).
Proof.
  intros HT. induction es as [|e es IH]; intros s Hn HF; cbn [reports]; [constructor|]. inversion_clear HF as [|? ? He HF']. destruct (happen s e) as [s'| |] eqn:E; [|constructor|constructor].
  destruct e as [js|js nan].
  - destruct (HT s s' js Hn He E) as (L & Q). constructor; [exact Q|]. now apply IH.
  - apply IH; [|exact HF']. destruct He as (Hok & HB). cbn [happen] in E. destruct (count_test_spec _ (order_laws_32 expf tanhf) _ (counts_32 expf tanhf (length js) HB) n js s Hn Hok (le_n _)) as (s1 & E1 & Hc).
    fold N in E1, Hc. rewrite E1 in E. injection E as <-. unfold counted in Hc. rewrite Hc. cbn [setResultsAsNan with_counters st_clusters]. now rewrite !map_length, seq_length.
Qed.
End B.

(* missing: the F1 score and the RMSE, see C16_f1_rmse_refuted *)
Theorem C16_best_float_partial : forall expf tanhf (n : nat) (es : list (@event (Num32 expf tanhf))) s, 0 < n -> (Z.of_nat n <= 2 ^ 24)%Z -> Forall (proper_event expf tanhf n) es ->
  history n es = Ok s -> (exists js, In (Tested js) es) ->
  let N := Num32 expf tanhf in
  let rates := reports st_rate (initialStats n) es in let wrates := reports st_wrate (initialStats n) es in let maes := reports st_mae (initialStats n) es in
  (In (st_rateMax s) rates /\ Forall (fun r => @fltb N (st_rateMax s) r = false) rates) /\
  (In (st_wrateMax s) wrates /\ Forall (fun r => @fltb N (st_wrateMax s) r = false) wrates) /\
  (In (st_maeMin s) maes /\ Forall (fun r => @fltb N r (st_maeMin s) = false) maes).
Proof.
  intros expf tanhf n es s H0 H24 HP HH HE. cbv zeta. destruct (C16_best_partial (Num32 expf tanhf) not_nan (order_laws_32 expf tanhf) n es s HH) as (A & B & C).
  assert (L0 : length (st_clusters (@initialStats (Num32 expf tanhf) n)) = n) by (cbn; now rewrite map_length, repeat_length).
  assert (G : forall x r, fin32 x r -> (0 <= r)%R -> not_nan x /\ @fltb (Num32 expf tanhf) (@fofZ (Num32 expf tanhf) (-1)) x = true).
  { intros x r Hx Hr. split; [apply finite_not_nan; now exists r|]. rewrite (fin32_lt expf tanhf _ _ (-1) r (fin32_fofZ expf tanhf (-1) ltac:(lia)) Hx). apply Rlt_bool_true. lra. }
  assert (NE : forall (get : @Stats (Num32 expf tanhf) -> f32), reports get (initialStats n) es <> []).
  { intros get. destruct HE as (js & Hin). unfold history in HH. revert HH. generalize (@initialStats (Num32 expf tanhf) n). clear - Hin. induction es as [|e es IH]; intros s0 HH; [destruct Hin|].
    cbn [ofold] in HH. apply bind_Ok_inv in HH as (s1 & E & HH). cbn [reports]. rewrite E. destruct Hin as [->|Hin]; [discriminate|]. specialize (IH Hin s1 HH). destruct e; [discriminate|exact IH]. }
  split; [|split].
  - apply A; [apply NE|]. apply (reports_forall expf tanhf _ _ n); auto. intros s0 s' js Hn (J1 & J2 & J3) T. destruct (test_reports expf tanhf n s0 s' js H0 H24 Hn J2 J1 J3 T) as (Q1 & (r & Q2 & Q3) & _). split; [exact Q1|]. now apply (G _ r).
  - apply B; [apply NE|]. apply (reports_forall expf tanhf _ _ n); auto. intros s0 s' js Hn (J1 & J2 & J3) T. destruct (test_reports expf tanhf n s0 s' js H0 H24 Hn J2 J1 J3 T) as (Q1 & _ & (r & Q2 & Q3) & _). split; [exact Q1|]. now apply (G _ r).
  - apply C; [apply NE|]. apply (reports_forall expf tanhf _ _ n); auto. intros s0 s' js Hn (J1 & J2 & J3) T. destruct (test_reports expf tanhf n s0 s' js H0 H24 Hn J2 J1 J3 T) as (Q1 & _ & _ & Q2). split; [exact Q1|]. split; [now apply pos_not_nan|]. now apply pos_not_neg.
Qed.
Print Assumptions C16_best_float_partial.
Lemma b32q_finite a b : (Z.abs a <= 2 ^ 24)%Z -> (Z.pos b <= 2 ^ 24)%Z -> (0 <= a <= Z.pos b)%Z -> finite32 (b32q a b).
Proof.
  intros Ha Hb Hab. eexists. assert (P : (0 < IZR (Z.pos b))%R) by (apply IZR_lt; lia). assert (Q : (0 <= IZR a / IZR (Z.pos b) <= 1)%R).
  { split; [apply Rmult_le_pos; [apply IZR_le; lia|left; now apply Rinv_0_lt_compat]|]. apply Rmult_le_reg_r with (IZR (Z.pos b)); [exact P|]. unfold Rdiv. rewrite Rmult_assoc, Rinv_l, Rmult_1_l, Rmult_1_r by lra. apply IZR_le. lia. }
  apply (fin32_div (fun x => x) (fun x => x)); [now apply fin32_of_Z|apply fin32_of_Z; lia|lra|].
  apply (small _ 1); [|apply IZR_le; lia]. split; [apply rnd_ge_fmt; [apply fmt_0|lra]|apply rnd_le_fmt; [apply (int_format 1); lia|lra]].
Qed.
Example C16_float_hypotheses_met : Forall (proper_event (fun x => x) (fun x => x) 2) es32.
Proof.
  assert (X : forall a b, (Z.abs a <=? 2 ^ 24)%Z && (Z.pos b <=? 2 ^ 24)%Z && (0 <=? a)%Z && (a <=? Z.pos b)%Z = true -> finite32 (b32q a b)).
  { intros a b H. apply Bool.andb_true_iff in H as [H H3]. apply Bool.andb_true_iff in H as [H H2]. apply Bool.andb_true_iff in H as [H H1]. apply b32q_finite; lia. }
  unfold es32. repeat (constructor; [|]); try constructor; cbn [proper_event]; try (split; [|split]); try discriminate; try (cbn; lia); try (repeat constructor; apply X; reflexivity).
Qed.
