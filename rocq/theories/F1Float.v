(* The scores in binary32: between 0 and 1, and exactly 1 for a perfect test. *)
From Coq Require Import Reals Lra Lia.
From Flocq Require Import Core.Core IEEE754.BinarySingleNaN.
From Verif Require Import Base Num NumOrder StatModel StatSpec StatProofs StatReal Float32 F1Spec F1Proofs.
Local Open Scope R_scope.

Local Instance Hprec32' : Prec_gt_0 24 := eq_refl.
Notation fmt := (generic_format radix2 (SpecFloat.fexp 24 128)).
Lemma fmt_float m e : (Z.abs m < 2 ^ 24)%Z -> (-149 <= e)%Z -> fmt (F2R (Float radix2 m e)).
Proof. intros A B. apply generic_format_FLT. change (SpecFloat.emin 24 128) with (-149)%Z. now exists (Float radix2 m e). Qed.
Lemma fmt_double x : fmt x -> fmt (2 * x).
Proof.
  intros H. apply (FLT_format_generic radix2 (SpecFloat.emin 24 128) 24) in H. destruct H as [[m e] -> Hm He]. cbn [Fnum Fexp] in Hm, He. change (SpecFloat.emin 24 128) with (-149)%Z in He.
  replace (2 * F2R (Float radix2 m e)) with (F2R (Float radix2 m (e + 1))); [apply fmt_float; [exact Hm|lia]|]. unfold F2R. cbn [Fnum Fexp]. rewrite bpow_plus. change (bpow radix2 1) with 2. ring.
Qed.
Lemma fmt_half k : (Z.of_nat k <= 2 ^ 24)%Z -> fmt (INR k / 2).
Proof.
  intros H. rewrite INR_IZR_INZ. destruct (Z.eq_dec (Z.of_nat k) (2 ^ 24)) as [E|E].
  - rewrite E. replace (IZR (2 ^ 24) / 2) with (IZR (2 ^ 23)) by (replace (2 ^ 24)%Z with (2 ^ 23 * 2)%Z by reflexivity; rewrite mult_IZR; field). apply int_format. lia.
  - replace (IZR (Z.of_nat k) / 2) with (F2R (Float radix2 (Z.of_nat k) (-1))); [apply fmt_float; lia|]. unfold F2R. cbn [Fnum Fexp]. change (bpow radix2 (-1)) with (/ 2). reflexivity.
Qed.
Lemma fmt_nat k : (Z.of_nat k <= 2 ^ 24)%Z -> fmt (INR k).
Proof. intros H. rewrite INR_IZR_INZ. apply int_format. lia. Qed.
Lemma fmt_0 : fmt 0.
Proof. apply (int_format 0). lia. Qed.
Lemma small x c : 0 <= x <= c -> (c <= IZR (2 ^ 25))%R -> Rabs x < bpow radix2 128.
Proof. intros H Hc. rewrite Rabs_pos_eq by lra. apply Rle_lt_trans with (IZR (2 ^ 25)); [lra|]. change (bpow radix2 128) with (IZR (2 ^ 128)). apply IZR_lt. reflexivity. Qed.
Lemma inr_bound k : (Z.of_nat k <= 2 ^ 24)%Z -> INR k <= IZR (2 ^ 24).
Proof. intros H. rewrite INR_IZR_INZ. now apply IZR_le. Qed.

Section B.
Variables expf tanhf : f32 -> f32.
Let N := Num32 expf tanhf.
Lemma nat32 k : (Z.of_nat k <= 2 ^ 24)%Z -> fin32 (@fofnat N k) (INR k).
Proof. intros H. rewrite INR_IZR_INZ. apply fin32_fofZ. lia. Qed.
(* a rate: at least 2^-24 when something was counted *)
Lemma rate_pos a b : (0 < a)%nat -> (Z.of_nat (a + b) <= 2 ^ 24)%Z -> exists r, fin32 (@fdiv N (fofnat a) (fadd (fofnat a) (fofnat b))) r /\ 0 < r <= 1 /\ (b = 0%nat -> r = 1).
Proof.
  intros Ha H. destruct (rate_32 expf tanhf a b ltac:(lia)) as (r & E & V & R01). exists r. split; [exact E|]. assert (A : 0 < INR a) by (apply lt_0_INR; lia). assert (P : 0 < INR (a + b)) by (apply lt_0_INR; lia). split.
  - split; [|lra]. rewrite V. apply Rlt_le_trans with (bpow radix2 (-24)); [apply bpow_gt_0|]. apply rnd_ge_fmt.
    + replace (bpow radix2 (-24)) with (F2R (Float radix2 1 (-24))) by (unfold F2R; cbn [Fnum Fexp]; ring). apply fmt_float; lia.
    + apply Rmult_le_reg_r with (INR (a + b)); [exact P|]. unfold Rdiv. rewrite Rmult_assoc, Rinv_l, Rmult_1_r by lra. apply Rle_trans with (bpow radix2 (-24) * IZR (2 ^ 24)).
      * apply Rmult_le_compat_l; [apply bpow_ge_0|]. now apply inr_bound.
      * change (IZR (2 ^ 24)) with (bpow radix2 24). rewrite <- bpow_plus. change (bpow radix2 (-24 + 24)) with 1. apply (le_INR 1). lia.
  - intros ->. rewrite V, Nat.add_0_r. unfold Rdiv. rewrite Rinv_r by lra. apply round_generic; [apply valid_rnd_round_mode|]. apply (int_format 1). lia.
Qed.
(* half a harmonic mean: rounded, still at most 1/2 *)
Lemma harmonic x y p q : fin32 x p -> fin32 y q -> 0 < p <= 1 -> 0 < q <= 1 -> exists v, fin32 (@fdiv N (@fmul N x y) (@fadd N x y)) v /\ 0 <= v <= / 2 /\ (p = 1 -> q = 1 -> v = / 2).
Proof.
  intros Hx Hy Hp Hq. pose proof (fin32_format x p Hx) as Fp. pose proof (fin32_format y q Hy) as Fq.
  assert (M : exists m, 0 < m /\ fmt m /\ m <= p /\ m <= q /\ p * q <= m).
  { destruct (Rle_dec p q); [exists p|exists q]; repeat split; try lra; try assumption; nra. }
  destruct M as (m & M0 & Fm & Mp & Mq & Mpq).
  assert (A : 0 <= rnd (p * q) <= m) by (split; [apply rnd_ge_fmt; [apply fmt_0|nra]|now apply rnd_le_fmt]).
  assert (B : 2 * m <= rnd (p + q) <= 2) by (split; [apply rnd_ge_fmt; [now apply fmt_double|lra]|apply rnd_le_fmt; [apply (int_format 2); lia|lra]]).
  assert (C : fin32 (@fmul N x y) (rnd (p * q))) by (apply fin32_mul; auto; apply (small _ m); [exact A|lra]).
  assert (D : fin32 (@fadd N x y) (rnd (p + q))) by (apply fin32_add; auto; apply (small _ 2); lra).
  assert (Q : 0 <= rnd (p * q) / rnd (p + q) <= / 2).
  { split; [apply Rmult_le_pos; [lra|left; apply Rinv_0_lt_compat; lra]|]. apply Rmult_le_reg_r with (rnd (p + q)); [lra|]. unfold Rdiv. rewrite Rmult_assoc, Rinv_l by lra. lra. }
  assert (H2 : fmt (/ 2)) by (replace (/ 2) with (INR 1 / 2) by (cbn; lra); apply fmt_half; lia).
  assert (V : 0 <= rnd (rnd (p * q) / rnd (p + q)) <= / 2) by (split; [apply rnd_ge_fmt; [apply fmt_0|lra]|apply rnd_le_fmt; [exact H2|lra]]).
  eexists. split; [apply fin32_div; [exact C|exact D|lra|]; apply (small _ (/ 2)); [exact V|lra]|]. split; [exact V|].
  intros -> ->. replace (1 * 1) with 1 by ring. replace (1 + 1) with 2 by ring. assert (rnd 1 = 1) as -> by (apply (rnd_int 1); lia). assert (rnd 2 = 2) as -> by (apply (rnd_int 2); lia).
  replace (1 / 2) with (/ 2) by lra. apply round_generic; [apply valid_rnd_round_mode|exact H2].
Qed.
(* the sum of at most 2^24 terms bounded by c (1 or 1/2) *)
Lemma sum_bound (term : nat -> list judged -> f32) (js : list (@judged N)) c : c = 1 \/ c = / 2 ->
  (forall i, (0 < tally TP i js)%nat -> exists v, fin32 (term i js) v /\ 0 <= v <= c) -> (Z.of_nat (length js) <= 2 ^ 24)%Z ->
  forall n, (Z.of_nat n <= 2 ^ 24)%Z -> exists v, fin32 (fold_left (@step N term js) (seq 0 n) (@fzero N)) v /\ 0 <= v <= c * INR n /\
    ((forall i, (i < n)%nat -> (0 < tally TP i js)%nat /\ fin32 (term i js) c) -> v = c * INR n).
Proof.
  intros Hc HT HL. assert (FC : forall k, (Z.of_nat k <= 2 ^ 24)%Z -> fmt (c * INR k)).
  { intros k Hk. destruct Hc as [->| ->]; [rewrite Rmult_1_l; now apply fmt_nat|]. rewrite Rmult_comm. now apply fmt_half. }
  induction n as [|n IH]; intros Hn.
  - exists 0. cbn [seq fold_left INR]. split; [apply (fin32_fofZ expf tanhf 0); lia|]. split; [lra|]. intros _. lra.
  - destruct (IH ltac:(lia)) as (v & E & (V0 & V1) & VE). rewrite seq_S, fold_left_app. cbn [plus fold_left]. unfold step at 1. set (acc := fold_left _ _ _) in *.
    assert (TL : (Z.of_nat (tally TP n js) <= 2 ^ 24)%Z) by (pose proof (tally_le TP n js); lia).
    assert (LT : @fgtb N (@fofnat N (tally TP n js)) (@fzero N) = Rlt_bool 0 (INR (tally TP n js))) by (apply (fin32_lt expf tanhf); [apply (fin32_fofZ expf tanhf 0); lia|now apply nat32]).
    rewrite LT. clear LT.
    rewrite S_INR. assert (C0 : 0 < c) by lra. destruct (Nat.eq_dec (tally TP n js) 0) as [Z|Z].
    + rewrite Z. cbn [INR]. rewrite Rlt_bool_false by lra. exists v. split; [exact E|]. split; [nra|]. intros H. destruct (H n ltac:(lia)) as (X & _). rewrite Z in X. lia.
    + rewrite Rlt_bool_true by (apply lt_0_INR; lia). destruct (HT n ltac:(lia)) as (t & T & T0). assert (FS : fmt (c * (INR n + 1))) by (rewrite <- S_INR; apply FC; lia).
      assert (V : 0 <= rnd (v + t) <= c * (INR n + 1)) by (split; [apply rnd_ge_fmt; [apply fmt_0|lra]|apply rnd_le_fmt; [exact FS|lra]]).
      exists (rnd (v + t)). split; [apply fin32_add; [exact E|exact T|]|].
      * apply (small _ _ V). rewrite <- S_INR. pose proof (inr_bound (S n) Hn). pose proof (pos_INR (S n)). apply Rle_trans with (1 * IZR (2 ^ 24)); [apply Rmult_le_compat; lra|]. rewrite Rmult_1_l. apply IZR_le. lia.
      * split; [exact V|]. intros H. assert (v = c * INR n) as -> by (apply VE; intros i Hi; apply H; lia). destruct (H n ltac:(lia)) as (_ & T1).
        assert (t = c) as ->. { destruct T as (b1 & B1 & _ & R1). destruct T1 as (b2 & B2 & _ & R2). rewrite <- B2 in B1. apply B2SF_inj in B1. subst. reflexivity. }
        replace (c * INR n + c) with (c * (INR n + 1)) by ring. apply round_generic; [apply valid_rnd_round_mode|exact FS].
Qed.
Lemma over_n x v n : fin32 x v -> (0 < n)%nat -> (Z.of_nat n <= 2 ^ 24)%Z -> 0 <= v <= INR n -> exists r, fin32 (@fdiv N x (@fofnat N n)) r /\ 0 <= r <= 1 /\ (v = INR n -> r = 1).
Proof.
  intros E Hn HB (V0 & V1). assert (P : 0 < INR n) by (apply lt_0_INR; lia). assert (Q : 0 <= v / INR n <= 1).
  { split; [apply Rmult_le_pos; [lra|left; now apply Rinv_0_lt_compat]|]. apply Rmult_le_reg_r with (INR n); [exact P|]. unfold Rdiv. rewrite Rmult_assoc, Rinv_l by lra. lra. }
  assert (V : 0 <= rnd (v / INR n) <= 1) by (split; [apply rnd_ge_fmt; [apply fmt_0|lra]|apply rnd_le_fmt; [apply (int_format 1); lia|lra]]).
  exists (rnd (v / INR n)). split; [apply fin32_div; [exact E|now apply nat32|lra|]; apply (small _ 1); [exact V|lra]|]. split; [exact V|]. intros ->. unfold Rdiv. rewrite Rinv_r by lra. apply (rnd_int 1). lia.
Qed.
Lemma recall_term32 i (js : list (@judged N)) : (Z.of_nat (length js) <= 2 ^ 24)%Z -> (0 < tally TP i js)%nat ->
  exists v, fin32 (@recall_term N i js) v /\ 0 <= v <= 1 /\ (tally FN i js = 0%nat -> v = 1).
Proof.
  intros HB H. destruct (rate_pos (tally TP i js) (tally FN i js) H) as (r & E & R & V). { pose proof (kind_partition i js) as K. fold (tally TP i js) (tally FN i js) in K. lia. }
  exists r. split; [exact E|]. split; [lra|exact V].
Qed.
Lemma f1_term32 i (js : list (@judged N)) : (Z.of_nat (length js) <= 2 ^ 24)%Z -> (0 < tally TP i js)%nat ->
  exists v, fin32 (@f1_term N i js) v /\ 0 <= v <= / 2 /\ (tally FN i js = 0%nat -> tally FP i js = 0%nat -> v = / 2).
Proof.
  intros HB H. pose proof (kind_partition i js) as K. fold (tally TP i js) (tally FN i js) (tally FP i js) in K.
  destruct (rate_pos (tally TP i js) (tally FN i js) H ltac:(lia)) as (q & Eq & Rq & Vq). destruct (rate_pos (tally TP i js) (tally FP i js) H ltac:(lia)) as (p & Ep & Rp & Vp).
  destruct (harmonic _ _ p q Ep Eq Rp Rq) as (v & E & V & W). exists v. split; [exact E|]. split; [exact V|]. auto.
Qed.
(* the results of a test *)
Lemma scores32 n s (js : list (@judged N)) w m : (0 < n)%nat -> (Z.of_nat n <= 2 ^ 24)%Z -> (Z.of_nat (length js) <= 2 ^ 24)%Z ->
  let st := with_counters s (map (clusterFor js) (seq 0 n)) w m in
  (exists r, fin32 (@computeWeightedClusteringRate N st) r /\ 0 <= r <= 1 /\ ((forall i, (i < n)%nat -> (0 < tally TP i js)%nat /\ tally FN i js = 0%nat) -> r = 1)) /\
  (exists r, fin32 (@computeF1Score N st) r /\ 0 <= r <= 1 /\ ((forall i, (i < n)%nat -> (0 < tally TP i js)%nat /\ tally FN i js = 0%nat /\ tally FP i js = 0%nat) -> r = 1)).
Proof.
  intros H0 Hn HB st. subst st. rewrite wrate_fold, f1_fold. split.
  - destruct (sum_bound (@recall_term N) js 1 (or_introl eq_refl)) with (n := n) as (v & E & V & W); auto.
    { intros i Hi. destruct (recall_term32 i js HB Hi) as (t & T & T0 & _). exists t. auto. }
    rewrite Rmult_1_l in V, W. destruct (over_n _ v n E H0 Hn V) as (r & R & R01 & R1). exists r. split; [exact R|]. split; [exact R01|]. intros H. apply R1, W. intros i Hi. destruct (H i Hi) as (A & B). split; [exact A|].
    destruct (recall_term32 i js HB A) as (t & T & _ & T1). rewrite <- (T1 B). exact T.
  - destruct (sum_bound (@f1_term N) js (/ 2) (or_intror eq_refl)) with (n := n) as (v & E & V & W); auto.
    { intros i Hi. destruct (f1_term32 i js HB Hi) as (t & T & T0 & _). exists t. auto. }
    pose proof (fin32_format _ _ E) as FV. assert (D : rnd (2 * v) = 2 * v) by (apply round_generic; [apply valid_rnd_round_mode|now apply fmt_double]). pose proof (inr_bound n Hn) as IB.
    assert (E2 : fin32 (@fmul N (fofZ 2) (fold_left (@step N (@f1_term N) js) (seq 0 n) (@fzero N))) (2 * v)).
    { rewrite <- D. apply fin32_mul; [apply fin32_fofZ; lia|exact E|]. rewrite D. apply (small _ (INR n)); [lra|]. apply Rle_trans with (1 := IB). apply IZR_le. lia. }
    destruct (over_n _ (2 * v) n E2 H0 Hn ltac:(lra)) as (r & R & R01 & R1). exists r. split; [exact R|]. split; [exact R01|]. intros H. apply R1. rewrite W; [lra|]. intros i Hi. destruct (H i Hi) as (A & B & C). split; [exact A|].
    destruct (f1_term32 i js HB A) as (t & T & _ & T1). rewrite <- (T1 B C). exact T.
Qed.
Lemma scores_none n s (js : list (@judged N)) w m : (0 < n)%nat -> (Z.of_nat n <= 2 ^ 24)%Z -> (forall i, tally TP i js = 0%nat) ->
  let st := with_counters s (map (clusterFor js) (seq 0 n)) w m in fin32 (@computeWeightedClusteringRate N st) 0 /\ fin32 (@computeF1Score N st) 0.
Proof.
  intros H0 Hn HZ st. subst st. rewrite wrate_fold, f1_fold.
  assert (G : forall term : nat -> list (@judged N) -> f32, fold_left (@step N term js) (seq 0 n) (@fzero N) = @fzero N).
  { intros term. generalize (seq 0 n). intros l. induction l as [|i l IH]; [reflexivity|]. cbn [fold_left]. unfold step at 2. rewrite HZ. exact IH. }
  rewrite !G. assert (Z0 : fin32 (@fzero N) 0) by (apply (fin32_fofZ expf tanhf 0); lia). assert (P : 0 < INR n) by (apply lt_0_INR; lia).
  assert (R0 : rnd 0 = 0) by (apply (rnd_int 0); lia). assert (D : forall x, fin32 x 0 -> fin32 (@fdiv N x (@fofnat N n)) 0).
  { intros x Hx. replace 0 with (rnd (0 / INR n)) by (unfold Rdiv; rewrite Rmult_0_l; exact R0). apply fin32_div; [exact Hx|now apply nat32|lra|]. unfold Rdiv. rewrite Rmult_0_l, R0. apply (small _ 0); lra. }
  split; apply D; [exact Z0|]. replace 0 with (rnd (2 * 0)) by (rewrite Rmult_0_r; exact R0). apply fin32_mul; [apply fin32_fofZ; lia|exact Z0|]. rewrite Rmult_0_r, R0. apply (small _ 0); lra.
Qed.
End B.
