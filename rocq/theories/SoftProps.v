(* C34 in binary32. *)
From Coq Require Import Reals Lra Lia SpecFloat.
From Flocq Require Import Core.Core Calc.Bracket IEEE754.BinarySingleNaN.
From Verif Require Import Base Num NumOrder LayerModel StatModel LOptSpec Float32 PoolProofs F1Float SoftSpec.
Local Open Scope R_scope.
#[local] Existing Instance Float32.Hprec32. #[local] Existing Instance Float32.Hmax32.

Lemma fin_abs_lt x b : 0 <= b -> fmt b -> b < bpow radix2 128 -> Rabs x <= b -> Rabs (rnd x) < bpow radix2 128.
Proof.
  intros H0 Fb Hb Hx. apply Rle_lt_trans with b; [|exact Hb]. apply Rabs_le. apply Rabs_le_inv in Hx. split; [apply rnd_ge_fmt|apply rnd_le_fmt]; try lra; [|exact Fb]. now apply generic_format_opp.
Qed.
(* what fpclassify tells *)
Lemma normal_cases x r : fin32 x r -> (f32_normal x = true -> r = 0 \/ bpow radix2 (-126) <= Rabs r) /\ (f32_normal x = false -> Rabs r < bpow radix2 (-126)).
Proof.
  intros (b & <- & Fb & <-). destruct b as [s|s| |s m e Hb]; try discriminate; [cbn; split; [auto|discriminate]|]. cbn [B2SF f32_normal B2R].
  clear Fb. assert (Hb' := Hb). unfold SpecFloat.bounded, SpecFloat.canonical_mantissa in Hb'. apply andb_prop in Hb' as [Hc He]. clear Hb. apply Zeq_bool_eq in Hc. unfold SpecFloat.fexp, SpecFloat.emin in Hc. change prec32 with 24%Z.
  rewrite Digits.Zpos_digits2_pos in *. set (dg := Digits.Zdigits radix2 (Z.pos m)) in *.
  assert (A : Rabs (F2R (Float radix2 (cond_Zopp s (Z.pos m)) e)) = F2R (Float radix2 (Z.pos m) e)). { rewrite <- F2R_Zabs, abs_cond_Zopp. reflexivity. }
  rewrite A. assert (D := Digits.Zdigits_correct radix2 (Z.pos m)). fold dg in D. change (Z.abs (Z.pos m)) with (Z.pos m) in D. split; intros H.
  - right. apply Z.eqb_eq in H. rewrite H in D. cbn in Hc. assert (-149 <= e)%Z by lia. unfold F2R. cbn [Fnum Fexp]. apply Rle_trans with (IZR (2 ^ 23) * bpow radix2 (-149)).
    + change (IZR (2 ^ 23)) with (bpow radix2 23). rewrite <- bpow_plus. apply Rle_refl.
    + apply Rmult_le_compat; [apply IZR_le; lia|apply bpow_ge_0|apply IZR_le; apply D|apply bpow_le; lia].
  - apply Z.eqb_neq in H. assert (dg <= 24)%Z by lia. assert (e = -149)%Z by lia. subst e. unfold F2R. cbn [Fnum Fexp]. apply Rlt_le_trans with (IZR (2 ^ 23) * bpow radix2 (-149)).
    + apply Rmult_lt_compat_r; [apply bpow_gt_0|]. apply IZR_lt. apply Z.lt_le_trans with (1 := proj2 D). apply (Z.pow_le_mono_r 2); lia.
    + change (IZR (2 ^ 23)) with (bpow radix2 23). rewrite <- bpow_plus. apply Rle_refl.
Qed.

Lemma ulp_mono x y : 0 <= x <= y -> ulp radix2 (SpecFloat.fexp 24 128) x <= ulp radix2 (SpecFloat.fexp 24 128) y.
Proof. intros H. apply ulp_le; [apply fexp_correct; reflexivity|apply FLT_exp_monotone|]. rewrite !Rabs_pos_eq; lra. Qed.
Lemma rnd_error x : Rabs (rnd x - x) <= / 2 * ulp radix2 (SpecFloat.fexp 24 128) (rnd x).
Proof. apply error_le_half_ulp_round; [apply fexp_correct; reflexivity|apply FLT_exp_monotone]. Qed.
Lemma ulp_small x : 1 <= x -> ulp radix2 (SpecFloat.fexp 24 128) x <= x * bpow radix2 (-23).
Proof.
  intros H. assert (Q := ulp_FLT_le radix2 (-149) 24 x). rewrite (Rabs_pos_eq x) in Q by lra. apply Q. apply Rle_trans with 1; [|exact H]. change 1 with (bpow radix2 0). apply bpow_le. lia.
Qed.

Section S.
Variables expf tanhf : f32 -> f32.
Let N := Num32 expf tanhf.
Lemma fmt_le_nat k x : (Z.of_nat k <= 2 ^ 24)%Z -> x <= INR k -> rnd x <= INR k.
Proof. intros H Hx. apply rnd_le_fmt; [now apply fmt_nat|exact Hx]. Qed.
(* the running sum of floats between 0 and 1 *)
Lemma sum_exp (vs : list f32) : forall er (s : f32) sr k, Forall2 (fun v e => fin32 (expf v) e /\ 0 <= e <= 1) vs er -> fin32 s sr -> 0 <= sr <= INR k -> (Z.of_nat (k + List.length vs) <= 2 ^ 24)%Z ->
  exists T, fin32 (fold_left (fun s v => @fadd N s (@fexp N v)) vs s) T /\ sr <= T <= INR (k + List.length vs) /\ Forall (fun e => e <= T) er /\
    Rabs (T - (sr + Rsum er)) <= INR (List.length vs) * (/ 2 * ulp radix2 (SpecFloat.fexp 24 128) T).
Proof.
  induction vs as [|v vs IH]; intros er s sr k HF Hs Hk Hn; inversion HF as [|? e ? er' [He Hr] HF']; subst; cbn [fold_left List.length Rsum] in *.
  - exists sr. rewrite Nat.add_0_r. split; [exact Hs|]. split; [lra|]. split; [constructor|]. rewrite Rplus_0_r, Rminus_diag_eq, Rabs_R0 by reflexivity. cbn. lra.
  - assert (Fs := fin32_format _ _ Hs). assert (Fe := fin32_format _ _ He).
    assert (B : sr <= rnd (sr + e) <= INR (S k)). { split; [apply rnd_ge_fmt; [exact Fs|lra]|]. apply fmt_le_nat; [lia|]. rewrite S_INR. lra. }
    assert (Be : e <= rnd (sr + e)) by (apply rnd_ge_fmt; [exact Fe|lra]).
    assert (A : fin32 (@fadd N s (@fexp N v)) (rnd (sr + e))).
    { apply fin32_add; [exact Hs|exact He|]. apply (small _ (INR (S k))); [lra|]. apply Rle_trans with (IZR (2 ^ 24)); [apply inr_bound; lia|apply IZR_le; lia]. }
    destruct (IH er' _ _ (S k) HF' A) as (T & HT & BT & HA & HE); [lra|lia|]. exists T. split; [exact HT|]. rewrite Nat.add_succ_r, <- Nat.add_succ_l. split; [lra|]. split; [constructor; [lra|exact HA]|].
    assert (U := rnd_error (sr + e)). assert (V := ulp_mono (rnd (sr + e)) T ltac:(lra)). rewrite S_INR.
    replace (T - (sr + (e + Rsum er'))) with ((T - (rnd (sr + e) + Rsum er')) + (rnd (sr + e) - (sr + e))) by ring. eapply Rle_trans; [apply Rabs_triang|]. lra.
Qed.
(* the largest output *)
Lemma max32 (vs : list f32) : forall vr x a, Forall2 fin32 vs vr -> fin32 x a -> exists m, fin32 (fold_left (@fmax N) vs x) m /\ (m = a \/ In m vr) /\ a <= m /\ Forall (fun b => b <= m) vr.
Proof.
  induction vs as [|v vs IH]; intros vr x a HF Hx; inversion HF as [|? b ? vr' Hv HF']; subst; cbn [fold_left].
  - exists a. split; [exact Hx|]. split; [now left|]. split; [lra|constructor].
  - assert (Hm : exists c, fin32 (@fmax N x v) c /\ (c = a \/ c = b) /\ a <= c /\ b <= c).
    { unfold fmax. assert (L : @fltb N x v = Rlt_bool a b) by (exact (fin32_lt expf tanhf _ _ _ _ Hx Hv)). rewrite L. destruct (Rlt_bool_spec a b); [exists b|exists a]; (split; [assumption|]); (split; [auto|]); lra. }
    destruct Hm as (c & Hc & Ec & Ca & Cb). destruct (IH vr' _ c HF' Hc) as (m & Hm & Em & Bm & HA). exists m. split; [exact Hm|]. split; [|split; [lra|constructor; [lra|exact HA]]].
    destruct Em as [->|Em]; [|right; now right]. destruct Ec as [->| ->]; [now left|right; now left].
Qed.
(* numbers that are not normal are replaced by 0 *)
Definition flush (r : R) : R := if Rlt_bool (Rabs r) (bpow radix2 (-126)) then 0 else r.
Lemma flush32 x r : fin32 x r -> fin32 (if f32_normal x then x else @fzero N) (flush r).
Proof.
  intros H. destruct (normal_cases x r H) as [A B]. unfold flush. destruct (f32_normal x).
  - destruct (Rlt_bool_spec (Rabs r) (bpow radix2 (-126))); [|exact H]. destruct A as [A|A]; [reflexivity| |lra]. now rewrite <- A.
  - rewrite Rlt_bool_true by auto. apply (fin32_fofZ expf tanhf 0). lia.
Qed.
Lemma flush_mono a b : 0 <= a <= b -> flush a <= flush b.
Proof. intros H. unfold flush. rewrite !Rabs_pos_eq by lra. destruct (Rlt_bool_spec a (bpow radix2 (-126))), (Rlt_bool_spec b (bpow radix2 (-126))); lra. Qed.
Lemma flush_range a : 0 <= a -> 0 <= flush a <= a.
Proof. intros H. unfold flush. destruct (Rlt_bool_spec (Rabs a) (bpow radix2 (-126))); lra. Qed.
Lemma flush_error a : 0 <= a -> Rabs (flush a - a) <= bpow radix2 (-126).
Proof.
  intros H. unfold flush. rewrite (Rabs_pos_eq a) by lra. destruct (Rlt_bool_spec a (bpow radix2 (-126))); [rewrite Rabs_left1; lra|]. rewrite Rminus_diag_eq, Rabs_R0 by reflexivity. apply bpow_ge_0.
Qed.

Lemma sub_moderate v x a m : fin32 v a -> fin32 x m -> Rabs a <= bpow radix2 126 -> Rabs m <= bpow radix2 126 -> fin32 (@fsub N v x) (rnd (a - m)).
Proof.
  intros Hv Hx Ba Bm. apply fin32_sub; auto. apply (fin_abs_lt _ (bpow radix2 127)).
  - apply bpow_ge_0.
  - apply generic_format_bpow. unfold SpecFloat.fexp. cbn. lia.
  - apply bpow_lt. lia.
  - apply Rabs_le. apply Rabs_le_inv in Ba. apply Rabs_le_inv in Bm. replace (bpow radix2 127) with (2 * bpow radix2 126); [lra|]. change 2 with (bpow radix2 1). rewrite <- bpow_plus. reflexivity.
Qed.
Lemma rnd_nonpos x : x <= 0 -> rnd x <= 0.
Proof. intros H. apply rnd_le_fmt; [apply fmt_0|exact H]. Qed.
Lemma Rsum_scaled c l : Rsum (map (fun x => x / c) l) = Rsum l / c.
Proof. induction l as [|x t IH]; cbn; [unfold Rdiv; ring|]. rewrite IH. unfold Rdiv. ring. Qed.
Lemma Rsum_close (f g : R -> R) d l : (forall x, In x l -> Rabs (f x - g x) <= d) -> Rabs (Rsum (map f l) - Rsum (map g l)) <= INR (List.length l) * d.
Proof.
  induction l as [|x t IH]; intros H; cbn [map Rsum List.length]; [rewrite Rminus_diag_eq, Rabs_R0 by reflexivity; cbn; lra|]. rewrite S_INR.
  replace (f x + Rsum (map f t) - (g x + Rsum (map g t))) with ((f x - g x) + (Rsum (map f t) - Rsum (map g t))) by ring. eapply Rle_trans; [apply Rabs_triang|].
  assert (A := H x (or_introl eq_refl)). assert (B := IH (fun y Hy => H y (or_intror Hy))). lra.
Qed.
(* a quotient, flushed: within 2^-24 + 2^-126 *)
Lemma quotient_error q : 0 <= q <= 1 -> Rabs (flush (rnd q) - q) <= / 2 * bpow radix2 (-23) + bpow radix2 (-126).
Proof.
  intros H. assert (A : 0 <= rnd q <= 1) by (split; [apply rnd_ge_fmt; [apply fmt_0|lra]|apply rnd_le_fmt; [apply (int_format 1); lia|lra]]).
  replace (flush (rnd q) - q) with ((flush (rnd q) - rnd q) + (rnd q - q)) by ring. eapply Rle_trans; [apply Rabs_triang|]. assert (B := flush_error (rnd q) (proj1 A)). assert (C := rnd_error q). assert (D := ulp_mono (rnd q) 1 A). assert (E := ulp_small 1 (Rle_refl 1)). lra.
Qed.
Lemma nth2 {A B} (P : A -> B -> Prop) l l' i a b : Forall2 P l l' -> nth_error l i = Some a -> nth_error l' i = Some b -> P a b.
Proof. intros H. revert i. induction H; intros [|i] Ha Hb; cbn in *; try discriminate; [congruence|eauto]. Qed.

(* In binary32, with any such expf: every output is a float between 0 and 1, the sum is 1 up to n/2^23 (2^-126 per output for the numbers flushed to zero), a larger
   output never becomes the smaller one, and the largest output stays at least 2^-24. *)
Theorem C34_softmax_float_partial : sound_exp expf -> forall v values, v <> [] -> (Z.of_nat (List.length v) <= 2 ^ 24)%Z -> moderate v values ->
  exists w results, @computeSoftmax N v = Ok w /\ Forall2 fin32 w results /\ List.length w = List.length v /\
  (forall r, In r results -> 0 <= r <= 1) /\
  Rabs (Rsum results - 1) <= INR (List.length v) * (bpow radix2 (-23) + bpow radix2 (-126)) /\
  (forall i j a b a' b', nth_error values i = Some a -> nth_error values j = Some b -> nth_error results i = Some a' -> nth_error results j = Some b' -> a <= b -> a' <= b') /\
  (forall i a a', nth_error values i = Some a -> (forall b, In b values -> b <= a) -> nth_error results i = Some a' -> bpow radix2 (-24) <= a').
Proof.
  intros HE v values Hv Hn [HF HB]. destruct v as [|x t]; [congruence|]. inversion HF as [|? a0 ? vr' Hx HF' E1]; subst. 
  destruct (max32 t vr' x a0 HF' Hx) as (m & Hm & Im & Bm & HA). set (mx := fold_left (@fmax N) t x) in *.
  assert (Imv : In m (a0 :: vr')) by (destruct Im as [->|Im]; [now left|now right]). assert (Bmv : forall b, In b (a0 :: vr') -> b <= m). { intros b [<-|Hb]; [exact Bm|]. rewrite Forall_forall in HA. auto. }
  assert (Mm : Rabs m <= bpow radix2 126) by (rewrite Forall_forall in HB; auto).
  set (vs := x :: t) in *. set (vr := a0 :: vr') in *.
  (* the exponentials *)
  assert (Q : exists er, Forall2 (fun v e => fin32 (expf v) e /\ 0 <= e <= 1) (map (fun y => @fsub N y mx) vs) er /\ Forall2 (fun a e => exists y, fin32 y (rnd (a - m)) /\ fin32 (expf y) e) vr er).
  { clearbody vs vr mx. clear -HE HF HB Hm Mm Bmv. revert Bmv HB. induction HF as [|y a ys ar Hy _ IH]; intros Bmv HB; [exists []; split; constructor|]. inversion HB as [|? ? B1 B2]; subst.
    destruct IH as (er & I1 & I2); auto. { intros b Hb. apply Bmv. now right. }
    assert (D := sub_moderate y mx a m Hy Hm B1 Mm). destruct (exp_range _ HE _ _ D) as (e & He & Re). { apply rnd_nonpos. assert (a <= m) by (apply Bmv; now left). lra. }
    exists (e :: er). split; constructor; auto. exists (@fsub N y mx). auto. }
  destruct Q as (er & Q1 & Q2).
  destruct (sum_exp _ er (@fzero N) 0 0 Q1 (fin32_fofZ expf tanhf 0 ltac:(lia))) as (T & HT & BT & HAT & HET); [cbn; lra|rewrite map_length; exact Hn|]. rewrite map_length in *.
  assert (M1 : exists i, nth_error vr i = Some m) by (now apply In_nth_error). destruct M1 as (im & Him).
  assert (one : forall i e, nth_error vr i = Some m -> nth_error er i = Some e -> e = 1).
  { intros i e H1 H2. destruct (nth2 _ _ _ _ _ _ Q2 H1 H2) as (y & Y1 & Y2). rewrite Rminus_diag_eq, round_0 in Y1 by (auto; apply valid_rnd_round_mode). apply (exp_zero _ HE) in Y1.
    destruct Y1 as (b1 & Eb1 & _ & R1), Y2 as (b2 & Eb2 & _ & R2). rewrite <- R1, <- R2. f_equal. apply B2SF_inj. congruence. }
  assert (Lr : List.length er = List.length vs). { clear -Q1. apply Forall2_len in Q1. now rewrite map_length in Q1. }
  assert (T1 : 1 <= T).
  { destruct (nth_error er im) as [e|] eqn:Ee. - rewrite <- (one im e Him Ee). rewrite Forall_forall in HAT. apply HAT. eapply nth_error_In; eauto. - apply nth_error_None in Ee. assert (im < List.length vr)%nat by (apply nth_error_Some; congruence). apply Forall2_len in HF. lia. }
  cbn [Nat.add] in BT, HET.
  exists (map (fun y => let r := @fdiv N (@fexp N y) (fold_left (fun s v => @fadd N s (@fexp N v)) (map (fun y => @fsub N y mx) vs) (@fzero N)) in if @fnormal N r then r else @fzero N) (map (fun y => @fsub N y mx) vs)), (map (fun e => flush (rnd (e / T))) er).
  split; [reflexivity|]. assert (QR : forall e, In e er -> 0 <= e <= 1 /\ 0 <= e / T <= 1).
  { intros e He. assert (0 <= e <= 1). { clear -Q1 He. induction Q1 as [|? ? ? ? [_ H] _ IH]; [destruct He|]; destruct He as [<-|He]; auto. } split; [assumption|]. rewrite Forall_forall in HAT. specialize (HAT e He). split; [apply Rmult_le_pos; [lra|left; apply Rinv_0_lt_compat; lra]|].
    apply (Rmult_le_reg_r T); [lra|]. unfold Rdiv. rewrite Rmult_assoc, Rinv_l by lra. lra. }
  split; [|split; [|split; [|split; [|split]]]].
  - revert HT. generalize (fold_left (fun s v => @fadd N s (@fexp N v)) (map (fun y => @fsub N y mx) vs) (@fzero N)). intros sm HT'. clear -Q1 HT' T1 QR. induction Q1 as [|y e ys es [He Re] _ IH]; [constructor|]. cbn [map]. constructor; [|apply IH; intros; apply QR; now right].
    destruct (QR e (or_introl eq_refl)) as [_ Rq]. cbv zeta. change (@fnormal N) with f32_normal. apply flush32. apply fin32_div; [exact He|exact HT'|lra|]. apply (small _ 1); [|apply IZR_le; lia]. split; [apply rnd_ge_fmt; [apply fmt_0|lra]|apply rnd_le_fmt; [apply (int_format 1); lia|lra]].
  - now rewrite !map_length.
  - intros r Hr. apply in_map_iff in Hr as (e & <- & He). destruct (QR e He) as [_ Rq]. assert (A : 0 <= rnd (e / T) <= 1) by (split; [apply rnd_ge_fmt; [apply fmt_0|lra]|apply rnd_le_fmt; [apply (int_format 1); lia|lra]]).
    assert (B := flush_range _ (proj1 A)). lra.
  - assert (A := Rsum_close (fun e => flush (rnd (e / T))) (fun e => e / T) _ er (fun e He => quotient_error _ (proj2 (QR e He)))). rewrite Rsum_scaled, Lr in A. rewrite Rplus_0_l in HET.
    assert (U := ulp_small T T1).
    assert (B : Rabs (Rsum er / T - 1) <= INR (List.length vs) * (/ 2 * bpow radix2 (-23))).
    { replace (Rsum er / T - 1) with (- ((T - Rsum er) / T)) by (field; lra). rewrite Rabs_Ropp. unfold Rdiv. rewrite Rabs_mult, (Rabs_pos_eq (/ T)) by (left; apply Rinv_0_lt_compat; lra). apply (Rmult_le_reg_r T); [lra|]. rewrite Rmult_assoc, Rinv_l, Rmult_1_r by lra.
      eapply Rle_trans; [exact HET|]. assert (PI : 0 <= INR (List.length vs)) by apply pos_INR. rewrite Rmult_assoc. apply Rmult_le_compat_l; [exact PI|]. lra. }
    replace (Rsum (map (fun e => flush (rnd (e / T))) er) - 1) with ((Rsum (map (fun e => flush (rnd (e / T))) er) - Rsum er / T) + (Rsum er / T - 1)) by ring. eapply Rle_trans; [apply Rabs_triang|]. lra.
  - intros i j a b a' b' Hi Hj Hi' Hj' Hab. rewrite nth_error_map in Hi', Hj'. destruct (nth_error er i) as [e|] eqn:Ei; [|discriminate]. destruct (nth_error er j) as [f|] eqn:Ej; [|discriminate]. injection Hi' as <-. injection Hj' as <-.
    destruct (nth2 _ _ _ _ _ _ Q2 Hi Ei) as (y & Y1 & Y2). destruct (nth2 _ _ _ _ _ _ Q2 Hj Ej) as (z & Z1 & Z2). assert (Hbm : b <= m) by (apply Bmv; eapply nth_error_In; eauto).
    assert (G : e <= f) by (apply (exp_grows _ HE y z _ _ _ _ Y1 Z1); auto; [apply rnd_mono; lra|apply rnd_nonpos; lra]).
    destruct (QR e (nth_error_In _ _ Ei)) as [_ Re]. apply flush_mono. split; [apply rnd_ge_fmt; [apply fmt_0|lra]|]. apply rnd_mono. apply Rmult_le_compat_r; [left; apply Rinv_0_lt_compat; lra|exact G].
  - intros i a a' Hi Ha Hi'. rewrite nth_error_map in Hi'. destruct (nth_error er i) as [e|] eqn:Ei; [|discriminate]. injection Hi' as <-.
    assert (a = m). { apply Rle_antisym; [apply Bmv; eapply nth_error_In; eauto|apply Ha; exact Imv]. } subst a. rewrite (one i e Hi Ei) in *.
    assert (A : bpow radix2 (-24) <= rnd (1 / T)).
    { apply rnd_ge_fmt; [apply generic_format_bpow; unfold SpecFloat.fexp; cbn; lia|]. apply (Rmult_le_reg_r T); [lra|]. unfold Rdiv. rewrite Rmult_assoc, Rinv_l, Rmult_1_r by lra.
      apply Rle_trans with (bpow radix2 (-24) * IZR (2 ^ 24)); [apply Rmult_le_compat_l; [apply bpow_ge_0|]|change (IZR (2 ^ 24)) with (bpow radix2 24); rewrite <- bpow_plus; apply Rle_refl].
      apply Rle_trans with (INR (List.length vs)); [exact (proj2 BT)|]. apply inr_bound; exact Hn. }
    unfold flush. rewrite Rlt_bool_false; [exact A|]. rewrite Rabs_pos_eq; [|apply Rle_trans with (2 := A); apply bpow_ge_0]. apply Rle_trans with (2 := A). apply bpow_le. lia.
Qed.
End S.
Print Assumptions C34_softmax_float_partial.

(* Every correctly rounded expf is sound, whatever it answers above 0. *)
Lemma correctly_rounded expf : (forall x r, fin32 x r -> r <= 0 -> fin32 (expf x) (rnd (exp r))) -> sound_exp expf.
Proof.
  intros H. assert (one : forall x y a b, fin32 x a -> fin32 y b -> x = y -> a = b).
  { intros x y a b (b1 & E1 & _ & <-) (b2 & E2 & _ & <-) E. f_equal. apply B2SF_inj. congruence. }
  assert (R : forall r, r <= 0 -> 0 <= rnd (exp r) <= 1).
  { intros r Hr. assert (P := exp_pos r). assert (exp r <= 1). { rewrite <- exp_0. destruct Hr as [Hr| ->]; [left; now apply exp_increasing|lra]. } split; [apply rnd_ge_fmt; [apply fmt_0|lra]|apply rnd_le_fmt; [apply (int_format 1); lia|lra]]. }
  split.
  - intros x r Hx Hr. exists (rnd (exp r)). auto.
  - intros x Hx. assert (Q := H x 0 Hx (Rle_refl 0)). rewrite exp_0, (rnd_int 1) in Q by lia. exact Q.
  - intros x y a b ea eb Hx Hy Hab Hb Ha' Hb'. rewrite (one _ _ _ _ Ha' (H x a Hx ltac:(lra)) eq_refl), (one _ _ _ _ Hb' (H y b Hy Hb) eq_refl). apply rnd_mono. destruct Hab as [Hab| ->]; [left; now apply exp_increasing|lra].
Qed.
(* the hypotheses are met: a coarse expf (1 at 0, 0 below) *)
Definition coarse (x : f32) : f32 := match x with S754_zero _ => f32_of_Z 1 | _ => f32_of_Z 0 end.
Lemma coarse_value x r : fin32 x r -> fin32 (coarse x) (if Req_EM_T r 0 then 1 else 0).
Proof.
  intros (b & <- & Fb & <-). destruct b as [s|s| |s m e Hb]; try discriminate; cbn [B2SF coarse B2R].
  - destruct (Req_EM_T 0 0); [|congruence]. apply (fin32_of_Z 1). lia.
  - destruct (Req_EM_T _ 0) as [E|_]; [|apply (fin32_of_Z 0); lia]. apply eq_0_F2R in E. destruct s; discriminate.
Qed.
Example C34_float_hypotheses_met : sound_exp coarse /\ moderate [f32_of_Z (-3); f32_of_Z 2] [IZR (-3); IZR 2].
Proof.
  assert (one : forall x a b, fin32 x a -> fin32 x b -> a = b). { intros x a b (b1 & E1 & _ & <-) (b2 & E2 & _ & <-). f_equal. apply B2SF_inj. congruence. }
  split.
  - split.
    + intros x r H _. exists (if Req_EM_T r 0 then 1 else 0). split; [now apply coarse_value|]. destruct (Req_EM_T r 0); lra.
    + intros x H. apply coarse_value in H. destruct (Req_EM_T 0 0); [exact H|congruence].
    + intros x y a b ea eb Hx Hy Hab Hb Ha' Hb'. rewrite (one _ _ _ Ha' (coarse_value _ _ Hx)), (one _ _ _ Hb' (coarse_value _ _ Hy)). destruct (Req_EM_T a 0), (Req_EM_T b 0); lra.
  - split; [repeat constructor; apply fin32_of_Z; lia|]. constructor; [|constructor; [|constructor]]; rewrite <- abs_IZR; change (bpow radix2 126) with (IZR (2 ^ 126)); apply IZR_le; lia.
Qed.

(* What rounding breaks. With any expf answering 1 for the negative float nearest to 0 (as every accurate one does), an output larger than the other becomes its equal,
   and the class announced changes. *)
Definition tiny : f32 := S754_finite true 1 (-149).
Theorem C34_order_float_refuted : forall expf tanhf, fin32 (expf tiny) 1 -> fin32 (expf (S754_zero false)) 1 ->
  let N := Num32 expf tanhf in exists h, fin32 h (/ 2) /\ @fltb N tiny (S754_zero false) = true /\ @computeSoftmax N [tiny; S754_zero false] = Ok [h; h] /\
  @clusterOf N [tiny; S754_zero false] = 1%Z /\ @clusterOf N [h; h] = 0%Z.
Proof.
  intros expf tanhf H1 H2 N. assert (E1 : expf tiny = f32_of_Z 1) by (apply (fin32_unique _ _ 1); [exact H1|apply (fin32_of_Z 1); lia|lra]). assert (E2 : expf (S754_zero false) = f32_of_Z 1) by (apply (fin32_unique _ _ 1); [exact H2|apply (fin32_of_Z 1); lia|lra]).
  exists (@fdiv N (f32_of_Z 1) (f32_of_Z 2)). split.
  { assert (Q : fin32 (@fdiv N (f32_of_Z 1) (f32_of_Z 2)) (rnd (1 / 2))). { apply fin32_div; [apply (fin32_of_Z 1); lia|apply (fin32_of_Z 2); lia|lra|]. apply (small _ 1); [|apply IZR_le; lia]. split; [apply rnd_ge_fmt; [apply fmt_0|lra]|apply rnd_le_fmt; [apply (int_format 1); lia|lra]]. }
    replace (/ 2) with (rnd (1 / 2)); [exact Q|]. replace (1 / 2) with (/ 2) by lra. apply round_generic; [apply valid_rnd_round_mode|]. replace (/ 2) with (INR 1 / 2) by (cbn; lra). apply fmt_half. lia. }
  split; [reflexivity|]. split; [|split; reflexivity].
  change (@computeSoftmax N [tiny; S754_zero false]) with (let s := @fadd N (@fadd N (@fzero N) (expf tiny)) (expf (S754_zero false)) in
    Ok (map (fun e => let r := @fdiv N e s in if f32_normal r then r else @fzero N) [expf tiny; expf (S754_zero false)])). rewrite E1, E2. reflexivity.
Qed.
Print Assumptions C34_order_float_refuted.
(* Adding the same number to both outputs does change the answer: 0 and 1 give different probabilities, 2^25 and 2^25 + 1 the same ones. *)
Theorem C34_shift_float_refuted : forall expf tanhf e, fin32 (expf (f32_of_Z (-1))) e -> 0 <= e <= / 2 -> fin32 (expf (S754_zero false)) 1 ->
  let N := Num32 expf tanhf in exists a b ra rb h, @computeSoftmax N [f32_of_Z 0; f32_of_Z 1] = Ok [a; b] /\ fin32 a ra /\ fin32 b rb /\ ra < rb /\
  @computeSoftmax N (map (fun x => @fadd N x (f32_of_Z (2 ^ 25))) [f32_of_Z 0; f32_of_Z 1]) = Ok [h; h].
Proof.
  intros expf tanhf e He Be H2 N. assert (E2 : expf (S754_zero false) = f32_of_Z 1) by (apply (fin32_unique _ _ 1); [exact H2|apply (fin32_of_Z 1); lia|lra]).
  assert (F1 : fin32 (f32_of_Z 1) 1) by (apply (fin32_of_Z 1); lia). set (em := expf (f32_of_Z (-1))) in *.
  assert (h2 : fmt (/ 2)) by (replace (/ 2) with (INR 1 / 2) by (cbn; lra); apply fmt_half; lia). assert (h3 : fmt (3 / 2)) by (replace (3 / 2) with (INR 3 / 2) by (cbn; lra); apply fmt_half; lia).
  assert (h5 : fmt (5 / 8)). { replace (5 / 8) with (F2R (Float radix2 5 (-3))); [apply fmt_float; lia|]. unfold F2R. cbn [Fnum Fexp]. change (bpow radix2 (-3)) with (/ 8). lra. }
  assert (A0 : fin32 (@fadd N (@fzero N) em) e).
  { replace e with (rnd (0 + e)) at 1; [|rewrite Rplus_0_l; apply round_generic; [apply valid_rnd_round_mode|eapply fin32_format; eauto]]. apply fin32_add; [apply (fin32_fofZ expf tanhf 0); lia|exact He|]. rewrite Rplus_0_l. apply (small _ 1); [|apply IZR_le; lia]. split; [apply rnd_ge_fmt; [apply fmt_0|lra]|apply rnd_le_fmt; [apply (int_format 1); lia|lra]]. }
  assert (B : 1 <= rnd (e + 1) <= 3 / 2) by (split; [apply rnd_ge_fmt; [apply (int_format 1); lia|lra]|apply rnd_le_fmt; [exact h3|lra]]).
  assert (A : fin32 (@fadd N (@fadd N (@fzero N) em) (f32_of_Z 1)) (rnd (e + 1))) by (apply fin32_add; auto; apply (small _ (3 / 2)); [lra|apply Rle_trans with 2; [lra|apply IZR_le; lia]]).
  set (T := rnd (e + 1)) in *. assert (I : / T <= 1). { rewrite <- Rinv_1. apply Rinv_le_contravar; lra. } assert (I2 : 2 / 3 <= / T). { replace (2 / 3) with (/ (3 / 2)) by field. apply Rinv_le_contravar; lra. }
  assert (Qa : 0 <= rnd (e / T) <= / 2). { split; [apply rnd_ge_fmt; [apply fmt_0|apply Rmult_le_pos; lra]|apply rnd_le_fmt; [exact h2|]]. unfold Rdiv. nra. }
  assert (Qb : 5 / 8 <= rnd (1 / T) <= 1). { unfold Rdiv at 2 3. rewrite !Rmult_1_l. split; [apply rnd_ge_fmt; [exact h5|lra]|apply rnd_le_fmt; [apply (int_format 1); lia|lra]]. }
  assert (Fa : fin32 (@fdiv N em (@fadd N (@fadd N (@fzero N) em) (f32_of_Z 1))) (rnd (e / T))) by (apply fin32_div; auto; [lra|]; apply (small _ 1); [lra|apply IZR_le; lia]).
  assert (Fb : fin32 (@fdiv N (f32_of_Z 1) (@fadd N (@fadd N (@fzero N) em) (f32_of_Z 1))) (rnd (1 / T))) by (apply fin32_div; auto; [lra|]; apply (small _ 1); [lra|apply IZR_le; lia]).
  assert (La := flush32 expf tanhf _ _ Fa). assert (Lb := flush32 expf tanhf _ _ Fb).
  eexists _, _, _, _, _. split; [|split; [exact La|split; [exact Lb|split]]].
  - change (@computeSoftmax N [f32_of_Z 0; f32_of_Z 1]) with (let s := @fadd N (@fadd N (@fzero N) em) (expf (S754_zero false)) in
    Ok (map (fun e => let r := @fdiv N e s in if f32_normal r then r else @fzero N) [em; expf (S754_zero false)])). rewrite E2. reflexivity.
  - assert (G := flush_range (rnd (e / T)) (proj1 Qa)). unfold flush at 2. rewrite Rlt_bool_false; [lra|]. rewrite Rabs_pos_eq by lra. apply Rle_trans with (/ 2); [|lra]. change (/ 2) with (bpow radix2 (-1)). apply bpow_le. lia.
  - change (@computeSoftmax N (map (fun x => @fadd N x (f32_of_Z (2 ^ 25))) [f32_of_Z 0; f32_of_Z 1])) with (let s := @fadd N (@fadd N (@fzero N) (expf (S754_zero false))) (expf (S754_zero false)) in
    Ok (map (fun e => let r := @fdiv N e s in if f32_normal r then r else @fzero N) [expf (S754_zero false); expf (S754_zero false)])). reflexivity.
Qed.
Print Assumptions C34_shift_float_refuted.
