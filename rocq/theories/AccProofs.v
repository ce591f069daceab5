(* C71: rounding errors of sums and of activation functions. *)
From Coq Require Import Reals Lra Lia.
From Flocq Require Import Core.Core IEEE754.BinarySingleNaN Relative.
From Coquelicot Require Import Coquelicot.
From Verif Require Import Base Num NumOrder ActModel ActProofs NeuronModel LayerModel NetModel Float32 StatReal F1Spec F1Float SoftProps FiniteSpec FiniteProofs FiniteLayers AccSpec.
Local Open Scope R_scope.
Local Open Scope outcome_scope.

Lemma u24_pos : 0 < u24. Proof. apply bpow_gt_0. Qed.
Lemma tiny_pos : 0 < tiny. Proof. apply bpow_gt_0. Qed.
Lemma rnd_rel v : Rabs (rnd v - v) <= Rabs v * u24 + tiny.
Proof.
  destruct (error_N_FLT radix2 (-149) 24 ltac:(lia) (fun z => negb (Z.even z)) v) as (eps & eta & He & Ht & _ & E).
  change (rnd v = v * (1 + eps) + eta) in E. rewrite E. replace (v * (1 + eps) + eta - v) with (v * eps + eta) by ring. eapply Rle_trans; [apply Rabs_triang|]. rewrite Rabs_mult.
  apply Rplus_le_compat.
  - apply Rmult_le_compat_l; [apply Rabs_pos|]. eapply Rle_trans; [exact He|]. unfold u24. change (/ 2) with (bpow radix2 (-1)). rewrite <- bpow_plus. apply Rle_refl.
  - eapply Rle_trans; [exact Ht|]. unfold tiny. change (/ 2) with (bpow radix2 (-1)). rewrite <- bpow_plus. apply Rle_refl.
Qed.
Lemma u24_small : u24 <= / 1000. Proof. unfold u24. cbn. lra. Qed.
Lemma tiny_u24 : tiny <= u24 * / 1000.
Proof. unfold u24, tiny. replace (-150)%Z with (-24 + -126)%Z by lia. rewrite bpow_plus. apply Rmult_le_compat_l; [apply bpow_ge_0|]. apply Rle_trans with (bpow radix2 (-10)); [apply bpow_le; lia|cbn; lra]. Qed.
Lemma not_inf v : Rabs v <= bpow radix2 126 -> Rabs (rnd v) < bpow radix2 128.
Proof.
  intros H. apply Rle_lt_trans with (bpow radix2 126); [|apply bpow_lt; lia]. apply rnd_bound; [apply fmt_bpow; lia|exact H].
Qed.
(* a sum of products *)
Definition dot (x w : list R) : R := Rsum (map (fun p => fst p * snd p) (combine x w)).
Definition adot (x w : list R) : R := Rsum (map (fun p => Rabs (fst p * snd p)) (combine x w)).
Lemma adot_pos x w : 0 <= adot x w.
Proof. unfold adot. induction (combine x w) as [|p l IH]; cbn [map Rsum fold_right]; [lra|]. assert (A := Rabs_pos (fst p * snd p)). unfold Rsum in IH. lra. Qed.
Section F.
Variables expf tanhf : f32 -> f32.
Notation N := (Num32 expf tanhf).
Lemma mul_add_acc T c s v S0 x a xr ar : fin32 s v -> fin32 x xr -> fin32 a ar -> 0 <= T <= bpow radix2 121 -> (Z.of_nat c < 2 ^ 22)%Z -> Rabs (v - S0) <= sum_error c T -> Rabs S0 <= T -> Rabs (S0 + xr * ar) <= T -> Rabs (xr * ar) <= T ->
  exists v', fin32 (@fadd N s (@fmul N x a)) v' /\ Rabs (v' - (S0 + xr * ar)) <= sum_error (S c) T.
Proof.
  intros Hs Hx Ha HT Hc HE HS HS' Hp. assert (Up := u24_pos). assert (Tp := tiny_pos). assert (R1 := rnd_rel (xr * ar)). assert (TU := tiny_u24). assert (US := u24_small).
  assert (B121 : bpow radix2 126 = 32 * bpow radix2 121) by (change 126%Z with (5 + 121)%Z; rewrite bpow_plus; reflexivity). assert (B1 : 1 <= bpow radix2 121) by (apply (bpow_le radix2 0 121); lia).
  set (Q := T * u24 + tiny). assert (HQ : 0 < Q) by (unfold Q; nra). assert (Hpe : Rabs (rnd (xr * ar) - xr * ar) <= Q) by (unfold Q; nra).
  assert (Pm : fin32 (@fmul N x a) (rnd (xr * ar))) by (apply fin32_mul; auto; apply not_inf; lra).
  assert (Cu : (3 * INR c + 1) * u24 <= 1).
  { rewrite INR_IZR_INZ. assert (IZR (Z.of_nat c) <= IZR (2 ^ 22 - 1)) by (apply IZR_le; lia). unfold u24. change (IZR (2 ^ 22 - 1)) with 4194303 in *. cbn. lra. }
  unfold sum_error in *. fold Q in HE |- *. assert (Hz : Rabs (v + rnd (xr * ar) - (S0 + xr * ar)) <= 3 * INR c * Q + Q).
  { replace (v + rnd (xr * ar) - (S0 + xr * ar)) with ((v - S0) + (rnd (xr * ar) - xr * ar)) by ring. eapply Rle_trans; [apply Rabs_triang|]. lra. }
  assert (Qs : (3 * INR c + 1) * Q <= T + / 1000). { unfold Q. assert ((3 * INR c + 1) * (T * u24 + tiny) <= (3 * INR c + 1) * u24 * (T + / 1000)); [|nra]. assert (0 <= INR c) by apply pos_INR. assert (T * u24 + tiny <= u24 * (T + / 1000)) by nra. rewrite Rmult_assoc. apply Rmult_le_compat_l; lra. }
  set (z := v + rnd (xr * ar)) in *. assert (Az : Rabs z <= 2 * T + / 1000). { replace z with ((z - (S0 + xr * ar)) + (S0 + xr * ar)) by ring. eapply Rle_trans; [apply Rabs_triang|]. lra. }
  exists (rnd z). split; [apply (fin32_add expf tanhf); [exact Hs|exact Pm|]; apply not_inf; change (Rabs z <= bpow radix2 126); lra|]. replace (rnd z - (S0 + xr * ar)) with ((rnd z - z) + (z - (S0 + xr * ar))) by ring. eapply Rle_trans; [apply Rabs_triang|].
  assert (R2 := rnd_rel z). rewrite S_INR. assert (Hu : Rabs z * u24 <= T * u24 + Q).
  { assert (Rabs z <= T + (3 * INR c + 1) * Q). { replace z with ((z - (S0 + xr * ar)) + (S0 + xr * ar)) by ring. eapply Rle_trans; [apply Rabs_triang|]. lra. } assert ((3 * INR c + 1) * Q * u24 <= Q) by nra. nra. }
  unfold Q in *. lra.
Qed.
Lemma fold_acc T : 0 <= T <= bpow radix2 121 -> forall x xs a ws c s v S0, Forall2 fin32 x xs -> Forall2 fin32 a ws -> fin32 s v -> (Z.of_nat (c + List.length x) <= 2 ^ 22)%Z -> Rabs (v - S0) <= sum_error c T -> Rabs S0 + adot xs ws <= T ->
  exists v', fin32 (fold_left (fun t p => @fadd N t (@fmul N (fst p) (snd p))) (combine x a) s) v' /\ Rabs (v' - (S0 + dot xs ws)) <= sum_error (c + List.length (combine x a)) T.
Proof.
  intros HT x xs a ws c s v S0 Hx. revert a ws c s v S0. induction Hx as [|y yr x xs Hy Hx IH]; intros a ws c s v S0 Ha Hs Hc HE HB.
  - cbn [combine fold_left List.length dot map Rsum fold_right]. unfold dot. cbn. exists v. rewrite Nat.add_0_r, Rplus_0_r. auto.
  - destruct Ha as [|b br a ws Hb Ha].
    + cbn [combine fold_left List.length]. unfold dot. cbn. exists v. rewrite Nat.add_0_r, Rplus_0_r. auto.
    + cbn [combine fold_left List.length fst snd] in *. assert (E1 : adot (yr :: xs) (br :: ws) = Rabs (yr * br) + adot xs ws) by reflexivity. assert (E2 : dot (yr :: xs) (br :: ws) = yr * br + dot xs ws) by reflexivity. rewrite E1 in HB. rewrite E2.
      assert (P := adot_pos xs ws). assert (A0 := Rabs_pos S0). assert (A1 := Rabs_pos (yr * br)). assert (A2 := Rabs_triang S0 (yr * br)).
      destruct (mul_add_acc T c s v S0 y b yr br Hs Hy Hb HT ltac:(lia) HE ltac:(lra) ltac:(lra) ltac:(lra)) as (v1 & F1 & G1).
      destruct (IH a ws (S c) _ v1 (S0 + yr * br) Ha F1 ltac:(lia) G1 ltac:(lra)) as (v' & F' & G'). exists v'. split; [exact F'|]. rewrite Nat.add_succ_r. replace (S0 + (yr * br + dot xs ws)) with (S0 + yr * br + dot xs ws) by ring. exact G'.
Qed.
End F.
(* the loop of [weighted] as a fold *)
Lemma weighted_fold_eq {M : Num} (x a : list (@F M)) : forall k s r, ofold (fun tmp w => let* p := lget x w in let* q := lget a w in Ok (fadd tmp (fmul p q))) (seq k (List.length x - k)) s = Ok r ->
  r = fold_left (fun t p => fadd t (fmul (fst p) (snd p))) (combine (skipn k x) (skipn k a)) s.
Proof.
  intros k. remember (List.length x - k)%nat as n eqn:En. revert k En. induction n as [|n IH]; intros k En s r H; cbn [seq ofold] in H.
  - injection H as <-. rewrite (skipn_all2 x) by lia. reflexivity.
  - apply bind_Ok_inv in H as (s1 & H1 & H). apply bind_Ok_inv in H1 as (p & Hp & H1). apply bind_Ok_inv in H1 as (q & Hq & H1). apply Ok_inj in H1. subst s1.
    unfold lget in Hp, Hq. destruct (nth_error x k) as [p'|] eqn:Ep; [|discriminate]. destruct (nth_error a k) as [q'|] eqn:Eq; [|discriminate]. apply Ok_inj in Hp, Hq. subst p' q'.
    assert (Sx : skipn k x = p :: skipn (S k) x). { clear -Ep. revert k Ep. induction x as [|b x IHx]; intros [|k] Ep; cbn in *; try discriminate; [congruence|]. now apply IHx. }
    assert (Sa : skipn k a = q :: skipn (S k) a). { clear -Eq. revert k Eq. induction a as [|b a IHa]; intros [|k] Eq; cbn in *; try discriminate; [congruence|]. now apply IHa. }
    rewrite Sx, Sa. cbn [combine fold_left fst snd]. apply IH; [lia|exact H].
Qed.
Lemma weighted_eq {M : Num} (x a : list (@F M)) r : weighted x a = Ok r -> r = fold_left (fun t p => fadd t (fmul (fst p) (snd p))) (combine x a) fzero.
Proof. intros H. apply (weighted_fold_eq x a 0 fzero r). unfold weighted in H. rewrite Nat.sub_0_r. exact H. Qed.
Lemma fold_dot (x w : list R) s : fold_left (fun t p => t + fst p * snd p) (combine x w) s = s + dot x w.
Proof. unfold dot. revert s. induction (combine x w) as [|p l IH]; intros s; cbn [fold_left map Rsum fold_right]; [unfold Rsum; cbn; ring|]. rewrite IH. unfold Rsum. cbn. ring. Qed.
Lemma dot_diff d (x X w : list R) : 0 <= d -> Forall2 (fun a b => Rabs (a - b) <= d) x X -> Rabs (dot x w - dot X w) <= Rsum (map Rabs (firstn (List.length x) w)) * d.
Proof.
  intros Hd H. revert w. induction H as [|a b x X Hab _ IH]; intros w; [unfold dot; cbn; rewrite Rminus_0_r, Rabs_R0; lra|]. destruct w as [|c w]; [unfold dot; cbn; rewrite Rminus_0_r, Rabs_R0; lra|].
  specialize (IH w). assert (E1 : dot (a :: x) (c :: w) = a * c + dot x w) by reflexivity. assert (E2 : dot (b :: X) (c :: w) = b * c + dot X w) by reflexivity. rewrite E1, E2. cbn [List.length firstn map Rsum fold_right]. fold (Rsum (map Rabs (firstn (List.length x) w))).
  replace (a * c + dot x w - (b * c + dot X w)) with ((a - b) * c + (dot x w - dot X w)) by ring. eapply Rle_trans; [apply Rabs_triang|]. rewrite Rabs_mult. assert (Rabs (a - b) * Rabs c <= d * Rabs c) by (apply Rmult_le_compat_r; [apply Rabs_pos|exact Hab]). lra.
Qed.
Lemma adot_le B (x w : list R) : 0 <= B -> Forall (fun a => Rabs a <= B) x -> adot x w <= Rsum (map Rabs (firstn (List.length x) w)) * B.
Proof.
  intros HB H. revert w. induction H as [|a x Ha _ IH]; intros w; [unfold adot; cbn; lra|]. destruct w as [|c w]; [unfold adot; cbn; lra|]. specialize (IH w). assert (E1 : adot (a :: x) (c :: w) = Rabs (a * c) + adot x w) by reflexivity. rewrite E1. cbn [List.length firstn map Rsum fold_right]. fold (Rsum (map Rabs (firstn (List.length x) w))).
  rewrite Rabs_mult. assert (Rabs a * Rabs c <= B * Rabs c) by (apply Rmult_le_compat_r; [apply Rabs_pos|exact Ha]). lra.
Qed.
Lemma sum_split (w : list R) i c : nth_error w i = Some c -> Rsum (map Rabs (firstn i w)) + Rabs c <= Rsum (map Rabs w).
Proof.
  revert i. assert (P : forall l, 0 <= Rsum (map Rabs l)). { induction l as [|a l IH]; [cbn; lra|]. cbn [map Rsum fold_right]. assert (A := Rabs_pos a). unfold Rsum in IH. lra. }
  induction w as [|a w IH]; intros [|i] H; cbn in H; try discriminate.
  - injection H as ->. specialize (P w). cbn. unfold Rsum in P. lra.
  - specialize (IH _ H). cbn [firstn map Rsum fold_right]. unfold Rsum in IH. lra.
Qed.

(* ---------- activation functions ---------- *)
Lemma tanh_lip a b : Rabs (tanh a - tanh b) <= Rabs (a - b).
Proof.
  destruct (MVT_gen tanh b a (fun x => 1 - tanh x * tanh x)) as (c & _ & E).
  - intros x _. apply tanh_derive.
  - intros x _. apply derivable_continuous_pt. exists (1 - tanh x * tanh x). apply is_derive_Reals. apply tanh_derive.
  - rewrite E, Rabs_mult. assert (B := tanh_bound c). assert (S1 := Rle_0_sqr (tanh c)). unfold Rsqr in S1. assert (S2 : 0 <= (1 - tanh c) * (1 + tanh c)) by (apply Rmult_le_pos; lra). assert (S3 : 0 <= 1 - tanh c * tanh c <= 1) by lra. rewrite (Rabs_pos_eq (1 - _)) by lra. assert (P := Rabs_pos (a - b)). rewrite <- (Rmult_1_l (Rabs (a - b))) at 2. apply Rmult_le_compat_r; lra.
Qed.
Lemma half_exact v : fmt v -> Rabs (rnd (v / 2) - v / 2) <= 2 * tiny.
Proof.
  intros Hf. assert (Tp := tiny_pos). apply FLT_format_generic in Hf; [|reflexivity]. destruct Hf as [[m e] Hv Hm He]. cbn [Fnum Fexp] in *. destruct (Z.le_gt_cases (-148) e) as [Hb|Hb].
  - assert (G : fmt (v / 2)). { apply generic_format_FLT. exists (Float radix2 m (e - 1)); cbn [Fnum Fexp]; [|exact Hm|change (-149 <= e - 1)%Z; lia]. rewrite Hv. unfold F2R. cbn [Fnum Fexp]. unfold Zminus. rewrite bpow_plus. change (bpow radix2 (Z.opp 1)) with (/ 2). field. }
    rewrite round_generic; [|typeclasses eauto|exact G]. rewrite Rminus_diag_eq by reflexivity. rewrite Rabs_R0. lra.
  - change (-149 <= e)%Z in He. assert (e = -149)%Z as -> by lia. eapply Rle_trans; [apply rnd_rel|]. enough (Rabs (v / 2) * u24 <= tiny) by lra. rewrite Hv. unfold F2R. cbn [Fnum Fexp]. unfold Rdiv. rewrite !Rabs_mult, <- abs_IZR. rewrite (Rabs_pos_eq (bpow _ _)) by apply bpow_ge_0. rewrite (Rabs_pos_eq (/ 2)) by lra.
    assert (IZR (Z.abs m) <= bpow radix2 24) by (change (bpow radix2 24) with (IZR (2 ^ 24)); apply IZR_le; cbn in Hm; lia). unfold u24, tiny. change (/ 2) with (bpow radix2 (-1)).
    apply Rle_trans with (bpow radix2 24 * bpow radix2 (-149) * bpow radix2 (-1) * bpow radix2 (-24)); [|rewrite <- !bpow_plus; apply bpow_le; lia]. apply Rmult_le_compat_r; [apply bpow_ge_0|]. apply Rmult_le_compat_r; [apply bpow_ge_0|]. apply Rmult_le_compat_r; [apply bpow_ge_0|assumption].
Qed.
Section A.
Variables expf tanhf : f32 -> f32.
Notation N := (Num32 expf tanhf).
Variable delta : R.
Hypothesis HA : accurate delta tanhf.
Lemma delta_pos : 0 <= delta.
Proof. destruct (HA (@fofZ N 0) 0 (fin32_fofZ expf tanhf 0 ltac:(lia))) as (t & _ & _ & B). eapply Rle_trans; [apply Rabs_pos|exact B]. Qed.
Lemma half32 x v : fin32 x v -> exists h, fin32 (@fdiv N x (@fofZ N 2)) h /\ Rabs (h - v / 2) <= 2 * tiny /\ Rabs h <= Rabs v.
Proof.
  intros H. assert (Hf := fin32_format _ _ H). assert (Hb := fin32_bound _ _ H). exists (rnd (v / 2)). assert (B : Rabs (rnd (v / 2)) <= Rabs v).
  { apply rnd_bound; [now apply generic_format_abs|]. unfold Rdiv. rewrite Rabs_mult, (Rabs_pos_eq (/ 2)) by lra. assert (P := Rabs_pos v). lra. }
  split; [|split; [now apply half_exact|exact B]]. apply fin32_div; [exact H|apply (fin32_fofZ expf tanhf 2); lia|lra|]. eapply Rle_lt_trans; [exact B|exact Hb].
Qed.
Lemma act_near a x v s d : plain_act a = true -> fin32 x v -> Rabs (v - s) <= d -> exists o, fin32 (@act N a x) o /\ Rabs (o - @act RNum a s) <= d + (delta + 3 * u24) /\ Rabs o <= (if flat_act a then 1 else Rabs v).
Proof.
  intros Hp Hx Hd. assert (Up := u24_pos). assert (Tp := tiny_pos). assert (TU := tiny_u24). assert (US := u24_small). assert (Dp := delta_pos). assert (D0 : 0 <= d) by (eapply Rle_trans; [apply Rabs_pos|exact Hd]). destruct a; try discriminate Hp.
  - (* sigmoid *) destruct (half32 x v Hx) as (h & Hh & Eh & _). destruct (HA _ _ Hh) as (t & Ht & Bt & Et).
    assert (Ea : @act RNum a_sigmoid s = (tanh (s / 2) + 1) / 2). { unfold act, fone. rewrite !RNum_fofZ. reflexivity. } rewrite Ea.
    change (exists o, fin32 (@fdiv N (@fadd N (tanhf (@fdiv N x (@fofZ N 2))) (@fone N)) (@fofZ N 2)) o /\ Rabs (o - (tanh (s / 2) + 1) / 2) <= d + (delta + 3 * u24) /\ Rabs o <= 1).
    assert (H1 : fin32 (@fone N) 1) by (apply (fin32_fofZ expf tanhf 1); lia). assert (B1 : Rabs (rnd (t + 1)) <= 2) by (apply rnd_bound; [apply (int_format 2); lia|apply Rabs_le; lra]).
    assert (F1 : fin32 (@fadd N (tanhf (@fdiv N x (@fofZ N 2))) (@fone N)) (rnd (t + 1))) by (apply fin32_add; auto; apply not_inf; eapply Rle_trans; [|apply (bpow_le radix2 1 126); lia]; change (bpow radix2 1) with 2; apply Rabs_le; lra).
    assert (Q : fin32 (@fdiv N (@fadd N (tanhf (@fdiv N x (@fofZ N 2))) (@fone N)) (@fofZ N 2)) (rnd (rnd (t + 1) / 2)) /\ Rabs (rnd (rnd (t + 1) / 2)) <= 1 /\ Rabs (rnd (rnd (t + 1) / 2) - rnd (t + 1) / 2) <= 2 * tiny).
    { assert (B2 : Rabs (rnd (rnd (t + 1) / 2)) <= 1). { apply rnd_bound; [apply (int_format 1); lia|]. unfold Rdiv. rewrite Rabs_mult, (Rabs_pos_eq (/ 2)) by lra. lra. }
      split; [|split; [exact B2|apply half_exact; apply (fin32_format _ _ F1)]]. apply fin32_div; [exact F1|apply (fin32_fofZ expf tanhf 2); lia|lra|]. eapply Rle_lt_trans; [exact B2|]. change 1 with (bpow radix2 0). apply bpow_lt. lia. }
    destruct Q as (F2 & B2 & E2). eexists. split; [exact F2|]. split; [|exact B2].
    assert (R1 := rnd_rel (t + 1)). assert (A1 : Rabs (t + 1) <= 2) by (apply Rabs_le; lra). assert (L1 := tanh_lip h (v / 2)). assert (L2 := tanh_lip (v / 2) (s / 2)). assert (A2 : Rabs (v / 2 - s / 2) <= d / 2). { replace (v / 2 - s / 2) with ((v - s) * / 2) by field. rewrite Rabs_mult, (Rabs_pos_eq (/ 2)) by lra. lra. }
    set (z := rnd (rnd (t + 1) / 2)) in *. replace (z - (tanh (s / 2) + 1) / 2) with ((z - rnd (t + 1) / 2) + / 2 * ((rnd (t + 1) - (t + 1)) + (t - tanh h) + (tanh h - tanh (v / 2)) + (tanh (v / 2) - tanh (s / 2)))) by field.
    eapply Rle_trans; [apply Rabs_triang|]. rewrite Rabs_mult, (Rabs_pos_eq (/ 2)) by lra. assert (G : forall a b c e, Rabs (a + b + c + e) <= Rabs a + Rabs b + Rabs c + Rabs e). { intros a b c e. eapply Rle_trans; [apply Rabs_triang|]. apply Rplus_le_compat_r. eapply Rle_trans; [apply Rabs_triang|]. apply Rplus_le_compat_r. apply Rabs_triang. }
    specialize (G (rnd (t + 1) - (t + 1)) (t - tanh h) (tanh h - tanh (v / 2)) (tanh (v / 2) - tanh (s / 2))). assert (Rabs (t + 1) * u24 <= 2 * u24) by nra. lra.
  - (* tanh *) destruct (HA _ _ Hx) as (t & Ht & Bt & Et). exists t. split; [exact Ht|]. split; [|cbn [flat_act]; apply Rabs_le; lra]. change (@act RNum a_tanh s) with (tanh s). replace (t - tanh s) with ((t - tanh v) + (tanh v - tanh s)) by ring. eapply Rle_trans; [apply Rabs_triang|]. assert (L := tanh_lip v s). lra.
  - (* ReLU *) assert (E : @fgtb N x (@fzero N) = Rlt_bool 0 v) by (apply (fin32_lt expf tanhf); [apply (fin32_fofZ expf tanhf 0); lia|exact Hx]). assert (Ea : @act RNum a_ReLU s = if Rltb 0 s then s else 0). { unfold act, fzero. rewrite !RNum_fofZ. reflexivity. } rewrite Ea. cbn [act flat_act]. rewrite E. destruct (Rlt_bool_spec 0 v) as [Hv|Hv].
    + exists v. split; [exact Hx|]. split; [|lra]. change (Rabs (v - (if Rltb 0 s then s else 0)) <= d + (delta + 3 * u24)). unfold Rltb. destruct (Rlt_dec 0 s); [lra|]. rewrite Rminus_0_r. apply Rle_trans with d; [|lra]. eapply Rle_trans; [|exact Hd]. rewrite !Rabs_pos_eq; lra.
    + exists 0. split; [apply (fin32_fofZ expf tanhf 0); lia|]. split; [|rewrite Rabs_R0; apply Rabs_pos]. change (Rabs (0 - (if Rltb 0 s then s else 0)) <= d + (delta + 3 * u24)). unfold Rltb. destruct (Rlt_dec 0 s); [|rewrite Rminus_0_r, Rabs_R0; lra]. apply Rle_trans with d; [|lra]. eapply Rle_trans; [|exact Hd]. rewrite !Rabs_left1; lra.
  - (* identity *) exists v. split; [exact Hx|]. split; [|cbn [flat_act]; lra]. change (@act RNum a_identity s) with s. lra.
Qed.
End A.
