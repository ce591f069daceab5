(* normalize in binary32 (C07). *)
From Coq Require Import Reals Lra Lia.
From Flocq Require Import Core.Core IEEE754.BinarySingleNaN Plus_error.
From Verif Require Import Base Num DataModel DataSpec DataProofs SeqProofs NormProofs Float32.
Local Open Scope R_scope.
#[local] Existing Instance Float32.Hprec32.
#[local] Existing Instance Float32.Hmax32.
Notation fmt32 := (generic_format radix2 (SpecFloat.fexp 24 128)).

(* [x] is a binary32 number of value [r], at most 2^126 in size (about 8.5e37) *)
Definition tame (x : f32) (r : R) : Prop := fin32 x r /\ Rabs r <= bpow radix2 126.

Lemma fmt_pow : fmt32 (bpow radix2 127).
Proof. apply generic_format_FLT. exists (Float radix2 1 127); [unfold F2R; cbn [Fnum Fexp]; ring|cbn; lia|cbn; lia]. Qed.
Lemma fmt_zero : fmt32 0. Proof. apply generic_format_0. Qed.
Lemma fmt_one : fmt32 1. Proof. apply (int_format 1). lia. Qed.
Lemma pow127 : bpow radix2 127 = 2 * bpow radix2 126.
Proof. change 127%Z with (1 + 126)%Z. rewrite bpow_plus. reflexivity. Qed.
Lemma pow128 : bpow radix2 127 < bpow radix2 128. Proof. apply bpow_lt. lia. Qed.
Lemma in_range x : 0 <= x <= bpow radix2 127 -> Rabs x < bpow radix2 128.
Proof. intros H. rewrite Rabs_pos_eq by lra. pose proof pow128. lra. Qed.
Lemma diff_pos a b : fmt32 a -> fmt32 b -> a < b -> 0 < rnd (b - a).
Proof.
  intros Fa Fb H. assert (0 <= rnd (b - a)) by (apply rnd_ge_fmt; [apply fmt_zero|lra]).
  assert (rnd (b + - a) <> 0).
  { apply round_plus_neq_0; [apply (fexp_correct 24 128); reflexivity|intros e; unfold SpecFloat.fexp, SpecFloat.emin; lia|apply valid_rnd_round_mode|exact Fb|now apply generic_format_opp|lra]. }
  unfold Rminus in *. lra.
Qed.

Section B.
Variables expf tanhf : f32 -> f32.
Let N := Num32 expf tanhf.
Lemma fin32_eq x y a b : fin32 x a -> fin32 y b -> @feqb N x y = Req_bool a b.
Proof.
  intros (bx & <- & Fx & <-) (by_ & <- & Fy & <-). change (SpecFloat.SFeqb (B2SF bx) (B2SF by_) = Req_bool (B2R bx) (B2R by_)). exact (Beqb_correct 24 128 bx by_ Fx Fy).
Qed.
Lemma fin32_fun x a b : fin32 x a -> fin32 x b -> a = b.
Proof. intros (bx & E & _ & <-) (by_ & E' & _ & <-). rewrite <- !SF2R_B2SF. congruence. Qed.

(* running minimum and maximum *)
Lemma minmax_fold32 (l : list f32) : forall mi ma mi' ma' a b, fin32 mi a -> fin32 ma b -> a <= b -> Forall (fun x => exists r, fin32 x r) l ->
  fold_left (@minmax_step N) l (mi, ma) = (mi', ma') ->
  exists a' b', fin32 mi' a' /\ fin32 ma' b' /\ a' <= a /\ b <= b' /\ (forall x r, In x l -> fin32 x r -> a' <= r <= b') /\
    (mi' = mi \/ In mi' l) /\ (ma' = ma \/ In ma' l).
Proof.
  induction l as [|x l IH]; intros mi ma mi' ma' a b Ha Hb Hab Hl; cbn [fold_left].
  - intros [= <- <-]. exists a, b. split; [exact Ha|]. split; [exact Hb|]. split; [lra|]. split; [lra|]. split; [intros ? ? []|]. auto.
  - inversion Hl as [|? ? (r & Hr) Hl']; subst.
    assert (St : exists mi1 ma1 a1 b1, @minmax_step N (mi, ma) x = (mi1, ma1) /\ fin32 mi1 a1 /\ fin32 ma1 b1 /\ a1 <= a /\ b <= b1 /\ a1 <= r <= b1 /\ (mi1 = mi \/ mi1 = x) /\ (ma1 = ma \/ ma1 = x)).
    { unfold minmax_step, fgtb. assert (E1 : @fltb N x mi = Rlt_bool r a) by now apply fin32_lt. assert (E2 : @fltb N ma x = Rlt_bool b r) by now apply fin32_lt. rewrite E1, E2.
      destruct (Rlt_bool_spec r a); [exists x, ma, r, b; repeat split; auto; lra|]. destruct (Rlt_bool_spec b r); [exists mi, x, a, r|exists mi, ma, a, b]; repeat split; auto; lra. }
    destruct St as (mi1 & ma1 & a1 & b1 & -> & H1 & H2 & H3 & H4 & H5 & H6 & H7). intros Ef.
    destruct (IH mi1 ma1 mi' ma' a1 b1 H1 H2 ltac:(lra) Hl' Ef) as (a' & b' & I1 & I2 & I3 & I4 & I5 & I6 & I7). exists a', b'. split; [exact I1|]. split; [exact I2|]. split; [lra|]. split; [lra|]. split; [|split].
    + intros y s [<-|Hy] Hs; [|now apply (I5 y)]. rewrite (fin32_fun _ _ _ Hs Hr). lra.
    + destruct I6 as [->|]; [|now right; right]. destruct H6 as [->| ->]; [now left|now right; left].
    + destruct I7 as [->|]; [|now right; right]. destruct H7 as [->| ->]; [now left|now right; left].
Qed.
Lemma in_column32 (rows : list (list f32)) j x : In x (@column N rows j) <-> exists i, (i < List.length rows)%nat /\ x = @cell N rows i j.
Proof.
  unfold column. rewrite in_map_iff. split.
  - intros (r & <- & Hr). apply (In_nth _ _ []) in Hr as (i & Hi & <-). exists i. split; auto.
  - intros (i & Hi & ->). exists (nth i rows []). split; auto. now apply nth_In.
Qed.
Lemma col_minmax32 (rows : list (list f32)) j : rows <> [] -> (forall i, (i < List.length rows)%nat -> exists r, fin32 (@cell N rows i j) r) ->
  exists mi ma i1 i2 a b, @col_minmax N rows j = (mi, ma) /\ (i1 < List.length rows)%nat /\ (i2 < List.length rows)%nat /\
    mi = @cell N rows i1 j /\ ma = @cell N rows i2 j /\ fin32 mi a /\ fin32 ma b /\ a <= b /\
    forall i r, (i < List.length rows)%nat -> fin32 (@cell N rows i j) r -> a <= r <= b.
Proof.
  intros Hne Hf. unfold col_minmax. assert (HF : Forall (fun x => exists r, fin32 x r) (@column N rows j)).
  { apply Forall_forall. intros x Hx. apply in_column32 in Hx as (i & Hi & ->). now apply Hf. }
  destruct (@column N rows j) as [|x0 rest] eqn:E. { destruct rows; cbn in E; congruence. }
  destruct (fold_left (@minmax_step N) rest (x0, x0)) as [mi ma] eqn:Ef. inversion HF as [|? ? (r0 & Hr0) HF']; subst.
  destruct (minmax_fold32 rest x0 x0 mi ma r0 r0 Hr0 Hr0 ltac:(lra) HF' Ef) as (a & b & Ha & Hb & H1 & H2 & H3 & H4 & H5).
  assert (Hmi : In mi (@column N rows j)) by (rewrite E; destruct H4 as [->|]; [now left|now right]).
  assert (Hma : In ma (@column N rows j)) by (rewrite E; destruct H5 as [->|]; [now left|now right]).
  apply in_column32 in Hmi as (i1 & Hi1 & E1). apply in_column32 in Hma as (i2 & Hi2 & E2).
  exists mi, ma, i1, i2, a, b. repeat (split; [assumption || reflexivity || lra|]). intros i r Hi Hr.
  assert (Hx : In (@cell N rows i j) (@column N rows j)) by (apply in_column32; eauto). rewrite E in Hx. destruct Hx as [Hx|Hx]; [|now apply (H3 (@cell N rows i j))].
  rewrite <- Hx in Hr. rewrite (fin32_fun _ _ _ Hr Hr0). lra.
Qed.
(* the formula of the code, on a value between the minimum and the maximum *)
Definition scaled (p q a b r : R) : R := rnd (rnd (rnd (rnd (r - p) / rnd (q - p)) * rnd (b - a)) + a).
Lemma scaled_mono p q a b r s : fmt32 p -> fmt32 q -> p < q -> a <= b -> r <= s -> scaled p q a b r <= scaled p q a b s.
Proof.
  intros Fp Fq Hpq Hab H. unfold scaled. apply rnd_mono. apply Rplus_le_compat_r. apply rnd_mono. apply Rmult_le_compat_r; [apply rnd_ge_fmt; [apply fmt_zero|lra]|]. apply rnd_mono.
  pose proof (diff_pos p q Fp Fq Hpq). apply Rmult_le_compat_r; [left; now apply Rinv_0_lt_compat|]. apply rnd_mono. lra.
Qed.
Lemma rnd_fmt x : fmt32 x -> rnd x = x.
Proof. intros H. now apply round_generic; [apply valid_rnd_round_mode|]. Qed.
Lemma rnd_in x : fmt32 (rnd x).
Proof. apply generic_format_round; [apply (fexp_correct 24 128); reflexivity|apply valid_rnd_round_mode]. Qed.
Lemma scaled_bottom p q a b : fmt32 p -> fmt32 q -> p < q -> fmt32 a -> scaled p q a b p = a.
Proof. intros Fp Fq Hpq Fa. unfold scaled. rewrite Rminus_diag_eq, (rnd_fmt 0) by auto using fmt_zero. unfold Rdiv. rewrite !Rmult_0_l, (rnd_fmt 0) by apply fmt_zero. rewrite Rmult_0_l, (rnd_fmt 0), Rplus_0_l by apply fmt_zero. now apply rnd_fmt. Qed.
Lemma scaled_top p q a b : fmt32 p -> fmt32 q -> p < q -> scaled p q a b q = rnd (rnd (b - a) + a).
Proof. intros Fp Fq Hpq. unfold scaled. pose proof (diff_pos p q Fp Fq Hpq). unfold Rdiv. rewrite Rinv_r by lra. rewrite (rnd_fmt 1) by apply fmt_one. rewrite Rmult_1_l, (rnd_fmt (rnd (b - a))) by apply rnd_in. reflexivity. Qed.
Lemma span a b : Rabs a <= bpow radix2 126 -> Rabs b <= bpow radix2 126 -> a <= b -> 0 <= rnd (b - a) <= bpow radix2 127.
Proof.
  intros Ha Hb H. apply Rabs_le_inv in Ha. apply Rabs_le_inv in Hb. split; [apply rnd_ge_fmt; [apply fmt_zero|lra]|apply rnd_le_fmt; [apply fmt_pow|rewrite pow127; lra]].
Qed.
Lemma top_bound a b : Rabs a <= bpow radix2 126 -> Rabs b <= bpow radix2 126 -> a <= b -> Rabs (rnd (rnd (b - a) + a)) <= bpow radix2 127.
Proof.
  intros Ha Hb H. pose proof (span a b Ha Hb H) as Hs. apply Rabs_le_inv in Ha. apply Rabs_le_inv in Hb. pose proof (bpow_gt_0 radix2 126). apply Rabs_le. split.
  - apply Rle_trans with (- bpow radix2 127); [lra|]. apply rnd_ge_fmt; [apply generic_format_opp, fmt_pow|]. rewrite pow127. lra.
  - apply rnd_le_fmt; [apply fmt_pow|]. assert (rnd (b - a) <= bpow radix2 127) by lra.
    destruct (Rle_dec a 0) as [L|L]; [lra|]. assert (rnd (b - a) <= bpow radix2 126); [|rewrite pow127; lra].
    apply rnd_le_fmt; [apply generic_format_FLT; exists (Float radix2 1 126); [unfold F2R; cbn [Fnum Fexp]; ring|cbn; lia|cbn; lia]|lra].
Qed.
Lemma rescale32 mi ma lo hi x p q a b r : tame mi p -> tame ma q -> tame lo a -> tame hi b -> p < q -> a <= b -> p <= r <= q -> fin32 x r ->
  fin32 (@rescale N mi (@fsub N ma mi) lo hi x) (scaled p q a b r).
Proof.
  intros (Hp & Bp) (Hq & Bq) (Ha & Ba) (Hb & Bb) Hpq Hab Hr Hx. pose proof (fin32_format _ _ Hp) as Fp. pose proof (fin32_format _ _ Hq) as Fq. pose proof (fin32_format _ _ Ha) as Fa. pose proof (diff_pos p q Fp Fq Hpq) as HD.
  pose proof (span p q Bp Bq ltac:(lra)) as HS. pose proof (span a b Ba Bb Hab) as HW.
  assert (D : fin32 (@fsub N ma mi) (rnd (q - p))) by (apply fin32_sub; auto; now apply in_range).
  assert (Z0 : fin32 (@fzero N) 0) by (apply (fin32_fofZ expf tanhf 0); lia).
  assert (E0 : @feqb N (@fsub N ma mi) (@fzero N) = false) by (rewrite (fin32_eq _ _ _ _ D Z0); apply Req_bool_false; lra).
  unfold rescale. rewrite E0. cbn [negb].
  assert (U : 0 <= rnd (r - p) <= rnd (q - p)) by (split; [apply rnd_ge_fmt; [apply fmt_zero|lra]|apply rnd_mono; lra]).
  assert (F1 : fin32 (@fsub N x mi) (rnd (r - p))) by (apply fin32_sub; auto; apply in_range; lra).
  assert (U2 : 0 <= rnd (rnd (r - p) / rnd (q - p)) <= 1).
  { split; [apply rnd_ge_fmt; [apply fmt_zero|]; apply Rmult_le_pos; [lra|left; now apply Rinv_0_lt_compat]|apply rnd_le_fmt; [apply fmt_one|]].
    apply Rmult_le_reg_r with (rnd (q - p)); [exact HD|]. unfold Rdiv. rewrite Rmult_assoc, Rinv_l by lra. lra. }
  assert (B1 : 1 <= bpow radix2 127) by (change 1 with (bpow radix2 0); apply bpow_le; lia).
  assert (F2 : fin32 (@fdiv N (@fsub N x mi) (@fsub N ma mi)) (rnd (rnd (r - p) / rnd (q - p)))) by (apply fin32_div; auto; [lra|apply in_range; lra]).
  assert (F3 : fin32 (@fsub N hi lo) (rnd (b - a))) by (apply fin32_sub; auto; now apply in_range).
  assert (U3 : 0 <= rnd (rnd (rnd (r - p) / rnd (q - p)) * rnd (b - a)) <= rnd (b - a)).
  { split; [apply rnd_ge_fmt; [apply fmt_zero|]; apply Rmult_le_pos; lra|apply rnd_le_fmt; [apply rnd_in|]]. rewrite <- (Rmult_1_l (rnd (b - a))) at 2. apply Rmult_le_compat_r; lra. }
  assert (F4 : fin32 (@fmul N (@fdiv N (@fsub N x mi) (@fsub N ma mi)) (@fsub N hi lo)) (rnd (rnd (rnd (r - p) / rnd (q - p)) * rnd (b - a)))) by (apply fin32_mul; auto; apply in_range; lra).
  apply fin32_add; auto. fold (scaled p q a b r). pose proof (scaled_mono p q a b p r Fp Fq Hpq Hab (proj1 Hr)) as L. pose proof (scaled_mono p q a b r q Fp Fq Hpq Hab (proj2 Hr)) as L2.
  rewrite scaled_bottom in L by auto. rewrite scaled_top in L2 by auto. pose proof (top_bound a b Ba Bb Hab) as T. apply Rabs_le_inv in T. apply Rabs_le_inv in Ba. pose proof pow128. pose proof pow127. pose proof (bpow_gt_0 radix2 126).
  apply Rabs_lt. lra.
Qed.
End B.
