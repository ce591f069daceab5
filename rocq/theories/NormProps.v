(* C07 in binary32: where the values go after normalize. *)
From Coq Require Import Reals Lra Lia.
From Flocq Require Import Core.Core IEEE754.BinarySingleNaN.
From Verif Require Import Base Num DataModel DataSpec DataProofs SeqProofs NormProofs Float32 NormFloat Witness DataProps.
Local Open Scope R_scope.
#[local] Existing Instance Float32.Hprec32.
#[local] Existing Instance Float32.Hmax32.

(* Training values and bounds at most 2^126 in size: after normalize(lo,hi) every column that is not constant lies between lo and (hi-lo)+lo as floats
   compute it, reaches both, and keeps its order; labels and sizes are kept; the test set goes through the same function.
   Missing from C07: the upper bound is hi only when hi-lo is exact (next theorems); constant columns. *)
Theorem C07_normalize_float_partial : forall expf tanhf (d : @Data (Num32 expf tanhf)) (lo hi : f32) (a b : R),
  tame lo a -> tame hi b -> a <= b -> @rect (Num32 expf tanhf) (d_sizeOfData d) (s_inputs (d_train d)) -> @rect (Num32 expf tanhf) (d_sizeOfData d) (s_inputs (d_test d)) ->
  s_inputs (d_train d) <> [] -> (forall i j, (i < List.length (s_inputs (d_train d)))%nat -> (j < d_sizeOfData d)%nat -> exists r, tame (@cell (Num32 expf tanhf) (s_inputs (d_train d)) i j) r) ->
  exists d' top, @normalize (Num32 expf tanhf) lo hi d = Ok d' /\ fin32 (@fadd (Num32 expf tanhf) (@fsub (Num32 expf tanhf) hi lo) lo) top /\
    s_labels (d_train d') = s_labels (d_train d) /\ s_labels (d_test d') = s_labels (d_test d) /\
    List.length (s_inputs (d_train d')) = List.length (s_inputs (d_train d)) /\ List.length (s_inputs (d_test d')) = List.length (s_inputs (d_test d)) /\
    forall j, (j < d_sizeOfData d)%nat ->
      (exists g : f32 -> f32, (forall i, (i < List.length (s_inputs (d_train d)))%nat -> @cell (Num32 expf tanhf) (s_inputs (d_train d')) i j = g (@cell (Num32 expf tanhf) (s_inputs (d_train d)) i j)) /\
        (forall i, (i < List.length (s_inputs (d_test d)))%nat -> @cell (Num32 expf tanhf) (s_inputs (d_test d')) i j = g (@cell (Num32 expf tanhf) (s_inputs (d_test d)) i j))) /\
      ((exists i k r s, (i < List.length (s_inputs (d_train d)))%nat /\ (k < List.length (s_inputs (d_train d)))%nat /\ fin32 (@cell (Num32 expf tanhf) (s_inputs (d_train d)) i j) r /\ fin32 (@cell (Num32 expf tanhf) (s_inputs (d_train d)) k j) s /\ r <> s) ->
        exists v : nat -> R, (forall i, (i < List.length (s_inputs (d_train d)))%nat -> fin32 (@cell (Num32 expf tanhf) (s_inputs (d_train d')) i j) (v i) /\ a <= v i <= top) /\
          (exists i, (i < List.length (s_inputs (d_train d)))%nat /\ v i = a) /\ (exists i, (i < List.length (s_inputs (d_train d)))%nat /\ v i = top) /\
          (forall i k r s, (i < List.length (s_inputs (d_train d)))%nat -> (k < List.length (s_inputs (d_train d)))%nat ->
             fin32 (@cell (Num32 expf tanhf) (s_inputs (d_train d)) i j) r -> fin32 (@cell (Num32 expf tanhf) (s_inputs (d_train d)) k j) s -> r <= s -> v i <= v k)).
Proof.
  intros expf tanhf d lo hi a b Ha Hb Hab R1 R2 Hne Hf. set (N := Num32 expf tanhf) in *.
  destruct (@normalize_cells N lo hi d R1 R2 Hne) as (d' & E & (_ & _ & L1 & L2 & C1 & C2) & Hla & Hlb & _).
  pose proof (proj2 Ha) as Ba. pose proof (proj2 Hb) as Bb. pose proof (top_bound a b Ba Bb Hab) as HT. pose proof (span a b Ba Bb Hab) as HW.
  exists d', (rnd (rnd (b - a) + a)). split; [exact E|]. split.
  { apply fin32_add; [|apply Ha|pose proof pow128; lra]. apply fin32_sub; [apply Hb|apply Ha|now apply in_range]. }
  split; [exact Hla|]. split; [exact Hlb|]. split; [exact L1|]. split; [exact L2|]. intros j Hj.
  assert (Hlt : (j <? d_sizeOfData d)%nat = true) by (apply Nat.ltb_lt; auto).
  assert (C1' : forall i, (i < List.length (s_inputs (d_train d)))%nat -> @cell N (s_inputs (d_train d')) i j = @col_map N lo hi (s_inputs (d_train d)) j (@cell N (s_inputs (d_train d)) i j)).
  { intros i Hi. rewrite C1 by auto. now rewrite Hlt. }
  assert (C2' : forall i, (i < List.length (s_inputs (d_test d)))%nat -> @cell N (s_inputs (d_test d')) i j = @col_map N lo hi (s_inputs (d_train d)) j (@cell N (s_inputs (d_test d)) i j)).
  { intros i Hi. rewrite C2 by auto. now rewrite Hlt. }
  split; [exists (@col_map N lo hi (s_inputs (d_train d)) j); auto|].
  intros (i0 & k0 & r0 & s0 & Hi0 & Hk0 & Hr0 & Hs0 & Hrs).
  destruct (col_minmax32 expf tanhf (s_inputs (d_train d)) j Hne) as (mi & ma & i1 & i2 & p & q & Emm & Hi1 & Hi2 & E1 & E2 & Hp & Hq & Hpq & Hall).
  { intros i Hi. destruct (Hf i j Hi Hj) as (r & Hr & _). eauto. }
  assert (Hlt' : p < q). { pose proof (Hall _ _ Hi0 Hr0). pose proof (Hall _ _ Hk0 Hs0). lra. }
  assert (Tp : tame mi p). { destruct (Hf i1 j Hi1 Hj) as (r & Hr & Br). subst mi. rewrite (fin32_fun _ _ _ Hp Hr). now split. }
  assert (Tq : tame ma q). { destruct (Hf i2 j Hi2 Hj) as (r & Hr & Br). subst ma. rewrite (fin32_fun _ _ _ Hq Hr). now split. }
  pose proof (fin32_format _ _ Hp) as Fp. pose proof (fin32_format _ _ Hq) as Fq. pose proof (fin32_format _ _ (proj1 Ha)) as Fa.
  assert (V : forall i r, (i < List.length (s_inputs (d_train d)))%nat -> fin32 (@cell N (s_inputs (d_train d)) i j) r -> fin32 (@cell N (s_inputs (d_train d')) i j) (scaled p q a b r)).
  { intros i r Hi Hr. rewrite C1' by auto. unfold col_map. unfold N in Emm |- *. rewrite Emm. apply rescale32; auto. now apply (Hall i). }
  exists (fun i => scaled p q a b (SF2R radix2 (@cell N (s_inputs (d_train d)) i j))).
  assert (VR : forall i r, fin32 (@cell N (s_inputs (d_train d)) i j) r -> SF2R radix2 (@cell N (s_inputs (d_train d)) i j) = r).
  { intros i r (bx & <- & _ & <-). apply SF2R_B2SF. }
  split; [|split; [|split]].
  - intros i Hi. destruct (Hf i j Hi Hj) as (r & Hr & _). rewrite (VR i r Hr). split; [now apply V|]. pose proof (Hall i r Hi Hr) as Hb2.
    rewrite <- (scaled_bottom p q a b Fp Fq Hlt' Fa) at 1. rewrite <- (scaled_top p q a b Fp Fq Hlt'). split; apply scaled_mono; auto; lra.
  - exists i1. split; [exact Hi1|]. rewrite E1 in Hp. rewrite (VR i1 p Hp). now apply scaled_bottom.
  - exists i2. split; [exact Hi2|]. rewrite E2 in Hq. rewrite (VR i2 q Hq). now apply scaled_top.
  - intros i k r s Hi Hk Hr Hs H. rewrite (VR i r Hr), (VR k s Hs). now apply scaled_mono.
Qed.
Print Assumptions C07_normalize_float_partial.
(* The upper bound is hi itself whenever hi-lo is a float, as for [0,1] and [-1,1]. *)
Theorem C07_exact_bounds : forall expf tanhf (lo hi : f32) (a b top : R), fin32 lo a -> fin32 hi b -> a <= b -> (exists w, fin32 w (b - a)) ->
  fin32 (@fadd (Num32 expf tanhf) (@fsub (Num32 expf tanhf) hi lo) lo) top -> top = b.
Proof.
  intros expf tanhf lo hi a b top Ha Hb Hab (w & Hw) HT. pose proof (fin32_format _ _ Hw) as Fw. pose proof (fin32_format _ _ Hb) as Fb. pose proof (fin32_bound _ _ Hw) as Bw. pose proof (fin32_bound _ _ Hb) as Bb.
  assert (E1 : rnd (b - a) = b - a) by now apply rnd_fmt. assert (E2 : rnd (b - a + a) = b) by (replace (b - a + a) with b by ring; now apply rnd_fmt).
  assert (F1 : fin32 (@fsub (Num32 expf tanhf) hi lo) (b - a)) by (rewrite <- E1; apply fin32_sub; auto; rewrite E1; exact Bw).
  assert (F2 : fin32 (@fadd (Num32 expf tanhf) (@fsub (Num32 expf tanhf) hi lo) lo) (rnd (b - a + a))) by (apply fin32_add; auto; rewrite E2; exact Bb).
  rewrite E2 in F2. exact (fin32_fun _ _ _ HT F2).
Qed.
Print Assumptions C07_exact_bounds.
(* [0,1] and [-1,1] *)
Example C07_usual_bounds : forall lo, (lo = 0 \/ lo = -1)%Z -> tame (b32 lo) (IZR lo) /\ tame (b32 1) 1 /\ IZR lo <= 1 /\ exists w, fin32 w (1 - IZR lo).
Proof.
  assert (P : 1 <= bpow radix2 126) by (change 1 with (bpow radix2 0); apply bpow_le; lia).
  intros lo H. split; [|split; [|split]].
  - split; [apply fin32_of_Z; lia|]. destruct H as [->| ->]; [rewrite Rabs_R0|rewrite Rabs_left by lra]; lra.
  - split; [apply (fin32_of_Z 1); lia|]. rewrite Rabs_R1. lra.
  - destruct H as [->| ->]; lra.
  - exists (f32_of_Z (1 - lo)). rewrite <- minus_IZR. apply fin32_of_Z. lia.
Qed.

(* normalize(-1, 0.1): a training value ends above 0.1 *)
Theorem C07_above_the_bound_refuted : exists d d' v d'', @mkData2 N32 regression (rows32 [[1];[2];[4]]%Z) (rows32 [[0];[0];[0]]%Z) nonTemporal 0 = Ok d /\
  @normalize N32 (b32 (-1)) (b32q 1 10) d = Ok d' /\ @getTrainingData N32 d' 2 1 = Ok ([v], d'') /\ @fltb N32 (b32q 1 10) v = true.
Proof.
  by_compute (run_check (@mkData2 N32 regression (rows32 [[1];[2];[4]]%Z) (rows32 [[0];[0];[0]]%Z) nonTemporal 0) (fun d =>
    run_check (@normalize N32 (b32 (-1)) (b32q 1 10) d) (fun d' => run_check (@getTrainingData N32 d' 2 1) (fun r => match fst r with [v] => @fltb N32 (b32q 1 10) v | _ => false end)))).
  match goal with H : context [fst ?r] |- _ => destruct r as [row d''] end. cbn [fst] in *. destruct row as [|v [|]]; try discriminate. repeat eexists; eauto.
Qed.
Print Assumptions C07_above_the_bound_refuted.
(* values whose difference overflows: a training value becomes NaN *)
Theorem C07_overflow_refuted : exists d d' v d'', @mkData2 N32 regression (rows32 [[-(2 ^ 127)];[2 ^ 127]]%Z) (rows32 [[0];[0]]%Z) nonTemporal 0 = Ok d /\
  @normalize N32 (b32 0) (b32 1) d = Ok d' /\ @getTrainingData N32 d' 1 1 = Ok ([v], d'') /\ @feqb N32 v v = false.
Proof.
  by_compute (run_check (@mkData2 N32 regression (rows32 [[-(2 ^ 127)];[2 ^ 127]]%Z) (rows32 [[0];[0]]%Z) nonTemporal 0) (fun d =>
    run_check (@normalize N32 (b32 0) (b32 1) d) (fun d' => run_check (@getTrainingData N32 d' 1 1) (fun r => match fst r with [v] => negb (@feqb N32 v v) | _ => false end)))).
  match goal with H : context [fst ?r] |- _ => destruct r as [row d''] end. cbn [fst] in *. destruct row as [|v [|]]; try discriminate. repeat eexists; eauto; now apply Bool.negb_true_iff.
Qed.
Print Assumptions C07_overflow_refuted.
(* the hypotheses of the float theorem, on data with two columns *)
Example C07_float_hypotheses : exists d, @mkData2 N32 regression (rows32 [[1; -7];[2; 0];[4; 30]]%Z) (rows32 [[0];[0];[0]]%Z) nonTemporal 0 = Ok d /\
  @rect N32 (d_sizeOfData d) (s_inputs (d_train d)) /\ @rect N32 (d_sizeOfData d) (s_inputs (d_test d)) /\ s_inputs (d_train d) <> [] /\ d_sizeOfData d = 2%nat /\ List.length (s_inputs (d_train d)) = 3%nat /\
  (forall i j, (i < List.length (s_inputs (d_train d)))%nat -> (j < d_sizeOfData d)%nat -> exists r, tame (@cell N32 (s_inputs (d_train d)) i j) r).
Proof.
  assert (G : forall z, (Z.abs z <= 100)%Z -> exists r, tame (b32 z) r).
  { intros z Hz. exists (IZR z). split; [apply fin32_of_Z; lia|]. rewrite <- abs_IZR. apply Rle_trans with (IZR 100); [now apply IZR_le|]. apply Rle_trans with (bpow radix2 7); [cbn; lra|apply bpow_le; lia]. }
  eexists. split; [reflexivity|]. cbn [d_train d_test d_sizeOfData s_inputs]. split; [repeat constructor|]. split; [repeat constructor|]. split; [discriminate|]. split; [reflexivity|]. split; [reflexivity|].
  intros i j Hi Hj. assert (Hi3 : (i < 3)%nat) by exact Hi. assert (Hj2 : (j < 2)%nat) by exact Hj. clear Hi Hj.
  destruct i as [|[|[|]]]; try lia; destruct j as [|[|]]; try lia; apply G; cbn; lia.
Qed.
