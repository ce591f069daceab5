(* Property theorems about the stopping criteria: C10, C11, C12, C50. *)
From Verif Require Import Base Num NumOrder ToolsModel WaitModel WaitSpec WaitProofs ToolsProofs Witness.
Local Open Scope outcome_scope.

(* ===== C10 ===== *)
(* missing: thresholds of 0, see the refutation.  [el] is the elapsed time in ms (below 2^31, 24 days),
   [ep] the number of the epoch about to start *)
Theorem C10_or_partial : forall (N : Num) (ok : F -> Prop), order_laws N ok ->
  forall (e : expr) (el ep : Z) (acc mae : F),
  only_or e -> Forall (fun c => literal_ok ok c /\ positive c) (leaves e) ->
  ok acc -> ok mae -> (0 <= el <= int_max)%Z ->
  exists w, eval e = Ok w /\ isOver w el ep acc mae = existsb (met el ep acc mae) (leaves e).
Proof.
  intros N ok OL e el ep acc mae H1 H2 H3 H4 H5.
  destruct (or_tree_l OL e el ep acc mae H1 H2 H3 H4 H5) as (w & E & _ & H). eauto.
Qed.
Print Assumptions C10_or_partial.

Definition e32 : @expr N32 := Or (Or (Lit (Epochs 10)) (Lit (@Accuracy N32 (b32q 9 10)))) (Or (Lit (@Mae N32 (b32q 1 100))) (Lit (Milliseconds 500))).
Example C10_hypotheses_met :
  order_laws N32 not_nan /\ only_or e32 /\ Forall (fun c => @literal_ok N32 not_nan c /\ positive c) (leaves e32) /\
  run_check (eval e32) (fun w => @isOver N32 w 20 11 (b32q 1 2) (b32 3) && negb (@isOver N32 w 20 10 (b32q 1 2) (b32 3))
     && @isOver N32 w 500 1 (b32q 1 2) (b32 3)) = true.
Proof.
  split; [apply order_laws_32|]. split; [cbn; auto|]. split; [|vm_compute; reflexivity].
  repeat constructor; cbn; unfold int_max; try lia; try discriminate; vm_compute; reflexivity.
Qed.

(* "0 ms or 500 ms" is over only after 500 ms, although the first criterion is always met *)
Theorem C10_zero_threshold_refuted :
  exists (e : @expr N32) w, e = Or (Lit (Milliseconds 0)) (Lit (Milliseconds 500)) /\ eval e = Ok w /\
    existsb (@met N32 3 1 (b32 0) (b32 0)) (leaves e) = true /\ @isOver N32 w 3 1 (b32 0) (b32 0) = false.
Proof. eexists; eexists; split; [reflexivity|]; split; [reflexivity|]; split; vm_compute; reflexivity. Qed.
Print Assumptions C10_zero_threshold_refuted.

(* after 2^31 ms (24.9 days) the clock wraps: the duration criterion is no longer met *)
Theorem C10_clock_wrap_refuted :
  @met N32 2147483648 1 (b32 0) (b32 0) (Milliseconds 500) = true /\
  @isOver N32 (literal (Milliseconds 500)) 2147483648 1 (b32 0) (b32 0) = false.
Proof. split; vm_compute; reflexivity. Qed.
Print Assumptions C10_clock_wrap_refuted.

(* ===== C11 ===== *)
(* missing: an MAE criterion that is not the last one, see the refutation *)
Theorem C11_and_partial : forall (N : Num) (ok : F -> Prop), order_laws N ok ->
  forall (e : expr) (el ep : Z) (acc mae : F),
  only_and e -> Forall (literal_ok ok) (leaves e) -> Forall not_mae (removelast (leaves e)) ->
  ok acc -> (0 <= el <= int_max)%Z ->
  exists w, eval e = Ok w /\ isOver w el ep acc mae = forallb (met el ep acc mae) (leaves e).
Proof. intros N ok OL. exact (and_tree_l OL). Qed.
Print Assumptions C11_and_partial.
Example C11_hypotheses_met :
  let e := And (Lit (Epochs 10)) (And (Lit (Milliseconds 500)) (Lit (@Mae N32 (b32q 9 10)))) : @expr N32 in
  only_and e /\ Forall (@literal_ok N32 not_nan) (leaves e) /\ Forall not_mae (removelast (leaves e)) /\
  run_check (eval e) (fun w => @isOver N32 w 500 11 (b32q 19 20) (b32q 1 2) && negb (@isOver N32 w 500 11 (b32q 1 2) (b32 3))) = true.
Proof.
  split; [cbn; auto|]. split; [|split; [repeat constructor|vm_compute; reflexivity]].
  repeat constructor; cbn; unfold int_max; try lia; try discriminate; vm_compute; reflexivity.
Qed.
(* "MAE below 0.01 and 10 epochs" stops after 10 epochs whatever the MAE; "MAE below 0.01 and MAE below 0.5" stops at 0.5 *)
Theorem C11_mae_refuted :
  (exists w, eval (And (Lit (@Mae N32 (b32q 1 100))) (Lit (Epochs 10))) = Ok w /\
    @met N32 0 11 (b32 0) (b32 5) (@Mae N32 (b32q 1 100)) = false /\ @isOver N32 w 0 11 (b32 0) (b32 5) = true) /\
  (exists w, eval (And (Lit (@Mae N32 (b32q 1 100))) (Lit (@Mae N32 (b32q 1 2)))) = Ok w /\
    @met N32 0 11 (b32 0) (b32q 1 4) (@Mae N32 (b32q 1 100)) = false /\ @isOver N32 w 0 11 (b32 0) (b32q 1 4) = true).
Proof. split; eexists; (split; [reflexivity|]); split; vm_compute; reflexivity. Qed.
Print Assumptions C11_mae_refuted.

(* ===== C12 ===== *)
(* the exact rule: only a mix on the left-hand side of an operator is noticed *)
Theorem C12_mixing_partial : forall (N : Num) (e : expr),
  ((exists m, eval e = Throw m) <-> mixes_on_the_left e) /\
  ((exists w, eval e = Ok w) <-> ~ mixes_on_the_left e) /\
  (only_or e -> exists w, eval e = Ok w) /\ (only_and e -> exists w, eval e = Ok w).
Proof.
  intros N e. split; [apply eval_throw_iff_l|]. split; [apply eval_ok_iff_l|].
  split; intros H; [destruct (eval_or_op e H) as (w & E & _)|destruct (eval_and_op e H) as (w & E & _)]; eauto.
Qed.
Print Assumptions C12_mixing_partial.
Example C12_example : exists m, @eval N32 (Or (And (Lit (Epochs 1)) (Lit (Epochs 2))) (Lit (Epochs 3))) = Throw m.
Proof. eexists. reflexivity. Qed.
(* "5 epochs || (0.9 accuracy && 500 ms)", which is also how the unparenthesised text reads, is accepted and stops as
   soon as any of the three holds *)
Theorem C12_mixing_refuted :
  exists (e : @expr N32) w, e = Or (Lit (Epochs 5)) (And (Lit (@Accuracy N32 (b32q 9 10))) (Lit (Milliseconds 500))) /\
    eval e = Ok w /\ @isOver N32 w 500 1 (b32 0) (b32 0) = true /\
    @met N32 500 1 (b32 0) (b32 0) (Epochs 5) = false /\ @met N32 500 1 (b32 0) (b32 0) (@Accuracy N32 (b32q 9 10)) = false.
Proof. do 2 eexists. split; [reflexivity|]. split; [reflexivity|]. repeat split; vm_compute; reflexivity. Qed.
Print Assumptions C12_mixing_refuted.

(* ===== C50 ===== *)
Theorem C50_literals_partial : forall (N : Num) (n : Z),
  ((0 <= n <= int_max)%Z -> w_duration (lit_ms n) = n /\ w_epochs (lit_ep n) = n) /\
  ((0 <= n <= 2147483)%Z -> exists w, lit_s n = Ok w /\ w_duration w = (1000 * n)%Z) /\
  ((0 <= n <= 35791)%Z -> exists w, lit_min n = Ok w /\ w_duration w = (60000 * n)%Z) /\
  ((2147483 < n <= int_max)%Z -> lit_s n = UB) /\
  ((35791 < n <= int_max)%Z -> lit_min n = UB).
Proof.
  intros N n. unfold lit_ms, lit_ep, lit_s, lit_min, int_max.
  assert (Hub : forall z, (2147483647 < z)%Z -> i32 z = UB).
  { intros z Hz. unfold i32, in_int, int_max. replace (z <=? 2147483647)%Z with false by (symmetry; apply Z.leb_gt; lia).
    now rewrite andb_false_r. }
  (split; [|split; [|split; [|split]]]); intros H; cbn [w_duration w_epochs];
    rewrite ?to_int_id by (unfold int_min, int_max; lia); auto.
  - rewrite i32_ok by (unfold int_min, int_max; lia). eexists; split; [reflexivity|]. cbn [w_duration]. lia.
  - rewrite i32_ok by (unfold int_min, int_max; lia). cbn [bind]. rewrite i32_ok by (unfold int_min, int_max; lia).
    eexists; split; [reflexivity|]. cbn [w_duration]. lia.
  - rewrite Hub by lia. reflexivity.
  - destruct (Z.le_gt_cases (n * 1000) 2147483647).
    + rewrite i32_ok by (unfold int_min, int_max; lia). cbn [bind]. rewrite Hub by lia. reflexivity.
    + rewrite Hub by lia. reflexivity.
Qed.
Print Assumptions C50_literals_partial.
(* one hour is fine, 2^32 milliseconds are 0 milliseconds, 30 days in seconds or minutes are undefined behaviour *)
Theorem C50_literals_refuted :
  w_duration (@lit_ms N32 4294967296) = 0%Z /\ @lit_s N32 2592000 = UB /\ @lit_min N32 43200 = UB /\
  exists w, @lit_min N32 60 = Ok w /\ w_duration w = 3600000%Z.
Proof. repeat split; try reflexivity. eexists; split; reflexivity. Qed.
Print Assumptions C50_literals_refuted.
