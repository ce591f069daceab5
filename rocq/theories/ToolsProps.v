(* Property theorems about the tools: C43-C46, C54, C55. *)
From Verif Require Import Base Num NumOrder ToolsModel ToolsProofs Witness.
Local Open Scope outcome_scope.

(* ===== C43 ===== *)
Theorem C43_grid_2D_bijection : forall maxX maxY : Z, (0 < maxX)%Z -> (maxX * maxY <= int_max)%Z ->
  (forall x y, (0 <= x < maxX)%Z -> (0 <= y < maxY)%Z ->
     exists i, flatten2 x y maxX = Ok i /\ (0 <= i < maxX * maxY)%Z /\ roughenX2 i maxX = Ok x /\ roughenY2 i maxX = Ok y) /\
  (forall i, (0 <= i < maxX * maxY)%Z ->
     exists x y, roughenX2 i maxX = Ok x /\ roughenY2 i maxX = Ok y /\ (0 <= x < maxX)%Z /\ (0 <= y < maxY)%Z /\
       flatten2 x y maxX = Ok i).
Proof. intros maxX maxY H1 H2. split; intros; [now apply index2_l|now apply index2_back_l]. Qed.
Print Assumptions C43_grid_2D_bijection.
Example C43_hypotheses_met : (0 < 640)%Z /\ (640 * 480 <= int_max)%Z /\ flatten2 639 479 640 = Ok 307199%Z.
Proof. repeat split; discriminate. Qed.

(* what is missing in 3-D: roughenZ, see the refutation *)
Theorem C43_grid_3D_partial : forall x y z maxX maxY maxZ : Z,
  (0 <= x < maxX)%Z -> (0 <= y < maxY)%Z -> (0 <= z < maxZ)%Z -> (maxX * maxY * maxZ <= int_max)%Z ->
  exists i, flatten3 x y z maxX maxY = Ok i /\ (0 <= i < maxX * maxY * maxZ)%Z /\
     roughenX3 i maxX maxY = Ok x /\ roughenY3 i maxX maxY = Ok y /\
     (forall x' y' z', (0 <= x' < maxX)%Z -> (0 <= y' < maxY)%Z -> (0 <= z' < maxZ)%Z ->
        flatten3 x' y' z' maxX maxY = Ok i -> x' = x /\ y' = y /\ z' = z).
Proof. exact index3_l. Qed.
Print Assumptions C43_grid_3D_partial.
(* the cell (1,0,0) of a 2x2x2 grid is at index 1, and roughenZ(1) is 1 instead of 0; it is right only on
   the cells whose x + maxX*y equals their z *)
Theorem C43_roughenZ_refuted :
  (exists i, flatten3 1 0 0 2 2 = Ok i /\ roughenZ3 i 2 2 = Ok 1%Z) /\
  (forall x y z maxX maxY maxZ i : Z,
     (0 <= x < maxX)%Z -> (0 <= y < maxY)%Z -> (0 <= z < maxZ)%Z -> (maxX * maxY * maxZ <= int_max)%Z ->
     flatten3 x y z maxX maxY = Ok i -> roughenZ3 i maxX maxY = Ok (y * maxX + x)%Z).
Proof.
  split; [eexists; split; reflexivity|].
  intros x y z maxX maxY maxZ i Hx Hy Hz Hm E.
  destruct (index3_l x y z maxX maxY maxZ Hx Hy Hz Hm) as (i' & E' & Hi & HX & HY & _).
  rewrite E in E'. injection E' as <-.
  assert (Hp : (maxX * maxY <= int_max)%Z) by nia.
  rewrite roughenZ_l by lia. f_equal.
  unfold roughenX3, roughenY3 in HX, HY. rewrite i32_ok in HX, HY by (unfold int_min; nia). cbn in HX, HY.
  rewrite irem_ok in HX, HY by nia. cbn in HX, HY.
  pose proof (Z.mod_pos_bound i (maxX * maxY)). rewrite irem_ok in HX by nia. rewrite iquot_ok in HY by nia.
  injection HX as HX. injection HY as HY. pose proof (Z.div_mod (i mod (maxX * maxY)) maxX). lia.
Qed.
Print Assumptions C43_roughenZ_refuted.

(* ===== C44 ===== *)
(* missing: one-element vectors, see the refutation.  [ok] is "is a number": every real, every float but NaN *)
Theorem C44_extremum_partial : forall (N : Num) (ok : F -> Prop), order_laws N ok ->
  forall v : list F, 2 <= length v -> Forall ok v ->
  (exists m, getMinValue v = Ok m /\ In m v /\ forall x, In x v -> fleb m x = true) /\
  (exists m, getMaxValue v = Ok m /\ In m v /\ forall x, In x v -> fleb x m = true).
Proof. intros N ok OL v H1 H2. split; [exact (getMin_l OL v H1 H2)|exact (getMax_l OL v H1 H2)]. Qed.
Print Assumptions C44_extremum_partial.
Example C44_hypotheses_met : order_laws N32 not_nan /\ Forall not_nan [b32 3; b32 1; b32_inf] /\
  f32_is (@getMinValue N32 [b32 3; b32 1; b32_inf]) (b32 1) = true.
Proof. split; [apply order_laws_32|]. split; [repeat constructor; discriminate|reflexivity]. Qed.
Theorem C44_singleton_refuted : forall (N : Num) (x : F),
  (exists m, getMinValue [x] = Throw m) /\ (exists m, getMaxValue [x] = Throw m).
Proof. intros. split; eexists; reflexivity. Qed.
Print Assumptions C44_singleton_refuted.

(* ===== C45 ===== *)
Theorem C45_short_durations_partial : forall d : Z, (0 < d <= 60000)%Z ->
  (d <= 1000 -> toString d = to_string d ++ "ms")%string%Z /\
  ((1000 < d)%Z -> toString d = (to_string (d / 1000) ++ "s")%string /\ (1 <= d / 1000 <= 60)%Z).
Proof. exact toString_small_l. Qed.
Print Assumptions C45_short_durations_partial.
Example C45_example : toString 59999 = "59s"%string. Proof. reflexivity. Qed.
(* 61 minutes print as "1h 61min", 2 minutes as "2min 120s" *)
Theorem C45_recombination_refuted :
  toString 3660000 = "1h 61min"%string /\ toString 120000 = "2min 120s"%string.
Proof. split; reflexivity. Qed.
Print Assumptions C45_recombination_refuted.

(* ===== C46 ===== *)
(* a draw is a rational num/den with min <= num/den < max; missing: ranges that do not reach above 0 *)
Theorem C46_random_partial : forall (min max num : Z) (den : positive),
  (min < max)%Z -> (min * Zpos den <= num < max * Zpos den)%Z ->
  (min <= randomBetweenInt num den <= max)%Z /\ ((0 < max)%Z -> (randomBetweenInt num den < max)%Z).
Proof. exact random_l. Qed.
Print Assumptions C46_random_partial.
Example C46_hypotheses_met : (-3 < 2)%Z /\ (-3 * 4 <= -5 < 2 * 4)%Z /\ randomBetweenInt (-5) 4 = (-1)%Z.
Proof. repeat split. discriminate. Qed.
Theorem C46_random_refuted : exists (min max num : Z) (den : positive),
  (min < max)%Z /\ (min * Zpos den <= num < max * Zpos den)%Z /\ randomBetweenInt num den = max.
Proof. exists (-1)%Z, 0%Z, (-1)%Z, 2%positive. repeat split. discriminate. Qed.
Print Assumptions C46_random_refuted.

(* ===== C54 ===== *)
Theorem C54_log_columns : forall (v : Z) (len : nat),
  (exists k, toConstSizeString v len = (spaces k ++ to_string v)%string /\
    String.length (toConstSizeString v len) = Nat.max len (String.length (to_string v))).
Proof. exact padding_l. Qed.
Print Assumptions C54_log_columns.
Theorem C54_numbers_are_distinguished : forall a b : Z, to_string a = to_string b -> a = b.
Proof. exact to_string_inj. Qed.
Print Assumptions C54_numbers_are_distinguished.
Example C54_example : toConstSizeString (-42) 6 = "   -42"%string. Proof. reflexivity. Qed.

(* ===== C55 ===== *)
Theorem C55_flatten_concatenates : forall (A : Type) (v : list (list A)), flattenV v = concat v.
Proof. exact @flattenV_l. Qed.
Print Assumptions C55_flatten_concatenates.
Example C55_example : flattenV [[1;2];[];[3]] = [1;2;3]. Proof. reflexivity. Qed.
