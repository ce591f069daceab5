(* The scores over the reals and in binary32. *)
From Coq Require Import Reals Lra.
From Flocq Require Import Core.Core.
From Verif Require Import Base Num NumOrder StatModel StatSpec StatProofs StatReal Float32 F1Spec.
Local Open Scope outcome_scope.

Section G.
Context {N : Num}.
Definition tally (k : kind) (i : nat) (js : list judged) : nat := count (fun j => kind_eqb (kind_of i j) k) js.
Lemma tally_hits i (js : list judged) : Forall classifies js -> tally TP i js = hits i js.
Proof.
  unfold tally, hits, count. induction 1 as [|j js Hj _ IH]; [reflexivity|]. cbn [filter]. assert (E : kind_eqb (kind_of i j) TP = belongs i j && claimed i j).
  { destruct j as [o d p|o d p|o l p]; [destruct Hj| |]; cbn [kind_of belongs claimed]; repeat match goal with |- context [fltb ?a ?b] => destruct (fltb a b) end; try reflexivity; destruct (Nat.eqb i l); reflexivity. }
  rewrite E. destruct (belongs i j && claimed i j); cbn [List.length]; auto.
Qed.
Lemma tally_belongs i (js : list judged) : Forall classifies js -> tally TP i js + tally FN i js = count (belongs i) js.
Proof.
  unfold tally, count. induction 1 as [|j js Hj _ IH]; [reflexivity|]. cbn [filter]. assert (E : kind_eqb (kind_of i j) TP || kind_eqb (kind_of i j) FN = belongs i j).
  { destruct j as [o d p|o d p|o l p]; [destruct Hj| |]; cbn [kind_of belongs claimed]; repeat match goal with |- context [fltb ?a ?b] => destruct (fltb a b) end; try reflexivity; destruct (Nat.eqb i l); reflexivity. }
  rewrite <- E. destruct (kind_of i j); cbn; lia.
Qed.
Lemma tally_claimed i (js : list judged) : Forall classifies js -> tally TP i js + tally FP i js = count (claimed i) js.
Proof.
  unfold tally, count. induction 1 as [|j js Hj _ IH]; [reflexivity|]. cbn [filter]. assert (E : kind_eqb (kind_of i j) TP || kind_eqb (kind_of i j) FP = claimed i j).
  { destruct j as [o d p|o d p|o l p]; [destruct Hj| |]; cbn [kind_of belongs claimed]; repeat match goal with |- context [fltb ?a ?b] => destruct (fltb a b) end; try reflexivity; destruct (Nat.eqb i l); reflexivity. }
  rewrite <- E. destruct (kind_of i j); cbn; lia.
Qed.
Lemma tally_le k i (js : list judged) : tally k i js <= List.length js.
Proof. apply count_le. Qed.
Lemma tally_regression i (js : list judged) : Forall (fun j => ~ classifies j) js -> tally TP i js = 0.
Proof.
  unfold tally, count. induction 1 as [|j js Hj _ IH]; [reflexivity|]. cbn [filter]. destruct j as [o d p|o d p|o l p]; [|destruct (Hj I)|destruct (Hj I)].
  cbn [kind_of]. destruct (fltb _ _); [exact IH|]. destruct (fltb _ _); exact IH.
Qed.
(* the terms the two loops add *)
Definition recall_term (i : nat) (js : list judged) : F :=
  let tp := fofnat (tally TP i js) in fdiv tp (fadd tp (fofnat (tally FN i js))).
Definition f1_term (i : nat) (js : list judged) : F :=
  let tp := fofnat (tally TP i js) in
  let p := fdiv tp (fadd tp (fofnat (tally FP i js))) in let q := fdiv tp (fadd tp (fofnat (tally FN i js))) in fdiv (fmul p q) (fadd p q).
Definition step (term : nat -> list judged -> F) (js : list judged) (r : F) (i : nat) : F :=
  if fgtb (fofnat (tally TP i js)) fzero then fadd r (term i js) else r.
Lemma fold_map {A B C} (f : C -> B -> C) (g : C -> A -> C) (h : A -> B) : (forall z a, f z (h a) = g z a) -> forall l z, fold_left f (map h l) z = fold_left g l z.
Proof. intros H l. induction l as [|a l IH]; intros z; cbn; [reflexivity|]. now rewrite H, IH. Qed.
Lemma wrate_fold s n js w m : computeWeightedClusteringRate (with_counters s (map (clusterFor js) (seq 0 n)) w m)
  = fdiv (fold_left (step recall_term js) (seq 0 n) fzero) (fofnat n).
Proof.
  unfold computeWeightedClusteringRate. cbn [with_counters st_clusters]. rewrite map_length, seq_length. f_equal.
  apply (fold_map _ _ (clusterFor js)). reflexivity.
Qed.
Lemma f1_fold s n js w m : computeF1Score (with_counters s (map (clusterFor js) (seq 0 n)) w m)
  = fdiv (fmul (fofZ 2) (fold_left (step f1_term js) (seq 0 n) fzero)) (fofnat n).
Proof.
  unfold computeF1Score. cbn [with_counters st_clusters]. rewrite map_length, seq_length. f_equal. f_equal.
  apply (fold_map _ _ (clusterFor js)). reflexivity.
Qed.
End G.

(* ---- over the reals ---- *)
Section R.
Local Open Scope R_scope.
Let N := RNum.
Lemma fold_total (term : nat -> list (@judged RNum) -> R) (f : nat -> R) (js : list (@judged RNum)) :
  (forall i, (tally TP i js = 0)%nat -> f i = 0) -> (forall i, (0 < tally TP i js)%nat -> term i js = f i) ->
  forall n, fold_left (@step RNum term js) (seq 0 n) (@fzero RNum) = total f n.
Proof.
  intros H0 H1 n. unfold total. assert (Z : @fzero RNum = 0) by apply RNum_lit.
  assert (G : forall l z, fold_left (@step RNum term js) l z = z + fold_right Rplus 0 (map f l)).
  { induction l as [|i l IH]; intros z; cbn [fold_left map fold_right]; [lra|]. rewrite IH. unfold step at 1. unfold fgtb. rewrite R_fofnat, Z. cbn [fltb fadd RNum]. unfold Rltb.
    destruct (tally TP i js) as [|t] eqn:E.
    - cbn [INR]. destruct (Rlt_dec 0 0); [lra|]. rewrite (H0 i E). lra.
    - destruct (Rlt_dec 0 (INR (S t))) as [_|X]; [|pose proof (lt_0_INR (S t)); lia || (exfalso; apply X, lt_0_INR; lia)]. rewrite (H1 i) by lia. lra. }
  rewrite G, Z. lra.
Qed.
Lemma recall_real i (js : list (@judged RNum)) : Forall classifies js -> ((tally TP i js = 0)%nat -> recall i js = 0) /\ ((0 < tally TP i js)%nat -> @recall_term RNum i js = recall i js).
Proof.
  intros HC. pose proof (tally_hits i js HC) as A. pose proof (tally_belongs i js HC) as B. unfold recall, recall_term. rewrite <- A, <- B. split; intros H.
  - rewrite H. cbn [INR]. destruct (0 + tally FN i js)%nat; [reflexivity|]. unfold Rdiv. lra.
  - rewrite !R_fofnat. cbn [fdiv fadd RNum]. rewrite <- plus_INR. destruct (tally TP i js + tally FN i js)%nat eqn:E; [lia|reflexivity].
Qed.
Lemma f1_alg (t a b : R) : 0 < t -> 0 <= a -> 0 <= b -> t / (t + b) * (t / (t + a)) / (t / (t + b) + t / (t + a)) = 2 * t / (t + a + (t + b)) / 2.
Proof. intros. field. repeat split; try lra. assert (0 < t * (t + a + (t + b))) by (apply Rmult_lt_0_compat; lra). lra. Qed.
Lemma f1_real i (js : list (@judged RNum)) : Forall classifies js -> ((tally TP i js = 0)%nat -> f1 i js / 2 = 0) /\ ((0 < tally TP i js)%nat -> @f1_term RNum i js = f1 i js / 2).
Proof.
  intros HC. pose proof (tally_hits i js HC) as A. pose proof (tally_belongs i js HC) as B. pose proof (tally_claimed i js HC) as C. unfold f1, f1_term. rewrite <- A, <- B, <- C. split; intros H.
  - rewrite H. cbn [INR]. destruct (0 + tally FN i js + (0 + tally FP i js))%nat; unfold Rdiv; lra.
  - rewrite !R_fofnat. cbn [fdiv fmul fadd RNum]. destruct (tally TP i js + tally FN i js + (tally TP i js + tally FP i js))%nat eqn:E; [lia|]. rewrite <- E, !plus_INR.
    assert (0 < INR (tally TP i js)) by (apply lt_0_INR; lia). assert (0 <= INR (tally FN i js)) by apply pos_INR. assert (0 <= INR (tally FP i js)) by apply pos_INR. now apply f1_alg.
Qed.
Lemma count_zero {A} (p : A -> bool) l : count p l = 0%nat -> forall x, In x l -> p x = false.
Proof. unfold count. intros H x Hx. destruct (p x) eqn:E; [|reflexivity]. assert (X : In x (filter p l)) by (apply filter_In; auto). destruct (filter p l); [destruct X|discriminate]. Qed.
Lemma count_pos {A} (p : A -> bool) l x : In x l -> p x = true -> (0 < count p l)%nat.
Proof. unfold count. intros H E. assert (X : In x (filter p l)) by (apply filter_In; auto). destruct (filter p l); [destruct X|cbn; lia]. Qed.
Lemma count_all {A} (p q : A -> bool) l : (count (fun x => p x && q x) l <= count p l)%nat /\ (count (fun x => p x && q x) l = count p l <-> forall x, In x l -> p x = true -> q x = true).
Proof.
  unfold count. induction l as [|a l [IH1 IH2]]; [split; [cbn; lia|cbn; split; intros; [contradiction|reflexivity]]|]. cbn [filter]. destruct (p a) eqn:P; destruct (q a) eqn:Q; cbn [andb List.length].
  - split; [lia|]. split; intros H.
    + intros x [<-|Hx] Px; [exact Q|]. apply (proj1 IH2); [lia|exact Hx|exact Px].
    + f_equal. apply IH2. intros x Hx. apply H. now right.
  - split; [lia|]. split; intros H; [lia|]. exfalso. rewrite (H a (or_introl eq_refl) P) in Q. discriminate.
  - split; [exact IH1|]. rewrite IH2. split; intros H x; [intros [<-|Hx] Px; [congruence|auto]|intros Hx; apply H; now right].
  - split; [exact IH1|]. rewrite IH2. split; intros H x; [intros [<-|Hx] Px; [congruence|auto]|intros Hx; apply H; now right].
Qed.
Context {M : Num}.
Lemma hits_claimed i (js : list judged) : hits i js = count (fun j => claimed i j && belongs i j) js.
Proof. unfold hits, count. f_equal. apply filter_ext. intros j. apply andb_comm. Qed.
Lemma recall_range i (js : list judged) : 0 <= recall i js <= 1 /\ (recall i js = 1 <-> occurs i js /\ found i js).
Proof.
  unfold recall. destruct (count_all (belongs i) (claimed i) js) as [L E]. fold (hits i js) in L, E. destruct (count (belongs i) js) as [|k] eqn:K.
  - split; [lra|]. split; [lra|]. intros ((j & Hj & Bj) & _). rewrite (count_zero _ _ K j Hj) in Bj. discriminate.
  - assert (P : 0 < INR (S k)) by (apply lt_0_INR; lia). pose proof (le_INR _ _ L) as L'. pose proof (pos_INR (hits i js)) as P'. split.
    + split; [apply Rmult_le_pos; [lra|left; now apply Rinv_0_lt_compat]|]. apply Rmult_le_reg_r with (INR (S k)); [exact P|]. unfold Rdiv. rewrite Rmult_assoc, Rinv_l by lra. lra.
    + split; intros H.
      * assert (X : INR (hits i js) = INR (S k)) by (apply Rmult_eq_reg_r with (/ INR (S k)); [rewrite Rinv_r by lra; exact H|apply Rinv_neq_0_compat; lra]). apply INR_eq in X. split; [|exact (proj1 E X)].
        unfold occurs. destruct (filter (belongs i) js) as [|j r] eqn:F; [unfold count in K; rewrite F in K; discriminate|]. exists j. apply filter_In. rewrite F. now left.
      * rewrite (proj2 E (proj2 H)). apply Rinv_r. lra.
Qed.
Lemma f1_range i (js : list judged) : 0 <= f1 i js <= 1 /\ (f1 i js = 1 <-> occurs i js /\ recognised i js).
Proof.
  unfold f1. destruct (count_all (belongs i) (claimed i) js) as [L E]. fold (hits i js) in L, E. destruct (count_all (claimed i) (belongs i) js) as [L2 E2]. rewrite <- hits_claimed in L2, E2.
  destruct (count (belongs i) js + count (claimed i) js)%nat as [|k] eqn:K.
  - split; [lra|]. split; [lra|]. intros ((j & Hj & Bj) & _). rewrite (count_zero (belongs i) js ltac:(lia) j Hj) in Bj. discriminate.
  - assert (P : 0 < INR (S k)) by (apply lt_0_INR; lia). pose proof (le_INR _ _ L) as L'. pose proof (le_INR _ _ L2) as L2'. pose proof (pos_INR (hits i js)) as P'.
    assert (KK : INR (S k) = INR (count (belongs i) js) + INR (count (claimed i) js)) by (rewrite <- K; apply plus_INR). split.
    + split; [apply Rmult_le_pos; [lra|left; now apply Rinv_0_lt_compat]|]. apply Rmult_le_reg_r with (INR (S k)); [exact P|]. unfold Rdiv. rewrite Rmult_assoc, Rinv_l by lra. lra.
    + split; intros H.
      * assert (X : 2 * INR (hits i js) = INR (S k)) by (apply Rmult_eq_reg_r with (/ INR (S k)); [rewrite Rinv_r by lra; exact H|apply Rinv_neq_0_compat; lra]).
        assert (X1 : hits i js = count (belongs i) js) by (apply INR_eq; lra). assert (X2 : hits i js = count (claimed i) js) by (apply INR_eq; lra). pose proof (proj1 E X1) as Y1. pose proof (proj1 E2 X2) as Y2. split.
        -- destruct (filter (belongs i) js) as [|j r] eqn:F; [unfold count at 1 in X1; rewrite F in X1; cbn in X1; rewrite <- X2, X1 in K; unfold count in K; rewrite F in K; discriminate|]. exists j. apply filter_In. rewrite F. now left.
        -- intros j Hj. destruct (claimed i j) eqn:C; [symmetry; now apply Y2|]. destruct (belongs i j) eqn:B; [|reflexivity]. rewrite (Y1 j Hj B) in C. discriminate.
      * destruct H as (_ & H). assert (X1 : hits i js = count (belongs i) js) by (apply E; intros j Hj B; rewrite (H j Hj); exact B). assert (X2 : hits i js = count (claimed i) js) by (apply E2; intros j Hj C; rewrite <- (H j Hj); exact C).
        replace (2 * INR (hits i js)) with (INR (S k)) by (rewrite KK, <- X1, <- X2; lra). apply Rinv_r. lra.
Qed.
Lemma total_S f n : total f (S n) = total f n + f n.
Proof.
  unfold total. rewrite seq_S, map_app. cbn [map plus]. generalize (map f (seq 0 n)). intros l. induction l as [|a l IH]; cbn [app fold_right]; [lra|]. rewrite IH. lra.
Qed.
Lemma total_range f : (forall i, 0 <= f i <= 1) -> forall n, 0 <= total f n <= INR n /\ (total f n = INR n <-> forall i, (i < n)%nat -> f i = 1).
Proof.
  intros H. induction n as [|n [IH1 IH2]]; [cbn; split; [lra|split; [intros _ i Hi; lia|reflexivity]]|]. rewrite total_S, S_INR. specialize (H n). split; [lra|]. split; intros G.
  - assert (total f n = INR n) by lra. intros i Hi. destruct (Nat.eq_dec i n) as [->|Hne]; [lra|]. apply IH2; auto. lia.
  - rewrite (G n) by lia. rewrite (proj2 IH2); [lra|]. intros i Hi. apply G. lia.
Qed.
Lemma mean_range f n : (0 < n)%nat -> (forall i, 0 <= f i <= 1) -> 0 <= mean_over_classes f n <= 1 /\ (mean_over_classes f n = 1 <-> forall i, (i < n)%nat -> f i = 1).
Proof.
  intros Hn H. destruct (total_range f H n) as ((A & B) & C). unfold mean_over_classes. assert (P : 0 < INR n) by (apply lt_0_INR; lia). split.
  - split; [apply Rmult_le_pos; [lra|left; now apply Rinv_0_lt_compat]|]. apply Rmult_le_reg_r with (INR n); [exact P|]. unfold Rdiv. rewrite Rmult_assoc, Rinv_l by lra. lra.
  - rewrite <- C. split; intros X; [apply Rmult_eq_reg_r with (/ INR n); [rewrite Rinv_r by lra; exact X|apply Rinv_neq_0_compat; lra]|rewrite X; apply Rinv_r; lra].
Qed.
End R.
