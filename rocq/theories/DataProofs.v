From Coq Require Import Permutation.
From Verif Require Import Base Num DataModel DataSpec.
Local Open Scope nat_scope.
Local Open Scope outcome_scope.
Local Open Scope list_scope.
Ltac inv H := inversion H; subst; clear H.

Section P.
Context {N : Num}.

(* ---------- generic ---------- *)
Lemma omap_lget_perm (v idx : list nat) :
  Permutation idx (seq 0 (length v)) -> exists w, omap (lget v) idx = Ok w /\ Permutation w v.
Proof.
  intros H.
  assert (E : omap (lget v) idx = Ok (map (fun i => nth i v 0) idx)).
  { apply omap_all_ok. intros a Ha. apply lget_nth.
    apply (Permutation_in _ H) in Ha. apply in_seq in Ha. lia. }
  exists (map (fun i => nth i v 0) idx). split; auto.
  transitivity (map (fun i => nth i v 0) (seq 0 (length v))).
  - now apply Permutation_map.
  - apply Permutation_refl'. apply map_nth_seq.
Qed.

Lemma rshuffle_fair rng v : fair_rng rng -> exists w, rshuffle rng v = Ok w /\ Permutation w v.
Proof. intros H. apply omap_lget_perm. apply H. Qed.

Lemma rev_cons_nonempty {A} (l : list A) : l <> [] -> exists x t, rev l = x :: t.
Proof.
  intros H. destruct (rev l) eqn:E; eauto.
  exfalso. apply H. rewrite <- (rev_involutive l), E. reflexivity.
Qed.

(* ---------- C01 : non temporal ---------- *)
Definition NonTemporalInv (trIn trLab : list (list F)) (d : Data) : Prop :=
  d_temporal d = TNon /\ s_inputs (d_train d) = trIn /\ s_labels (d_train d) = trLab /\
  s_size (d_train d) = length trLab /\
  Permutation (s_shuffled (d_train d)) (seq 0 (length trLab)).

Lemma mkData4_nontemporal_inv p trIn trLab teIn teLab rec d :
  mkData4 p trIn trLab teIn teLab nonTemporal rec = Ok d -> NonTemporalInv trIn trLab d.
Proof.
  unfold mkData4, initialize. destruct (rev trIn); try discriminate.
  destruct (rev trLab); try discriminate. cbn -[data_isValid]. intros H.
  apply bind_Ok_inv in H as (e & _ & H). destruct (negb (e =? 0)); try discriminate.
  injection H as <-. repeat split; cbn; auto.
Qed.

Lemma mkData2_mkData4 p ins labs n rec : mkData2 p ins labs n rec = mkData4 p ins labs ins labs n rec.
Proof. reflexivity. Qed.

Lemma run_op_nontemporal trIn trLab d o :
  fair_op o -> NonTemporalInv trIn trLab d -> exists d', run_op d o = Ok d' /\ NonTemporalInv trIn trLab d'.
Proof.
  intros Hf (Ht & Hi & Hl & Hs & Hp). destruct o as [rng|]; cbn.
  - unfold shuffle. rewrite Ht.
    destruct (rshuffle_fair rng (s_shuffled (d_train d)) Hf) as (w & E & Hw). rewrite E. cbn.
    eexists; split; [reflexivity|]. repeat split; cbn; auto. now rewrite Hw.
  - unfold unshuffle. rewrite Ht. eexists; split; [reflexivity|].
    repeat split; cbn; auto. rewrite Hs. reflexivity.
Qed.

Lemma run_ops_nontemporal trIn trLab ops d :
  Forall fair_op ops -> NonTemporalInv trIn trLab d ->
  exists d', run_ops ops d = Ok d' /\ NonTemporalInv trIn trLab d'.
Proof.
  intros Hf. revert d. unfold run_ops. induction Hf as [|o ops Ho Hops IH]; intros d H; cbn; eauto.
  destruct (run_op_nontemporal trIn trLab d o Ho H) as (d1 & E & H1). rewrite E; cbn. auto.
Qed.

Lemma nontemporal_each_sample_once_l p trIn trLab teIn teLab rec d ops :
  mkData4 p trIn trLab teIn teLab nonTemporal rec = Ok d ->
  length trIn = length trLab ->
  Forall fair_op ops ->
  exists d' visited, run_ops ops d = Ok d' /\
    Permutation visited (combine trIn trLab) /\
    forall i x y, nth_error visited i = Some (x, y) <-> (i < length trLab /\ exposes d' i x y).
Proof.
  intros Hd Hlen Hf. apply mkData4_nontemporal_inv in Hd.
  destruct (run_ops_nontemporal trIn trLab ops d Hf Hd) as (d' & E & Ht & Hi & Hl & Hs & Hp).
  set (sh := s_shuffled (d_train d')) in *.
  set (dx := (@nil F, @nil F)).
  exists d', (map (fun i => nth i (combine trIn trLab) dx) sh).
  split; [exact E|].
  assert (Hc : length (combine trIn trLab) = length trLab) by (rewrite combine_length; lia).
  split.
  - rewrite Hp, <- Hc. apply Permutation_refl'. apply map_nth_seq.
  - intros i x y.
    assert (Hlsh : length sh = length trLab) by (rewrite (Permutation_length Hp), seq_length; auto).
    assert (Hin : forall k, nth_error sh i = Some k -> k < length trLab).
    { intros k Hk. apply nth_error_In in Hk. apply (Permutation_in _ Hp) in Hk. apply in_seq in Hk. lia. }
    rewrite nth_error_map. unfold exposes, getTrainingData, getTrainingOutputs. cbn [Nat.leb].
    fold sh. rewrite Hi, Hl. unfold lget.
    destruct (nth_error sh i) as [k|] eqn:Ek; cbn.
    + specialize (Hin k eq_refl).
      assert (i < length trLab) by (rewrite <- Hlsh; apply nth_error_Some; congruence).
      rewrite (nth_error_nth' trIn []) by lia. rewrite (nth_error_nth' trLab []) by lia. cbn.
      unfold dx; rewrite combine_nth by auto.
      split.
      * intros H'. injection H' as <- <-. split; auto. split; eauto.
      * intros (_ & (d1 & H1) & d2 & H2). congruence.
    + split; [discriminate|]. intros (_ & (d1 & H1) & _). discriminate.
Qed.

(* ---------- C02 : batches ---------- *)
Lemma resize_length (l : list F) n : length (resize l n) = n.
Proof.
  unfold resize. rewrite firstn_length, app_length, repeat_length. lia.
Qed.

Lemma overwrite_full (buf vals : list F) : length vals = length buf -> overwrite buf vals = Ok vals.
Proof.
  intros H. unfold overwrite. rewrite H, Nat.leb_refl, skipn_all, app_nil_r. reflexivity.
Qed.

Definition sum_rows (r0 : list F) (rest : list (list F)) : list F := fold_left (zipwith fadd) rest r0.

Lemma sum_rows_length w r0 rest :
  length r0 = w -> Forall (fun r => length r = w) rest -> length (sum_rows r0 rest) = w.
Proof.
  unfold sum_rows. revert r0. induction rest as [|r rest IH]; intros r0 H Hf; cbn; auto.
  inv Hf. apply IH; auto. rewrite zipwith_length. lia.
Qed.

Lemma sum_rows_nth w r0 rest k :
  length r0 = w -> Forall (fun r => length r = w) rest -> k < w ->
  nth_error (sum_rows r0 rest) k = Some (fold_left fadd (map (fun r => nth k r fzero) rest) (nth k r0 fzero)).
Proof.
  unfold sum_rows. revert r0. induction rest as [|r rest IH]; intros r0 H Hf Hk; cbn.
  - apply nth_error_nth'. lia.
  - inv Hf. rewrite IH; auto.
    + f_equal. f_equal.
      apply nth_error_nth. rewrite nth_error_zipwith.
      rewrite (nth_error_nth' r0 fzero) by lia. rewrite (nth_error_nth' r fzero) by lia. reflexivity.
    + rewrite zipwith_length. lia.
Qed.

(* row visited at position j *)
Definition visits (rows : list (list F)) (sh : list nat) (j : nat) (r : list F) : Prop :=
  exists i, lget sh j = Ok i /\ lget rows i = Ok r.

Lemma batch_loop rows sh w rest j b :
  length b = w -> Forall (fun r => length r = w) rest ->
  (forall k r, nth_error rest k = Some r -> visits rows sh (j + k) r) ->
  ofold (fun b j => let* i := lget sh j in let* data := lget rows i in overwrite b (zipwith fadd b data))
        (seq j (length rest)) b = Ok (sum_rows b rest).
Proof.
  revert j b. induction rest as [|r rest IH]; intros j b Hb Hf Hv; cbn; auto.
  destruct (Hv 0 r eq_refl) as (i & E1 & E2). rewrite Nat.add_0_r in E1. rewrite E1; cbn. rewrite E2; cbn.
  inv Hf. rewrite overwrite_full by (rewrite zipwith_length; lia). cbn.
  apply IH; auto.
  - rewrite zipwith_length. lia.
  - intros k r' Hk. replace (S j + k) with (j + S k) by lia. apply Hv. exact Hk.
Qed.

Lemma batch_rows_spec rows sh w buf index r0 r1 rest :
  Forall (fun r => length r = w) (r0 :: r1 :: rest) ->
  (forall k r, nth_error (r0 :: r1 :: rest) k = Some r -> visits rows sh (index + k) r) ->
  batch_rows rows sh w buf index (length (r0 :: r1 :: rest)) =
    Ok (map (fun x => fdiv x (fofnat (length (r0 :: r1 :: rest)))) (sum_rows r0 (r1 :: rest))).
Proof.
  intros Hf Hv. unfold batch_rows.
  destruct (Hv 0 r0 eq_refl) as (i0 & E0 & E0'). rewrite Nat.add_0_r in E0. rewrite E0; cbn [bind]. rewrite E0'; cbn [bind].
  destruct (Hv 1 r1 eq_refl) as (i1 & E1 & E1'). rewrite E1; cbn [bind]. rewrite E1'; cbn [bind].
  inversion Hf as [|? ? H0 Hf1]; subst. inversion Hf1 as [|? ? H1 Hf2]; subst.
  rewrite overwrite_full by (rewrite zipwith_length, resize_length; lia). cbn [bind].
  replace (length (r0 :: r1 :: rest) - 2) with (length rest) by (cbn; lia).
  rewrite batch_loop with (w := length r0); auto.
  - rewrite zipwith_length. lia.
  - intros k r Hk. replace (index + 2 + k) with (index + S (S k)) by lia. now apply Hv.
Qed.

Lemma mean_of_sum r0 rest w :
  Forall (fun r => length r = w) (r0 :: rest) ->
  mean_of (r0 :: rest) (map (fun x => fdiv x (fofnat (length (r0 :: rest)))) (sum_rows r0 rest)).
Proof.
  intros Hf. inversion Hf as [|? ? H0 Hf1]; subst. split.
  - rewrite map_length. now apply sum_rows_length.
  - intros k Hk. rewrite nth_error_map. rewrite sum_rows_nth with (w := length r0); auto.
Qed.

Lemma exposes_visits d i x y :
  exposes d i x y <-> visits (s_inputs (d_train d)) (s_shuffled (d_train d)) i x
                   /\ visits (s_labels (d_train d)) (s_shuffled (d_train d)) i y.
Proof.
  unfold exposes, visits, getTrainingData, getTrainingOutputs. cbn [Nat.leb]. split.
  - intros ((d1 & H1) & d2 & H2).
    apply bind_Ok_inv in H1 as (i1 & E1 & H1). apply bind_Ok_inv in H1 as (r1 & E1' & H1). inv H1.
    apply bind_Ok_inv in H2 as (i2 & E2 & H2). apply bind_Ok_inv in H2 as (r2 & E2' & H2). inv H2.
    split; [exists i1|exists i2]; split; assumption.
  - intros ((i1 & E1 & E1') & i2 & E2 & E2').
    rewrite E1. cbn. assert (i1 = i2) by congruence. subst. rewrite E1', E2'. cbn. eauto.
Qed.

Lemma batch_is_mean_l (d : Data) (index : nat) (xs ys : list (list F)) :
  2 <= length xs -> length ys = length xs ->
  (forall k x y, nth_error xs k = Some x -> nth_error ys k = Some y -> exposes d (index + k) x y) ->
  Forall (fun x => length x = d_sizeOfData d) xs ->
  Forall (fun y => length y = d_numberOfLabels d) ys ->
  exists mx my d1 d2,
    getTrainingData d index (length xs) = Ok (mx, d1) /\ mean_of xs mx /\
    getTrainingOutputs d1 index (length xs) = Ok (my, d2) /\ mean_of ys my /\
    (forall i x y, exposes d2 i x y <-> exposes d i x y).
Proof.
  intros Hl Hly He Hx Hy.
  destruct xs as [|x0 [|x1 xs]]; cbn in Hl; try lia.
  destruct ys as [|y0 [|y1 ys]]; cbn in Hly; try lia.
  assert (Hvx : forall k r, nth_error (x0 :: x1 :: xs) k = Some r ->
             visits (s_inputs (d_train d)) (s_shuffled (d_train d)) (index + k) r).
  { intros k r Hk. destruct (nth_error (y0 :: y1 :: ys) k) as [y|] eqn:Ey.
    - exact (proj1 (proj1 (exposes_visits _ _ _ _) (He k r y Hk Ey))).
    - apply nth_error_None in Ey. assert (k < length (x0 :: x1 :: xs)) by (apply nth_error_Some; congruence).
      cbn in *; lia. }
  assert (Hvy : forall k r, nth_error (y0 :: y1 :: ys) k = Some r ->
             visits (s_labels (d_train d)) (s_shuffled (d_train d)) (index + k) r).
  { intros k r Hk. destruct (nth_error (x0 :: x1 :: xs) k) as [y|] eqn:Ey.
    - exact (proj2 (proj1 (exposes_visits _ _ _ _) (He k y r Ey Hk))).
    - apply nth_error_None in Ey. assert (k < length (y0 :: y1 :: ys)) by (apply nth_error_Some; congruence).
      cbn in *; lia. }
  assert (Hlen : length (x0 :: x1 :: xs) = length (y0 :: y1 :: ys)) by (cbn; lia).
  unfold getTrainingData.
  replace (length (x0 :: x1 :: xs) <=? 1) with false by (symmetry; apply Nat.leb_gt; cbn; lia).
  rewrite batch_rows_spec by auto. cbn [bind].
  eexists _, _, _, _. split; [reflexivity|]. split; [eapply mean_of_sum; eauto|].
  unfold getTrainingOutputs. cbn [d_train d_numberOfLabels d_batchedLabels].
  replace (length (x0 :: x1 :: xs) <=? 1) with false by (symmetry; apply Nat.leb_gt; cbn; lia).
  rewrite Hlen. rewrite batch_rows_spec by auto. cbn [bind].
  split; [reflexivity|]. split; [eapply mean_of_sum; eauto|].
  intros i x y. rewrite !exposes_visits. cbn. reflexivity.
Qed.

(* ---------- C09 ---------- *)
Lemma unshuffled_label_l p trIn trLab teIn teLab rec d ops d' i :
  mkData4 p trIn trLab teIn teLab nonTemporal rec = Ok d -> p = classification ->
  Forall fair_op ops -> run_ops (ops ++ [OpUnshuffle]) d = Ok d' ->
  i < length trLab ->
  exists y, (exists d2, getTrainingOutputs d' i 1 = Ok (y, d2)) /\ getTrainingLabel d' i = findOne y 0.
Proof.
  intros Hd Hp Hf Hr Hi.
  pose proof (mkData4_nontemporal_inv _ _ _ _ _ _ _ Hd) as Hinv.
  assert (Hpr : d_problem d = p).
  { revert Hd. unfold mkData4, initialize. destruct (rev trIn); try discriminate.
    destruct (rev trLab); try discriminate. cbn -[data_isValid]. intros H.
    apply bind_Ok_inv in H as (e & _ & H). destruct (negb (e =? 0)); try discriminate. now injection H as <-. }
  unfold run_ops in Hr. rewrite ofold_app in Hr. fold (run_ops ops d) in Hr.
  destruct (run_ops_nontemporal trIn trLab ops d Hf Hinv) as (d1 & E1 & Ht & Hi1 & Hl & Hs & _).
  rewrite E1 in Hr. cbn in Hr. unfold unshuffle in Hr. rewrite Ht in Hr. cbn in Hr. injection Hr as <-.
  assert (Hp1 : d_problem d1 = d_problem d).
  { clear - E1. revert d E1. unfold run_ops. induction ops as [|o ops IH]; cbn; intros d E.
    - congruence.
    - apply bind_Ok_inv in E as (dm & Em & E). rewrite (IH _ E). clear - Em.
      destruct o; cbn in Em.
      + unfold shuffle in Em. destruct (d_temporal d).
        * apply bind_Ok_inv in Em as (w & _ & E). now injection E as <-.
        * apply bind_Ok_inv in Em as (w & _ & E). apply bind_Ok_inv in E as (w' & _ & E). now injection E as <-.
        * apply bind_Ok_inv in Em as (w & _ & E). apply bind_Ok_inv in E as ([[? ?] ?] & _ & E). now injection E as <-.
      + unfold unshuffle in Em. destruct (d_temporal d); try (now injection Em as <-).
        apply bind_Ok_inv in Em as (w & _ & E). now injection E as <-. }
  unfold getTrainingOutputs, getTrainingLabel. cbn. rewrite Hp1, Hpr, Hp, Hl, Hs.
  rewrite (lget_nth (seq 0 (length trLab)) i 0) by (rewrite seq_length; lia). cbn.
  rewrite seq_nth by lia. cbn. rewrite (lget_nth trLab i []) by lia. cbn. eauto.
Qed.

Lemma precision_separator_l : forall (d : Data) (v : F),
  (d_problem d = regression ->
     exists d', setPrecision v d = Ok d' /\ getPrecision d' = Ok v /\ d_problem d' = regression /\
       (forall i x y, exposes d' i x y <-> exposes d i x y)) /\
  (d_problem d <> regression -> (exists m, setPrecision v d = Throw m) /\ (exists m, getPrecision d = Throw m)) /\
  (d_problem d <> regression ->
     exists d', setSeparator v d = Ok d' /\ getSeparator d' = Ok v /\ d_problem d' = d_problem d /\
       (forall i x y, exposes d' i x y <-> exposes d i x y)) /\
  (d_problem d = regression -> (exists m, setSeparator v d = Throw m) /\ (exists m, getSeparator d = Throw m)).
Proof.
  intros [pr na tr te sz nl prec sep tmp bd bl] v. unfold setPrecision, getPrecision, setSeparator, getSeparator, isRegression.
  cbn [d_problem].
  destruct pr; cbn; (split; [|split; [|split]]); intros H; try congruence; try (split; eexists; reflexivity);
  (eexists; split; [reflexivity|]; cbn; split; [reflexivity|]; split; [reflexivity|];
   intros i x y; rewrite !exposes_visits; cbn; tauto).
Qed.

End P.
