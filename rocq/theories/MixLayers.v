(* The layers of C67: neurons reading cells of the input with a constant beside, and what a step does to them. *)
From Coq Require Import Reals Lra.
From Coquelicot Require Import Coquelicot.
From Verif Require Import Base Num NumOrder ActModel ActProofs NeuronModel LayerModel NetModel NetSpec NeuronProofs LayerProofs SafeProofs GradProofs DenseProofs LOptSpec BackSpec MixSpec MixProofs.
Local Open Scope R_scope.

(* ---------- units reading cells ---------- *)
Record punit := mkU { u_w : list R; u_row : list Z; u_c : R; u_a : activation }.
Definition reads (y : list R) (row : list Z) : list R := map (@valueAt RNum y) row.
Definition usum (u : punit) (y : list R) : R := inner (reads y (u_row u)) (u_w u) + u_c u.
Definition uval (u : punit) (y : list R) : R := @act RNum (u_a u) (usum u y).
Definition uset (u : punit) (q : nat) (t : R) : punit := mkU (replace (u_w u) q t) (u_row u) (u_c u) (u_a u).
Definition uL (us : list punit) (z y : list R) : list R := map (fun u => @actd RNum (u_a u) (usum u z) * inner (reads y (u_row u)) (u_w u)) us.
Definition uok (k : nat) (u : punit) : Prop := Forall (fun i => (i < Z.of_nat k)%Z) (u_row u) /\ (List.length (u_row u) <= List.length (u_w u))%nat.
Definition usmooth (u : punit) (z : list R) : Prop := u_a u <> a_iSigmoid /\ (u_a u = a_ReLU -> usum u z <> 0).

Lemma reads_length y row : List.length (reads y row) = List.length row. Proof. apply map_length. Qed.
Lemma nth_reads y row i : (i < List.length row)%nat -> nth i (reads y row) 0 = @valueAt RNum y (nth i row 0%Z).
Proof. intros H. unfold reads. rewrite (nth_indep _ 0 (@valueAt RNum y 0%Z)) by (rewrite map_length; exact H). apply map_nth. Qed.
Lemma valueAt_R y i : @valueAt RNum y i = if (0 <=? i)%Z then nth (Z.to_nat i) y 0 else 0.
Proof. unfold valueAt. now rewrite fzero_R. Qed.

Lemma derive_act (a : activation) (s : R -> R) t0 ds : a <> a_iSigmoid -> (a = a_ReLU -> s t0 <> 0) -> derivable_pt_lim s t0 ds ->
  derivable_pt_lim (fun t => @act RNum a (s t)) t0 (@actd RNum a (s t0) * ds).
Proof. intros Ha Hr Hd. apply (derivable_pt_lim_comp s (@act RNum a)); auto. apply is_derive_Reals. now apply act_derive. Qed.

Lemma usum_curve k u g t0 v : uok k u -> curve k g t0 v -> derivable_pt_lim (fun t => usum u (g t)) t0 (inner (reads (vec k v) (u_row u)) (u_w u)).
Proof.
  intros [Hr Hl] [Lg Hv]. unfold usum.
  apply derive_ext with (fun t => sumn (List.length (u_row u)) (fun i => nth i (reads (g t) (u_row u)) 0 * nth i (u_w u) 0) + u_c u).
  { intros t. f_equal. rewrite inner_sum by (rewrite reads_length; exact Hl). now rewrite reads_length. }
  rewrite inner_sum by (rewrite reads_length; exact Hl). rewrite reads_length.
  replace (sumn _ _) with (sumn (List.length (u_row u)) (fun i => nth i (reads (vec k v) (u_row u)) 0 * nth i (u_w u) 0) + 0) by lra.
  apply derivable_pt_lim_plus; [|apply derivable_pt_lim_const].
  apply (derive_sumn _ (fun i t => nth i (reads (g t) (u_row u)) 0 * nth i (u_w u) 0)). intros i Hi.
  replace (nth i (reads (vec k v) (u_row u)) 0 * nth i (u_w u) 0) with (nth i (reads (vec k v) (u_row u)) 0 * nth i (u_w u) 0 + nth i (reads (g t0) (u_row u)) 0 * 0) by lra.
  apply (derivable_pt_lim_mult (fun t => nth i (reads (g t) (u_row u)) 0) (fun _ => nth i (u_w u) 0)); [|apply derivable_pt_lim_const].
  rewrite nth_reads, valueAt_R by exact Hi. rewrite Forall_forall in Hr. specialize (Hr (nth i (u_row u) 0%Z) (nth_In _ _ Hi)).
  apply derive_ext with (fun t => if (0 <=? nth i (u_row u) 0)%Z then nth (Z.to_nat (nth i (u_row u) 0%Z)) (g t) 0 else 0).
  { intros t. now rewrite nth_reads, valueAt_R by exact Hi. }
  destruct (Z.leb_spec 0 (nth i (u_row u) 0%Z)); [|apply derivable_pt_lim_const]. rewrite nth_vec by lia. apply Hv. lia.
Qed.
Lemma units_curve k us g t0 v z : Forall (uok k) us -> Forall (fun u => usmooth u z) us -> curve k g t0 v -> g t0 = z ->
  curve (List.length us) (fun t => map (fun u => uval u (g t)) us) t0 (fun j => nth j (uL us z (vec k v)) 0).
Proof.
  intros Hk Hs Hc H0. split; [intros; apply map_length|]. intros j Hj. set (u0 := mkU [] [] 0 a_identity).
  unfold uL. rewrite (nth_map_in _ us j 0 u0) by exact Hj. set (u := nth j us u0).
  apply derive_ext with (fun t => uval u (g t)). { intros t. symmetry. now rewrite (nth_map_in _ us j 0 u0). }
  rewrite Forall_forall in Hk, Hs. specialize (Hk u (nth_In _ _ Hj)). destruct (Hs u (nth_In _ _ Hj)) as [A B]. rewrite <- H0.
  apply (derive_act (u_a u) (fun t => usum u (g t))); auto. { rewrite H0. exact B. } now apply usum_curve.
Qed.
Lemma usum_set u q t z : (q < List.length (u_row u))%nat -> (List.length (u_row u) <= List.length (u_w u))%nat ->
  usum (uset u q t) z = usum u z + nth q (reads z (u_row u)) 0 * (t - nth q (u_w u) 0).
Proof.
  intros Hq Hl. unfold usum, uset; cbn [u_w u_row u_c]. rewrite !inner_sum by (rewrite ?replace_length, reads_length; exact Hl). rewrite reads_length.
  rewrite (sumn_ext _ _ (fun i => nth i (reads z (u_row u)) 0 * nth i (u_w u) 0 + (if (i =? q)%nat then nth q (reads z (u_row u)) 0 * (t - nth q (u_w u) 0) else 0))).
  2: { intros i Hi. rewrite nth_replace. destruct (Nat.eqb_spec i q) as [->|]; [|lra]. destruct (Nat.ltb_spec q (List.length (u_w u))); [lra|lia]. }
  rewrite sumn_add, (sumn_single _ q (fun i => if (i =? q)%nat then _ else 0)); [rewrite Nat.eqb_refl; lra|exact Hq|]. intros j _ Hj. destruct (Nat.eqb_spec j q); [lia|reflexivity].
Qed.
Lemma units_weight us n u q z : nth_error us n = Some u -> usmooth u z -> (q < List.length (u_row u))%nat -> (List.length (u_row u) <= List.length (u_w u))%nat ->
  let vt := fun t => map (fun u => uval u z) (replace us n (uset u q t)) in
  vt (nth q (u_w u) 0) = map (fun u => uval u z) us /\
  curve (List.length us) vt (nth q (u_w u) 0) (fun j => if (j =? n)%nat then @actd RNum (u_a u) (usum u z) * nth q (reads z (u_row u)) 0 else 0).
Proof.
  intros Hn [Ha Hr] Hq Hl vt. assert (Hlt : (n < List.length us)%nat) by (apply nth_error_Some; congruence).
  assert (S0 : usum (uset u q (nth q (u_w u) 0)) z = usum u z) by (rewrite usum_set by assumption; lra).
  split.
  - unfold vt. apply nth_error_ext. intros j. rewrite !nth_error_map, nth_error_replace. destruct (Nat.eqb_spec j n) as [->|]; [|reflexivity].
    destruct (Nat.ltb_spec n (List.length us)); [|lia]. rewrite Hn. cbn [option_map]. unfold uval. rewrite S0. reflexivity.
  - split. { intros t. unfold vt. now rewrite map_length, replace_length. }
    intros j Hj. set (u0 := mkU [] [] 0 a_identity). unfold vt. destruct (Nat.eqb_spec j n) as [->|Hne].
    + apply derive_ext with (fun t => @act RNum (u_a u) (usum (uset u q t) z)).
      { intros t. rewrite (nth_map_in _ (replace us n (uset u q t)) n 0 u0) by (now rewrite replace_length). rewrite nth_replace, Nat.eqb_refl. destruct (Nat.ltb_spec n (List.length us)); [reflexivity|lia]. }
      pose proof (derive_act (u_a u) (fun t => usum (uset u q t) z) (nth q (u_w u) 0) (nth q (reads z (u_row u)) 0)) as D. cbv beta in D. rewrite S0 in D. apply D; auto.
      apply derive_ext with (fun t => usum u z + nth q (reads z (u_row u)) 0 * (t - nth q (u_w u) 0)). { intros t. symmetry. now apply usum_set. }
      apply is_derive_Reals. generalize (usum u z) (nth q (reads z (u_row u)) 0). intros a b. auto_derive; auto. lra.
    + apply derive_ext with (fun _ => nth j (map (fun u => uval u z) us) 0); [|apply derivable_pt_lim_const].
      intros t. rewrite !(nth_map_in _ _ j 0 u0) by (rewrite ?replace_length; auto). rewrite nth_replace. destruct (Nat.eqb_spec j n); [lia|reflexivity].
Qed.

(* ---------- a layer made of such units ---------- *)
(* every unit n of the layer moved its weights with the error of its output *)
Definition unit_upd (o : @SGD RNum) (l : RLay) (us : list punit) (z e : list R) (l2 : RLay) : Prop :=
  forall n u pu, @unit_at RNum l n = Some u -> nth_error us n = Some pu -> exists u', @unit_at RNum l2 n = Some u' /\ n_in u' = n_in u /\ List.length (n_w u') = List.length (n_w u) /\
  forall w, (w < n_in u)%nat -> @nth R w (n_w u') 0 = nth w (n_w u) 0 + (o_lr o * (nth n e 0 * @actd RNum (u_a pu) (usum pu z)) * nth w (reads z (u_row pu)) 0 + o_m o * nth w (prow u) 0) /\
    @nth R w (prow u') 0 = nth w (n_w u') 0 - nth w (n_w u) 0.
Lemma units_good o l z us :
  Forall (uok (List.length z)) us -> Forall (fun u => usmooth u z) us ->
  (forall n u, @unit_at RNum l n = Some u -> exists pu, nth_error us n = Some pu /\ u_w pu = n_w u /\ List.length (u_row pu) = n_in u) ->
  (forall y, List.length y = List.length z -> exists l', @layer_output RNum l y false = Ok (map (fun u => uval u y) us, l')) ->
  (forall n pu q t, nth_error us n = Some pu -> (q < List.length (u_row pu))%nat -> exists l', @layer_output RNum (@change_weight RNum l n q t) z false = Ok (map (fun u => uval u z) (replace us n (uset pu q t)), l')) ->
  (forall rand reset, exists l1, @layer_outputForTraining RNum rand l z reset = Ok (map (fun u => uval u z) us, l1) /\ getNumberOfNeurons l1 = getNumberOfNeurons l /\
    forall e, List.length e = List.length us ->
    (exists r l2, @layer_backOutput RNum o l1 e = Ok (r, l2) /\ List.length r = List.length z /\
      (forall u, List.length u = List.length z -> inner r u = sumn (List.length us) (fun j => nth j e 0 * nth j (uL us z u) 0)) /\ unit_upd o l us z e l2) /\
    (exists l3, @layer_train RNum o l1 e = Ok l3 /\ unit_upd o l us z e l3)) ->
  good o l z (fun y => map (fun u => uval u y) us) (List.length us) (uL us z).
Proof.
  intros Hk Hs HU H1 H2 H3.
  assert (HS : forall e l2, unit_upd o l us z e l2 -> stepped o l z (map (fun u => uval u z) us) e l2).
  { intros e l2 HX n u w Hu Hw. destruct (HU n u Hu) as (pu & Hp & Ew & Lr). destruct (HX n u pu Hu Hp) as (u' & Hu' & Hi & Lw & Hn).
    pose proof (nth_error_In _ _ Hp) as Hin. rewrite Forall_forall in Hk, Hs. destruct (Hk pu Hin) as [_ Hl]. specialize (Hs pu Hin).
    destruct (units_weight us n pu w z Hp Hs ltac:(lia) Hl) as [V0 VC]. rewrite Ew in *. split; [change (@F RNum) with R in *; lia|].
    exists u', (fun t => map (fun u => uval u z) (replace us n (uset pu w t))), (fun j => if (j =? n)%nat then @actd RNum (u_a pu) (usum pu z) * nth w (reads z (u_row pu)) 0 else 0).
    split; [exact Hu'|]. split; [exact Lw|]. split; [exact Hi|]. split; [intros t; apply H2; [exact Hp|lia]|]. split; [exact V0|]. rewrite map_length. split; [exact VC|].
    destruct (Hn w Hw) as [N1 N2]. split; [|exact N2]. rewrite N1. rewrite (sumn_single _ n).
    - rewrite Nat.eqb_refl. lra.
    - apply nth_error_Some. congruence.
    - intros j _ Hj. destruct (Nat.eqb_spec j n); [lia|lra]. }
  split; [|split].
  - intros y Hy. split; [apply map_length|]. now apply H1.
  - intros g t0 v Hc H0. apply units_curve; auto.
  - intros rand reset. destruct (H3 rand reset) as (l1 & E1 & EN & HB). exists l1. split; [exact E1|]. split; [exact EN|]. intros e He.
    destruct (HB e He) as ((r & l2 & Eb & Lr & Hin & HX) & l3 & E3 & HX3). split; eauto 10.
Qed.

(* ---------- plain neurons ---------- *)
Definition pu_of (n : RNeu) (row : list Z) : punit := mkU (n_w n) row (@nth R (n_in n) (n_w n) 0 * n_bias n) (n_act n).
Lemma sum_pu n row y : wf_neuron 1 n -> List.length row = n_in n -> @neuron_sum RNum n (reads y row) = usum (pu_of n row) y.
Proof.
  intros W Hr. rewrite nsum_R by (rewrite ?reads_length; auto). unfold usum, pu_of; cbn [u_w u_row u_c]. destruct W as (HL & _).
  rewrite inner_sum by (rewrite reads_length; change (@F RNum) with R in *; lia). rewrite reads_length, Hr. reflexivity.
Qed.
Lemma value_pu n row y : wf_neuron 1 n -> List.length row = n_in n -> @neuron_value RNum n (reads y row) = uval (pu_of n row) y.
Proof. intros W Hr. unfold neuron_value, uval. now rewrite sum_pu. Qed.
Lemma changed_wf n w t : wf_neuron 1 n -> wf_neuron 1 (@changed RNum n w t). Proof. exact (with_weight_wf n w t). Qed.
Lemma changed_pu n row q t : (q < n_in n)%nat -> pu_of (@changed RNum n q t) row = uset (pu_of n row) q t.
Proof.
  intros H. unfold pu_of, uset, changed, set_w; cbn [n_w n_in n_bias n_act u_w u_row u_c u_a]. f_equal. change (@F RNum) with R. rewrite nth_replace. destruct (Nat.eqb_spec (n_in n) q); [lia|reflexivity].
Qed.
Lemma simple_step o n x e : wf_neuron 1 n -> n_batch n = 1%nat -> List.length x = n_in n ->
  let delta := e * @actd RNum (n_act n) (@neuron_sum RNum n x) in
  (exists n', @simple_backOutput RNum o (fed x n) e = Ok (map (fun w => delta * w) (firstn (n_in n) (n_w n)), n') /\ upd o delta x n n' /\ List.length (n_w n') = List.length (n_w n)) /\
  (exists n', @simple_train RNum o (fed x n) e = Ok n' /\ upd o delta x n n' /\ List.length (n_w n') = List.length (n_w n)).
Proof.
  intros W Hb Hx delta. pose proof (fed_wf x n W Hb Hx) as Wf. split.
  - destruct (simple_backOutput_ok o (fed x n) e Wf) as (n' & E & W' & Hi'). exists n'. split; [exact E|]. pose proof E as E1. unfold simple_backOutput in E1.
    apply bind_Ok_inv in E1 as (errs & _ & E1). apply bind_Ok_inv in E1 as (n2 & Es & E1). injection E1 as _ ->. split; [now apply upd_sgd in Es|].
    destruct W' as (-> & _), W as (-> & _). rewrite Hi'. reflexivity.
  - unfold simple_train. destruct (sgd_simple_ok o (fed x n) (@fmul RNum e (@actd RNum (n_act (fed x n)) (n_sum (fed x n)))) Wf) as (n' & E & W'). exists n'. split; [exact E|].
    rewrite <- (set_err_self (fed x n)) in E at 1. pose proof (sgd_keeps _ _ _ _ E) as [Hi' _]. split; [now apply upd_sgd in E|]. destruct W' as (-> & _), W as (-> & _). rewrite Hi'. reflexivity.
Qed.
Lemma upd_unit o delta z row n n' : upd o delta (reads z row) n n' -> n_in n' = n_in n /\
  forall w, (w < n_in n)%nat -> @nth R w (n_w n') 0 = nth w (n_w n) 0 + (o_lr o * delta * nth w (reads z row) 0 + o_m o * nth w (prow n) 0) /\ @nth R w (prow n') 0 = nth w (n_w n') 0 - nth w (n_w n) 0.
Proof. intros (A & _ & _ & _ & B & _ & C & _). split; [exact A|]. intros w Hw. split; [now apply B|now apply C]. Qed.

(* errors[e] += error[e] *)
Lemma add_rows k (u : list R) : List.length u = k -> forall (es : list (list R)) (acc : list R), Forall (fun r => List.length r = k) es -> List.length acc = k ->
  exists r, @ofold _ (list R) (@addErrors RNum) es acc = Ok r /\ List.length r = k /\ inner r u = inner acc u + Rsum (map (fun x => inner x u) es).
Proof.
  intros Hu es. induction es as [|x t IH]; intros acc H La.
  - exists acc. cbn [ofold map Rsum]. split; [reflexivity|]. split; [exact La|lra].
  - cbn [ofold]. pose proof (Forall_inv H) as Lx. cbv beta in Lx. unfold addErrors at 1. change (@F RNum) with R in *.
    rewrite (omap_seq_ok _ (fun i => nth i acc 0 + nth i x 0)).
    2: { intros i Hi. change (@F RNum) with R in *. rewrite (lget_nth acc i 0) by lia. cbn [bind]. rewrite (lget_nth x i 0) by lia. reflexivity. }
    cbn [bind]. destruct (IH (map (fun i => nth i acc 0 + nth i x 0) (seq 0 (List.length acc))) (Forall_inv_tail H)) as (r & E & Lr & Hin); [now rewrite map_length, seq_length|].
    exists r. split; [exact E|]. split; [exact Lr|]. rewrite Hin. cbn [map Rsum]. rewrite (inner_sum acc), (inner_sum x), (inner_sum (map _ _)) by (rewrite ?map_length, ?seq_length; lia). rewrite map_length, seq_length, La, Lx.
    rewrite (sumn_ext _ _ (fun i => nth i acc 0 * nth i u 0 + nth i x 0 * nth i u 0)) by (intros i Hi; rewrite nth_map_seq by exact Hi; lra). rewrite sumn_add. lra.
Qed.
Lemma add_rows_all k (es : list (list R)) : Forall (fun r => List.length r = k) es ->
  exists r, @ofold _ (list R) (@addErrors RNum) es (repeat (@fzero RNum) k) = Ok r /\ List.length r = k /\ forall u, List.length u = k -> inner r u = Rsum (map (fun x => inner x u) es).
Proof.
  intros H. assert (L0 : List.length (repeat (@fzero RNum) k) = k) by apply repeat_length. destruct (add_rows k (repeat 0 k) (repeat_length _ _) es (repeat (@fzero RNum) k) H L0) as (r & E & Lr & _). exists r. split; [exact E|]. split; [exact Lr|].
  intros u Hu. destruct (add_rows k u Hu es (repeat (@fzero RNum) k) H L0) as (r' & E' & _ & Hin). change (@F RNum) with R in *. rewrite E in E'. injection E' as <-. rewrite Hin. rewrite fzero_R.
  assert (Z : forall m (u : list R), inner (repeat 0 m) u = 0). { induction m as [|m IHm]; intros [|y u0]; try reflexivity. unfold inner in *. cbn. rewrite IHm. lra. } rewrite Z. lra.
Qed.
Lemma Rsum_seq n (f : nat -> R) : Rsum (map f (seq 0 n)) = sumn n f.
Proof. revert f. induction n as [|n IH]; intros f; [reflexivity|]. rewrite sumn_S. cbn [seq map Rsum]. rewrite <- seq_shift, map_map, IH. reflexivity. Qed.
Lemma Rsum_nth {A} (l : list A) (f : A -> R) d : Rsum (map f l) = sumn (List.length l) (fun i => f (nth i l d)).
Proof. induction l as [|a t IH]; [reflexivity|]. cbn [map Rsum List.length]. rewrite sumn_S, IH. reflexivity. Qed.
Definition all_cells (k : nat) : list Z := map Z.of_nat (seq 0 k).
Lemma reads_all k y : List.length y = k -> reads y (all_cells k) = y.
Proof.
  intros H. unfold reads, all_cells. rewrite map_map. apply nth_error_ext. intros i. rewrite nth_error_map. destruct (Nat.lt_ge_cases i k) as [Hi|Hi].
  - rewrite (nth_error_nth' (seq 0 k) O) by (rewrite seq_length; lia). rewrite seq_nth by lia. cbn [option_map plus]. rewrite Nat.add_0_l, valueAt_R. destruct (Z.leb_spec 0 (Z.of_nat i)); [|lia]. rewrite Nat2Z.id. symmetry. apply (@nth_error_nth' R y i 0). lia.
  - rewrite !(proj2 (nth_error_None _ _)) by (rewrite ?seq_length; lia). reflexivity.
Qed.
Lemma all_cells_ok k : Forall (fun i => (i < Z.of_nat k)%Z) (all_cells k) /\ List.length (all_cells k) = k.
Proof. split; [|unfold all_cells; now rewrite map_length, seq_length]. apply Forall_forall. intros i Hi. unfold all_cells in Hi. apply in_map_iff in Hi as (j & <- & Hj). apply in_seq in Hj. lia. Qed.
Lemma inner_scaled d (w u : list R) : inner (map (fun a => d * a) w) u = d * inner w u.
Proof. revert u. induction w as [|a w IH]; intros [|b u]; unfold inner in *; cbn [map combine Rsum fst snd]; try lra. rewrite IH. lra. Qed.
Lemma inner_comm (a : list R) : forall b, inner a b = inner b a.
Proof. induction a as [|x a IH]; intros [|y b]; try reflexivity. unfold inner in *. cbn [combine map Rsum fst snd]. rewrite IH. lra. Qed.
Lemma inner_firstn (w : list R) : forall u, inner (firstn (List.length u) w) u = inner u w.
Proof. induction w as [|a w IH]; intros [|b u]; try reflexivity. unfold inner in *. cbn [List.length firstn combine map Rsum fst snd]. rewrite IH. lra. Qed.
