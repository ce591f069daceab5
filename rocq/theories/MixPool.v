(* Max pooling in C67: where every tile has a single greatest cell the layer has a derivative, and its backward step transposes it. *)
From Coq Require Import Reals Lra.
From Verif Require Import Base Num NumOrder ActModel ActProofs NeuronModel LayerModel NetModel NetSpec NeuronProofs LayerProofs SafeProofs GradProofs DenseProofs SafeLayers FactoryModel FactorySpec FactoryProofs SafeNet BuildProofs FilterSpec HistProofs LOptSpec BackSpec BackProps PoolProofs MixSpec MixProofs MixLayers MixKinds.
Local Open Scope R_scope.

Lemma derive_near (f g : R -> R) t0 l d : 0 < d -> (forall t, Rabs (t - t0) < d -> f t = g t) -> derivable_pt_lim f t0 l -> derivable_pt_lim g t0 l.
Proof.
  intros Hd H HD eps He. destruct (HD eps He) as (a & Ha). assert (Hp : 0 < Rmin a d) by (apply Rmin_pos; [apply cond_pos|exact Hd]). exists (mkposreal _ Hp). cbn [pos]. intros h Hh Hlt.
  rewrite <- !H.
  - apply Ha; [exact Hh|]. eapply Rlt_le_trans; [exact Hlt|apply Rmin_l].
  - rewrite Rminus_eq_0, Rabs_R0. exact Hd.
  - replace (t0 + h - t0) with h by lra. eapply Rlt_le_trans; [exact Hlt|apply Rmin_r].
Qed.
Lemma near_less (f g : R -> R) t0 lf lg : derivable_pt_lim f t0 lf -> derivable_pt_lim g t0 lg -> f t0 < g t0 -> exists d, 0 < d /\ forall t, Rabs (t - t0) < d -> f t < g t.
Proof.
  intros Hf Hg Hlt.
  assert (C : forall h l, derivable_pt_lim h t0 l -> continuity_pt h t0) by (intros h l Hh; apply derivable_continuous_pt; exists l; exact Hh).
  pose proof (continuity_pt_minus g f t0 (C _ _ Hg) (C _ _ Hf)) as Hc. destruct (Hc (g t0 - f t0)) as (a & Ha & Hc'); [lra|]. exists a. split; [exact Ha|].
  intros t Ht. destruct (Req_dec t0 t) as [->|Hne]; [exact Hlt|]. specialize (Hc' t). unfold D_x, no_cond, dist in Hc'. cbn in Hc'. unfold R_dist, minus_fct in Hc'.
  specialize (Hc' (conj (conj I Hne) Ht)). apply Rabs_def2 in Hc'. lra.
Qed.
Lemma near_all (l : list nat) (P : nat -> R -> Prop) t0 : (forall i, In i l -> exists d, 0 < d /\ forall t, Rabs (t - t0) < d -> P i t) -> exists d, 0 < d /\ forall t, Rabs (t - t0) < d -> forall i, In i l -> P i t.
Proof.
  induction l as [|i l IH]; intros H; [exists 1; split; [lra|intros t _ i []]|]. destruct (H i (or_introl eq_refl)) as (d1 & D1 & H1). destruct IH as (d2 & D2 & H2); [intros j Hj; apply H; now right|].
  exists (Rmin d1 d2). split; [now apply Rmin_pos|]. intros t Ht j [<-|Hj].
  - apply H1. eapply Rlt_le_trans; [exact Ht|apply Rmin_l].
  - apply H2; [|exact Hj]. eapply Rlt_le_trans; [exact Ht|apply Rmin_r].
Qed.
Lemma fltb_R a b : @fltb RNum a b = false <-> b <= a.
Proof. cbn. unfold Rltb. destruct (Rlt_dec a b); split; intros; try discriminate; auto; lra. Qed.

Section Pool.
Variables (o : @SGD RNum) (k m : nat) (kd : fkind) (f : Filter) (z : list R).
Hypothesis Hkd : kd = Pool1D \/ kd = Pool2D.
Hypothesis HR : rowsOK (-1) k (f_nin f) (f_index f).
Hypothesis Hex : Forall (fun row => exists i, In i row /\ (0 <= i)%Z) (f_index f).
Hypothesis Hm : m = List.length (f_index f).
Hypothesis Hm2 : m = List.length (f_maxIndex f).
Hypothesis Hk : f_kernels f = m.
Hypothesis Hz : List.length z = k.
Let cell := fun p i => In (Z.of_nat i) (nth p (f_index f) []).
Hypothesis Hdis : forall p p' i, (p < m)%nat -> (p' < m)%nat -> cell p i -> cell p' i -> p = p'.
Hypothesis Hgreat : forall p, (p < m)%nat -> single_greatest z (cell p).

Definition pval (y : list R) : list R := match @pool_output RNum f y with Ok (out, _) => out | _ => [] end.
Lemma pool_at y : List.length y = k -> exists best, @pool_output RNum f y = Ok (map (fun b => nth (Z.to_nat b) y 0) best, set_maxIndex f best) /\ List.length best = m /\
  forall p, (p < m)%nat -> exists b, nth_error best p = Some (Z.of_nat b) /\ (b < k)%nat /\ cell p b /\ forall i, cell p i -> nth i y 0 <= nth b y 0.
Proof.
  intros Hy. destruct (pool_values (fun _ => True) order_laws_R k f y m HR Hex Hm Hm2 Hk Hy) as (best & E & L & HB); [now apply Forall_forall|]. exists best. rewrite fzero_R in E. split; [exact E|]. split; [exact L|].
  intros p Hp. destruct (nth_error best p) as [b|] eqn:Eb; [|apply nth_error_None in Eb; lia]. destruct (HB p b Eb) as (row & Er & Hin & Hr & Hmax).
  apply nth_error_nth with (d := []) in Er. subst row. exists (Z.to_nat b). rewrite Z2Nat.id by lia. split; [reflexivity|]. split; [lia|]. split; [unfold cell; now rewrite Z2Nat.id by lia|].
  intros i Hi. specialize (Hmax _ Hi ltac:(lia)). rewrite Nat2Z.id in Hmax. apply fltb_R in Hmax. rewrite fzero_R in Hmax. exact Hmax.
Qed.
Lemma pval_out y reset : List.length y = k -> exists f1, @body_output RNum (BFilter kd f []) y reset = Ok (pval y, BFilter kd f1 []) /\ List.length (pval y) = m.
Proof.
  intros Hy. destruct (pool_at y Hy) as (best & E & L & _). exists (set_maxIndex f best). unfold pval. change (@F RNum) with R in *. rewrite E. split; [|rewrite map_length; exact L].
  destruct Hkd as [-> | ->]; cbn [body_output]; change (@F RNum) with R in *; rewrite E; reflexivity.
Qed.
Lemma pool_good : exists L, good o (mkLayer k (BFilter kd f []) []) z pval m L.
Proof.
  destruct (pool_at z Hz) as (best & E & Lb & HB). exists (fun u => map (fun b => nth (Z.to_nat b) u 0) best).
  assert (Hnth : forall u p b, nth_error best p = Some (Z.of_nat b) -> nth p (map (fun b => nth (Z.to_nat b) u 0) best) 0 = nth b u 0).
  { intros u p b Hb. apply nth_error_nth. rewrite nth_error_map, Hb. cbn [option_map]. now rewrite Nat2Z.id. }
  split; [|split].
  - intros y Hy. rewrite Hz in Hy. destruct (pval_out y false Hy) as (f1 & E1 & L1). split; [exact L1|]. unfold layer_output. cbn [l_body l_opts l_in]. rewrite E1. cbn [bind opts_testing ofold]. eauto.
  - intros g t0 v Hc H0. rewrite Hz in *. destruct Hc as [Lg Hc]. split. { intros t. now destruct (pval_out (g t) false (Lg t)) as (_ & _ & ?). }
    intros p Hp. destruct (HB p Hp) as (b & Eb & Hbk & Cb & Hmax). rewrite (Hnth _ p b Eb), nth_vec by exact Hbk.
    assert (Hstrict : forall i, cell p i -> i <> b -> nth i z 0 < nth b z 0).
    { destruct (Hgreat p Hp) as (i0 & C0 & G0). assert (b = i0) as ->. { destruct (Nat.eq_dec b i0) as [|Hne]; [assumption|]. exfalso. exact (Rlt_irrefl _ (Rlt_le_trans _ _ _ (G0 b Cb Hne) (Hmax i0 C0))). } exact G0. }
    assert (Hrow : forall i, cell p i -> (i < k)%nat). { intros i Hi. destruct (rows_in _ _ _ _ (nth p (f_index f) []) HR) as [_ Hf]; [apply nth_In; lia|]. rewrite Forall_forall in Hf. specialize (Hf _ Hi). lia. }
    set (others := filter (fun i => negb (i =? b)%nat) (map Z.to_nat (filter (fun i => (0 <=? i)%Z) (nth p (f_index f) [])))).
    assert (Ho : forall i, In i others <-> cell p i /\ i <> b).
    { intros i. unfold others. rewrite filter_In, in_map_iff. split.
      - intros [(x & <- & Hx) Hn]. apply filter_In in Hx as [Hx Hp0]. apply Z.leb_le in Hp0. split; [unfold cell; now rewrite Z2Nat.id|]. intros Q. rewrite Q, Nat.eqb_refl in Hn. discriminate.
      - intros [Hi Hn]. split; [|destruct (Nat.eqb_spec i b); [contradiction|reflexivity]]. exists (Z.of_nat i). split; [apply Nat2Z.id|]. apply filter_In. split; [exact Hi|]. apply Z.leb_le. lia. }
    destruct (near_all others (fun i t => nth i (g t) 0 < nth b (g t) 0) t0) as (d & Hd & Hnear).
    { intros i Hi. apply Ho in Hi as [Ci Hne]. apply (near_less _ _ t0 (v i) (v b)); [apply Hc, Hrow, Ci|apply Hc, Hbk|]. rewrite H0. now apply Hstrict. }
    apply (derive_near (fun t => nth b (g t) 0) _ t0 _ d Hd); [|apply Hc, Hbk]. intros t Ht. symmetry.
    destruct (pool_at (g t) (Lg t)) as (best' & E' & L' & HB'). destruct (HB' p Hp) as (b' & Eb' & _ & Cb' & Hmax'). unfold pval. change (@F RNum) with R in *. rewrite E'.
    rewrite (nth_error_nth _ p 0 (x := nth b' (g t) 0)) by (rewrite nth_error_map, Eb'; cbn [option_map]; now rewrite Nat2Z.id).
    destruct (Nat.eq_dec b' b) as [->|Hne]; [reflexivity|]. exfalso. exact (Rlt_irrefl _ (Rlt_le_trans _ _ _ (Hnear t Ht b' (proj2 (Ho b') (conj Cb' Hne))) (Hmax' b Cb))).
  - intros rand reset. exists (mkLayer k (BFilter kd (set_maxIndex f best) []) []).
    assert (Ev : pval z = map (fun b => nth (Z.to_nat b) z 0) best) by (unfold pval; change (@F RNum) with R in *; now rewrite E).
    split. { unfold layer_outputForTraining. cbn [l_body l_opts l_in]. rewrite Ev. destruct Hkd as [-> | ->]; cbn [body_output]; change (@F RNum) with R in *; rewrite E; reflexivity. }
    split; [reflexivity|].
    assert (HS : forall e l2, stepped o (mkLayer k (BFilter kd f []) []) z (pval z) e l2). { intros e l2 n u w Hu. cbn [unit_at l_body] in Hu. destruct n; discriminate. }
    intros e He. split.
    + destruct (pool_back_values (N := RNum) k (set_maxIndex f best) e) as (r & Er & Lr & H1 & H2); cbn [f_maxIndex set_maxIndex].
      { apply NoDup_nth_error. intros p p' Hp Epp. rewrite Lb in Hp. destruct (HB p Hp) as (b & Eb & _ & Cb & _). assert (Hp' : (p' < m)%nat) by (rewrite <- Lb; apply nth_error_Some; congruence). destruct (HB p' Hp') as (b' & Eb' & _ & Cb' & _).
        assert (b = b') by (rewrite Eb, Eb' in Epp; injection Epp; lia). subst b'. eapply Hdis; eauto. }
      { rl. }
      { apply Forall_of_nth. intros p b Hb. assert (Hp : (p < m)%nat) by (rewrite <- Lb; apply nth_error_Some; congruence). destruct (HB p Hp) as (b' & Eb & Hbk & _). rewrite Hb in Eb. injection Eb as ->. lia. }
      cbn [f_maxIndex set_maxIndex] in H1, H2. rewrite fzero_R in *.
      exists r, (mkLayer k (BFilter kd (set_maxIndex f best) []) []). split. { unfold layer_backOutput. cbn [l_body l_opts l_in]. change (opts_back _ [] e) with e. destruct Hkd as [-> | ->]; cbn [body_back]; change (@F RNum) with R in *; rewrite Er; reflexivity. }
      split; [rl|]. split; [|apply HS]. intros u Hu. rewrite Hz in Hu. change (@F RNum) with R in *. rewrite inner_sum by lia. rewrite Lr.
      rewrite (sumn_ext k _ (fun i => sumn m (fun j => if (Z.to_nat (nth j best 0%Z) =? i)%nat then nth j e 0 * nth i u 0 else 0))).
      * rewrite sumn_swap. apply sumn_ext. intros j Hj. destruct (HB j Hj) as (b & Eb & Hbk & _). rewrite (Hnth u j b Eb). rewrite (nth_error_nth _ _ 0%Z Eb), Nat2Z.id. rewrite (sumn_single _ b); [now rewrite Nat.eqb_refl|exact Hbk|].
        intros i _ Hi. destruct (Nat.eqb_spec b i); [lia|reflexivity].
      * intros i Hi. destruct (in_dec Z.eq_dec (Z.of_nat i) best) as [Hin|Hni].
        -- apply In_nth_error in Hin as (p & Ep). assert (Hp : (p < m)%nat) by (rewrite <- Lb; apply nth_error_Some; congruence). pose proof (H1 p _ Ep) as Q. rewrite Nat2Z.id in Q. change (@F RNum) with R in *. rewrite Q.
           rewrite (sumn_single _ p); [|exact Hp|].
           ++ rewrite (nth_error_nth _ _ 0%Z Ep), Nat2Z.id, Nat.eqb_refl. reflexivity.
           ++ intros j Hj Hne. destruct (HB j Hj) as (b & Eb & _ & Cb & _). rewrite (nth_error_nth _ _ 0%Z Eb), Nat2Z.id. destruct (Nat.eqb_spec b i) as [->|]; [|reflexivity]. exfalso. apply Hne.
              destruct (HB p Hp) as (b' & Eb' & _ & Cb' & _). rewrite Ep in Eb'. injection Eb' as Q'. apply Nat2Z.inj in Q'. subst b'. eapply Hdis; eauto.
        -- pose proof (H2 i Hi Hni) as Q. change (@F RNum) with R in *. rewrite Q, Rmult_0_l. symmetry. apply sumn_0. intros j Hj. destruct (HB j Hj) as (b & Eb & _). rewrite (nth_error_nth _ _ 0%Z Eb), Nat2Z.id.
           destruct (Nat.eqb_spec b i) as [->|]; [|reflexivity]. exfalso. apply Hni. eapply nth_error_In; eauto.
    + exists (mkLayer k (BFilter kd (set_maxIndex f best) []) []). split; [|apply HS]. unfold layer_train. cbn [l_body l_opts l_in]. destruct Hkd as [-> | ->]; reflexivity.
Qed.
End Pool.
