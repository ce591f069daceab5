(* Back-propagation in fully connected networks computes the gradient (exact real arithmetic). *)
From Coq Require Import Reals Lra.
From Coquelicot Require Import Coquelicot.
From Verif Require Import Base Num NumOrder ActModel ActProofs NeuronModel LayerModel NetModel NeuronProofs LayerProofs.
Local Open Scope R_scope.

Ltac flra := change (@F RNum) with R in *; lra.

(* ---------- finite sums ---------- *)
Fixpoint sumn (k : nat) (f : nat -> R) : R := match k with O => 0 | S j => sumn j f + f j end.

Lemma sumn_ext k f g : (forall i, (i < k)%nat -> f i = g i) -> sumn k f = sumn k g.
Proof. induction k as [|k IH]; cbn; intros H; auto. rewrite IH, H; auto. Qed.
Lemma sumn_0 k f : (forall i, (i < k)%nat -> f i = 0) -> sumn k f = 0.
Proof. induction k as [|k IH]; cbn; intros H; auto. rewrite IH, H; auto; lra. Qed.
Lemma sumn_scal k c f : sumn k (fun i => c * f i) = c * sumn k f.
Proof. induction k as [|k IH]; cbn; [lra|]. rewrite IH. lra. Qed.
Lemma sumn_add k f g : sumn k (fun i => f i + g i) = sumn k f + sumn k g.
Proof. induction k as [|k IH]; cbn; [lra|]. rewrite IH. lra. Qed.
Lemma sumn_swap k m (f : nat -> nat -> R) : sumn k (fun i => sumn m (fun j => f i j)) = sumn m (fun j => sumn k (fun i => f i j)).
Proof.
  induction k as [|k IH]; cbn; [symmetry; apply sumn_0; auto|]. rewrite IH, <- sumn_add. reflexivity.
Qed.
Lemma sumn_S k f : sumn (S k) f = f O + sumn k (fun i => f (S i)).
Proof. induction k as [|k IH]; [cbn; lra|]. cbn [sumn] in *. rewrite IH. lra. Qed.
Lemma sumn_single k i f : (i < k)%nat -> (forall j, (j < k)%nat -> j <> i -> f j = 0) -> sumn k f = f i.
Proof.
  induction k as [|k IH]; cbn; intros Hi H; [lia|].
  destruct (Nat.eq_dec i k) as [->|Hne].
  - rewrite sumn_0; [lra|]. intros j Hj. apply H; lia.
  - rewrite IH by (auto; lia). rewrite (H k) by lia. lra.
Qed.
Lemma derive_sumn k (f : nat -> R -> R) (df : nat -> R) t :
  (forall i, (i < k)%nat -> derivable_pt_lim (f i) t (df i)) ->
  derivable_pt_lim (fun t => sumn k (fun i => f i t)) t (sumn k df).
Proof.
  induction k as [|k IH]; cbn; intros H.
  - apply derivable_pt_lim_const.
  - apply derivable_pt_lim_plus; auto.
Qed.

Lemma derive_ext f g t d : (forall x, f x = g x) -> derivable_pt_lim f t d -> derivable_pt_lim g t d.
Proof. intros H. rewrite <- !is_derive_Reals. apply is_derive_ext. exact H. Qed.

(* ---------- weighted sums over the reals ---------- *)
Lemma fold_dot (xs ws : list R) : forall acc, (List.length xs <= List.length ws)%nat ->
  fold_left (fun a p => a + fst p * snd p) (combine xs ws) acc = acc + sumn (List.length xs) (fun i => nth i xs 0 * nth i ws 0).
Proof.
  revert ws; induction xs as [|x xs IH]; intros [|w ws] acc H; try (cbn in *; try lia; lra).
  cbn [combine fold_left fst snd List.length]. rewrite IH by (cbn in H; lia). rewrite sumn_S. cbn [nth]. lra.
Qed.
Lemma dotp_R (xs ws : list R) : (List.length xs <= List.length ws)%nat ->
  @dotp RNum xs ws = sumn (List.length xs) (fun i => nth i xs 0 * nth i ws 0).
Proof.
  intros H. unfold dotp. transitivity (@fzero RNum + sumn (List.length xs) (fun i => nth i xs 0 * nth i ws 0)).
  - apply (fold_dot xs ws). exact H.
  - unfold fzero. rewrite RNum_lit. lra.
Qed.
Lemma fzero_R : @fzero RNum = 0. Proof. apply RNum_lit. Qed.

Lemma nsum_R (n : @Neuron RNum) (x : list R) : wf_neuron 1 n -> List.length x = n_in n ->
  @neuron_sum RNum n x = sumn (n_in n) (fun i => nth i x 0 * nth i (n_w n) 0) + nth (n_in n) (n_w n) 0 * n_bias n.
Proof.
  intros (Hw & _) Hx. unfold neuron_sum. change (@F RNum) with R in *. rewrite Hx, fzero_R. cbn [fadd fmul RNum]. f_equal.
  rewrite (dotp_R x (n_w n)) by (change (@F RNum) with R in *; lia). now rewrite Hx.
Qed.

(* ---------- the pure network ---------- *)
Definition layer_val (ns : list (@Neuron RNum)) (x : list R) : list R := map (fun n => @neuron_value RNum n x) ns.
Definition net_val (nss : list (list (@Neuron RNum))) (x : list R) : list R := fold_left (fun v ns => layer_val ns v) nss x.
(* the loss of the last layers as a function of what they are given *)
Definition sqerr (d o : list R) : R := sumn (List.length o) (fun j => (nth j d 0 - nth j o 0) * (nth j d 0 - nth j o 0)).
Definition nerr (e : list R) (n : nat) (neuron : @Neuron RNum) (x : list R) : R :=
  nth n e 0 * @actd RNum (n_act neuron) (@neuron_sum RNum neuron x).
Definition n0 : @Neuron RNum := @mkNeuron RNum 0 0 nil R0 (@mkCirc RNum nil 0 0) (@mkCirc RNum nil 0 0) nil R0 a_identity.
Fixpoint back_err (nss : list (list (@Neuron RNum))) (z d : list R) : list R :=
  match nss with
  | [] => map (fun j => 2 * (nth j d 0 - nth j z 0)) (seq 0 (List.length z))
  | ns :: t => let e := back_err t (layer_val ns z) d in
               map (fun i => sumn (List.length ns) (fun n => nerr e n (nth n ns n0) z * nth i (n_w (nth n ns n0)) 0)) (seq 0 (List.length z))
  end.
(* every layer takes what the previous one gives *)
Fixpoint shaped (k : nat) (nss : list (list (@Neuron RNum))) : Prop :=
  match nss with
  | [] => True
  | ns :: t => Forall (fun n => wf_neuron 1 n /\ n_in n = k) ns /\ shaped (List.length ns) t
  end.
(* no neuron is at a point where its activation function has no derivative equal to the coded one *)
Definition smooth_at (n : @Neuron RNum) (x : list R) : Prop :=
  n_act n <> a_iSigmoid /\ (n_act n = a_ReLU -> @neuron_sum RNum n x <> 0).
Fixpoint smooth (nss : list (list (@Neuron RNum))) (z : list R) : Prop :=
  match nss with
  | [] => True
  | ns :: t => Forall (fun n => smooth_at n z) ns /\ smooth t (layer_val ns z)
  end.

Lemma layer_val_length ns x : List.length (layer_val ns x) = List.length ns.
Proof. apply map_length. Qed.
Lemma nth_layer_val ns x n : (n < List.length ns)%nat -> nth n (layer_val ns x) 0 = @neuron_value RNum (nth n ns n0) x.
Proof. intros H. unfold layer_val. now rewrite (nth_map_in _ ns n 0 n0). Qed.
Lemma nth_map_seq (f : nat -> R) k i : (i < k)%nat -> nth i (map f (seq 0 k)) 0 = f i.
Proof. intros H. rewrite (nth_map_in f (seq 0 k) i 0 O) by (now rewrite seq_length). now rewrite seq_nth. Qed.

(* a curve of vectors: at time t0 it is at z and moves with speed v *)
Definition curve (k : nat) (g : R -> list R) (t0 : R) (v : nat -> R) : Prop :=
  (forall t, List.length (g t) = k) /\ forall i, (i < k)%nat -> derivable_pt_lim (fun t => nth i (g t) 0) t0 (v i).

Lemma derive_value (n : @Neuron RNum) (s : R -> R) t0 ds x :
  smooth_at n x -> s t0 = @neuron_sum RNum n x -> derivable_pt_lim s t0 ds ->
  derivable_pt_lim (fun t => @act RNum (n_act n) (s t)) t0 (@actd RNum (n_act n) (@neuron_sum RNum n x) * ds).
Proof.
  intros [Ha Hr] Hs Hd. rewrite <- Hs. apply (derivable_pt_lim_comp s (@act RNum (n_act n))); auto.
  apply is_derive_Reals. apply act_derive; auto. rewrite Hs. exact Hr.
Qed.

(* inputs move, weights fixed *)
Lemma derive_neuron_x (n : @Neuron RNum) g t0 v :
  wf_neuron 1 n -> curve (n_in n) g t0 v -> smooth_at n (g t0) ->
  derivable_pt_lim (fun t => @neuron_value RNum n (g t)) t0
    (@actd RNum (n_act n) (@neuron_sum RNum n (g t0)) * sumn (n_in n) (fun i => v i * nth i (n_w n) 0)).
Proof.
  intros Hw [Hl Hv] Hs. apply (derive_value n (fun t => @neuron_sum RNum n (g t)) t0); auto.
  apply derive_ext with (fun t => sumn (n_in n) (fun i => nth i (g t) 0 * nth i (n_w n) 0) + nth (n_in n) (n_w n) 0 * n_bias n).
  { intros t. symmetry. apply nsum_R; auto. }
  replace (sumn (n_in n) (fun i => v i * nth i (n_w n) 0)) with (sumn (n_in n) (fun i => v i * nth i (n_w n) 0) + 0) by lra.
  apply derivable_pt_lim_plus; [|apply derivable_pt_lim_const].
  apply (derive_sumn _ (fun i t => nth i (g t) 0 * nth i (n_w n) 0)). intros i Hi.
  replace (v i * nth i (n_w n) 0) with (v i * nth i (n_w n) 0 + nth i (g t0) 0 * 0) by lra.
  apply (derivable_pt_lim_mult (fun t => nth i (g t) 0) (fun _ => nth i (n_w n) 0)); auto. apply derivable_pt_lim_const.
Qed.

Lemma derive_sqerr k d g t0 v : curve k g t0 v ->
  derivable_pt_lim (fun t => sqerr d (g t)) t0 (sumn k (fun j => - (2 * (nth j d 0 - nth j (g t0) 0)) * v j)).
Proof.
  intros [Hl Hv]. unfold sqerr.
  apply derive_ext with (fun t => sumn k (fun j => (nth j d 0 - nth j (g t) 0) * (nth j d 0 - nth j (g t) 0))).
  { intros t. now rewrite Hl. }
  apply (derive_sumn k (fun j t => (nth j d 0 - nth j (g t) 0) * (nth j d 0 - nth j (g t) 0))). intros j Hj.
  assert (D : derivable_pt_lim (fun t => nth j d 0 - nth j (g t) 0) t0 (0 - v j)).
  { apply derivable_pt_lim_minus; [apply derivable_pt_lim_const|auto]. }
  replace (- (2 * (nth j d 0 - nth j (g t0) 0)) * v j)
    with ((0 - v j) * (nth j d 0 - nth j (g t0) 0) + (nth j d 0 - nth j (g t0) 0) * (0 - v j)) by lra.
  exact (derivable_pt_lim_mult (fun t => nth j d 0 - nth j (g t) 0) (fun t => nth j d 0 - nth j (g t) 0) t0 _ _ D D).
Qed.

Lemma back_err_length nss : forall z d, List.length (back_err nss z d) = List.length z.
Proof. destruct nss; intros; cbn; now rewrite map_length, seq_length. Qed.

(* the error vector is minus the gradient with respect to the inputs of the layers *)
Lemma derive_net nss : forall k d g t0 v, shaped k nss -> curve k g t0 v -> smooth nss (g t0) ->
  derivable_pt_lim (fun t => sqerr d (net_val nss (g t))) t0
    (sumn k (fun i => - nth i (back_err nss (g t0) d) 0 * v i)).
Proof.
  induction nss as [|ns nss IH]; intros k d g t0 v Hs Hc Hsm.
  - cbn [net_val fold_left back_err]. replace (sumn k _) with (sumn k (fun j => - (2 * (nth j d 0 - nth j (g t0) 0)) * v j)).
    + apply derive_sqerr. exact Hc.
    + apply sumn_ext. intros i Hi. rewrite nth_map_seq; auto. destruct Hc as [Hl _]. now rewrite Hl.
  - destruct Hs as [Hns Ht]. destruct Hsm as [Hsn Hst]. pose proof Hc as [Hl Hv].
    rewrite Forall_forall in Hns, Hsn.
    set (v' := fun n => @actd RNum (n_act (nth n ns n0)) (@neuron_sum RNum (nth n ns n0) (g t0))
                        * sumn k (fun i => v i * nth i (n_w (nth n ns n0)) 0)).
    assert (Hc' : curve (List.length ns) (fun t => layer_val ns (g t)) t0 v').
    { split; [intros; apply layer_val_length|]. intros n Hn.
      apply derive_ext with (fun t => @neuron_value RNum (nth n ns n0) (g t)).
      { intros t. symmetry. now apply nth_layer_val. }
      destruct (Hns (nth n ns n0)) as [Hw Hk]; [apply nth_In; auto|].
      unfold v'. rewrite <- Hk. apply derive_neuron_x; auto; [rewrite Hk; auto|apply Hsn, nth_In; auto]. }
    specialize (IH _ d _ _ _ Ht Hc' Hst). cbn [net_val fold_left].
    replace (sumn k (fun i => - nth i (back_err (ns :: nss) (g t0) d) 0 * v i))
      with (sumn (List.length ns) (fun n => - nth n (back_err nss (layer_val ns (g t0)) d) 0 * v' n)); [exact IH|].
    cbn [back_err]. set (e := back_err nss (layer_val ns (g t0)) d).
    transitivity (sumn (List.length ns) (fun n => sumn k (fun i => - nerr e n (nth n ns n0) (g t0) * (v i * nth i (n_w (nth n ns n0)) 0)))).
    + apply sumn_ext. intros n Hn. rewrite sumn_scal. unfold v', nerr. lra.
    + rewrite sumn_swap. apply sumn_ext. intros i Hi. rewrite nth_map_seq by (now rewrite Hl).
      rewrite <- (Rmult_comm (v i)).
      transitivity (v i * (-1 * sumn (List.length ns) (fun n => nerr e n (nth n ns n0) (g t0) * nth i (n_w (nth n ns n0)) 0))).
      * rewrite <- sumn_scal, <- sumn_scal. apply sumn_ext. intros n Hn. lra.
      * lra.
Qed.

(* ---------- moving one weight ---------- *)
Definition with_weight (n : @Neuron RNum) (w : nat) (t : R) : @Neuron RNum := set_w n (replace (n_w n) w t).
(* coefficient of weight w in the sum *)
Definition coef (n : @Neuron RNum) (x : list R) (w : nat) : R := if (w =? n_in n)%nat then n_bias n else nth w x 0.

Lemma with_weight_wf n w t : wf_neuron 1 n -> wf_neuron 1 (with_weight n w t).
Proof. intros (A & B & C & D). unfold wf_neuron, with_weight, set_w; cbn. rewrite replace_length. auto. Qed.

Lemma nsum_with n x w t : wf_neuron 1 n -> List.length x = n_in n -> (w <= n_in n)%nat ->
  @neuron_sum RNum (with_weight n w t) x = @neuron_sum RNum n x + coef n x w * (t - nth w (n_w n) 0).
Proof.
  intros Hw Hx Hle. pose proof Hw as (HL & _).
  rewrite (nsum_R (with_weight n w t)) by (auto using with_weight_wf).
  rewrite (nsum_R n) by auto. unfold with_weight, set_w; cbn [n_w n_in n_bias]. change (@F RNum) with R in *.
  assert (Hlt : (w <? @List.length R (n_w n))%nat = true) by (apply Nat.ltb_lt; lia).
  unfold coef. destruct (Nat.eqb_spec w (n_in n)) as [E|E].
  - rewrite (sumn_ext _ _ (fun i => nth i x 0 * @nth R i (n_w n) 0)).
    2: { intros i Hi. rewrite nth_replace. destruct (Nat.eqb_spec i w); [lia|reflexivity]. }
    rewrite nth_replace. subst w. rewrite Nat.eqb_refl. rewrite Hlt. lra.
  - rewrite (sumn_ext _ _ (fun i => nth i x 0 * @nth R i (n_w n) 0 + (if (i =? w)%nat then nth w x 0 * (t - @nth R w (n_w n) 0) else 0))).
    2: { intros i Hi. rewrite nth_replace. destruct (Nat.eqb_spec i w) as [->|]; [|lra]. rewrite Hlt. lra. }
    rewrite sumn_add, (sumn_single (n_in n) w (fun i => if (i =? w)%nat then nth w x 0 * (t - @nth R w (n_w n) 0) else 0)).
    + rewrite Nat.eqb_refl. rewrite nth_replace. destruct (Nat.eqb_spec (n_in n) w); [lia|]. lra.
    + lia.
    + intros j _ Hj. destruct (Nat.eqb_spec j w); [lia|reflexivity].
Qed.

Lemma net_val_app a b x : net_val (a ++ b) x = net_val b (net_val a x).
Proof. apply fold_left_app. Qed.
Lemma shaped_app a b k : shaped k (a ++ b) -> exists k', shaped k a /\ shaped k' b /\ (forall x, List.length x = k -> List.length (net_val a x) = k').
Proof.
  revert k; induction a as [|ns a IH]; intros k H; cbn in *.
  - exists k. auto.
  - destruct H as [H1 H2]. destruct (IH _ H2) as (k' & A & B & C). exists k'. repeat split; auto.
    intros x Hx. apply C. apply layer_val_length.
Qed.
Lemma smooth_app a b x : smooth (a ++ b) x <-> smooth a x /\ smooth b (net_val a x).
Proof. revert x; induction a as [|ns a IH]; intros x; cbn; [tauto|]. rewrite IH. unfold net_val. cbn. tauto. Qed.

(* the derivative of the loss with respect to weight w of neuron n of the layer between pre and post *)
Lemma derive_weight pre ns post k d x n w :
  shaped k (pre ++ ns :: post) -> List.length x = k -> smooth (pre ++ ns :: post) x ->
  (n < List.length ns)%nat -> (w <= n_in (nth n ns n0))%nat ->
  let z := net_val pre x in
  let neuron := nth n ns n0 in
  derivable_pt_lim (fun t => sqerr d (net_val (pre ++ replace ns n (with_weight neuron w t) :: post) x))
    (nth w (n_w neuron) 0)
    (- (nerr (back_err post (layer_val ns z) d) n neuron z * coef neuron z w)).
Proof.
  intros Hs Hx Hsm Hn Hw z neuron. destruct (shaped_app _ _ _ Hs) as (k' & _ & Hs' & Hlen).
  specialize (Hlen x Hx). fold z in Hlen. apply smooth_app in Hsm as [_ Hsm]. fold z in Hsm.
  destruct Hs' as [Hns Hpost]. destruct Hsm as [Hsn Hsp]. rewrite Forall_forall in Hns, Hsn.
  destruct (Hns neuron) as [Hwf Hk]; [apply nth_In; auto|].
  assert (Hz : List.length z = n_in neuron) by (etransitivity; [exact Hlen|symmetry; exact Hk]).
  set (w0 := @nth R w (n_w neuron) 0).
  set (g := fun t => layer_val (replace ns n (with_weight neuron w t)) z).
  assert (Hg0 : g w0 = layer_val ns z).
  { unfold g, layer_val. apply nth_error_ext. intros j. rewrite !nth_error_map, nth_error_replace.
    destruct (Nat.eqb_spec j n) as [->|]; [|reflexivity].
    destruct (Nat.ltb_spec n (List.length ns)); [|lia]. cbn [option_map].
    rewrite (nth_error_nth' ns n0) by lia. cbn. f_equal. unfold neuron_value. cbn [n_act with_weight set_w].
    fold neuron. f_equal. pose proof (nsum_with neuron z w w0 Hwf) as E. rewrite (E Hz Hw). unfold w0. flra. }
  set (v := fun j => if (j =? n)%nat then @actd RNum (n_act neuron) (@neuron_sum RNum neuron z) * coef neuron z w else 0).
  assert (Hc : curve (List.length ns) g w0 v).
  { split. { intros t. unfold g. rewrite layer_val_length. apply replace_length. }
    intros j Hj. unfold v, g. destruct (Nat.eqb_spec j n) as [->|Hne].
    - apply derive_ext with (fun t => @act RNum (n_act neuron) (@neuron_sum RNum (with_weight neuron w t) z)).
      { intros t. rewrite nth_layer_val by (now rewrite replace_length).
        rewrite nth_replace, Nat.eqb_refl. destruct (Nat.ltb_spec n (List.length ns)); [reflexivity|lia]. }
      apply (derive_value neuron (fun t => @neuron_sum RNum (with_weight neuron w t) z)).
      + apply Hsn, nth_In; auto.
      + rewrite (nsum_with neuron z w w0 Hwf Hz Hw). unfold w0. flra.
      + apply derive_ext with (fun t => @neuron_sum RNum neuron z + coef neuron z w * (t - nth w (n_w neuron) 0)).
        { intros t. symmetry. exact (nsum_with neuron z w t Hwf Hz Hw). }
        apply is_derive_Reals. generalize (@neuron_sum RNum neuron z) (coef neuron z w). change (@F RNum) with R.
        intros a b. auto_derive; auto. lra.
    - apply derive_ext with (fun _ => nth j (layer_val ns z) 0); [|apply derivable_pt_lim_const].
      intros t. rewrite !nth_layer_val by (rewrite ?replace_length; auto).
      rewrite nth_replace. destruct (Nat.eqb_spec j n); [lia|reflexivity]. }
  assert (Hsp' : smooth post (g w0)) by (rewrite Hg0; exact Hsp).
  pose proof (derive_net post _ d _ _ _ Hpost Hc Hsp') as D. rewrite Hg0 in D.
  rewrite (sumn_single _ n) in D; auto.
  - unfold v in D. rewrite Nat.eqb_refl in D.
    replace (- (nerr (back_err post (layer_val ns z) d) n neuron z * coef neuron z w))
      with (- nth n (back_err post (layer_val ns z) d) 0 * (@actd RNum (n_act neuron) (@neuron_sum RNum neuron z) * coef neuron z w))
      by (unfold nerr; lra).
    apply derive_ext with (2 := D). intros t. rewrite net_val_app. reflexivity.
  - intros j _ Hj. unfold v. destruct (Nat.eqb_spec j n); [lia|lra].
Qed.
