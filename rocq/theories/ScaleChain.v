(* Back-propagation through a chain of layers with dropouts and error multipliers. *)
From Coq Require Import Reals Lra.
From Coquelicot Require Import Coquelicot.
From Verif Require Import Base Num NumOrder ActModel ActProofs NeuronModel LayerModel NetModel NetSpec NeuronProofs LayerProofs GradProofs DenseProofs FactoryModel LOptSpec BackSpec MixSpec MixProofs MixKinds ScaleSpec ScaleProofs.
Local Open Scope R_scope.

Definition tstepped (o : @SGD RNum) (rand : nat -> nat -> bool) (reset : bool) (c : R) (l : RLay) (z out : list R) (e : list R) (l2 : RLay) : Prop :=
  forall n u w, @unit_at RNum l n = Some u -> (w < n_in u)%nat -> (w < List.length (n_w u))%nat /\
  exists u' (vt : R -> list R) (D : nat -> R), @unit_at RNum l2 n = Some u' /\ List.length (n_w u') = List.length (n_w u) /\ n_in u' = n_in u /\
    (forall t, exists l', @layer_outputForTraining RNum rand (@change_weight RNum l n w t) z reset = Ok (vt t, l')) /\ vt (nth w (n_w u) 0) = out /\
    curve (List.length out) vt (nth w (n_w u) 0) D /\
    @nth R w (n_w u') 0 = nth w (n_w u) 0 + (o_lr o * (c * sumn (List.length out) (fun j => nth j e 0 * D j)) + o_m o * nth w (prow u) 0) /\
    @nth R w (prow u') 0 = nth w (n_w u') 0 - nth w (n_w u) 0.
Definition tgood (o : @SGD RNum) (rand : nat -> nat -> bool) (reset : bool) (c : R) (l : RLay) (z : list R) (val : list R -> list R) (m : nat) (L : list R -> list R) : Prop :=
  (forall y, List.length y = List.length z -> List.length (val y) = m /\ exists l', @layer_outputForTraining RNum rand l y reset = Ok (val y, l')) /\
  (forall g t0 v, curve (List.length z) g t0 v -> g t0 = z -> curve m (fun t => val (g t)) t0 (fun j => nth j (L (vec (List.length z) v)) 0)) /\
  exists l1, @layer_outputForTraining RNum rand l z reset = Ok (val z, l1) /\ getNumberOfNeurons l1 = getNumberOfNeurons l /\
    forall e, List.length e = m ->
    (exists r l2, @layer_backOutput RNum o l1 e = Ok (r, l2) /\ List.length r = List.length z /\
      (forall u, List.length u = List.length z -> inner r u = c * sumn m (fun j => nth j e 0 * nth j (L u) 0)) /\ tstepped o rand reset c l z (val z) e l2) /\
    (exists l3, @layer_train RNum o l1 e = Ok l3 /\ tstepped o rand reset c l z (val z) e l3).

(* ---------- from the layer without layer optimizers ---------- *)
Lemma training_of_bare rand (l : RLay) y reset v l1 : Forall scaling_opt (l_opts l) -> @layer_outputForTraining RNum rand (bare l) y reset = Ok (v, l1) ->
  let os := redraw rand reset 0 (l_opts l) in @layer_outputForTraining RNum rand l y reset = Ok (scale (kf os) v, mkLayer (l_in l) (l_body l1) os) /\ l1 = bare (mkLayer (l_in l) (l_body l1) os).
Proof.
  intros Hs H os. unfold layer_outputForTraining in *. apply bind_Ok_inv in H as ((a & b) & E & H). cbn [bare l_body l_opts l_in opts_training bind] in *.
  assert (G : forall A (p q : A), Ok p = Ok q -> p = q) by (intros; congruence). apply G in H. assert (Q1 := f_equal fst H). assert (Q2 := f_equal snd H). cbn [fst snd] in Q1, Q2. subst a l1. clear H G.
  change (@F RNum) with R in *. rewrite E. cbn [bind]. rewrite (opts_training_R rand reset (l_opts l) 0 v Hs). cbn [bind l_body]. split; reflexivity.
Qed.
Lemma curve_scale k m g t0 D : curve m g t0 D -> curve m (fun t => scale k (g t)) t0 (fun j => k j * D j).
Proof.
  intros [HL HD]. split; [intros t; now rewrite scale_length|]. intros i Hi. apply derive_ext with (fun t => k i * nth i (g t) 0); [intros t; now rewrite nth_scale|].
  replace (k i * D i) with (0 * nth i (g t0) 0 + k i * D i) by lra. apply (derivable_pt_lim_mult (fun _ => k i) (fun t => nth i (g t) 0)); [apply derivable_pt_lim_const|auto].
Qed.
Lemma change_bare (l : RLay) n w t : bare (@change_weight RNum l n w t) = @change_weight RNum (bare l) n w t /\ l_opts (@change_weight RNum l n w t) = l_opts l /\ (no_gru (l_body l) -> no_gru (l_body (@change_weight RNum l n w t))).
Proof. split; [reflexivity|]. split; [reflexivity|]. unfold change_weight. cbn [l_body]. destruct (l_body l); auto. Qed.

Lemma tgood_of o rand reset (l : RLay) z val m L : no_gru (l_body l) -> Forall scaling_opt (l_opts l) -> good o (bare l) z val m L ->
  let k := kf (redraw rand reset 0 (l_opts l)) in tgood o rand reset (pm (l_opts l)) l z (fun y => scale k (val y)) m (fun u => scale k (L u)).
Proof.
  intros Hg Hs (G1 & G2 & G3) k. set (os := redraw rand reset 0 (l_opts l)) in *. assert (Hos : Forall scaling_opt os) by (apply redraw_scaling; exact Hs).
  assert (T : forall (l' : RLay) y v l2, no_gru (l_body l') -> l_opts l' = l_opts l -> @layer_output RNum (bare l') y false = Ok (v, l2) -> exists l3, @layer_outputForTraining RNum rand l' y reset = Ok (scale k v, l3)).
  { intros l' y v l2 Hg' Ho E. destruct (bare_reset rand l' y reset v l2 Hg' E) as (l3 & E3 & _). assert (Hs' : Forall scaling_opt (l_opts l')) by (rewrite Ho; exact Hs).
    destruct (training_of_bare rand l' y reset v l3 Hs' E3) as [E4 _]. unfold k, os. rewrite Ho in E4. eauto. }
  destruct (G1 z eq_refl) as (Lm & _).
  (* what a step does *)
  assert (ST : forall e l2, List.length e = m -> stepped o (bare l) z (val z) (scale (fun j => pm os * kf os j) e) (bare l2) -> tstepped o rand reset (pm (l_opts l)) l z (scale k (val z)) e l2).
  { intros e l2 Le HS n u w Hu Hw. destruct (HS n u w Hu Hw) as (Lw & u' & vt & D & A1 & A2 & A3 & A4 & A5 & A6 & A7 & A8). split; [exact Lw|].
    exists u', (fun t => scale k (vt t)), (fun j => k j * D j). split; [exact A1|]. split; [exact A2|]. split; [exact A3|]. split.
    { intros t. destruct (A4 t) as (l' & E). destruct (change_bare l n w t) as (B1 & B2 & B3). rewrite <- B1 in E. eapply T; eauto. }
    split; [now rewrite A5|]. rewrite scale_length. split; [apply curve_scale; exact A6|]. split; [|exact A8]. rewrite A7, Lm. f_equal. f_equal. f_equal.
    rewrite <- sumn_scal. apply sumn_ext. intros j Hj. rewrite nth_scale. unfold k. unfold os at 1. rewrite pm_redraw. lra. }
  split. { intros y Hy. destruct (G1 y Hy) as (Ly & l' & E). split; [now rewrite scale_length|]. eapply T; eauto. }
  split. { intros g t0 v Hc H0. specialize (G2 g t0 v Hc H0). apply (curve_scale k) in G2. destruct G2 as [Q1 Q2]. split; [exact Q1|]. intros i Hi. rewrite nth_scale. apply Q2. exact Hi. }
  destruct (G3 rand reset) as (l1 & E1 & En & GB). destruct (training_of_bare rand l z reset _ _ Hs E1) as (E2 & Eb). fold os in E2, Eb. fold k in E2. set (l1' := mkLayer (l_in l) (l_body l1) os) in *.
  exists l1'. split; [exact E2|]. split. { rewrite Eb in En. exact En. }
  intros e Le. set (e' := scale (fun j => pm os * kf os j) e) in *. assert (Le' : List.length e' = m) by (unfold e'; now rewrite scale_length).
  assert (OB : @opts_back RNum (layer_weights l1') (l_opts l1') e = e') by (apply opts_back_R; exact Hos).
  destruct (GB e' Le') as ((r & l2 & F1 & F2 & F3 & F4) & (l3 & F5 & F6)). split.
  - exists r, (mkLayer (l_in l) (l_body l2) os). assert (F1' : @layer_backOutput RNum o l1' e = Ok (r, mkLayer (l_in l) (l_body l2) os) /\ l2 = bare (mkLayer (l_in l) (l_body l2) os)).
    { rewrite Eb in F1. unfold layer_backOutput in *. change (@F RNum) with R in *. rewrite OB. cbn zeta in F1 |- *. cbn [bare l_opts opts_back fold_left l_in l_body l1'] in *. apply bind_Ok_inv in F1 as ((a & b) & E & F1). assert (a = r /\ mkLayer (l_in l) b [] = l2) as [-> <-] by (split; congruence). rewrite E. split; reflexivity. }
    destruct F1' as [F1' Eb2]. split; [exact F1'|]. split; [exact F2|]. split; [|apply ST; [exact Le|]; rewrite <- Eb2; exact F4].
    intros u Hu. rewrite (F3 u Hu). rewrite <- sumn_scal. apply sumn_ext. intros j Hj. unfold e'. rewrite !nth_scale. assert (Q : pm os = pm (l_opts l)) by apply pm_redraw. rewrite Q. fold k. change (@F RNum) with R. ring.
  - exists (mkLayer (l_in l) (l_body l3) os). assert (F5' : @layer_train RNum o l1' e = Ok (mkLayer (l_in l) (l_body l3) os) /\ l3 = bare (mkLayer (l_in l) (l_body l3) os)).
    { rewrite Eb in F5. unfold layer_train in *. change (@F RNum) with R in *. rewrite OB. cbn zeta in F5 |- *. cbn [bare l_opts opts_back fold_left l_in l_body l1'] in *. apply bind_Ok_inv in F5 as (b & E & F5). assert (mkLayer (l_in l) b [] = l3) as <- by congruence. rewrite E. split; reflexivity. }
    destruct F5' as [F5' Eb2]. split; [exact F5'|]. apply ST; [exact Le|]. rewrite <- Eb2. exact F6.
Qed.

(* ---------- chains ---------- *)
Section T.
Variables (rand : nat -> nat -> nat -> bool) (reset : bool) (o : @SGD RNum).
Notation tout := (fun (i : nat) (l : RLay) (v : list R) => @layer_outputForTraining RNum (rand i) l v reset).
Fixpoint tgchain (i : nat) (ls : list RLay) (cs : list R) (z : list R) : Prop :=
  match ls, cs with
  | [], [] => True
  | l :: t, c :: ct => exists val m L, tgood o (rand i) reset c l z val m L /\ tgchain (S i) t ct (val z)
  | _, _ => False
  end.
Definition prodR (cs : list R) : R := fold_right Rmult 1 cs.
Definition terr (i : nat) (d : list R) (ls : list RLay) (z : list R) : R :=
  match @chain RNum tout i ls z with Ok (v, _) => sqerr d v | _ => 0 end.
Lemma terr_cons i d l t z out l' : @layer_outputForTraining RNum (rand i) l z reset = Ok (out, l') -> terr i d (l :: t) z = terr (S i) d t out.
Proof.
  intros E. unfold terr. cbn [chain]. change (@F RNum) with R in *. rewrite E. cbn [bind]. match goal with |- context [bind ?c _] => destruct c as [[o2 t2]| |] end; reflexivity.
Qed.
Definition tnstepped (i : nat) (d : list R) (ls : list RLay) (cs : list R) (z : list R) (ls2 : list RLay) : Prop :=
  forall l lay n u w, nth_error ls l = Some lay -> @unit_at RNum lay n = Some u -> (w < n_in u)%nat -> (w < List.length (n_w u))%nat /\
  exists lay' u' G, nth_error ls2 l = Some lay' /\ @unit_at RNum lay' n = Some u' /\ List.length (n_w u') = List.length (n_w u) /\ n_in u' = n_in u /\
    derivable_pt_lim (fun t => terr i d (modify ls l (fun y => @change_weight RNum y n w t)) z) (nth w (n_w u) 0) G /\
    @nth R w (n_w u') 0 = nth w (n_w u) 0 + (- (o_lr o * (prodR (skipn l cs) * G)) + o_m o * nth w (prow u) 0) /\
    @nth R w (prow u') 0 = nth w (n_w u') 0 - nth w (n_w u) 0.
Lemma thead i d l c t ct z val m L V W r t2 l2 :
  tgood o (rand i) reset c l z val m L -> (forall y, List.length y = m -> exists t', @chain RNum tout (S i) t y = Ok (V y, t')) ->
  (forall g t0 v, curve m g t0 v -> g t0 = val z -> derivable_pt_lim (fun s => sqerr d (V (g s))) t0 (- W (vec m v))) -> List.length r = m ->
  (forall u, List.length u = m -> inner r u = prodR ct * W u) ->
  tstepped o (rand i) reset c l z (val z) r l2 -> tnstepped (S i) d t ct (val z) t2 -> tnstepped i d (l :: t) (c :: ct) z (l2 :: t2).
Proof.
  intros (G1 & _ & _) HV HD Hr HW HS HN [|q] lay n u w Hl Hu Hw; cbn [nth_error] in Hl.
  - injection Hl as <-. destruct (HS n u w Hu Hw) as (Hlw & u' & vt & D & Hu' & Ln & Hi & Ht & H0 & Hc & Hnew & Hp). split; [exact Hlw|].
    pose proof (G1 z eq_refl) as [Lm _]. rewrite Lm in *.
    exists l2, u', (- W (vec m D)). split; [reflexivity|]. split; [exact Hu'|]. split; [exact Ln|]. split; [exact Hi|]. split.
    + apply derive_ext with (fun s => sqerr d (V (vt s))); [|apply HD; [exact Hc|exact H0]].
      intros s. rewrite modify_0. destruct (Ht s) as (l' & E). rewrite (terr_cons i d _ t z _ _ E). unfold terr.
      destruct (HV (vt s)) as (t' & E'); [apply Hc|]. change (@F RNum) with R in *. now rewrite E'.
    + split; [|exact Hp]. rewrite Hnew, <- (inner_vec r m D Hr), (HW _ (vec_length _ _)). cbn [skipn prodR fold_right]. unfold prodR. lra.
  - destruct (HN q lay n u w Hl Hu Hw) as (Hlw & lay' & u' & G & A1 & A2 & A3 & A4 & A5 & A6). split; [exact Hlw|]. exists lay', u', G. split; [exact A1|]. split; [exact A2|]. split; [exact A3|]. split; [exact A4|]. split; [|exact A6].
    apply derive_ext with (2 := A5). intros s. rewrite modify_S. destruct (G1 z eq_refl) as (_ & l' & E). now rewrite (terr_cons i d l _ z _ _ E).
Qed.
Lemma tgchain_ok ls : forall i cs z, tgchain i ls cs z -> exists V m ls1,
  (forall y, List.length y = List.length z -> List.length (V y) = m /\ exists ls', @chain RNum tout i ls y = Ok (V y, ls')) /\
  @chain RNum tout i ls z = Ok (V z, ls1) /\ map (@getNumberOfNeurons RNum) ls1 = map (@getNumberOfNeurons RNum) ls /\
  forall d, exists r W ls2, @chain_back RNum o ls1 (back_err [] (V z) d) = Ok (r, ls2) /\ List.length r = List.length z /\
    (forall u, List.length u = List.length z -> inner r u = prodR cs * W u) /\
    (forall g t0 v, curve (List.length z) g t0 v -> g t0 = z -> derivable_pt_lim (fun t => sqerr d (V (g t))) t0 (- W (vec (List.length z) v))) /\
    tnstepped i d ls cs z ls2.
Proof.
  induction ls as [|l t IH]; intros i [|c ct] z H; cbn [tgchain] in H; try contradiction.
  - exists (fun y => y), (List.length z), []. split. { intros y Hy. split; [exact Hy|]. exists []. reflexivity. } split; [reflexivity|]. split; [reflexivity|].
    intros d. exists (back_err [] z d), (inner (back_err [] z d)), []. split; [reflexivity|]. split; [apply back_err_length|]. split; [intros; unfold prodR; cbn; lra|]. split.
    + intros g t0 v Hc H0. pose proof (derive_sqerr (List.length z) d g t0 v Hc) as D. replace (- inner _ _) with (sumn (List.length z) (fun j => - (2 * (nth j d 0 - nth j (g t0) 0)) * v j)); [exact D|].
      rewrite inner_vec by apply back_err_length. rewrite H0. replace (- sumn (List.length z) (fun i0 => nth i0 (back_err [] z d) 0 * v i0)) with (-1 * sumn (List.length z) (fun i0 => nth i0 (back_err [] z d) 0 * v i0)) by lra.
      rewrite <- sumn_scal. apply sumn_ext. intros j Hj. cbn [back_err]. rewrite nth_map_seq by exact Hj. lra.
    + intros [|l] lay n u w Hl; discriminate.
  - destruct H as (val & m & L & HG & Ht). pose proof HG as (G1 & G2 & l1 & El & En & GB). destruct (G1 z eq_refl) as [Lm _].
    destruct (IH (S i) ct (val z) Ht) as (V & m' & t1 & HV & E1 & EN & HB). rewrite Lm in HV.
    exists (fun y => V (val y)), m', (l1 :: t1). split.
    { intros y Hy. destruct (G1 y Hy) as (Ly & l' & Ey). destruct (HV (val y) Ly) as (Lv & t' & Et). split; [exact Lv|]. exists (l' :: t'). cbn [chain]. change (@F RNum) with R in *. rewrite Ey. cbn [bind]. rewrite Et. reflexivity. }
    split. { cbn [chain]. change (@F RNum) with R in *. rewrite El. cbn [bind]. rewrite E1. reflexivity. }
    split. { cbn [map]. now rewrite En, EN. }
    intros d. destruct (HB d) as (r & W & t2 & Eb & Lr & HW & HD & HS). rewrite Lm in *.
    destruct (GB r Lr) as ((r2 & l2 & Eb2 & Lr2 & Hin & HS2) & _).
    exists r2, (fun u => W (vec m (fun j => nth j (L u) 0))), (l2 :: t2). split. { cbn [chain_back]. change (@F RNum) with R in *. rewrite Eb. cbn [bind]. rewrite Eb2. reflexivity. }
    split; [exact Lr2|]. split. { intros u Hu. rewrite (Hin u Hu). assert (Q := inner_vec r m (fun j => nth j (L u) 0) Lr). cbv beta in Q. change (@F RNum) with R in *. rewrite <- Q, (HW _ (vec_length _ _)). cbn [prodR fold_right]. unfold prodR. lra. }
    split.
    + intros g t0 v Hc H0. specialize (G2 g t0 v Hc H0). specialize (HD _ _ _ G2). cbv beta in HD. rewrite H0 in HD. specialize (HD eq_refl). exact HD.
    + eapply thead; eauto. intros y Hy. destruct (HV y Hy) as (_ & t' & Et). eauto.
Qed.
Lemma tmixed_step (net : @Net RNum) x d l0 t0 cs : nn_opt net = o ->
  nn_layers net = l0 :: t0 -> nn_nan net = false -> tgchain 0 (l0 :: t0) cs x ->
  (forall v ls, @chain RNum tout 0 (l0 :: t0) x = Ok (v, ls) -> getNumberOfNeurons (last (l0 :: t0) l0) = List.length v /\ (List.length v <= List.length d)%nat) ->
  exists net', @trainOnce RNum rand net x d reset = Ok net' /\ tnstepped 0 d (nn_layers net) cs x (nn_layers net').
Proof.
  intros Eo El Hnan H Hlast. destruct cs as [|c ct]; [contradiction|]. pose proof H as (val & m & L & HG & Ht). pose proof HG as (G1 & G2 & l1 & El1 & En & GB). destruct (G1 x eq_refl) as (Lm & l' & Ex).
  destruct (tgchain_ok t0 1 ct (val x) Ht) as (V & m' & t1 & HV & E1 & EN & HB). rewrite Lm in HV.
  destruct (HV (val x) Lm) as (Lv & t' & Et).
  assert (Hl : getNumberOfNeurons (last (l0 :: t0) l0) = m' /\ (m' <= List.length d)%nat).
  { rewrite <- Lv. apply (Hlast (V (val x)) (l' :: t')). cbn [chain]. change (@F RNum) with R in *. rewrite Ex. cbn [bind]. rewrite Et. reflexivity. }
  destruct Hl as [Hl Hd]. destruct (HB d) as (r & W & t2 & Eb & Lr & HW & HD & HS). rewrite Lm in *.
  destruct (GB r Lr) as (_ & l3 & E3 & HS3).
  unfold trainOnce, backpropagation, net_outputForTraining. rewrite El. cbn [chain]. change (@F RNum) with R in *. rewrite El1. cbn [bind]. rewrite E1. cbn [bind].
  rewrite anyAbnormal_R, Hnan. cbn [orb nn_nan nn_layers nn_opt].
  assert (Hn : getNumberOfNeurons (last (l1 :: t1) l1) = m').
  { rewrite <- Hl. apply map_last_neurons. cbn [map]. now rewrite En, EN. }
  rewrite Hn. unfold calculateError. rewrite (omap_seq_ok _ (fun j => 2 * (nth j d 0 - nth j (V (val x)) 0))).
  2: { intros j Hj. change (@F RNum) with R in *. rewrite (@lget_nth R d j 0) by lia. cbn [bind]. rewrite (lget_nth _ j 0) by lia. cbn [bind]. rewrite RNum_lit. reflexivity. }
  cbn [bind]. cbn [back_err] in Eb. rewrite Lv in Eb. rewrite Eo, Eb. cbn [bind]. rewrite E3. cbn [bind].
  eexists. split; [reflexivity|]. cbn [nn_layers]. eapply thead; eauto. intros y Hy. destruct (HV y Hy) as (_ & t'' & Et''). eauto.
Qed.
End T.
