(* Back-propagation through a chain of layers of any kinds whose own backward step is right. *)
From Coq Require Import Reals Lra.
From Coquelicot Require Import Coquelicot.
From Verif Require Import Base Num NumOrder ActModel ActProofs NeuronModel LayerModel NetModel NetSpec NeuronProofs LayerProofs GradProofs DenseProofs LOptSpec BackSpec MixSpec.
Local Open Scope R_scope.

Definition vec (k : nat) (v : nat -> R) : list R := map v (seq 0 k).
Lemma vec_length k v : List.length (vec k v) = k. Proof. unfold vec. now rewrite map_length, seq_length. Qed.
Lemma nth_vec k v i : (i < k)%nat -> nth i (vec k v) 0 = v i. Proof. apply nth_map_seq. Qed.
Lemma inner_sum (a : list R) : forall b, (List.length a <= List.length b)%nat -> inner a b = sumn (List.length a) (fun i => nth i a 0 * nth i b 0).
Proof.
  induction a as [|x a IH]; intros [|y b] H; cbn in H; try lia; try reflexivity. unfold inner in *. cbn [combine map Rsum fst snd List.length]. rewrite IH by lia. rewrite sumn_S. reflexivity.
Qed.
Lemma inner_vec a k v : List.length a = k -> inner a (vec k v) = sumn k (fun i => nth i a 0 * v i).
Proof.
  intros H. rewrite inner_sum by (rewrite vec_length; lia). rewrite H. apply sumn_ext. intros i Hi. now rewrite nth_vec.
Qed.

Notation lout := (fun (_ : nat) (l : RLay) (v : list R) => @layer_output RNum l v false).
(* what the step does to the weights of one layer: every weight w of every unit moves by learningRate * (errors . speed of the
   outputs when this weight moves), plus the momentum term *)
Definition stepped (o : @SGD RNum) (l : RLay) (z out : list R) (e : list R) (l2 : RLay) : Prop :=
  forall n u w, @unit_at RNum l n = Some u -> (w < n_in u)%nat -> (w < List.length (n_w u))%nat /\
  exists u' (vt : R -> list R) (D : nat -> R), @unit_at RNum l2 n = Some u' /\ List.length (n_w u') = List.length (n_w u) /\ n_in u' = n_in u /\
    (forall t, exists l', @layer_output RNum (@change_weight RNum l n w t) z false = Ok (vt t, l')) /\ vt (nth w (n_w u) 0) = out /\
    curve (List.length out) vt (nth w (n_w u) 0) D /\
    @nth R w (n_w u') 0 = nth w (n_w u) 0 + (o_lr o * sumn (List.length out) (fun j => nth j e 0 * D j) + o_m o * nth w (prow u) 0) /\
    @nth R w (prow u') 0 = nth w (n_w u') 0 - nth w (n_w u) 0.
Definition good (o : @SGD RNum) (l : RLay) (z : list R) (val : list R -> list R) (m : nat) (L : list R -> list R) : Prop :=
  (forall y, List.length y = List.length z -> List.length (val y) = m /\ exists l', @layer_output RNum l y false = Ok (val y, l')) /\
  (forall g t0 v, curve (List.length z) g t0 v -> g t0 = z -> curve m (fun t => val (g t)) t0 (fun j => nth j (L (vec (List.length z) v)) 0)) /\
  forall rand reset, exists l1, @layer_outputForTraining RNum rand l z reset = Ok (val z, l1) /\ getNumberOfNeurons l1 = getNumberOfNeurons l /\
    forall e, List.length e = m ->
    (exists r l2, @layer_backOutput RNum o l1 e = Ok (r, l2) /\ List.length r = List.length z /\
      (forall u, List.length u = List.length z -> inner r u = sumn m (fun j => nth j e 0 * nth j (L u) 0)) /\ stepped o l z (val z) e l2) /\
    (exists l3, @layer_train RNum o l1 e = Ok l3 /\ stepped o l z (val z) e l3).
Fixpoint gchain (o : @SGD RNum) (ls : list RLay) (z : list R) : Prop :=
  match ls with [] => True | l :: t => exists val m L, good o l z val m L /\ gchain o t (val z) end.

Lemma chain_const {A} (f : RLay -> list R -> outcome (list R * RLay)) (g : outcome (list R * list RLay) -> A) ls : forall i j v, g (@chain RNum (fun _ => f) i ls v) = g (@chain RNum (fun _ => f) j ls v).
Proof.
  assert (H : forall i j v, @chain RNum (fun _ => f) i ls v = @chain RNum (fun _ => f) j ls v); [|intros i j v; now rewrite (H i j)].
  induction ls as [|a t IH]; intros i j v; [reflexivity|]. cbn [chain]. destruct (f a v) as [[o l]| |]; cbn [bind]; auto. now rewrite (IH (S i) (S j)).
Qed.
Definition err_of (d : list R) (ls : list RLay) (z : list R) : R :=
  match @chain RNum lout 0 ls z with Ok (o, _) => sqerr d o | _ => 0 end.
Lemma err_of_cons d l t z out l' : @layer_output RNum l z false = Ok (out, l') -> err_of d (l :: t) z = err_of d t out.
Proof.
  intros E. unfold err_of. cbn [chain]. change (@F RNum) with R in *. rewrite E. cbn [bind]. rewrite <- (chain_const (fun (l : RLay) v => @layer_output RNum l v false) (fun r => match r with Ok (o, _) => sqerr d o | _ => 0 end) t 1 0).
  cbv beta. match goal with |- context [bind ?c _] => destruct c as [[o2 t2]| |] end; reflexivity.
Qed.

Definition nstepped (o : @SGD RNum) (d : list R) (ls : list RLay) (z : list R) (ls2 : list RLay) : Prop :=
  forall l lay n u w, nth_error ls l = Some lay -> @unit_at RNum lay n = Some u -> (w < n_in u)%nat -> (w < List.length (n_w u))%nat /\
  exists lay' u' G, nth_error ls2 l = Some lay' /\ @unit_at RNum lay' n = Some u' /\ List.length (n_w u') = List.length (n_w u) /\ n_in u' = n_in u /\
    derivable_pt_lim (fun t => err_of d (modify ls l (fun y => @change_weight RNum y n w t)) z) (nth w (n_w u) 0) G /\
    @nth R w (n_w u') 0 = nth w (n_w u) 0 + (- (o_lr o * G) + o_m o * nth w (prow u) 0) /\
    @nth R w (prow u') 0 = nth w (n_w u') 0 - nth w (n_w u) 0.

Lemma modify_0 {A} (a : A) t f : modify (a :: t) 0 f = f a :: t. Proof. reflexivity. Qed.
Lemma modify_S {A} (a : A) t i f : modify (a :: t) (S i) f = a :: modify t i f.
Proof. unfold modify. cbn [nth_error]. destruct (nth_error t i); reflexivity. Qed.

(* the first layer of a chain made a step, and so did the others *)
Lemma head_step o d l t z val m L V r t2 l2 :
  good o l z val m L -> (forall y, List.length y = m -> exists t', @chain RNum lout 0 t y = Ok (V y, t')) ->
  (forall g t0 v, curve m g t0 v -> g t0 = val z -> derivable_pt_lim (fun s => sqerr d (V (g s))) t0 (- inner r (vec m v))) -> List.length r = m ->
  stepped o l z (val z) r l2 -> nstepped o d t (val z) t2 -> nstepped o d (l :: t) z (l2 :: t2).
Proof.
  intros (G1 & _ & _) HV HD Hr HS HN [|i] lay n u w Hl Hu Hw; cbn [nth_error] in Hl.
  - injection Hl as <-. destruct (HS n u w Hu Hw) as (Hlw & u' & vt & D & Hu' & Ln & Hi & Ht & H0 & Hc & Hnew & Hp). split; [exact Hlw|].
    pose proof (G1 z eq_refl) as [Lm _]. rewrite Lm in *.
    exists l2, u', (- inner r (vec m D)). split; [reflexivity|]. split; [exact Hu'|]. split; [exact Ln|]. split; [exact Hi|]. split.
    + apply derive_ext with (fun s => sqerr d (V (vt s))); [|apply HD; [exact Hc|exact H0]].
      intros s. rewrite modify_0. destruct (Ht s) as (l' & E). rewrite (err_of_cons d _ t z _ _ E). unfold err_of.
      destruct (HV (vt s)) as (t' & E'); [apply Hc|]. change (@F RNum) with R in *. now rewrite E'.
    + split; [|exact Hp]. rewrite Hnew, (inner_vec r m D Hr). lra.
  - destruct (HN i lay n u w Hl Hu Hw) as (Hlw & lay' & u' & G & A1 & A2 & A3 & A4 & A5 & A6). split; [exact Hlw|]. exists lay', u', G. split; [exact A1|]. split; [exact A2|]. split; [exact A3|]. split; [exact A4|]. split; [|exact A6].
    apply derive_ext with (2 := A5). intros s. rewrite modify_S. destruct (G1 z eq_refl) as (_ & l' & E). now rewrite (err_of_cons d l _ z _ _ E).
Qed.

Lemma gchain_ok rand reset o ls : forall i z, gchain o ls z -> exists V m ls1,
  (forall y, List.length y = List.length z -> List.length (V y) = m /\ exists ls', @chain RNum lout 0 ls y = Ok (V y, ls')) /\
  @chain RNum (fun i l v => @layer_outputForTraining RNum (rand i) l v reset) i ls z = Ok (V z, ls1) /\ map (@getNumberOfNeurons RNum) ls1 = map (@getNumberOfNeurons RNum) ls /\
  forall d, exists r ls2, @chain_back RNum o ls1 (back_err [] (V z) d) = Ok (r, ls2) /\ List.length r = List.length z /\
    (forall g t0 v, curve (List.length z) g t0 v -> g t0 = z -> derivable_pt_lim (fun t => sqerr d (V (g t))) t0 (- inner r (vec (List.length z) v))) /\
    nstepped o d ls z ls2.
Proof.
  induction ls as [|l t IH]; intros i z H.
  - exists (fun y => y), (List.length z), []. split. { intros y Hy. split; [exact Hy|]. exists []. reflexivity. } split; [reflexivity|]. split; [reflexivity|].
    intros d. exists (back_err [] z d), []. split; [reflexivity|]. split; [apply back_err_length|]. split.
    + intros g t0 v Hc H0. pose proof (derive_sqerr (List.length z) d g t0 v Hc) as D. replace (- inner _ _) with (sumn (List.length z) (fun j => - (2 * (nth j d 0 - nth j (g t0) 0)) * v j)); [exact D|].
      rewrite inner_vec by apply back_err_length. rewrite H0. replace (- sumn (List.length z) (fun i0 => nth i0 (back_err [] z d) 0 * v i0)) with (-1 * sumn (List.length z) (fun i0 => nth i0 (back_err [] z d) 0 * v i0)) by lra.
      rewrite <- sumn_scal. apply sumn_ext. intros j Hj. cbn [back_err]. rewrite nth_map_seq by exact Hj. lra.
    + intros [|l] lay n u w Hl; discriminate.
  - destruct H as (val & m & L & HG & Ht). pose proof HG as (G1 & G2 & G3). destruct (G1 z eq_refl) as [Lm _].
    destruct (IH (S i) (val z) Ht) as (V & m' & t1 & HV & E1 & EN & HB). rewrite Lm in HV.
    destruct (G3 (rand i) reset) as (l1 & El & En & GB).
    exists (fun y => V (val y)), m', (l1 :: t1). split.
    { intros y Hy. destruct (G1 y Hy) as (Ly & l' & Ey). destruct (HV (val y) Ly) as (Lv & t' & Et). split; [exact Lv|]. exists (l' :: t'). cbn [chain]. change (@F RNum) with R in *. rewrite Ey. cbn [bind].
      rewrite (chain_const (fun (l : RLay) v => @layer_output RNum l v false) (fun r => r) t 1 0). rewrite Et. reflexivity. }
    split. { cbn [chain]. change (@F RNum) with R in *. rewrite El. cbn [bind]. rewrite E1. reflexivity. }
    split. { cbn [map]. now rewrite En, EN. }
    intros d. destruct (HB d) as (r & t2 & Eb & Lr & HD & HS). rewrite Lm in *.
    destruct (GB r Lr) as ((r2 & l2 & Eb2 & Lr2 & Hin & HS2) & _).
    exists r2, (l2 :: t2). split. { cbn [chain_back]. change (@F RNum) with R in *. rewrite Eb. cbn [bind]. rewrite Eb2. reflexivity. }
    split; [exact Lr2|]. split.
    + intros g t0 v Hc H0. specialize (G2 g t0 v Hc H0). specialize (HD _ _ _ G2). cbv beta in HD. rewrite H0 in HD. specialize (HD eq_refl).
      rewrite (Hin (vec (List.length z) v) (vec_length _ _)). rewrite inner_vec in HD by exact Lr. exact HD.
    + eapply head_step; eauto. intros y Hy. destruct (HV y Hy) as (_ & t' & Et). eauto.
Qed.

Lemma map_last_neurons (ls1 ls : list RLay) a b : map (@getNumberOfNeurons RNum) (a :: ls1) = map (@getNumberOfNeurons RNum) (b :: ls) ->
  getNumberOfNeurons (last (a :: ls1) a) = getNumberOfNeurons (last (b :: ls) b).
Proof.
  intros H. assert (G : forall (l : list RLay) c, getNumberOfNeurons (last l c) = last (map (@getNumberOfNeurons RNum) l) (getNumberOfNeurons c)).
  { induction l as [|x [|y t] IH]; intros c; [reflexivity|reflexivity|]. cbn [last map] in *. apply IH. }
  rewrite !G, H. assert (Q : getNumberOfNeurons a = getNumberOfNeurons b) by (cbn in H; congruence). now rewrite Q.
Qed.

(* the whole training step *)
Lemma mixed_step rand (net : @Net RNum) x d reset l0 t0 :
  nn_layers net = l0 :: t0 -> nn_nan net = false -> gchain (nn_opt net) (l0 :: t0) x ->
  (forall o ls, @chain RNum lout 0 (l0 :: t0) x = Ok (o, ls) -> getNumberOfNeurons (last (l0 :: t0) l0) = List.length o /\ (List.length o <= List.length d)%nat) ->
  exists net', @trainOnce RNum rand net x d reset = Ok net' /\ nn_nan net' = false /\ nn_opt net' = nn_opt net /\ nstepped (nn_opt net) d (nn_layers net) x (nn_layers net').
Proof.
  intros El Hnan H Hlast. set (o := nn_opt net) in *. pose proof H as (val & m & L & HG & Ht). pose proof HG as (G1 & G2 & G3). destruct (G1 x eq_refl) as (Lm & l' & Ex).
  destruct (gchain_ok rand reset o t0 1 (val x) Ht) as (V & m' & t1 & HV & E1 & EN & HB). rewrite Lm in HV.
  destruct (G3 (rand O) reset) as (l1 & El1 & En & GB).
  destruct (HV (val x) Lm) as (Lv & t' & Et).
  assert (Hl : getNumberOfNeurons (last (l0 :: t0) l0) = m' /\ (m' <= List.length d)%nat).
  { rewrite <- Lv. apply (Hlast (V (val x)) (l' :: t')). cbn [chain]. change (@F RNum) with R in *. rewrite Ex. cbn [bind].
    rewrite (chain_const (fun (l : RLay) v => @layer_output RNum l v false) (fun r => r) t0 1 0). rewrite Et. reflexivity. }
  destruct Hl as [Hl Hd]. destruct (HB d) as (r & t2 & Eb & Lr & HD & HS). rewrite Lm in *.
  destruct (GB r Lr) as (_ & l3 & E3 & HS3).
  unfold trainOnce, backpropagation, net_outputForTraining. rewrite El. cbn [chain]. change (@F RNum) with R in *. rewrite El1. cbn [bind]. rewrite E1. cbn [bind].
  rewrite anyAbnormal_R, Hnan. cbn [orb nn_nan nn_layers nn_opt].
  assert (Hn : getNumberOfNeurons (last (l1 :: t1) l1) = m').
  { rewrite <- Hl. apply map_last_neurons. cbn [map]. now rewrite En, EN. }
  rewrite Hn. unfold calculateError. rewrite (omap_seq_ok _ (fun j => 2 * (nth j d 0 - nth j (V (val x)) 0))).
  2: { intros j Hj. change (@F RNum) with R in *. rewrite (@lget_nth R d j 0) by lia. cbn [bind]. rewrite (lget_nth _ j 0) by lia. cbn [bind]. rewrite RNum_lit. reflexivity. }
  cbn [bind]. cbn [back_err] in Eb. rewrite Lv in Eb. fold o. rewrite Eb. cbn [bind]. rewrite E3. cbn [bind].
  eexists. split; [reflexivity|]. cbn [nn_nan nn_opt nn_layers]. split; [reflexivity|]. split; [reflexivity|].
  eapply head_step; eauto. intros y Hy. destruct (HV y Hy) as (_ & t'' & Et''). eauto.
Qed.
