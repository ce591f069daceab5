(* C77: networks of one linear layer. *)
From Coq Require Import Reals Lra Lia Permutation.
From Verif Require Import Base Num NumOrder ActModel ActProofs NeuronModel LayerModel NetModel NetSpec NeuronProofs LayerProofs GradProofs DenseProofs GradProps StatReal
  DataModel DataSpec FactorySpec PureSpec PureProps LearnSpec LearnProofs LearnProps MiniSpec MiniProofs MiniStill.
Local Open Scope R_scope.

Lemma lin_smooth k m net ns x : lin k m net ns -> List.length x = k -> differentiable_at net x.
Proof.
  intros H Hx o net1 E l n neuron Hn. destruct (net_output_dense net k [ns] x false ltac:(destruct H as (-> & _); discriminate) (lin_dchain _ _ _ _ H) Hx) as (ls & E1 & D1).
  assert (Q : net1 = mkNet ls (nn_opt net) (nn_nan net) (nn_trainings net)) by congruence. subst net1.
  rewrite (neuron_at_dense _ k (fed_nss [ns] x)) in Hn by exact D1. destruct l as [|l]; [|cbn in Hn; destruct l; discriminate]. cbn [fed_nss nth_error] in Hn. rewrite nth_error_map in Hn. destruct (nth_error ns n) as [a|] eqn:Ea; [|discriminate].
  injection Hn as <-. destruct H as (_ & Hf & _). rewrite Forall_forall in Hf. destruct (Hf a (nth_error_In _ _ Ea)) as (_ & _ & _ & Pa & _). cbn. rewrite Pa. split; discriminate.
Qed.
Lemma lin_prediction k m net ns x : lin k m net ns -> List.length x = k -> prediction net x = layer_val ns x.
Proof. intros H Hx. destruct (lin_predict k m net ns x false H Hx) as (net' & E). unfold prediction. change (@F RNum) with R in *. now rewrite E. Qed.
Lemma lin_outputs k m net ns : lin k m net ns -> @net_numberOfOutputs RNum net = Ok m.
Proof. intros (E & _ & L & _). unfold net_numberOfOutputs. rewrite E. cbn. unfold getNumberOfNeurons, layer_weights. cbn. rewrite map_length. now rewrite L. Qed.
Lemma lin_dense k m net ns : lin k m net ns -> dense_network k net.
Proof. intros H. split; [destruct H as (-> & _); discriminate|]. eapply dchain_dense, lin_dchain, H. Qed.
Lemma lin_step k m net ns rand x d reset : lin k m net ns -> List.length x = k -> List.length d = m -> exists net', @trainOnce RNum rand net x d reset = Ok net' /\
  forall j i, (j < m)%nat -> (i < k)%nat -> @weight_at RNum net 0 j i = Some (@nth R i (n_w (nth j ns n0)) 0) /\
    @weight_at RNum net' 0 j i = Some (@nth R i (n_w (nth j ns n0)) 0 + o_lr (nn_opt net) * (2 * terr (nth j d 0) (nth j ns n0) x) * nth i x 0).
Proof.
  intros H Hx Hd. destruct H as (El & Hf & Hl & Hn & Hm) eqn:EH. clear EH. pose proof (lin_dchain _ _ _ _ H) as D0.
  destruct (trainOnce_dense rand net k [ns] x d reset ltac:(rewrite El; discriminate) D0 Hn Hx) as (net' & nss' & E & D & U & Hn' & Ho').
  { change (net_val [ns] x) with (layer_val ns x). rewrite layer_val_length. lia. }
  destruct nss' as [|ns' [|]]; try contradiction; [|destruct U as (_ & U); contradiction]. destruct U as ((Lu & U) & _).
  exists net'. split; [exact E|]. intros j i Hj Hi. assert (Lj : (j < List.length ns)%nat) by lia.
  assert (Pj : plain k (nth j ns n0)) by (rewrite Forall_forall in Hf; apply Hf; now apply nth_In). destruct Pj as (W & Wi & Wb & Wa & Wc).
  specialize (U j Lj). unfold nerr in U. cbn [back_err] in U. rewrite layer_val_length in U. rewrite nth_map_seq in U by lia. rewrite nth_layer_val in U by exact Lj.
  assert (Ea : @actd RNum (n_act (nth j ns n0)) (@neuron_sum RNum (nth j ns n0) x) = 1). { rewrite Wa. cbn [actd]. unfold fone. rewrite RNum_fofZ. reflexivity. } rewrite Ea, Rmult_1_r in U.
  destruct U as (U1 & _ & _ & _ & U5 & _). split.
  - apply weight_at_intro; [|destruct W as (W & _); rewrite W; lia]. rewrite (neuron_at_dense _ _ _ _ _ D0). cbn. now apply nth_error_nth'.
  - assert (Lj' : (j < List.length ns')%nat) by lia. rewrite (weight_at_intro net' 0 j i (nth j ns' n0)).
    + f_equal. rewrite U5 by lia. rewrite Hm. unfold terr. change (@F RNum) with R in *. ring.
    + rewrite (neuron_at_dense _ _ _ _ _ D). cbn. now apply nth_error_nth'.
    + destruct (nn_layers net') as [|l' lt']; [contradiction|]. destruct D as (_ & D & _). rewrite Forall_forall in D. destruct (D (nth j ns' n0) (nth_In _ _ Lj')) as ((W' & _) & Wi' & _). rewrite W'. lia.
Qed.
Lemma lin_deriv k m net ns x d j i : lin k m net ns -> 0 < o_lr (nn_opt net) -> List.length x = k -> List.length d = m -> (j < m)%nat -> (i < k)%nat ->
  derivable_pt_lim (fun t => squared_error (@set_weight RNum net 0 j i t) x d) (@nth R i (n_w (nth j ns n0)) 0) (- 2 * (nth i x 0 * (nth j d 0 - nth j (layer_val ns x) 0))).
Proof.
  intros H Hr Hx Hd Hj Hi. destruct (C22_step_is_gradient_descent (fun _ _ _ => true) net k x d true) as (net' & E & _ & _ & _ & G); [eapply lin_dense, H|apply H|apply H|exact Hx|etransitivity; [eapply lin_outputs, H|f_equal; symmetry; exact Hd]|eapply lin_smooth; eauto|].
  assert (Lj : (j < List.length ns)%nat) by (destruct H as (_ & _ & L & _); lia).
  destruct (G 0%nat j (nth j ns n0) i) as (old & new & g & A & B & D & Q).
  { rewrite (neuron_at_dense _ _ _ _ _ (lin_dchain _ _ _ _ H)). cbn. now apply nth_error_nth'. }
  { destruct H as (_ & Hf & _). rewrite Forall_forall in Hf. destruct (Hf _ (nth_In ns n0 Lj)) as (_ & -> & _). exact Hi. }
  destruct (lin_step k m net ns (fun _ _ _ => true) x d true H Hx Hd) as (net2 & E2 & S2). rewrite E2 in E. injection E as <-. destruct (S2 j i Hj Hi) as (A2 & B2).
  rewrite A2 in A. rewrite B2 in B. injection A as <-. injection B as <-. rewrite <- (out_err ns x d j Lj) in Q. set (e := nth j d 0 - nth j (layer_val ns x) 0) in *.
  replace (- 2 * (nth i x 0 * e)) with g; [exact D|]. apply Rmult_eq_reg_l with (r := o_lr (nn_opt net)); [|lra]. change (@F RNum) with R in *. lra.
Qed.
Lemma Rsum_derive {A} (f : A -> R -> R) (g : A -> R) t l : Forall (fun a => derivable_pt_lim (f a) t (g a)) l -> derivable_pt_lim (fun u => Rsum (map (fun a => f a u) l)) t (Rsum (map g l)).
Proof.
  induction 1 as [|a l Ha _ IH]; [apply derivable_pt_lim_const|]. cbn [map]. rewrite Rsum_cons. apply (derivable_pt_lim_plus (f a) (fun u => Rsum (map (fun a => f a u) l))); assumption.
Qed.
Lemma average_derive {A} (f : A -> R -> R) (g : A -> R) t l : Forall (fun a => derivable_pt_lim (f a) t (g a)) l -> derivable_pt_lim (fun u => Rsum (map (fun a => f a u) l) / INR (List.length l)) t (average g l).
Proof.
  intros H. apply Rsum_derive in H. apply derive_ext with (f := fun u => / INR (List.length l) * Rsum (map (fun a => f a u) l)); [intros; unfold Rdiv; ring|]. unfold average, Rdiv. rewrite Rmult_comm. exact (derivable_pt_lim_scal _ (/ INR (List.length l)) t _ H).
Qed.
(* means *)
Lemma average_lin {A} a b (f g : A -> R) l : average (fun s => a * f s + b * g s) l = a * average f l + b * average g l.
Proof. unfold average. assert (E : Rsum (map (fun s => a * f s + b * g s) l) = a * Rsum (map f l) + b * Rsum (map g l)). { induction l as [|c t IH]; cbn [map]; rewrite ?Rsum_cons; [unfold Rsum; cbn; ring|]. rewrite IH. ring. } rewrite E. unfold Rdiv. ring. Qed.
Lemma average_ext {A} (f g : A -> R) l : (forall s, In s l -> f s = g s) -> average f l = average g l.
Proof. intros H. unfold average. f_equal. f_equal. apply map_ext_in, H. Qed.
Lemma average_const {A} c (l : list A) : l <> [] -> average (fun _ => c) l = c.
Proof.
  intros H. unfold average. assert (P : INR (List.length l) <> 0) by (apply not_0_INR; destruct l; [congruence|discriminate]). assert (E : forall l : list A, Rsum (map (fun _ => c) l) = INR (List.length l) * c).
  { clear. induction l as [|a t IH]; [unfold Rsum; cbn; ring|]. cbn [map]. rewrite Rsum_cons, IH. change (List.length (a :: t)) with (S (List.length t)). rewrite S_INR. ring. } rewrite E. field. exact P.
Qed.
Lemma covariance_alt {A} (f g : A -> R) l : l <> [] -> covariance f g l = average (fun s => f s * g s) l - average f l * average g l.
Proof.
  intros H. unfold covariance. set (a := average f l). set (b := average g l).
  rewrite (average_ext _ (fun s => 1 * (f s * g s) + 1 * ((- b) * f s + (- a) * g s + a * b)) l) by (intros; ring). rewrite average_lin.
  rewrite (average_ext (fun s => - b * f s + - a * g s + a * b) (fun s => 1 * (- b * f s + - a * g s) + 1 * (a * b)) l) by (intros; ring). rewrite (average_lin 1 1 (fun s => - b * f s + - a * g s)), average_lin, (average_const (a * b) l H). fold a b. ring.
Qed.
Lemma mean_average (samples : list (list R * list R)) (p : list R * list R -> list R) m i : @mean_of RNum (map p samples) m -> (i < List.length m)%nat -> nth i m 0 = average (fun s => nth i (p s) 0) samples.
Proof.
  intros H Hi. pose proof (mean_coordinate _ _ i H Hi) as E. rewrite map_map, map_length in E. unfold average. assert (G : forall a b c : R, c = b * a -> b <> 0 -> a = c / b) by (intros a b c -> Hb; field; exact Hb). apply (G _ _ _ E). apply not_0_INR. destruct samples; [contradiction|discriminate].
Qed.
Lemma sumn_average {A} k (f : nat -> A -> R) l : average (fun s => sumn k (fun i => f i s)) l = sumn k (fun i => average (f i) l).
Proof. unfold average. rewrite sumn_Rsum. unfold Rdiv. rewrite Rmult_comm, <- sumn_scal. apply sumn_ext. intros i _. apply Rmult_comm. Qed.
(* the error for the mean sample is the mean of the errors *)
Lemma mean_error k n (samples : list (list R * list R)) x d j m : plain k n -> Forall (fun s => List.length (fst s) = k /\ List.length (snd s) = m) samples -> @mean_of RNum (map fst samples) x -> @mean_of RNum (map snd samples) d ->
  (j < List.length d)%nat -> List.length x = k -> terr (nth j d 0) n x = average (fun s => terr (nth j (snd s) 0) n (fst s)) samples.
Proof.
  intros P HF Hx Hd Hj Lx. assert (Ne : samples <> []) by (destruct samples; [contradiction|discriminate]). unfold terr. rewrite (value_plain k n x P Lx). rewrite (mean_average samples snd d j Hd Hj).
  match goal with |- _ = average ?f samples => rewrite (average_ext f (fun s : list R * list R => 1 * nth j (snd s) 0 + -1 * (1 * sumn k (fun i => nth i (fst s) 0 * @nth R i (n_w n) 0) + 1 * bias_w n)) samples) end.
  2: { intros s Hs. rewrite Forall_forall in HF. pose proof (value_plain k n (fst s) P (proj1 (HF s Hs))) as V. eapply eq_trans; [exact (f_equal (fun v : R => nth j (snd s) 0 - v) V)|]. change (@F RNum) with R in *. ring. }
  rewrite average_lin, (average_lin 1 1 _ (fun _ => bias_w n)), (average_const (bias_w n) samples Ne), sumn_average.
  assert (E : sumn k (fun i => nth i x 0 * @nth R i (n_w n) 0) = sumn k (fun i => average (fun s => nth i (fst s) 0 * @nth R i (n_w n) 0) samples)).
  { apply sumn_ext. intros i Hi. rewrite (mean_average samples fst x i Hx) by lia. rewrite (average_ext (fun s => nth i (fst s) 0 * @nth R i (n_w n) 0) (fun s => @nth R i (n_w n) 0 * nth i (fst s) 0 + 0 * 0) samples) by (intros; ring).
    rewrite (average_lin (@nth R i (n_w n) 0) 0 (fun s => nth i (fst s) 0) (fun _ => 0)). ring. }
  change (@F RNum) with R in *. rewrite E. ring.
Qed.
