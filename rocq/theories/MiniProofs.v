(* C77: the mean sample and the mean gradient. *)
From Coq Require Import Reals Lra Lia.
From Verif Require Import Base Num NumOrder ActModel ActProofs NeuronModel LayerModel NetModel NetSpec NeuronProofs LayerProofs GradProofs DenseProofs GradProps StatReal
  DataModel DataSpec FactorySpec PureSpec PureProps MiniSpec.
Local Open Scope R_scope.

(* ---------- means ---------- *)
Lemma fold_plus (l : list R) : forall a, fold_left Rplus l a = a + Rsum l.
Proof. induction l as [|x t IH]; intros a; cbn [fold_left Rsum fold_right]; [unfold Rsum; cbn; lra|]. rewrite IH. unfold Rsum. cbn [fold_right]. lra. Qed.
Lemma Rsum_cons a l : Rsum (a :: l) = a + Rsum l. Proof. reflexivity. Qed.
Lemma mean_coordinate (rows : list (list R)) m i : @mean_of RNum rows m -> (i < List.length m)%nat -> Rsum (map (fun r => nth i r 0) rows) = INR (List.length rows) * nth i m 0.
Proof.
  destruct rows as [|r0 rest]; [contradiction|]. intros [L H] Hi. rewrite L in Hi. specialize (H i Hi). apply (nth_error_nth _ _ 0) in H. change (@F RNum) with R in *. rewrite H.
  unfold fofnat. cbn [fdiv fadd RNum]. change (@fofZ RNum (Z.of_nat (List.length (r0 :: rest)))) with (@fofZ RNum (Z.of_nat (List.length (r0 :: rest)))). rewrite RNum_fofZ, <- INR_IZR_INZ.
  assert (P : INR (List.length (r0 :: rest)) <> 0) by (apply not_0_INR; discriminate). cbn [map]. rewrite Rsum_cons.
  assert (E : fold_left Rplus (map (fun r => nth i r (@fzero RNum)) rest) (nth i r0 (@fzero RNum)) = nth i r0 0 + Rsum (map (fun r => nth i r 0) rest)).
  { rewrite fold_plus, !fzero_R. f_equal. }
  etransitivity; [symmetry; exact E|]. field_simplify_eq; [|exact P]. reflexivity.
Qed.
Lemma mean_same (rows : list (list R)) x m : @mean_of RNum rows m -> Forall (fun r => r = x) rows -> m = x.
Proof.
  intros H A. assert (L : List.length m = List.length x). { destruct rows as [|r0 rest]; [contradiction|]. inversion A; subst. apply H. }
  apply nth_ext with (d := 0) (d' := 0); [exact L|]. intros i Hi. pose proof (mean_coordinate rows m i H Hi) as E.
  assert (P : INR (List.length rows) <> 0) by (apply not_0_INR; destruct rows; [contradiction|discriminate]).
  assert (E2 : Rsum (map (fun r => nth i r 0) rows) = INR (List.length rows) * nth i x 0).
  { clear -A. induction A as [|r t -> _ IH]; [cbn; unfold Rsum; cbn; ring|]. cbn [map]. rewrite Rsum_cons, IH. cbn [List.length]. rewrite S_INR. ring. }
  rewrite E2 in E. apply Rmult_eq_reg_l in E; auto.
Qed.
Lemma sos_sumn o : forall d, List.length d = List.length o -> sum_of_squares d o = sumn (List.length o) (fun i => (nth i d 0 - nth i o 0) ^ 2).
Proof.
  induction o as [|a o IH]; intros [|b d] L; try discriminate; [reflexivity|]. cbn [sum_of_squares List.length]. rewrite sumn_S. cbn [nth]. rewrite IH by (cbn in L; lia). reflexivity.
Qed.
Lemma sumn_Rsum {A} k (f : nat -> A -> R) l : Rsum (map (fun s => sumn k (fun i => f i s)) l) = sumn k (fun i => Rsum (map (f i) l)).
Proof.
  induction l as [|a t IH]; cbn [map]; [unfold Rsum; cbn [fold_right]; symmetry; apply sumn_0; reflexivity|]. rewrite Rsum_cons, IH, <- sumn_add. apply sumn_ext. intros i _. now rewrite Rsum_cons.
Qed.
(* the mean of the squared distances to o is the squared distance of the mean, and something that does not depend on o *)
Lemma mean_distance (ys : list (list R)) d o : @mean_of RNum ys d -> Forall (fun y => List.length y = List.length o) ys ->
  Rsum (map (fun y => sum_of_squares y o) ys) / INR (List.length ys) = sum_of_squares d o + Rsum (map (fun y => sum_of_squares y d) ys) / INR (List.length ys).
Proof.
  intros H A. assert (Ld : List.length d = List.length o). { destruct ys as [|r0 rest]; [contradiction|]. inversion A as [|? ? A1 A2 X1]. destruct H as [L _]. exact (eq_trans L A1). }
  assert (P : INR (List.length ys) <> 0) by (apply not_0_INR; destruct ys; [contradiction|discriminate]). set (n := INR (List.length ys)) in *.
  assert (E1 : forall c, List.length c = List.length o -> Rsum (map (fun y => sum_of_squares y c) ys) = sumn (List.length o) (fun i => Rsum (map (fun y => (nth i y 0 - nth i c 0) ^ 2) ys))).
  { intros c Lc. rewrite <- (sumn_Rsum (List.length o) (fun i y => (nth i y 0 - nth i c 0) ^ 2)). f_equal. apply map_ext_in. intros y Hy. rewrite Forall_forall in A. rewrite sos_sumn by (rewrite Lc; auto). now rewrite Lc. }
  rewrite (E1 o eq_refl), (E1 d Ld), (sos_sumn o d Ld).
  assert (E2 : sumn (List.length o) (fun i => Rsum (map (fun y => (nth i y 0 - nth i o 0) ^ 2) ys)) = sumn (List.length o) (fun i => n * (nth i d 0 - nth i o 0) ^ 2) + sumn (List.length o) (fun i => Rsum (map (fun y => (nth i y 0 - nth i d 0) ^ 2) ys))).
  { rewrite <- sumn_add. apply sumn_ext. intros i Hi. pose proof (mean_coordinate ys d i H ltac:(lia)) as M. fold n in M. set (c := nth i d 0) in *. set (p := nth i o 0).
    assert (G : forall l, Rsum (map (fun y => (nth i y 0 - p) ^ 2) l) = Rsum (map (fun y => (nth i y 0 - c) ^ 2) l) + 2 * (c - p) * (Rsum (map (fun y => nth i y 0) l) - INR (List.length l) * c) + INR (List.length l) * (c - p) ^ 2).
    { induction l as [|a t IH]; [unfold Rsum; cbn; ring|]. cbn [map]. rewrite !Rsum_cons, IH. change (List.length (a :: t)) with (S (List.length t)). rewrite S_INR. ring. }
    rewrite (G ys), M. fold n. ring. }
  rewrite E2, sumn_scal. assert (G : forall a u v : R, a <> 0 -> (a * u + v) / a = u + v / a) by (intros; field; assumption). exact (G n _ _ P).
Qed.

(* ---------- one step on the mean sample ---------- *)
Lemma set_output (net : @Net RNum) k m l n neuron x : dense_network k net -> @neuron_at RNum net l n = Some neuron -> List.length x = k -> @net_numberOfOutputs RNum net = Ok m ->
  forall w t, exists o net1, @net_output RNum (@set_weight RNum net l n w t) x false = Ok (o, net1) /\ List.length o = m.
Proof.
  intros [Hne Hd] Hn Hx Ho w t. destruct (dense_dchain _ _ Hd) as (nss & D).
  assert (Hlen : List.length (net_val nss x) = m).
  { unfold net_numberOfOutputs in Ho. apply bind_Ok_inv in Ho as (l0 & Hl & E). injection E as E.
    destruct (nn_layers net) as [|a t0] eqn:El; [congruence|]. change (@F RNum) with R in *. rewrite (last_neurons _ _ _ _ D x Hx).
    rewrite <- E. f_equal. symmetry. apply (last_lgetZ (a :: t0)). exact Hl. }
  rewrite (neuron_at_dense _ _ _ _ _ D) in Hn. destruct (nth_error nss l) as [ns|] eqn:El; [|discriminate].
  unfold set_weight. destruct (nth_error (nn_layers net) l) as [lay|] eqn:Elay.
  2: { exfalso. clear -D El Elay. revert D El Elay. generalize (nn_layers net) as ls. intros ls. revert nss l k; induction ls as [|a lt IH]; intros [|b nt] [|l] k D El Elay; cbn in *; try contradiction; try discriminate.
       destruct D as (_ & _ & D). eapply IH; eauto. }
  match goal with |- context [net_output ?N' x false] => set (net2 := N') end.
  assert (D2 : dchain k (nn_layers net2) (replace nss l (replace ns n (with_weight neuron w t)))) by (unfold net2; cbn [nn_layers]; eapply dchain_set; eauto).
  destruct (net_output_dense net2 k (replace nss l (replace ns n (with_weight neuron w t))) x false) as (ls2 & E2 & _); [|exact D2|exact Hx|].
  { unfold net2. cbn [nn_layers]. destruct (nn_layers net); [congruence|]. destruct l; discriminate. }
  eexists _, _. split; [exact E2|]. rewrite (replace_split _ _ _ _ El). rewrite <- Hlen. pose proof (nth_split_at _ _ _ El) as Es. rewrite Es at 3.
  assert (G : forall nss a b, List.length a = List.length b -> List.length (net_val nss a) = List.length (net_val nss b)).
  { clear. induction nss as [|c t IH]; intros a b Hab; [exact Hab|]. apply IH. now rewrite !layer_val_length. }
  rewrite !net_val_app. change (net_val (?a :: ?b) ?c) with (net_val b (layer_val a c)). apply G. rewrite !layer_val_length. apply replace_length.
Qed.
Lemma derive_shift f g t v c : (forall u, g u = f u + c) -> derivable_pt_lim f t v -> derivable_pt_lim g t v.
Proof.
  intros E H. apply derive_ext with (f := fun u => f u + c); [intros; symmetry; apply E|]. replace v with (v + 0) by ring. apply (derivable_pt_lim_plus f (fun _ => c)); [exact H|apply derivable_pt_lim_const].
Qed.
