(* Symmetry and transitivity of operator==; equal networks compute the same outputs. *)
From Coq Require Import String Reals SpecFloat.
From Verif Require Import Base Num NumOrder ActModel NeuronModel LayerModel NetModel NeuronProofs LayerProofs SafeProofs SafeLayers StatModel WaitModel DataModel FactoryModel FactorySpec FactoryProofs FilterSpec
  SafeNet BuildProofs FilterProofs HistProofs PoolProofs FilterProps PureProps TrainModel SaveModel SaveSpec EqModel EqProofs AlikeProofs.
Local Open Scope outcome_scope.
Local Open Scope nat_scope.

Section P.
Context {N : Num}.
Variable L : eq_laws N.
Lemma circ_sym a b : circ_eqb a b = circ_eqb b a.
Proof. unfold circ_eqb. rewrite (vec_eqb_sym _ (q_data a)), (Nat.eqb_sym (q_get a)), (Nat.eqb_sym (q_push a)); [reflexivity|]. intros. apply vec_eqb_sym. apply (el_sym N L). Qed.
Lemma sgd_sym a b : sgd_eqb a b = sgd_eqb b a. Proof. unfold sgd_eqb. now rewrite (el_sym N L), (el_sym N L (o_m a)). Qed.
Lemma act_sym a b : act_eqb a b = act_eqb b a. Proof. destruct a, b; reflexivity. Qed.
Lemma neuron_sym o p a b : neuron_eqb o p a b = neuron_eqb p o b a.
Proof.
  unfold neuron_eqb. rewrite (Nat.eqb_sym (n_in a)), (vec_eqb_sym _ (n_w a)), (vec_eqb_sym _ (n_err a)), (el_sym N L (n_bias a)), (el_sym N L (n_sum a)), (circ_sym (n_prev a)), (circ_sym (n_last a)), act_sym, sgd_sym; [reflexivity|apply (el_sym N L)..].
Qed.
Lemma rneuron_sym o p a b : rneuron_eqb o p a b = rneuron_eqb p o b a.
Proof. unfold rneuron_eqb. now rewrite neuron_sym, (el_sym N L (r_lastOut a)), (el_sym N L (r_prevOut a)), (el_sym N L (r_recErr a)), (el_sym N L (r_prevSum a)). Qed.
Lemma gneuron_sym o p a b : gneuron_eqb o p a b = gneuron_eqb p o b a.
Proof.
  unfold gneuron_eqb. now rewrite (Nat.eqb_sym (g_in a)), (el_sym N L (g_prevOut a)), (el_sym N L (g_recErr a)), (el_sym N L (g_updOut a)), (el_sym N L (g_outOut a)), (rneuron_sym o p (g_reset a)), (rneuron_sym o p (g_update a)), (rneuron_sym o p (g_output a)).
Qed.
Lemma vec_eqb_flip {A} (e e' : A -> A -> bool) a b : (forall x y, e x y = e' y x) -> vec_eqb e a b = vec_eqb e' b a.
Proof. intros H. revert b. induction a as [|x a IH]; intros [|y b]; cbn; auto. now rewrite H, IH. Qed.
Lemma lopt_sym a b : lopt_eqb a b = lopt_eqb b a.
Proof. destruct a, b; cbn; auto; try apply (el_sym N L). now rewrite (el_sym N L value), (el_sym N L reverseValue). Qed.
Lemma lopts_sym a : forall b, List.length a = List.length b -> lopts_eqb a b = lopts_eqb b a.
Proof. induction a as [|x a IH]; intros [|y b] E; try discriminate; [reflexivity|]. cbn. rewrite lopt_sym. destruct (lopt_eqb y x); auto. Qed.
Lemma filter_sym f g : filter_eqb f g = filter_eqb g f.
Proof.
  unfold filter_eqb. rewrite (Nat.eqb_sym (f_filters f)), (Nat.eqb_sym (f_kernels f)), (Nat.eqb_sym (f_kpf f)), (Nat.eqb_sym (f_npf f)), (Nat.eqb_sym (f_ksize f)), (Nat.eqb_sym (f_nin f)),
    (vec_eqb_sym _ (f_shapeIn f)), (vec_eqb_sym _ (f_shapeOut f)), (vec_eqb_sym _ (f_index f)); auto using Nat.eqb_sym. intros. apply vec_eqb_sym. apply Z.eqb_sym.
Qed.
Lemma pool_sym f g : pool_eqb f g = pool_eqb g f.
Proof. unfold pool_eqb. rewrite (Nat.eqb_sym (f_ksize f)), (vec_eqb_sym _ (f_shapeIn f)); auto using Nat.eqb_sym. Qed.
Lemma fkind_sym a b : fkind_eqb a b = fkind_eqb b a. Proof. destruct a, b; reflexivity. Qed.
Lemma layer_sym o p a b : List.length (l_opts a) = List.length (l_opts b) -> layer_eqb o p a b = layer_eqb p o b a.
Proof.
  intros E. unfold layer_eqb. rewrite (lopts_sym _ _ E), (Nat.eqb_sym (l_in a)).
  destruct (l_body a) as [x|x|x|k f x], (l_body b) as [y|y|y|k' g y]; try reflexivity.
  - now rewrite (vec_eqb_flip _ (neuron_eqb p o) x y) by (intros; apply neuron_sym).
  - now rewrite (vec_eqb_flip _ (rneuron_eqb p o) x y) by (intros; apply rneuron_sym).
  - now rewrite (vec_eqb_flip _ (gneuron_eqb p o) x y) by (intros; apply gneuron_sym).
  - rewrite fkind_sym. destruct (fkind_eqb k' k) eqn:K; [|reflexivity]. apply fkind_eqb_spec in K. subst k'. rewrite filter_sym, pool_sym.
    now rewrite (vec_eqb_flip _ (neuron_eqb p o) x y) by (intros; apply neuron_sym).
Qed.
Definition same_opt_counts (a b : list Layer) : Prop := Forall2 (fun x y => List.length (l_opts x) = List.length (l_opts y)) a b.
Lemma layers_sym o p a b : same_opt_counts a b -> layers_eqb o p a b = layers_eqb p o b a.
Proof. induction 1 as [|x y a b E _ IH]; [reflexivity|]. cbn. now rewrite (layer_sym o p x y E), IH. Qed.
Lemma snn_sym a b : (List.length (nn_layers (sn_net a)) = List.length (nn_layers (sn_net b)) -> same_opt_counts (nn_layers (sn_net a)) (nn_layers (sn_net b))) -> snn_eqb a b = snn_eqb b a.
Proof.
  intros H. unfold snn_eqb, net_eqb. rewrite sgd_sym, (Nat.eqb_sym (List.length (nn_layers (sn_net a)))), (String.eqb_sym (sn_path a)), (Nat.eqb_sym (sn_index a)), (Nat.eqb_sym (sn_ntrain a)), (Z.eqb_sym (sn_epoch a)).
  assert (HB : forall x y, Bool.eqb x y = Bool.eqb y x) by (intros [] []; reflexivity). rewrite (HB (sn_auto a)), (HB (sn_want a)), (HB (sn_idle a)).
  destruct (Nat.eqb_spec (List.length (nn_layers (sn_net b))) (List.length (nn_layers (sn_net a)))) as [E|E]; [|now rewrite Bool.andb_false_r]. rewrite (layers_sym _ _ _ _ (H (eq_sym E))). reflexivity.
Qed.

(* transitivity *)
Lemma circ_trans a b c : circ_eqb a b = true -> circ_eqb b c = true -> circ_eqb a c = true.
Proof.
  unfold circ_eqb. rewrite !Bool.andb_true_iff, !Nat.eqb_eq. intros ((H1 & H2) & H3) ((H4 & H5) & H6). repeat split; try congruence.
  eapply vec_eqb_trans; eauto. intros x y z. apply vec_eqb_trans. apply (el_trans N L).
Qed.
Lemma sgd_trans a b c : sgd_eqb a b = true -> sgd_eqb b c = true -> sgd_eqb a c = true.
Proof. unfold sgd_eqb. rewrite !Bool.andb_true_iff. intros (H1 & H2) (H3 & H4). split; eapply (el_trans N L); eauto. Qed.
Lemma neuron_trans o p q a b c : neuron_eqb o p a b = true -> neuron_eqb p q b c = true -> neuron_eqb o q a c = true.
Proof.
  unfold neuron_eqb. rewrite !Bool.andb_true_iff, !Nat.eqb_eq, !act_eqb_spec. intros ((((((((A1 & A2) & A3) & A4) & A5) & A6) & A7) & A8) & A9) ((((((((B1 & B2) & B3) & B4) & B5) & B6) & B7) & B8) & B9).
  pose proof (el_trans N L) as T. repeat split; try congruence; try (eapply vec_eqb_trans; eauto); try (eapply circ_trans; eauto); try (eapply sgd_trans; eauto); eapply T; eauto.
Qed.
Lemma rneuron_trans o p q a b c : rneuron_eqb o p a b = true -> rneuron_eqb p q b c = true -> rneuron_eqb o q a c = true.
Proof.
  unfold rneuron_eqb. rewrite !Bool.andb_true_iff. intros ((((A1 & A2) & A3) & A4) & A5) ((((B1 & B2) & B3) & B4) & B5). pose proof (el_trans N L) as T. repeat split; try (eapply neuron_trans; eauto); eapply T; eauto.
Qed.
Lemma gneuron_trans o p q a b c : gneuron_eqb o p a b = true -> gneuron_eqb p q b c = true -> gneuron_eqb o q a c = true.
Proof.
  unfold gneuron_eqb. rewrite !Bool.andb_true_iff, !Nat.eqb_eq. intros (((((((A1 & A2) & A3) & A4) & A5) & A6) & A7) & A8) (((((((B1 & B2) & B3) & B4) & B5) & B6) & B7) & B8). pose proof (el_trans N L) as T.
  repeat split; try congruence; try (eapply rneuron_trans; eauto); eapply T; eauto.
Qed.
Lemma vec_eqb_trans' {A} (e e' e'' : A -> A -> bool) a b c : (forall x y z, e x y = true -> e' y z = true -> e'' x z = true) -> vec_eqb e a b = true -> vec_eqb e' b c = true -> vec_eqb e'' a c = true.
Proof.
  intros H. revert b c. induction a as [|x a IH]; intros [|y b] [|z c]; cbn; auto; try discriminate. rewrite !Bool.andb_true_iff. intros [] []. split; eauto.
Qed.
Lemma lopt_trans a b c : lopt_eqb a b = true -> lopt_eqb b c = true -> lopt_eqb a c = true.
Proof.
  pose proof (el_trans N L) as T. destruct a, b; cbn; try discriminate; destruct c; cbn; try discriminate; auto; try (intros H1 H2; eapply T; now eauto).
  rewrite !Bool.andb_true_iff. intros [] []. split; eapply T; eauto.
Qed.
Lemma lopts_trans a : forall b c, lopts_eqb a b = Ok true -> lopts_eqb b c = Ok true -> lopts_eqb a c = Ok true.
Proof.
  induction a as [|x a IH]; intros [|y b] [|z c]; cbn; auto; try discriminate. destruct (lopt_eqb x y) eqn:E1; [|discriminate]. destruct (lopt_eqb y z) eqn:E2; [|discriminate].
  rewrite (lopt_trans _ _ _ E1 E2). eauto.
Qed.
Lemma filter_eqb_spec f g : filter_eqb f g = true <-> (f_filters f = f_filters g /\ f_kernels f = f_kernels g /\ f_kpf f = f_kpf g /\ f_npf f = f_npf g /\ f_ksize f = f_ksize g /\ f_nin f = f_nin g /\
    f_shapeIn f = f_shapeIn g /\ f_shapeOut f = f_shapeOut g /\ f_index f = f_index g).
Proof. unfold filter_eqb. rewrite !Bool.andb_true_iff, !Nat.eqb_eq, !vec_eqb_nat, vec_eqb_ZZ. tauto. Qed.
Lemma pool_eqb_spec f g : pool_eqb f g = true <-> f_ksize f = f_ksize g /\ f_shapeIn f = f_shapeIn g.
Proof. unfold pool_eqb. now rewrite Bool.andb_true_iff, Nat.eqb_eq, vec_eqb_nat. Qed.
Lemma layer_trans o p q a b c : layer_eqb o p a b = Ok true -> layer_eqb p q b c = Ok true -> layer_eqb o q a c = Ok true.
Proof.
  unfold layer_eqb. destruct (l_body a) as [x|x|x|k f x], (l_body b) as [y|y|y|k' g y]; try discriminate; destruct (l_body c) as [z|z|z|k'' h z]; try discriminate.
  1-3: rewrite !oand_true, !Ok_true, !Bool.andb_true_iff, !Nat.eqb_eq; intros ((A1 & A2) & A3) ((B1 & B2) & B3); split; [split; [congruence|]|eapply lopts_trans; eauto].
  - eapply vec_eqb_trans'; [|exact A2|exact B2]. apply neuron_trans.
  - eapply vec_eqb_trans'; [|exact A2|exact B2]. apply rneuron_trans.
  - eapply vec_eqb_trans'; [|exact A2|exact B2]. apply gneuron_trans.
  - destruct (fkind_eqb k k') eqn:K1; [|discriminate]. apply fkind_eqb_spec in K1. subst k'. destruct (fkind_eqb k k'') eqn:K2; [|discriminate]. cbn [negb].
    assert (HC : oand (oand (Ok ((l_in a =? l_in b) && vec_eqb (neuron_eqb o p) x y)) (lopts_eqb (l_opts a) (l_opts b))) (Ok (filter_eqb f g)) = Ok true ->
      oand (oand (Ok ((l_in b =? l_in c) && vec_eqb (neuron_eqb p q) y z)) (lopts_eqb (l_opts b) (l_opts c))) (Ok (filter_eqb g h)) = Ok true ->
      oand (oand (Ok ((l_in a =? l_in c) && vec_eqb (neuron_eqb o q) x z)) (lopts_eqb (l_opts a) (l_opts c))) (Ok (filter_eqb f h)) = Ok true).
    { rewrite !oand_true, !Ok_true, !Bool.andb_true_iff, !Nat.eqb_eq, !filter_eqb_spec. intros (((A1 & A2) & A3) & A4) (((B1 & B2) & B3) & B4).
      split; [split; [split; [congruence|]|eapply lopts_trans; eauto]|]; [eapply vec_eqb_trans'; [|exact A2|exact B2]; apply neuron_trans|]. decompose [and] A4. decompose [and] B4. repeat split; congruence. }
    destruct k; try exact HC; rewrite !Ok_true, !pool_eqb_spec; intros [] []; split; congruence.
Qed.
Lemma layers_trans o p q a : forall b c, List.length a = List.length b -> layers_eqb o p a b = Ok true -> layers_eqb p q b c = Ok true -> layers_eqb o q a c = Ok true.
Proof.
  induction a as [|x a IH]; intros [|y b] [|z c] HL; cbn; auto; try discriminate; rewrite !oand_true; intros [] []; (split; [eapply layer_trans; eauto|apply (IH b); [now injection HL|assumption..]]).
Qed.
Lemma snn_trans a b c : snn_eqb a b = Ok true -> snn_eqb b c = Ok true -> snn_eqb a c = Ok true.
Proof.
  unfold snn_eqb, net_eqb. rewrite !oand_true, !Ok_true, !Bool.andb_true_iff, !Nat.eqb_eq, !Z.eqb_eq, !String.eqb_eq, !Bool.eqb_true_iff. intros ((A1 & A2) & A3) ((B1 & B2) & B3).
  destruct A1 as (A1 & A4), B1 as (B1 & B4). split; [split; [split; [eapply sgd_trans; eauto|congruence]|eapply layers_trans; eauto]|]. decompose [and] A3. decompose [and] B3. repeat split; congruence.
Qed.
(* never out of bounds, nor an exception *)
Lemma lopts_defined a : forall b, List.length a <= List.length b -> exists r, lopts_eqb a b = Ok r.
Proof. induction a as [|x a IH]; intros [|y b] H; cbn in *; try lia; eauto. destruct (lopt_eqb x y); [apply IH; lia|eauto]. Qed.
Lemma layer_defined o p a b : List.length (l_opts a) <= List.length (l_opts b) -> exists r, layer_eqb o p a b = Ok r.
Proof.
  intros H. destruct (lopts_defined _ _ H) as (r & E). unfold layer_eqb. rewrite E. unfold oand. cbn [bind].
  destruct (l_body a), (l_body b); try (now eexists); try (destruct (_ && _); now eexists). destruct (negb _); [now eexists|]. destruct k; try (now eexists); destruct (_ && _); cbn [bind]; destruct r; now eexists.
Qed.
Lemma layers_defined o p a b : same_opt_counts a b -> exists r, layers_eqb o p a b = Ok r.
Proof.
  induction 1 as [|x y a b E _ (r & IH)]; [now eexists|]. cbn. destruct (layer_defined o p x y) as (r' & ->); [lia|]. unfold oand. cbn [bind]. destruct r'; [|now eexists]. rewrite IH. now eexists.
Qed.
Lemma snn_defined a b : (List.length (nn_layers (sn_net a)) = List.length (nn_layers (sn_net b)) -> same_opt_counts (nn_layers (sn_net a)) (nn_layers (sn_net b))) -> exists r, snn_eqb a b = Ok r.
Proof.
  intros H. unfold snn_eqb, net_eqb. destruct (Nat.eqb_spec (List.length (nn_layers (sn_net a))) (List.length (nn_layers (sn_net b)))) as [E|E].
  - destruct (layers_defined (nn_opt (sn_net a)) (nn_opt (sn_net b)) _ _ (H E)) as (r & ->). unfold oand. cbn [bind]. destruct (_ && true); cbn [bind]; [destruct r|]; now eexists.
  - rewrite Bool.andb_false_r. now eexists.
Qed.
End P.
