(* C26: which lists of layers the constructor accepts, exactly. *)
From Coq Require Import Reals Lra.
From Flocq Require Import Core.Core IEEE754.BinarySingleNaN.
From Verif Require Import Base Num ActModel NeuronModel LayerModel NetModel NeuronProofs LayerProofs SafeProofs SafeLayers FactoryModel FactorySpec FactoryProofs SafeNet BuildProofs FactoryProps Float32 AcceptSpec AcceptProofs.
Local Open Scope nat_scope.
Local Open Scope outcome_scope.

Section P.
Context {N : Num}.
Lemma right_sgd lr m : sgd_isValid (mkSGD lr m) = 0%Z <-> right_optimizer lr m.
Proof.
  unfold sgd_isValid, right_optimizer. cbn [o_lr o_m]. destruct (fleb lr fzero), (fgeb lr fone), (fltb m fzero), (fgtb m fone); cbn; split; intros; try discriminate; try tauto; intuition discriminate.
Qed.
Lemma first_in draws masks i d t s l r : Forall (fun x => 0 < x) s -> sane_kernel d -> build_rest draws masks i (d :: t) (map Z.of_nat s) = Ok (l :: r) -> l_in l = cell_count s.
Proof.
  intros Hs Hk H. cbn [build_rest] in H. apply bind_Ok_inv in H as (a & Ea & H). apply bind_Ok_inv in H as (r' & Er & H). injection H as <- <-.
  apply build_layer_built in Ea; auto. destruct Ea; cbn [finish l_in]; auto.
  all: try (match goal with E : _ \/ _ |- _ => destruct (one_two _ _ _ E) as (_ & _ & ?); congruence || lia end).
  all: subst; unfold cell_count; cbn; lia.
Qed.
Lemma rest_length draws masks ds : forall i sh ls, build_rest draws masks i ds sh = Ok ls -> List.length ls = List.length ds.
Proof.
  induction ds as [|d t IH]; intros i sh ls H; cbn [build_rest] in H; [now injection H as <-|]. apply bind_Ok_inv in H as (a & Ea & H). apply bind_Ok_inv in H as (r & Er & H). injection H as <-. cbn. f_equal. eauto.
Qed.

(* A list of layers with positive input dimensions and no negative kernel size, biases and initial weights as the library draws them: the
   constructor gives a network exactly when the architecture and the optimizer are right. Otherwise it throws, or what it does is undefined. *)
Theorem C26_accepted_iff : forall draws masks ds lr m,
  sane_descriptions ds -> Forall (fun d => in_range (d_bias d)) (tl ds) -> (forall l i g w, in_range (draws l i g w) /\ in_range (fabs (draws l i g w))) ->
  (exists net, construct draws masks ds lr m = Ok net) <-> right_architecture ds /\ right_optimizer lr m.
Proof.
  intros draws masks ds lr m Hs Hb Hd. destruct ds as [|d0 rest]; [split; [intros (net & H)|intros ([] & _)]; apply construct_inv in H as (? & ? & ? & _); discriminate|].
  destruct Hs as (Hs & Hk). cbn [tl] in Hb. destruct (pos_shape _ Hs) as (s & Es & Hp).
  assert (En : map Z.to_nat (d_shape d0) = s) by (rewrite Es, map_map; clear; induction s; cbn; [reflexivity|]; now rewrite Nat2Z.id, IHs).
  unfold right_architecture. rewrite En. split.
  - intros (net & H). pose proof H as H0. apply construct_inv in H as (d1 & r & E & Ht & Hr & HV & Hne & Enet). injection E as <- <-. split.
    + split; [exact Ht|]. split; [intros ->; cbn in Hr; injection Hr as Hr; congruence|]. split.
      { unfold construct, build_all in H0. destruct (Z.ltb_spec 1000 (Z.of_nat (List.length (d0 :: rest)))); [discriminate|lia]. }
      apply (right_rest draws masks Hd rest 0 s Hp Hk Hb). exists (nn_layers net). rewrite <- Es. auto.
    + apply right_sgd. unfold construct in H0. apply bind_Ok_inv in H0 as (ls & El & H0). apply bind_Ok_inv in H0 as (e & Ee & H0). unfold net_isValid in Ee. apply bind_Ok_inv in Ee as (l0 & _ & Ee). cbn [nn_layers nn_opt] in Ee.
      destruct (Z.eqb_spec e 0); [subst e|discriminate]. match type of Ee with (if ?b then _ else _) = _ => destruct b; [discriminate|] end. match type of Ee with (if ?b then _ else _) = _ => destruct b; [discriminate|] end.
      match type of Ee with (if negb (?b =? 0)%Z then _ else _) = _ => destruct (Z.eqb_spec b 0) end; [assumption|]. cbn [negb] in Ee. congruence.
  - intros ((Ht & Hne & Hlen & HR) & Ho). pose proof HR as HR0. apply (right_rest draws masks Hd rest 0 s Hp Hk Hb) in HR as (ls & El & Vl). pose proof (rest_length _ _ _ _ _ _ El) as Ll.
    destruct rest as [|d t]; [congruence|]. destruct ls as [|l r]; [discriminate|]. inversion Hk; subst. pose proof (first_in _ _ _ _ _ _ _ _ Hp ltac:(eassumption) El) as Ei.
    destruct HR0 as ((_ & Hm & _) & _). unfold million in Hm. assert (0 < cell_count (map Z.to_nat (d_shape d0))) by (apply fold_mul_pos; [lia|exact Hp]).
    unfold construct, build_all. destruct (Z.ltb_spec 1000 (Z.of_nat (List.length (d0 :: d :: t)))); [lia|]. rewrite Ht, Es. rewrite product_nat by (auto; lia). cbn [bind].
    destruct (Z.ltb_spec 2073600 (Z.of_nat (cell_count (map Z.to_nat (d_shape d0))))); [lia|]. rewrite El. cbn [bind]. unfold net_isValid. cbn [nn_layers lget nth_error bind nn_opt]. rewrite Ei.
    destruct (Nat.ltb_spec (cell_count (map Z.to_nat (d_shape d0))) 1); [lia|]. destruct (Z.ltb_spec 2073600 (Z.of_nat (cell_count (map Z.to_nat (d_shape d0))))); [lia|]. cbn [orb].
    rewrite Ll in *. destruct (Nat.ltb_spec (List.length (d :: t)) 1); [cbn in *; lia|]. destruct (Z.ltb_spec 1000 (Z.of_nat (List.length (d :: t)))); [cbn [List.length] in *; lia|]. cbn [orb].
    apply right_sgd in Ho. rewrite Ho. cbn [Z.eqb negb bind]. rewrite firstError_all; [cbn [Z.eqb]; eauto|]. apply Forall_map. exact Vl.
Qed.
End P.
Print Assumptions C26_accepted_iff.

(* In the reals: initial weights and biases between -10000 and 10000. *)
Theorem C26_accepted_real : forall (draws : nat -> nat -> nat -> nat -> R) masks (ds : list (@LDesc RNum)) (lr m : R),
  sane_descriptions ds -> Forall (fun d : @LDesc RNum => (-10000 <= @d_bias RNum d <= 10000)%R) (tl ds) -> (forall l i g w, -10000 <= draws l i g w <= 10000)%R ->
  (exists net, @construct RNum draws masks ds lr m = Ok net) <-> right_architecture ds /\ (0 < lr < 1)%R /\ (0 <= m <= 1)%R.
Proof.
  intros draws masks ds lr m Hs Hb Hd.
  assert (A : forall x : R, (-10000 <= x <= 10000)%R -> @in_range RNum x).
  { intros x Hx. unfold in_range, fgtb, fofZ. cbn [fltb flit RNum]. unfold Rltb. split; destruct (Rlt_dec _ _) as [r|r]; auto; exfalso; lra. }
  assert (O : @right_optimizer RNum lr m <-> ((0 < lr < 1) /\ (0 <= m <= 1))%R).
  { unfold right_optimizer, fgeb, fgtb, fzero, fone, fofZ. cbn [fleb fltb flit RNum]. unfold Rltb, Rleb.
    repeat match goal with |- context [Rle_dec ?a ?b] => destruct (Rle_dec a b) | |- context [Rlt_dec ?a ?b] => destruct (Rlt_dec a b) end; split; intros H; repeat match goal with H : _ /\ _ |- _ => destruct H end; try discriminate; repeat split; auto; try lra; exfalso; lra. }
  rewrite <- O. apply (@C26_accepted_iff RNum); auto.
  - eapply Forall_impl; [|exact Hb]. intros d. apply A.
  - intros l i g w. split; apply A; [apply Hd|]. cbn [fabs RNum]. specialize (Hd l i g w). split; [pose proof (Rabs_pos (draws l i g w)); lra|]. apply Rabs_le. lra.
Qed.
Print Assumptions C26_accepted_real.
(* In binary32: the same, with finite numbers. *)
Theorem C26_accepted_float : forall expf tanhf (draws : nat -> nat -> nat -> nat -> f32) masks (ds : list (@LDesc (Num32 expf tanhf))) (lr m : f32) (a b : R),
  sane_descriptions ds -> Forall (fun d : @LDesc (Num32 expf tanhf) => exists r, fin32 (@d_bias (Num32 expf tanhf) d) r /\ (-10000 <= r <= 10000)%R) (tl ds) ->
  (forall l i g w, exists r, fin32 (draws l i g w) r /\ (-10000 <= r <= 10000)%R) -> fin32 lr a -> fin32 m b ->
  (exists net, @construct (Num32 expf tanhf) draws masks ds lr m = Ok net) <-> right_architecture ds /\ (0 < a < 1)%R /\ (0 <= b <= 1)%R.
Proof.
  intros expf tanhf draws masks ds lr m a b Hs Hb Hd Ha Hm.
  assert (A : forall x r, fin32 x r -> (-10000 <= r <= 10000)%R -> @in_range (Num32 expf tanhf) x).
  { intros x r Hx Hr. unfold in_range, fgtb. split; (erewrite fin32_lt; [|eassumption || (apply fin32_fofZ; lia)|eassumption || (apply fin32_fofZ; lia)]); apply Rlt_bool_false; lra. }
  assert (Z0 : fin32 (@fzero (Num32 expf tanhf)) 0) by (apply (fin32_fofZ expf tanhf 0); lia).
  assert (Z1 : fin32 (@fone (Num32 expf tanhf)) 1) by (apply (fin32_fofZ expf tanhf 1); lia).
  assert (O : @right_optimizer (Num32 expf tanhf) lr m <-> ((0 < a < 1) /\ (0 <= b <= 1))%R).
  { unfold right_optimizer, fgeb, fgtb. rewrite (fin32_le _ _ _ _ _ _ Ha Z0), (fin32_le _ _ _ _ _ _ Z1 Ha), (fin32_lt _ _ _ _ _ _ Hm Z0), (fin32_lt _ _ _ _ _ _ Z1 Hm).
    destruct (Rle_bool_spec a 0), (Rle_bool_spec 1 a), (Rlt_bool_spec b 0), (Rlt_bool_spec 1 b); split; intros H'; repeat match goal with H : _ /\ _ |- _ => destruct H end; try discriminate; repeat split; auto; try lra; exfalso; lra. }
  rewrite <- O. apply (@C26_accepted_iff (Num32 expf tanhf)); auto.
  - eapply Forall_impl; [|exact Hb]. intros d (r & Hr & Hr2). now apply (A _ r).
  - intros l i g w. destruct (Hd l i g w) as (r & Hr & Hr2). split; [now apply (A _ r)|]. apply (A _ (Rabs r)); [|split; [pose proof (Rabs_pos r); lra|apply Rabs_le; lra]].
    destruct Hr as (x & E1 & E2 & E3). exists (Babs x). split; [|split; [now rewrite is_finite_Babs|rewrite B2R_Babs; now f_equal]]. rewrite <- E1. destruct x; reflexivity.
Qed.
Print Assumptions C26_accepted_float.

(* a convolution, a pooling, a locally connected and three other layers are accepted *)
Definition accepted_demo : list (@LDesc N32) :=
  [@Input N32 [3; 28; 28]%Z; @Convolution N32 8 5 a_ReLU []; @MaxPooling N32 2; @LocallyConnected N32 2 3 a_tanh []; @FullyConnected N32 60 a_sigmoid [@d_dropout N32 (b32q 1 2)];
   @GruLayer N32 20 []; @Recurrence N32 10 a_tanh []; @FullyConnected N32 4 a_identity [@d_softmax N32]].
Example C26_accepted_hypotheses : sane_descriptions accepted_demo /\ Forall (fun d => @in_range N32 (d_bias d)) (tl accepted_demo) /\
  (forall l i g w, @in_range N32 (zdraws l i g w) /\ @in_range N32 (@fabs N32 (zdraws l i g w))) /\ right_architecture accepted_demo /\ @right_optimizer N32 (b32q 1 100) (b32q 9 10).
Proof.
  split; [split; repeat constructor; cbn; lia|]. split; [repeat constructor; vm_compute; reflexivity|]. split; [intros; repeat split; vm_compute; reflexivity|]. split; [|repeat split; vm_compute; reflexivity].
  split; [reflexivity|]. split; [discriminate|]. split; [cbn; lia|]. cbn [right_layers tl accepted_demo]. unfold right_layer, million.
  cbn -[Z.le Nat.le cell_count Nat.pow Nat.mul Nat.add Nat.sub Z.of_nat covering]. change (@expected_shape N32) with (@expected_shape N32).
  repeat match goal with |- context [cell_count ?s] => let v := eval vm_compute in (cell_count s) in change (cell_count s) with v end.
  repeat split; repeat constructor; try discriminate; try (cbn; lia).
Qed.

(* Some wrong sizes are not rejected: what the constructor does with them is undefined (a division by zero, an overflow of int). *)
Theorem C26_undefined_refuted : forall {N : Num} draws masks (x f k : Z) a os rest lr m, (1 <= x <= 1000000)%Z -> (1 <= k <= x)%Z -> (Z.of_nat (List.length rest) <= 998)%Z ->
  construct draws masks (Input [x] :: Convolution 0 k a os :: rest) lr m = UB /\
  construct draws masks (Input [x] :: LocallyConnected 0 k a os :: rest) lr m = UB /\
  construct draws masks (Input [x] :: LocallyConnected f 0 a os :: rest) lr m = UB /\
  construct draws masks (Input [x] :: MaxPooling 0 :: rest) lr m = UB /\
  construct draws masks (Input [65536; 65536]%Z :: FullyConnected 1 a os :: rest) lr m = UB.
Proof.
  intros N draws masks x f k a os rest lr m Hx Hk Hl. unfold construct, build_all. cbn [List.length]. destruct (Z.ltb_spec 1000 (Z.of_nat (S (S (List.length rest))))); [lia|]. cbn [d_type Input d_shape].
  assert (Ep : product [x] = Ok x). { unfold product. cbn [ofold]. unfold imul. rewrite Z.mul_1_l, int32_ok by lia. reflexivity. }
  rewrite Ep. cbn [bind]. destruct (Z.ltb_spec 2073600 x); [lia|]. cbn [build_rest]. unfold build_layer. rewrite Ep. cbn [bind]. destruct (Z.ltb_spec 1000000 x); [lia|].
  cbn [d_type Convolution LocallyConnected MaxPooling d_ksize d_filters dims]. unfold build_conv1D, build_loc1D, build_pool1D. cbn [d_ksize d_filters Convolution LocallyConnected MaxPooling].
  destruct (Z.ltb_spec x k); [lia|]. destruct (Z.ltb_spec x 0); [lia|].
  assert (Ec : exists q, cdiv x k = Ok q) by (unfold cdiv; destruct (Z.eqb_spec k 0); [lia|eauto]). destruct Ec as (q & ->). cbn [bind].
  unfold cdiv. cbn [Z.eqb bind]. unfold imul. rewrite !Z.mul_0_l. unfold int32 at 1 2. cbn [Z.ltb Z.compare orb bind Z.eqb]. repeat split; reflexivity.
Qed.
Print Assumptions C26_undefined_refuted.
(* A convolution whose filters look at no value at all is accepted. *)
Theorem C26_empty_kernel_refuted : forall (draws : nat -> nat -> nat -> nat -> R) masks x f n a os, (1 <= x)%Z -> (1 <= f)%Z -> (f * (x + 1) + 1 <= 1000000)%Z -> (1 <= n <= 1000000)%Z -> (forall l i g w, -10000 <= draws l i g w <= 10000)%R ->
  exists net, @construct RNum draws masks [@Input RNum [x]; @Convolution RNum f 0 a os; @FullyConnected RNum n a_sigmoid []] (1 / 100)%R (9 / 10)%R = Ok net.
Proof.
  intros draws masks x f n a os Hx Hf Hm Hn Hd. apply C26_accepted_real; auto.
  - split; repeat constructor; cbn; lia.
  - cbn [tl]. repeat constructor; cbn [d_bias Convolution FullyConnected]; unfold fone, fofZ; cbn [flit RNum]; lra.
  - split; [|split; lra]. split; [reflexivity|]. split; [discriminate|]. split; [cbn; lia|]. cbn [right_layers map Input d_shape]. unfold right_layer, million.
    assert (E : @expected_shape RNum (@Convolution RNum f 0 a os) [Z.to_nat x] = [Z.to_nat f; Z.to_nat x + 1]) by (unfold expected_shape; cbn [Convolution d_type d_filters d_ksize extents map]; now rewrite Nat.sub_0_r).
    rewrite E, cells2, cells1. cbn [d_type Convolution FullyConnected d_ksize d_filters d_neurons extents channels List.length]. assert (x <= f * (x + 1))%Z by nia.
    assert (Z.of_nat (Z.to_nat f * (Z.to_nat x + 1)) = f * (x + 1))%Z by (rewrite Nat2Z.inj_mul, Nat2Z.inj_add, !Z2Nat.id by lia; lia).
    repeat split; auto; try discriminate; try lia; try (constructor; [cbn; lia|constructor]); try nia; cbn; lia.
Qed.
Print Assumptions C26_empty_kernel_refuted.
