(* C26: negative kernel sizes and negative dimensions. *)
From Coq Require Import Reals Lra.
From Verif Require Import Base Num ActModel NeuronModel LayerModel NetModel NeuronProofs LayerProofs SafeProofs SafeLayers FactoryModel FactorySpec FactoryProofs SafeNet BuildProofs FactoryProps Float32 AcceptSpec AcceptProofs AcceptProps VisualProofs.
Local Open Scope nat_scope.
Local Open Scope outcome_scope.

Section P.
Context {N : Num}.
Lemma construct_ok draws masks ds lr m ls l0 t : build_all draws masks ds = Ok ls -> ls = l0 :: t -> 1 <= l_in l0 -> (Z.of_nat (l_in l0) <= 2073600)%Z -> (Z.of_nat (List.length ls) <= 1000)%Z ->
  right_optimizer lr m -> Forall (fun l => layer_isValid l = 0%Z) ls -> construct draws masks ds lr m = Ok (mkNet ls (mkSGD lr m) false 0).
Proof.
  intros H E H1 H2 H3 HO HV. unfold construct. rewrite H. cbn [bind]. unfold net_isValid. cbn [nn_layers nn_opt]. assert (lget ls 0 = Ok l0) as -> by (subst; reflexivity). cbn [bind].
  destruct (Nat.ltb_spec (l_in l0) 1); [lia|]. destruct (Z.ltb_spec 2073600 (Z.of_nat (l_in l0))); [lia|]. cbn [orb].
  destruct (Nat.ltb_spec (List.length ls) 1); [subst ls; cbn in *; lia|]. destruct (Z.ltb_spec 1000 (Z.of_nat (List.length ls))); [lia|]. cbn [orb].
  apply right_sgd in HO. rewrite HO. cbn [Z.eqb negb bind]. rewrite firstError_all; [reflexivity|]. now apply Forall_map.
Qed.
Lemma build_all_cons draws masks d0 e t p : (Z.of_nat (List.length (d0 :: e :: t)) <= 1000)%Z -> d_type d0 = t_input -> product (d_shape d0) = Ok p -> (p <= 2073600)%Z ->
  build_all draws masks (d0 :: e :: t) = build_rest draws masks 0 (e :: t) (d_shape d0).
Proof.
  intros Hl Ht Hp Hm. unfold build_all. destruct (Z.ltb_spec 1000 (Z.of_nat (List.length (d0 :: e :: t)))); [lia|]. rewrite Ht, Hp. cbn [bind]. destruct (Z.ltb_spec 2073600 p); [lia|reflexivity].
Qed.

(* ---------- 1-D convolutions and locally connected layers with a negative kernel size are refused ---------- *)
Lemma neg1 draws masks d i c x l : (0 < c)%Z -> (d_ksize d < 0)%Z -> (build_conv1D draws masks d i c x = Ok l \/ build_loc1D draws masks d i c x = Ok l) -> False.
Proof.
  intros Hc Hk [H|H]; unfold build_conv1D, build_loc1D in H; cbv zeta in H; (destruct (_ <? _)%Z in H; [discriminate|]).
  - apply bind_Ok_inv in H as (ke & _ & H). destruct (_ =? _)%Z in H; [discriminate|]. apply bind_Ok_inv in H as (nin & E & H). apply imul_inv in E. apply bind_Ok_inv in H as (ns & E2 & _).
    apply filter_neurons_inv in E2 as (_ & E2 & _). nia.
  - apply bind_Ok_inv in H as (o & _ & H). apply bind_Ok_inv in H as (ke & _ & H). destruct (_ =? _)%Z in H; [discriminate|]. apply bind_Ok_inv in H as (nin & E & H). apply imul_inv in E. apply bind_Ok_inv in H as (ns & E2 & _).
    apply filter_neurons_inv in E2 as (_ & E2 & _). nia.
Qed.
Lemma neg_rest draws masks pre e post : forall i s ls, Forall (fun x => 0 < x) s -> Forall sane_kernel pre -> d_type e = t_conv \/ d_type e = t_local -> (d_ksize e < 0)%Z ->
  List.length (fold_left (fun s d => expected_shape d s) pre s) <= 2 -> build_rest draws masks i (pre ++ e :: post) (map Z.of_nat s) = Ok ls -> Forall (fun l => layer_isValid l = 0%Z) ls -> False.
Proof.
  induction pre as [|d t IH]; intros i s ls Hs Hk He Hn Hl H HV; cbn [app build_rest fold_left] in *.
  - apply bind_Ok_inv in H as (a & Ea & _). unfold build_layer in Ea. apply bind_Ok_inv in Ea as (p & _ & Ea).
    destruct s as [|a1 [|a2 [|]]]; cbn in Hl; try lia; cbn [map] in Ea; [discriminate| |].
    + destruct (_ <? _)%Z in Ea; [discriminate|]. cbn [dims] in Ea. destruct He as [He|He]; rewrite He in Ea; eapply (neg1 _ _ _ _ 1%Z); try eassumption; try lia; eauto.
    + destruct (_ <? _)%Z in Ea; [discriminate|]. cbn [dims] in Ea. inversion Hs; subst. destruct He as [He|He]; rewrite He in Ea; eapply (neg1 _ _ _ _ (Z.of_nat a1)); try eassumption; try lia; eauto.
  - apply bind_Ok_inv in H as (a & Ea & H). apply bind_Ok_inv in H as (r & Er & H). injection H as <-. inversion Hk; inversion HV; subst.
    apply build_layer_built in Ea; auto. destruct (built_expected _ _ _ _ _ Hs Ea) as (E1 & E2 & E3); auto. rewrite E1 in *. eapply IH; eauto.
Qed.
Theorem C26_negative_kernel_1D : forall draws masks d0 pre e post lr m net,
  sane_descriptions (d0 :: pre) -> d_type e = t_conv \/ d_type e = t_local -> (d_ksize e < 0)%Z ->
  List.length (fold_left (fun s d => expected_shape d s) pre (map Z.to_nat (d_shape d0))) <= 2 ->
  construct draws masks (d0 :: pre ++ e :: post) lr m <> Ok net.
Proof.
  intros draws masks d0 pre e post lr m net (Hd & Hk) He Hn Hl H. apply construct_inv in H as (d0' & rest & E & _ & Hb & HV & _). injection E as <- <-.
  assert (Em : d_shape d0 = map Z.of_nat (map Z.to_nat (d_shape d0))). { rewrite map_map. rewrite <- (map_id (d_shape d0)) at 1. apply map_ext_in. intros z Hz. rewrite Forall_forall in Hd. specialize (Hd z Hz). cbn in Hd. lia. }
  rewrite Em in Hb. eapply neg_rest; try exact Hb; eauto. apply Forall_map. eapply Forall_impl; [|exact Hd]. cbn. intros; lia.
Qed.

(* ---------- 2-D convolutions with a negative kernel size are accepted ---------- *)
Section conv.
Variables (draws : nat -> nat -> nat -> nat -> F) (masks : nat -> nat -> nat -> bool).
Hypothesis Hd : forall l i g w, in_range (draws l i g w) /\ in_range (fabs (draws l i g w)).
Hypothesis H1 : in_range fone.
Hypothesis H3 : in_range (flit 1 1000).

Lemma neg_conv2D i c x y j f a os dr mk : 0 < f -> 0 < c -> 0 < x -> 0 < y -> (Z.of_nat (f * (x + j + 1) * (y + j + 1)) <= 2147483647)%Z -> (Z.of_nat (j * j * c) <= 2147483647)%Z ->
  1 <= j -> exists ns, build_neurons (mk_full dr (j * j * c) ((x + j + 1) * (y + j + 1)) (j * j * c + 1) (Convolution (Z.of_nat f) (- Z.of_nat j) a os)) f = Ok ns /\
  build_conv2D dr mk (Convolution (Z.of_nat f) (- Z.of_nat j) a os) (Z.of_nat i) (Z.of_nat c) (Z.of_nat x) (Z.of_nat y) = Ok (finish mk i (Convolution (Z.of_nat f) (- Z.of_nat j) a os) (BFilter Conv2D
    (mkFilter f (f * ((x + j + 1) * (y + j + 1))) ((x + j + 1) * (y + j + 1)) 1 0 (j * j * c) [c; x; y] [f; x + j + 1; y + j + 1]
      (repeat (repeat 0%Z (j * j * c)) ((x + j + 1) * (y + j + 1))) 0 []) ns)).
Proof.
  intros Hf Hc Hx Hy B1 B2 Hj. destruct (plain_total dr (Convolution (Z.of_nat f) (- Z.of_nat j) a os) (j * j * c) ((x + j + 1) * (y + j + 1)) f) as (ns & En). exists ns. split; [exact En|].
  unfold build_conv2D. cbn [d_ksize d_filters Convolution]. destruct (Z.ltb_spec (Z.of_nat x) (- Z.of_nat j)); [lia|]. destruct (Z.ltb_spec (Z.of_nat y) (- Z.of_nat j)); [lia|]. cbn [orb].
  replace (Z.of_nat x - (- Z.of_nat j - 1))%Z with (Z.of_nat (x + j + 1)) by lia. replace (Z.of_nat y - (- Z.of_nat j - 1))%Z with (Z.of_nat (y + j + 1)) by lia.
  rewrite imul_nat by (assert (f * (x + j + 1) <= f * (x + j + 1) * (y + j + 1)) by nia; lia). cbn [bind]. rewrite imul_nat by exact B1. cbn [bind]. destruct (Z.eqb_spec (Z.of_nat f) 0); [lia|].
  rewrite <- Nat.mul_assoc, quot_nat by lia. replace (imul (- Z.of_nat j) (- Z.of_nat j)) with (imul (Z.of_nat j) (Z.of_nat j)) by (unfold imul; f_equal; lia).
  assert (j * j <= j * j * c) by nia. rewrite imul_nat by lia. cbn [bind]. rewrite imul_nat by exact B2. cbn [bind]. unfold filter_neurons. rewrite !size_nat. cbn [bind].
  change (build_neurons (mk_full dr (j * j * c) ((x + j + 1) * (y + j + 1)) (j * j * c + 1) (Convolution (Z.of_nat f) (- Z.of_nat j) a os)) f = Ok ns) in En. rewrite En. cbn [bind].
  destruct (Z.ltb_spec (- Z.of_nat j) 0); [|lia]. rewrite !Nat2Z.id. replace (Z.to_nat (- Z.of_nat j)) with 0 by lia. reflexivity.
Qed.

(* a row of zeros reads the first value of the input only *)
Lemma zero_window f u v r : lget u 0 = lget v 0 -> In r (f_index f) -> (forall r, In r (f_index f) -> r = repeat 0%Z (f_nin f)) -> convWindow f u r = convWindow f v r.
Proof.
  intros E Hr Hz. rewrite (Hz r Hr). unfold convWindow. clear Hr Hz. assert (G : forall l, (forall i, In i l -> i < f_nin f) -> omap (fun i => let* idx := lget (repeat 0%Z (f_nin f)) i in lgetZ u idx) l = omap (fun i => let* idx := lget (repeat 0%Z (f_nin f)) i in lgetZ v idx) l).
  { induction l as [|i l IH]; intros Hl; cbn [omap]; [reflexivity|]. assert (lget (repeat 0%Z (f_nin f)) i = Ok 0%Z) as ->. { unfold lget. rewrite nth_error_repeat by (apply Hl; now left). reflexivity. }
    cbn [bind]. rewrite IH by (intros; apply Hl; now right). assert (lgetZ u 0 = lgetZ v 0) as -> by exact E. reflexivity. }
  apply G. intros i Hi. apply in_seq in Hi. lia.
Qed.
Lemma zero_conv f ns u v : lget u 0 = lget v 0 -> (forall r, In r (f_index f) -> r = repeat 0%Z (f_nin f)) -> conv_output f ns u = conv_output f ns v.
Proof.
  intros E Hz. unfold conv_output. assert (Q : forall s, ofold (fun s row => let* win := convWindow f u row in let* (o, ns') := each (fun _ n => simple_output n win) (snd s) in Ok (fst s ++ o, ns')) (f_index f) s =
    ofold (fun s row => let* win := convWindow f v row in let* (o, ns') := each (fun _ n => simple_output n win) (snd s) in Ok (fst s ++ o, ns')) (f_index f) s).
  { intros s. apply ofold_ext_in. intros s0 r Hr. now rewrite (zero_window f u v r E Hr Hz). }
  now rewrite Q.
Qed.
(* The constructor accepts a 2-D convolution with a negative kernel size; the network then looks at the first value of its input only. *)
Theorem C26_negative_kernel_refuted : forall c x y j f n a os lr m, 1 <= c -> 1 <= x -> 1 <= y -> 1 <= j -> 1 <= f -> 1 <= n ->
  (Z.of_nat (c * x * y) <= 1000000)%Z -> (Z.of_nat (f * (x + j + 1) * (y + j + 1) + 1) <= 1000000)%Z -> (Z.of_nat (j * j * c + 1) <= 1000000)%Z -> (Z.of_nat n <= 1000000)%Z -> right_optimizer lr m ->
  exists net, construct draws masks [Input [Z.of_nat c; Z.of_nat x; Z.of_nat y]; Convolution (Z.of_nat f) (- Z.of_nat j) a os; FullyConnected (Z.of_nat n) a_sigmoid []] lr m = Ok net /\
    forall u v reset, lget u 0 = lget v 0 -> net_output net u reset = net_output net v reset.
Proof.
  intros c x y j f n a os lr m Hc Hx Hy Hj Hf Hn B1 B2 B3 B4 HO.
  set (d1 := Convolution (Z.of_nat f) (- Z.of_nat j) a os).
  assert (Ep : product [Z.of_nat c; Z.of_nat x; Z.of_nat y] = Ok (Z.of_nat (c * x * y))). { change ([Z.of_nat c; Z.of_nat x; Z.of_nat y]) with (map Z.of_nat [c; x; y]). rewrite product_nat; rewrite ?cells3; [reflexivity|repeat constructor; lia|lia]. }
  destruct (neg_conv2D (c * x * y) c x y j f a os (draws 0) (masks 0)) as (ns & En & Eb); try lia. fold d1 in En, Eb.
  assert (Bd : in_range (d_bias d1)) by exact H3.
  assert (E1 : build_layer (draws 0) (masks 0) d1 [Z.of_nat c; Z.of_nat x; Z.of_nat y] = build_conv2D (draws 0) (masks 0) d1 (Z.of_nat (c * x * y)) (Z.of_nat c) (Z.of_nat x) (Z.of_nat y)).
  { unfold build_layer. rewrite Ep. cbn [bind]. destruct (Z.ltb_spec 1000000 (Z.of_nat (c * x * y))); [lia|]. reflexivity. }
  rewrite Eb in E1. set (l1 := finish (masks 0) (c * x * y) d1 _) in E1.
  assert (V1 : layer_isValid l1 = 0%Z).
  { unfold layer_isValid, l1. cbn [finish l_body l_in f_nin f_shapeOut f_kernels]. rewrite (plain_same _ _ _ _ _ _ En).
    assert (Ez : fold_left Nat.mul [f; x + j + 1; y + j + 1] 1 = f * ((x + j + 1) * (y + j + 1))) by (cbn; lia). rewrite ?Ez, ?Nat.eqb_refl. cbn [negb].
    apply (plain_valid (draws 0) d1 Bd (fun i g w => Hd 0 i g w) _ _ _ _ En). unfold million. split; [nia|lia]. }
  assert (Es : getShapeOfOutput l1 = [f; x + j + 1; y + j + 1]) by reflexivity.
  destruct (dense_layer (draws 1) (masks 1) (Z.of_nat n) a_sigmoid [] (map Z.of_nat (getShapeOfOutput l1))) as (l2 & E2 & V2 & _).
  { rewrite Es. discriminate. } { rewrite Es. repeat constructor; lia. } { rewrite Es. change 1%Z with (Z.of_nat 1) at 1. rewrite fold_mul_nat. cbn [fold_left]. lia. } { lia. } { exact H1. } { intros i w. apply (Hd 1 i 0 w). }
  exists (mkNet [l1; l2] (mkSGD lr m) false 0). split.
  - apply (construct_ok _ _ _ _ _ [l1; l2] l1 [l2]); auto; try (cbn; lia).
    rewrite (build_all_cons _ _ _ _ _ (Z.of_nat (c * x * y))); [|cbn; lia|reflexivity|exact Ep|lia]. cbn [build_rest Input d_shape]. rewrite E1. cbn [bind]. rewrite E2. reflexivity.
  - intros u v reset E. unfold net_output. cbn [nn_layers chain]. assert (layer_output l1 u reset = layer_output l1 v reset) as ->; [|reflexivity].
    unfold layer_output, body_output, l1. cbn [finish l_body]. rewrite (zero_conv _ ns u v E); [reflexivity|]. cbn [f_index f_nin]. intros r Hr. now apply repeat_spec in Hr.
Qed.

(* A 1-D pooling with a negative kernel size can be accepted too: it has then no output, and the network does not look at its input at all. *)
Theorem C26_negative_pooling_refuted : forall x j n a lr m, 1 <= j -> j < x < 2 * j -> 1 <= n -> (Z.of_nat x <= 1000000)%Z -> (Z.of_nat n <= 1000000)%Z -> right_optimizer lr m ->
  exists net, construct draws masks [Input [Z.of_nat x]; MaxPooling (- Z.of_nat j); Recurrence (Z.of_nat n) a []] lr m = Ok net /\
    forall u v reset, net_output net u reset = net_output net v reset.
Proof.
  intros x j n a lr m Hj Hx Hn B1 B2 HO. set (d1 := MaxPooling (- Z.of_nat j)). set (d2 := Recurrence (Z.of_nat n) a []).
  assert (Ep : product [Z.of_nat x] = Ok (Z.of_nat x)). { change ([Z.of_nat x]) with (map Z.of_nat [x]). rewrite product_nat; rewrite ?cells1; [reflexivity|repeat constructor; lia|lia]. }
  assert (Eq : cdiv (Z.of_nat x) (- Z.of_nat j) = Ok 0%Z).
  { unfold cdiv. destruct (Z.eqb_spec (- Z.of_nat j) 0); [lia|]. rewrite Z.quot_opp_r, Z.rem_opp_r by lia.
    assert (Z.quot (Z.of_nat x) (Z.of_nat j) = 1%Z) as -> by (symmetry; apply Z.quot_unique with (Z.of_nat x - Z.of_nat j)%Z; lia).
    assert (Z.rem (Z.of_nat x) (Z.of_nat j) = Z.of_nat x - Z.of_nat j)%Z as -> by (symmetry; apply Z.rem_unique with 1%Z; lia).
    destruct (Z.eqb_spec (Z.of_nat x - Z.of_nat j) 0); [lia|reflexivity]. }
  set (l1 := finish (masks 0) x d1 (BFilter Pool1D (mkFilter 1 0 0 0 0 0 [1; x] [1; 0] [] 0 []) [])).
  assert (E1 : build_layer (draws 0) (masks 0) d1 [Z.of_nat x] = Ok l1).
  { unfold build_layer. rewrite Ep. cbn [bind]. destruct (Z.ltb_spec 1000000 (Z.of_nat x)); [lia|]. cbn [d_type d1 MaxPooling dims]. unfold build_pool1D. cbn [d1 MaxPooling d_ksize].
    destruct (Z.ltb_spec (Z.of_nat x) (- Z.of_nat j)); [lia|]. rewrite Eq. cbn [bind]. unfold size at 1. cbn [Z.ltb Z.compare bind]. change (Z.to_nat 0) with 0. cbn [Nat.eqb bind]. rewrite size_nat. cbn [bind].
    replace (Z.to_nat (- Z.of_nat j)) with 0 by lia. rewrite Nat2Z.id. reflexivity. }
  destruct (omap_total (fun i => rneuron_init 0 1 (0 + 2) (d_bias d2) (d_act d2) (draws 1 i 0)) (seq 0 n)) as (ns & En). { intros i _. unfold rneuron_init. cbn [plus neuron_init bind]. eauto. }
  set (l2 := finish (masks 1) 0 d2 (BRec ns)).
  assert (E2 : build_layer (draws 1) (masks 1) d2 (map Z.of_nat (getShapeOfOutput l1)) = Ok l2).
  { change (map Z.of_nat (getShapeOfOutput l1)) with [1%Z; 0%Z]. unfold build_layer. assert (product [1%Z; 0%Z] = Ok 0%Z) as -> by reflexivity. cbn [bind]. assert ((1000000 <? 0)%Z = false) as -> by reflexivity. cbn [d2 d_type Recurrence d_neurons]. rewrite size_nat. cbn [bind].
    assert (size 0 = Ok 0) as -> by reflexivity. cbn [bind]. unfold build_neurons. fold d2. rewrite En. reflexivity. }
  assert (V2 : layer_isValid l2 = 0%Z).
  { unfold layer_isValid, l2. cbn [finish l_body l_in]. pose proof (build_neurons_inv _ _ _ En) as (L & Hi).
    match goal with |- (if ?b then _ else _) = _ => assert (b = false) as -> end.
    { apply Bool.not_true_iff_false. intros E. apply existsb_exists in E as (r & Hr & E). apply In_nth_error in Hr as (i & Hr). apply Hi, rneuron_wf in Hr as [_ We]. rewrite We in E. discriminate. }
    apply (many_valid _ rec_isValid _ _ (0 + 2 <= million)%Z En).
    - intros i r Hr. exact (rec_valid d2 H1 _ _ _ _ (Hd 1 i 0) Hr).
    - unfold million. lia. }
  exists (mkNet [l1; l2] (mkSGD lr m) false 0). split.
  - apply (construct_ok _ _ _ _ _ [l1; l2] l1 [l2]); auto; try (cbn; lia).
    rewrite (build_all_cons _ _ _ _ _ (Z.of_nat x)); [|cbn; lia|reflexivity|exact Ep|lia]. cbn [build_rest Input d_shape]. rewrite E1. cbn [bind]. rewrite E2. reflexivity.
  - intros u v reset. reflexivity.
Qed.

(* Only the product of the dimensions of the Input is looked at: negative dimensions are accepted. *)
Theorem C26_negative_input_refuted : forall a b n os lr m, (1 <= a)%Z -> (1 <= b)%Z -> (1 <= n <= 1000000)%Z -> (a * b + 1 <= 1000000)%Z -> right_optimizer lr m ->
  exists net, construct draws masks [Input [- a; - b]%Z; FullyConnected n a_sigmoid os] lr m = Ok net /\ net_numberOfInputs net = Ok (Z.to_nat (a * b)).
Proof.
  intros a b n os lr m Ha Hb Hn Hm HO.
  assert (B : (a <= a * b /\ b <= a * b)%Z) by nia.
  assert (E0 : product [- a; - b]%Z = Ok (a * b)%Z).
  { unfold product. cbn [ofold]. unfold imul. rewrite Z.mul_1_l. assert (int32 (- a) = Ok (- a)%Z) as -> by (unfold int32; destruct (Z.ltb_spec (- a) (-2147483648)); [lia|]; destruct (Z.ltb_spec 2147483647 (- a)); [lia|reflexivity]).
    cbn [bind]. replace (- a * - b)%Z with (a * b)%Z by lia. rewrite int32_ok by lia. reflexivity. }
  assert (E1 : product [a * b]%Z = Ok (a * b)%Z) by (unfold product; cbn [ofold]; unfold imul; rewrite Z.mul_1_l, int32_ok by lia; reflexivity).
  destruct (dense_layer (draws 0) (masks 0) n a_sigmoid os [a * b]%Z) as (l & E & V & _ & L); [discriminate|constructor; [lia|constructor]|cbn [fold_left]; lia|lia|exact H1|intros i w; apply (Hd 0 i 0 w)|].
  assert (E2 : build_layer (draws 0) (masks 0) (FullyConnected n a_sigmoid os) [- a; - b]%Z = Ok l) by (rewrite <- E; unfold build_layer; rewrite E0, E1; reflexivity).
  exists (mkNet [l] (mkSGD lr m) false 0). split.
  - apply (construct_ok _ _ _ _ _ [l] l []); auto; try (rewrite L; cbn [fold_left]; lia); try (cbn; lia).
    rewrite (build_all_cons _ _ _ _ _ (a * b)%Z); [|cbn; lia|reflexivity|exact E0|lia]. cbn [build_rest Input d_shape]. rewrite E2. reflexivity.
  - unfold net_numberOfInputs. cbn [nn_layers lget nth_error bind]. rewrite L. cbn [fold_left]. now rewrite Z.mul_1_l.
Qed.
End conv.
End P.
Print Assumptions C26_negative_kernel_1D.
Print Assumptions C26_negative_kernel_refuted.
Print Assumptions C26_negative_pooling_refuted.
Print Assumptions C26_negative_input_refuted.
(* binary32 with any initial weights drawn by the library (here zeros) meets the hypotheses *)
Example C26_negative_hypotheses : (forall l i g w, @in_range N32 (zdraws l i g w) /\ @in_range N32 (@fabs N32 (zdraws l i g w))) /\ @in_range N32 (@fone N32) /\ @in_range N32 (@flit N32 1 1000) /\ @right_optimizer N32 (b32q 1 100) (b32q 9 10).
Proof. split; [intros; repeat split; vm_compute; reflexivity|]. repeat split; vm_compute; reflexivity. Qed.
(* a negative kernel behind a fully connected layer *)
Example C26_negative_1D_hypotheses : exists (d0 : @LDesc RNum) pre (e : @LDesc RNum), sane_descriptions (d0 :: pre) /\ d_type e = t_conv /\ (d_ksize e < 0)%Z /\
  List.length (fold_left (fun s d => @expected_shape RNum d s) pre (map Z.to_nat (d_shape d0))) <= 2 /\ pre <> [].
Proof. exists (@Input RNum [3; 4; 5]%Z), [@FullyConnected RNum 6 a_tanh []], (@Convolution RNum 2 (-3) a_tanh []). repeat split; try discriminate; cbn; try lia; repeat constructor; cbn; lia. Qed.
