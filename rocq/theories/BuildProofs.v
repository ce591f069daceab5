(* Every layer the factory builds and the constructor accepts is well-formed. *)
From Verif Require Import Base Num ActModel NeuronModel LayerModel NetModel NeuronProofs LayerProofs SafeProofs SafeLayers FactoryModel FactorySpec FactoryProofs SafeNet.
Local Open Scope nat_scope.

Lemma fold_mul_nat s : forall a, fold_left Z.mul (map Z.of_nat s) (Z.of_nat a) = Z.of_nat (fold_left Nat.mul s a).
Proof. induction s as [|x t IH]; intros a; cbn; auto. rewrite <- Nat2Z.inj_mul. apply IH. Qed.
Lemma fold_mul_pos s : forall a, 0 < a -> Forall (fun x => 0 < x) s -> 0 < fold_left Nat.mul s a.
Proof. induction s as [|x t IH]; intros a Ha H; cbn; auto. inversion H; subst. apply IH; auto. nia. Qed.
Lemma fold_mul_pos_inv s : forall a, 0 < fold_left Nat.mul s a -> 0 < a /\ Forall (fun x => 0 < x) s.
Proof. induction s as [|x t IH]; intros a H; cbn in H; [auto|]. apply IH in H as [H1 H2]. split; [nia|]. constructor; auto. nia. Qed.
Lemma firstError_zero l : firstError l = 0%Z -> Forall (fun e => e = 0%Z) l.
Proof.
  unfold firstError. induction l as [|a t IH]; cbn; [constructor|]. destruct (Z.eqb_spec a 0); cbn; [|congruence]. intros H. constructor; auto.
Qed.

Section P.
Context {N : Num}.
Variable draws : nat -> nat -> nat -> F.
Variable masks : nat -> nat -> bool.

Lemma neurons_valid_pos errs : neurons_isValid errs = 0%Z -> 0 < List.length errs.
Proof. unfold neurons_isValid. destruct (Z.ltb_spec (Z.of_nat (List.length errs)) 1); cbn [orb]; [discriminate|]. intros _. lia. Qed.

(* what the factory makes of a description, with sizes as natural numbers *)
Inductive built (d : LDesc) (s : list nat) : Layer -> Prop :=
| built_full n ns : d_type d = t_full -> d_neurons d = Z.of_nat n ->
    build_neurons (mk_full draws (cell_count s) 1 (cell_count s + 1) d) n = Ok ns -> built d s (finish masks (cell_count s) d (BFull ns))
| built_rec n ns : d_type d = t_rec -> d_neurons d = Z.of_nat n ->
    build_neurons (fun i => rneuron_init (cell_count s) 1 (cell_count s + 2) (d_bias d) (d_act d) (draws i 0)) n = Ok ns ->
    built d s (finish masks (cell_count s) d (BRec ns))
| built_gru n ns : d_type d = t_gru -> d_neurons d = Z.of_nat n ->
    build_neurons (fun i => gru_init (cell_count s) 1 (cell_count s + 2) (d_bias d) (draws i)) n = Ok ns ->
    built d s (finish masks (cell_count s) d (BGru ns))
| built_pool1D c x ks : d_type d = t_pool -> (s = [c; x] \/ s = [x] /\ c = 1) -> d_ksize d = Z.of_nat ks -> 0 < ks -> ks <= x ->
    built d s (finish masks (c * x) d (BFilter Pool1D (mkFilter c (tiles x ks) 0 0 ks ks [c; x] [c; tiles x ks]
              (pool1D_index c ks (c * x) (tiles x ks)) (tiles x ks) (repeat 0%Z (tiles x ks))) []))
| built_pool2D c x y ks : d_type d = t_pool -> s = [c; x; y] -> d_ksize d = Z.of_nat ks -> 0 < ks -> ks <= x -> ks <= y ->
    built d s (finish masks (c * x * y) d (BFilter Pool2D (mkFilter c (c * tiles x ks * tiles y ks) 0 0 ks (ks * ks) [c; x; y] [c; tiles x ks; tiles y ks]
              (pool2D_index c x ks (tiles x ks) (tiles y ks) (c * x * y) (c * tiles x ks * tiles y ks)) (c * tiles x ks * tiles y ks) (repeat 0%Z (c * tiles x ks * tiles y ks))) []))
| built_loc1D c x ks f ns : d_type d = t_local -> (s = [c; x] \/ s = [x] /\ c = 1) -> d_filters d = Z.of_nat f -> d_ksize d = Z.of_nat ks -> 0 < f -> 0 < ks -> ks <= x ->
    build_neurons (mk_full draws (ks * c) 1 (ks * c + 1) d) (f * tiles x ks) = Ok ns ->
    built d s (finish masks (c * x) d (BFilter Loc1D (mkFilter f (f * tiles x ks) (tiles x ks) (tiles x ks) ks (ks * c) [c; x] [f; tiles x ks]
              (loc1D_index c ks (c * x) (tiles x ks)) 0 []) ns))
| built_loc2D c x y ks f ns : d_type d = t_local -> s = [c; x; y] -> d_filters d = Z.of_nat f -> d_ksize d = Z.of_nat ks -> 0 < f -> 0 < ks -> ks <= x -> ks <= y ->
    build_neurons (mk_full draws (ks * ks * c) 1 (ks * ks * c + 1) d) (f * (tiles x ks * tiles y ks)) = Ok ns ->
    built d s (finish masks (c * x * y) d (BFilter Loc2D (mkFilter f (f * (tiles x ks * tiles y ks)) (tiles x ks * tiles y ks) (tiles x ks * tiles y ks) ks (ks * ks * c) [c; x; y]
              [f; tiles x ks; tiles y ks] (loc2D_index c x ks (tiles x ks) (tiles y ks) (c * x * y) (tiles x ks * tiles y ks)) 0 []) ns))
| built_conv1D c x ks f ns : d_type d = t_conv -> (s = [c; x] \/ s = [x] /\ c = 1) -> d_filters d = Z.of_nat f -> d_ksize d = Z.of_nat ks -> 0 < f -> ks <= x ->
    build_neurons (mk_full draws (ks * c) (x - ks + 1) (ks * c + 1) d) f = Ok ns ->
    built d s (finish masks (c * x) d (BFilter Conv1D (mkFilter f (f * (x - ks + 1)) (x - ks + 1) 1 ks (ks * c) [c; x] [f; x - ks + 1]
              (conv1D_index c ks (x - ks + 1)) 0 []) ns))
| built_conv2D c x y ks f ns : d_type d = t_conv -> s = [c; x; y] -> d_filters d = Z.of_nat f -> d_ksize d = Z.of_nat ks -> 0 < f -> ks <= x -> ks <= y ->
    build_neurons (mk_full draws (ks * ks * c) ((x - ks + 1) * (y - ks + 1)) (ks * ks * c + 1) d) f = Ok ns ->
    built d s (finish masks (c * x * y) d (BFilter Conv2D (mkFilter f (f * ((x - ks + 1) * (y - ks + 1))) ((x - ks + 1) * (y - ks + 1)) 1 ks (ks * ks * c) [c; x; y]
              [f; x - ks + 1; y - ks + 1] (conv2D_index c x ks (x - ks + 1) ((x - ks + 1) * (y - ks + 1))) 0 []) ns)).

Lemma cells1 x : cell_count [x] = x. Proof. unfold cell_count. cbn. lia. Qed.
Lemma cells2 c x : cell_count [c; x] = c * x. Proof. unfold cell_count. cbn. lia. Qed.
Lemma cells3 c x y : cell_count [c; x; y] = c * x * y. Proof. unfold cell_count. cbn. lia. Qed.
Lemma build_layer_built d s l : Forall (fun x => 0 < x) s -> sane_kernel d -> build_layer draws masks d (map Z.of_nat s) = Ok l -> built d s l.
Proof.
  intros Hs Hk H. unfold build_layer in H. apply bind_Ok_inv in H as (inputs & Hi & H).
  apply product_inv in Hi. change 1%Z with (Z.of_nat 1) in Hi. rewrite fold_mul_nat in Hi. fold (cell_count s) in Hi. subst inputs.
  destruct s as [|z t] eqn:Es; [discriminate|]. rewrite <- Es in *. assert (Hm : map Z.of_nat s = Z.of_nat z :: map Z.of_nat t) by (rewrite Es; reflexivity).
  assert (H' : (if (1000000 <? Z.of_nat (cell_count s))%Z then Throw "Layer is too big." else match d_type d with
  | t_full => if (Z.of_nat (cell_count s) <=? 0)%Z then Throw "Input of layer has size of 0." else
    bind (size (d_neurons d)) (fun n => bind (size (Z.of_nat (cell_count s))) (fun ni => bind (build_neurons (mk_full draws ni 1 (ni + 1) d) n) (fun ns => Ok (finish masks ni d (BFull ns)))))
  | t_rec => bind (size (d_neurons d)) (fun n => bind (size (Z.of_nat (cell_count s))) (fun ni => bind (build_neurons (fun i => rneuron_init ni 1 (ni + 2) (d_bias d) (d_act d) (draws i 0)) n) (fun ns => Ok (finish masks ni d (BRec ns)))))
  | t_gru => bind (size (d_neurons d)) (fun n => bind (size (Z.of_nat (cell_count s))) (fun ni => bind (build_neurons (fun i => gru_init ni 1 (ni + 2) (d_bias d) (draws i)) n) (fun ns => Ok (finish masks ni d (BGru ns)))))
  | t_pool => dims (map Z.of_nat s) (build_pool1D masks d (Z.of_nat (cell_count s))) (build_pool2D masks d (Z.of_nat (cell_count s)))
  | t_local => dims (map Z.of_nat s) (build_loc1D draws masks d (Z.of_nat (cell_count s))) (build_loc2D draws masks d (Z.of_nat (cell_count s)))
  | t_conv => dims (map Z.of_nat s) (build_conv1D draws masks d (Z.of_nat (cell_count s))) (build_conv2D draws masks d (Z.of_nat (cell_count s)))
  | t_input => Throw "Input LayerModel should be in first position."
  end) = Ok l). { rewrite Hm in H |- *. exact H. }
  clear H Hm. rename H' into H. destruct (1000000 <? _)%Z; [discriminate|].
  assert (Hsz : forall n, size (Z.of_nat n) = Ok n) by (intros n; unfold size; destruct (Z.ltb_spec (Z.of_nat n) 0); [lia|]; now rewrite Nat2Z.id).
  unfold sane_kernel in Hk. destruct (d_type d) eqn:Et; try discriminate.
  - destruct (_ <=? 0)%Z; [discriminate|]. apply bind_Ok_inv in H as (n & Hn & H). apply size_inv in Hn as [_ Hn]. rewrite Hsz in H. cbn [bind] in H.
    apply bind_Ok_inv in H as (ns & Hns & H). injection H as <-. eapply built_full; eauto.
  - apply bind_Ok_inv in H as (n & Hn & H). apply size_inv in Hn as [_ Hn]. rewrite Hsz in H. cbn [bind] in H.
    apply bind_Ok_inv in H as (ns & Hns & H). injection H as <-. eapply built_rec; eauto.
  - apply bind_Ok_inv in H as (n & Hn & H). apply size_inv in Hn as [_ Hn]. rewrite Hsz in H. cbn [bind] in H.
    apply bind_Ok_inv in H as (ns & Hns & H). injection H as <-. eapply built_gru; eauto.
  - clear Es. destruct s as [|a [|b [|c [|? ?]]]]; cbn [map dims] in H; try discriminate; repeat match goal with Hf : Forall _ (_ :: _) |- _ => inversion Hf; clear Hf; subst end.
    + change 1%Z with (Z.of_nat 1) in H. apply build_pool1D_inv in H as (ks & E1 & E2 & E3 & ->); auto. replace (cell_count [a]) with (1 * a) by (unfold cell_count; cbn; lia). eapply built_pool1D; eauto.
    + apply build_pool1D_inv in H as (ks & E1 & E2 & E3 & ->); auto. rewrite cells2. eapply built_pool1D; eauto.
    + apply build_pool2D_inv in H as (ks & E1 & E2 & E3 & E4 & ->); auto. rewrite cells3. eapply built_pool2D; eauto.
  - clear Es. destruct s as [|a [|b [|c [|? ?]]]]; cbn [map dims] in H; try discriminate; repeat match goal with Hf : Forall _ (_ :: _) |- _ => inversion Hf; clear Hf; subst end.
    + change 1%Z with (Z.of_nat 1) in H. apply build_loc1D_inv in H as (f & ks & ns & E0 & E1 & E2 & E3 & E4 & E5 & ->); auto. replace (cell_count [a]) with (1 * a) by (unfold cell_count; cbn; lia). eapply built_loc1D; eauto.
    + apply build_loc1D_inv in H as (f & ks & ns & E0 & E1 & E2 & E3 & E4 & E5 & ->); auto. rewrite cells2. eapply built_loc1D; eauto.
    + apply build_loc2D_inv in H as (f & ks & ns & E0 & E1 & E2 & E3 & E4 & E5 & E6 & ->); auto. rewrite cells3. eapply built_loc2D; eauto.
  - clear Es. destruct s as [|a [|b [|c [|? ?]]]]; cbn [map dims] in H; try discriminate; repeat match goal with Hf : Forall _ (_ :: _) |- _ => inversion Hf; clear Hf; subst end.
    + change 1%Z with (Z.of_nat 1) in H. apply build_conv1D_inv in H as (f & ks & ns & E0 & E1 & E2 & E3 & E5 & ->); auto. replace (cell_count [a]) with (1 * a) by (unfold cell_count; cbn; lia). eapply built_conv1D; eauto.
    + apply build_conv1D_inv in H as (f & ks & ns & E0 & E1 & E2 & E3 & E5 & ->); auto. rewrite cells2. eapply built_conv1D; eauto.
    + apply build_conv2D_inv in H as (f & ks & ns & E0 & E1 & E2 & E3 & E4 & E5 & ->); auto. rewrite cells3. eapply built_conv2D; eauto.
Qed.

Lemma rneuron_wf ni bias a dr n : rneuron_init ni 1 (ni + 2) bias a dr = Ok n -> wf_rneuron ni n.
Proof.
  unfold rneuron_init. intros H. destruct (neuron_init_wf ni 1 2 bias a dr ltac:(lia) ltac:(lia)) as (n' & E & W & E1 & _). rewrite E in H. cbn in H. injection H as <-. split; auto.
Qed.
Lemma gru_wf ni bias dr g : gru_init ni 1 (ni + 2) bias dr = Ok g -> wf_gneuron ni g.
Proof.
  unfold gru_init. intros H. apply bind_Ok_inv in H as (a & Ha & H). apply bind_Ok_inv in H as (b & Hb & H). apply bind_Ok_inv in H as (c & Hc & H). injection H as <-.
  split; [reflexivity|]. cbn [g_reset g_update g_output]. split; [eapply rneuron_wf; eassumption|]. split; eapply rneuron_wf; eassumption.
Qed.
Lemma Forall_of_nth {A} (P : A -> Prop) l : (forall i a, nth_error l i = Some a -> P a) -> Forall P l.
Proof. intros H. apply Forall_forall. intros a Ha. apply In_nth_error in Ha as (i & Hi). eauto. Qed.
Lemma repeat_range n k : 0 < k -> Forall (fun i => 0 <= i < Z.of_nat k)%Z (repeat 0%Z n).
Proof. intros Hk. apply Forall_forall. intros i Hi. apply repeat_spec in Hi. lia. Qed.

Lemma built_wf d s l : Forall (fun x => 0 < x) s -> built d s l -> layer_isValid l = 0%Z -> supported_pooling l ->
  wf_layer (cell_count s) l (cell_count (getShapeOfOutput l)).
Proof.
  intros Hs B HV HP. assert (Hk : 0 < cell_count s) by (apply fold_mul_pos; [lia|exact Hs]). unfold wf_layer, layer_isValid, supported_pooling, getShapeOfOutput, getNumberOfNeurons, layer_weights in *.
  destruct B; cbn [finish l_in l_body l_opts body_weights] in *.
  1,2,3: match type of HV with (if ?b then _ else _) = _ => destruct b; [discriminate|] end; apply neurons_valid_pos in HV; rewrite map_length in HV;
         match goal with Hb : build_neurons _ _ = Ok _ |- _ => pose proof (build_neurons_inv _ _ _ Hb) as (L & Hi) end;
         rewrite map_length; rewrite cells1; cbn [fold_left]; rewrite ?Nat.mul_1_l; repeat (split; [first [reflexivity|assumption|lia]|]); split; [|reflexivity]; split; [reflexivity|].
  - match goal with Hb : build_neurons _ _ = Ok _ |- _ => eapply neurons_wf in Hb as [_ Hb]; [exact Hb|lia] end.
  - apply Forall_of_nth. intros i a Ha. eapply rneuron_wf. exact (Hi i a Ha).
  - apply Forall_of_nth. intros i a Ha. eapply gru_wf. exact (Hi i a Ha).
  - assert (Es : cell_count s = c * x) by (destruct H0 as [->|[-> ->]]; [apply cells2|unfold cell_count; cbn; lia]). rewrite Es in *.
    cbn [f_shapeIn nth] in HP. subst c. rewrite Nat.mul_1_l in *. assert (Hx : 0 < x) by lia. destruct (tiles_spec x ks H2 Hx) as (T1 & T2 & T3).
    cbn [f_shapeOut f_kernels]. rewrite cells2, Nat.mul_1_l.
    split; [reflexivity|]. split; [exact Hx|]. split; [exact T1|]. split; [|unfold cell_count; cbn; lia]. split; [reflexivity|].
    cbn [wf_filter f_nin f_index f_maxIndex]. split; [apply pool1D_rows|]. split; [now apply pool1D_nonempty|]. rewrite repeat_length. unfold pool1D_index. rewrite map_length, seq_length.
    split; [reflexivity|]. split; [reflexivity|]. split; [now apply repeat_range|reflexivity].
  - subst s. rewrite cells3 in *. repeat match goal with Hf : Forall _ (_ :: _) |- _ => inversion Hf; clear Hf; subst end. cbn [f_shapeOut nth] in HP |- *.
    destruct (tiles_spec x ks H2 ltac:(lia)) as (T1 & T2 & T3). destruct (tiles_spec y ks H2 ltac:(lia)) as (T4 & T5 & T6). rewrite cells3.
    split; [reflexivity|]. split; [lia|]. split; [nia|]. split; [|unfold cell_count; cbn; lia]. split; [reflexivity|].
    cbn [wf_filter f_nin f_index f_maxIndex]. split; [apply pool2D_rows|]. split; [apply pool2D_nonempty; auto; lia|]. rewrite repeat_length. unfold pool2D_index. rewrite map_length, seq_length.
    split; [reflexivity|]. split; [reflexivity|]. split; [apply repeat_range; lia|reflexivity].
  - assert (Es : cell_count s = c * x) by (destruct H0 as [->|[-> ->]]; [apply cells2|unfold cell_count; cbn; lia]). rewrite Es in *.
    assert (Hx : 0 < x) by lia. destruct (tiles_spec x ks H4 Hx) as (T1 & T2 & T3). cbn [f_shapeOut f_kernels]. rewrite cells2.
    split; [reflexivity|]. split; [lia|]. split; [nia|]. split; [|unfold cell_count; cbn; lia]. split; [reflexivity|].
    cbn [wf_filter f_nin f_index f_filters f_kpf]. apply neurons_wf in H6 as [L W]; [|lia]. split; [apply loc1D_rows|]. split; [assumption|].
    unfold loc1D_index. rewrite map_length, seq_length. split; [lia|]. split; [lia|]. split; [reflexivity|exact W].
  - subst s. rewrite cells3 in *. repeat match goal with Hf : Forall _ (_ :: _) |- _ => inversion Hf; clear Hf; subst end.
    destruct (tiles_spec x ks H4 ltac:(lia)) as (T1 & T2 & T3). destruct (tiles_spec y ks H4 ltac:(lia)) as (T4 & T5 & T6). cbn [f_shapeOut f_kernels]. rewrite cells3.
    split; [reflexivity|]. split; [lia|]. split; [nia|]. split; [|unfold cell_count; cbn; lia]. split; [cbn [f_kernels]; lia|].
    cbn [wf_filter f_nin f_index f_filters f_kpf]. apply neurons_wf in H7 as [L W]; [|lia]. split; [apply loc2D_rows|]. split; [assumption|].
    unfold loc2D_index. rewrite map_length, seq_length. split; [lia|]. split; [lia|]. split; [reflexivity|exact W].
  - assert (Es : cell_count s = c * x) by (destruct H0 as [->|[-> ->]]; [apply cells2|unfold cell_count; cbn; lia]). rewrite Es in *.
    assert (Hc : 0 < c) by lia. cbn [f_shapeOut f_kernels]. rewrite cells2.
    split; [reflexivity|]. split; [lia|]. split; [nia|]. split; [|unfold cell_count; cbn; lia]. split; [reflexivity|].
    cbn [wf_filter f_nin f_index]. apply neurons_wf in H5 as [L W]; [|lia]. split; [now apply conv1D_rows|].
    unfold conv1D_index. rewrite map_length, seq_length. split; [lia|exact W].
  - subst s. rewrite cells3 in *. repeat match goal with Hf : Forall _ (_ :: _) |- _ => inversion Hf; clear Hf; subst end.
    cbn [f_shapeOut f_kernels]. rewrite cells3.
    split; [reflexivity|]. split; [lia|]. split; [nia|]. split; [|unfold cell_count; cbn; lia]. split; [cbn [f_kernels]; lia|].
    cbn [wf_filter f_nin f_index]. apply neurons_wf in H6 as [L W]; [|nia]. split; [now apply conv2D_rows|].
    unfold conv2D_index. rewrite map_length, seq_length. split; [lia|exact W].
Qed.
End P.

Section Q.
Context {N : Num}.
Lemma build_rest_wf draws masks ds : forall i s ls, Forall (fun x => 0 < x) s -> Forall sane_kernel ds ->
  build_rest draws masks i ds (map Z.of_nat s) = Ok ls -> Forall (fun l => layer_isValid l = 0%Z) ls -> Forall supported_pooling ls ->
  exists m, wf_chain (cell_count s) ls m.
Proof.
  induction ds as [|d t IH]; intros i s ls Hs Hk H HV HP; cbn [build_rest] in H.
  - injection H as <-. exists (cell_count s). reflexivity.
  - apply bind_Ok_inv in H as (a & Ha & H). apply bind_Ok_inv in H as (r & Hr & H). injection H as <-. inversion Hk; inversion HV; inversion HP; subst.
    apply build_layer_built in Ha; auto. pose proof (built_wf _ _ _ _ _ Hs Ha ltac:(auto) ltac:(auto)) as W.
    destruct (IH (S i) (getShapeOfOutput a) r) as (m & Wm); auto.
    { destruct W as (_ & _ & Hm & _). unfold cell_count in Hm. now apply fold_mul_pos_inv in Hm. }
    exists m. cbn [wf_chain]. eauto.
Qed.
(* what acceptance by the constructor means *)
Lemma construct_inv draws masks ds lr m net : construct draws masks ds lr m = Ok net ->
  exists d0 rest, ds = d0 :: rest /\ d_type d0 = t_input /\ build_rest draws masks 0 rest (d_shape d0) = Ok (nn_layers net) /\
    Forall (fun l => layer_isValid l = 0%Z) (nn_layers net) /\ nn_layers net <> [] /\ net = mkNet (nn_layers net) (mkSGD lr m) false 0.
Proof.
  unfold construct, build_all. intros H. apply bind_Ok_inv in H as (ls & Hl & H). destruct (1000 <? _)%Z in Hl; [discriminate|].
  destruct ds as [|d0 rest]; [discriminate|]. destruct (d_type d0) eqn:Et; try discriminate. destruct rest as [|d1 rest]; [discriminate|].
  apply bind_Ok_inv in Hl as (n & Hn & Hl). destruct (2073600 <? n)%Z in Hl; [discriminate|].
  apply bind_Ok_inv in H as (e & He & H). destruct (Z.eqb_spec e 0); [|discriminate]. injection H as <-. subst e.
  exists d0, (d1 :: rest). split; [reflexivity|]. split; [exact Et|]. split; [exact Hl|]. cbn [nn_layers].
  unfold net_isValid in He. apply bind_Ok_inv in He as (l0 & Hl0 & He). cbn [nn_layers nn_opt] in *.
  match type of He with (if ?b then _ else _) = _ => destruct b; [discriminate|] end. match type of He with (if ?b then _ else _) = _ => destruct b; [discriminate|] end.
  destruct (Z.eqb_spec (sgd_isValid (mkSGD lr m)) 0) as [E0|E0]; cbn [negb] in He; [|congruence]. injection He as He. apply firstError_zero in He.
  split; [now apply Forall_map in He|]. split; [|reflexivity]. intros ->. discriminate.
Qed.
Lemma pos_shape sh : Forall (fun z => 0 < z)%Z sh -> exists s, sh = map Z.of_nat s /\ Forall (fun x => 0 < x) s.
Proof.
  induction 1 as [|z t Hz _ (s & -> & Hs)]; [exists []; auto|]. exists (Z.to_nat z :: s). split; [|constructor; auto; lia]. cbn. f_equal. lia.
Qed.
Lemma construct_wf draws masks ds lr m net : construct draws masks ds lr m = Ok net -> sane_descriptions ds -> Forall supported_pooling (nn_layers net) ->
  exists k mm, wf_net k mm net /\ product (d_shape (hd (Input []) ds)) = Ok (Z.of_nat k).
Proof.
  intros H Hs HP. pose proof H as H0. apply construct_inv in H as (d0 & rest & -> & Ht & Hb & HV & Hne & _). destruct Hs as [Hs Hk]. destruct (pos_shape _ Hs) as (s & Es & Hp).
  pose proof Hb as Hb0. rewrite Es in Hb. destruct (build_rest_wf _ _ _ _ _ _ Hp Hk Hb HV HP) as (mm & W). exists (cell_count s), mm. split; [split; auto|].
  cbn [hd]. destruct (product (d_shape d0)) as [z| |] eqn:Ez.
  - f_equal. pose proof Ez as E2. apply product_inv in E2. rewrite Es in E2. change 1%Z with (Z.of_nat 1) in E2. now rewrite fold_mul_nat in E2.
  - exfalso. unfold construct, build_all in H0. destruct (1000 <? _)%Z in H0; [discriminate|]. rewrite Ht in H0. destruct rest; [discriminate|]. rewrite Ez in H0. discriminate.
  - exfalso. unfold construct, build_all in H0. destruct (1000 <? _)%Z in H0; [discriminate|]. rewrite Ht in H0. destruct rest; [discriminate|]. rewrite Ez in H0. discriminate.
Qed.
End Q.
