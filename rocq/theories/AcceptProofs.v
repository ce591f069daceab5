(* Proofs for the exact acceptance condition (C26). *)
From Verif Require Import Base Num ActModel NeuronModel LayerModel NetModel NeuronProofs LayerProofs SafeProofs SafeLayers FactoryModel FactorySpec FactoryProofs SafeNet BuildProofs FactoryProps AcceptSpec.
Local Open Scope nat_scope.
Local Open Scope outcome_scope.

Lemma int32_ok z : (0 <= z <= 2147483647)%Z -> int32 z = Ok z.
Proof. intros H. unfold int32. destruct (Z.ltb_spec z (-2147483648)); [lia|]. destruct (Z.ltb_spec 2147483647 z); [lia|reflexivity]. Qed.
Lemma imul_nat a b : (Z.of_nat (a * b) <= 2147483647)%Z -> imul (Z.of_nat a) (Z.of_nat b) = Ok (Z.of_nat (a * b)).
Proof. intros H. unfold imul. rewrite <- Nat2Z.inj_mul. apply int32_ok. lia. Qed.
Lemma imul_bound a b c : imul a b = Ok c -> (c <= 2147483647)%Z /\ c = (a * b)%Z.
Proof. unfold imul, int32. destruct (Z.ltb_spec (a * b) (-2147483648)); [discriminate|]. destruct (Z.ltb_spec 2147483647 (a * b)); [discriminate|]. cbn [orb]. intros [= <-]. auto. Qed.
Lemma size_nat n : size (Z.of_nat n) = Ok n.
Proof. unfold size. destruct (Z.ltb_spec (Z.of_nat n) 0); [lia|]. now rewrite Nat2Z.id. Qed.
Lemma cdiv_nat x k : 0 < k -> cdiv (Z.of_nat x) (Z.of_nat k) = Ok (Z.of_nat (tiles x k)).
Proof. intros Hk. destruct (cdiv (Z.of_nat x) (Z.of_nat k)) as [r| |] eqn:E; [apply cdiv_inv in E as [_ ->]; reflexivity| |]; unfold cdiv in E; destruct (Z.eqb_spec (Z.of_nat k) 0); try discriminate; lia. Qed.
Lemma tiles_le x k : 0 < k -> 0 < x -> tiles x k <= x.
Proof. intros Hk Hx. destruct (tiles_spec x k Hk Hx) as (T1 & T2 & T3). nia. Qed.
Lemma quot_nat a b : 0 < a -> Z.quot (Z.of_nat (a * b)) (Z.of_nat a) = Z.of_nat b.
Proof. intros H. rewrite Nat2Z.inj_mul, Z.mul_comm. apply Z.quot_mul. lia. Qed.

Section P.
Context {N : Num}.
Variables (draws : nat -> nat -> nat -> F) (masks : nat -> nat -> bool) (d : LDesc).
Hypothesis Hb : in_range (d_bias d).
Hypothesis Hd : forall i g w, in_range (draws i g w) /\ in_range (fabs (draws i g w)).

Lemma neuron_valid ni b e a dr n : 0 < e -> (forall w, in_range (dr w) /\ in_range (fabs (dr w))) -> neuron_init ni b (ni + e) (d_bias d) a dr = Ok n ->
  neuron_isValid n = 0%Z <-> (Z.of_nat (ni + e) <= million)%Z.
Proof.
  intros He Hw H. destruct (ni + e) as [|m] eqn:E; [lia|]. cbn [neuron_init] in H. injection H as <-. destruct Hb as [B1 B2]. unfold neuron_isValid. cbn [n_bias n_w]. rewrite B1, B2. cbn [orb].
  rewrite app_length, map_length, seq_length. cbn [List.length]. destruct (Nat.eqb_spec (m + 1) 0); [lia|]. cbn [orb]. unfold million.
  destruct (Z.ltb_spec 1000000 (Z.of_nat (m + 1))); [split; [discriminate|lia]|].
  match goal with |- (if ?b then _ else _) = _ <-> _ => destruct b eqn:Q end; [exfalso|split; [lia|reflexivity]].
  apply existsb_exists in Q as (w & Hin & Q). apply in_app_iff in Hin as [Hin|[<-|[]]]; [apply in_map_iff in Hin as (i & <- & _); destruct (Hw i) as [[W1 W2] _]|destruct (Hw m) as [_ [W1 W2]]]; rewrite W1, W2 in Q; discriminate.
Qed.
Lemma rec_valid ni a dr n : (forall w, in_range (dr w) /\ in_range (fabs (dr w))) -> rneuron_init ni 1 (ni + 2) (d_bias d) a dr = Ok n -> rec_isValid n = 0%Z <-> (Z.of_nat ni + 2 <= million)%Z.
Proof.
  intros Hw H. pose proof (rneuron_wf _ _ _ _ _ H) as [(Wl & _) We]. unfold rneuron_init in H. apply bind_Ok_inv in H as (n' & Hn & H). injection H as <-. cbn [r_n] in *.
  unfold rec_isValid. cbn [r_n]. rewrite Wl, We, Nat.eqb_refl. rewrite (neuron_valid ni 1 2 a dr n' ltac:(lia) Hw Hn). lia.
Qed.
Lemma gru_valid ni i g : gru_init ni 1 (ni + 2) (d_bias d) (draws i) = Ok g -> gru_isValid g = 0%Z <-> (Z.of_nat ni + 2 <= million)%Z.
Proof.
  intros H. unfold gru_init in H. apply bind_Ok_inv in H as (a & Ha & H). apply bind_Ok_inv in H as (b & Hb' & H). apply bind_Ok_inv in H as (c & Hc & H). injection H as <-.
  pose proof (rec_valid _ _ _ _ (Hd i 0) Ha) as Va. pose proof (rec_valid _ _ _ _ (Hd i 1) Hb') as Vb. pose proof (rec_valid _ _ _ _ (Hd i 2) Hc) as Vc.
  unfold gru_isValid. cbn [g_reset g_update g_output]. destruct (Z.eqb_spec (rec_isValid a) 0) as [Ea|Ea]; cbn [negb]; [|rewrite <- Va; tauto].
  destruct (Z.eqb_spec (rec_isValid b) 0) as [Eb|Eb]; cbn [negb]; [|rewrite <- Vb; tauto]. destruct (Z.eqb_spec (rec_isValid c) 0) as [Ec|Ec]; cbn [negb]; rewrite <- Vc; tauto.
Qed.
Lemma many_valid {A} (mk : nat -> outcome A) (v : A -> Z) m ns (Q : Prop) : build_neurons mk m = Ok ns -> (forall i a, mk i = Ok a -> v a = 0%Z <-> Q) ->
  neurons_isValid (map v ns) = 0%Z <-> (1 <= Z.of_nat m <= million)%Z /\ Q.
Proof.
  intros H Hq. apply build_neurons_inv in H as (L & Hi). unfold neurons_isValid, million. rewrite map_length, L.
  destruct (Z.ltb_spec (Z.of_nat m) 1); cbn [orb]; [split; [discriminate|lia]|]. destruct (Z.ltb_spec 1000000 (Z.of_nat m)); cbn [orb]; [split; [discriminate|lia]|]. split.
  - intros Z0. split; [lia|]. apply firstError_zero in Z0. destruct ns as [|a t]; [cbn in L; lia|]. inversion Z0; subst. apply (Hq 0 a); [now apply Hi|assumption].
  - intros (_ & HQ). apply firstError_all. apply Forall_map, Forall_of_nth. intros i a Ha. apply (Hq i a (Hi i a Ha)). exact HQ.
Qed.
Lemma plain_valid nin b m ns : build_neurons (mk_full draws nin b (nin + 1) d) m = Ok ns -> neurons_isValid (map neuron_isValid ns) = 0%Z <-> (1 <= Z.of_nat m <= million)%Z /\ (Z.of_nat (nin + 1) <= million)%Z.
Proof. intros H. apply (many_valid _ _ _ _ _ H). intros i a Ha. apply (neuron_valid nin b 1 (d_act d) (draws i 0) a); [lia|apply Hd|exact Ha]. Qed.
Lemma plain_same nin b m ns : build_neurons (mk_full draws nin b (nin + 1) d) m = Ok ns -> existsb (fun n => negb (n_in n =? nin)) ns = false.
Proof.
  intros H. apply build_neurons_inv in H as (L & Hi). apply Bool.not_true_iff_false. intros E. apply existsb_exists in E as (n & Hn & E). apply In_nth_error in Hn as (i & Hn). specialize (Hi i n Hn).
  unfold mk_full in Hi. rewrite Nat.add_1_r in Hi. cbn [neuron_init] in Hi. injection Hi as <-. cbn [n_in] in E. rewrite Nat.eqb_refl in E. discriminate.
Qed.
Lemma plain_total nin b m : exists ns, build_neurons (mk_full draws nin b (nin + 1) d) m = Ok ns.
Proof. apply omap_total. intros i _. unfold mk_full. rewrite Nat.add_1_r. cbn [neuron_init]. eauto. Qed.

(* when the layer built is valid *)
Definition valid_size (s : list nat) : Prop :=
  let k := Z.to_nat (d_ksize d) in
  let weights := k ^ List.length (extents s) * channels s + 1 in
  match d_type d with
  | t_full => (1 <= d_neurons d <= million)%Z /\ (Z.of_nat (cell_count s) + 1 <= million)%Z
  | t_rec | t_gru => (1 <= d_neurons d <= million)%Z /\ (Z.of_nat (cell_count s) + 2 <= million)%Z
  | t_local => (Z.of_nat (cell_count (expected_shape d s)) <= million)%Z /\ (Z.of_nat weights <= million)%Z
  | t_conv => (d_filters d <= million)%Z /\ (Z.of_nat weights <= million)%Z
  | _ => True
  end.
Lemma one_two s c x : s = [c; x] \/ s = [x] /\ c = 1 -> extents s = [x] /\ channels s = c /\ cell_count s = c * x.
Proof. intros [->|[-> ->]]; unfold cell_count; cbn; (split; [reflexivity|split; [reflexivity|lia]]). Qed.
Lemma pow1 k : k ^ 1 = k. Proof. cbn. lia. Qed.
Lemma pow2 k : k ^ 2 = k * k. Proof. cbn. lia. Qed.
Lemma built_valid s l : Forall (fun x => 0 < x) s -> built draws masks d s l -> layer_isValid l = 0%Z <-> valid_size s.
Proof.
  intros Hs B. unfold valid_size. destruct B; rewrite H; unfold layer_isValid; cbn [finish l_body l_in f_nin f_shapeOut f_kernels f_maxIndex f_outputs].
  - rewrite (plain_same _ _ _ _ H1), (plain_valid _ _ _ _ H1). rewrite H0, Nat2Z.inj_add. lia.
  - assert (E0 : existsb (fun n => negb (n_in (r_n n) =? cell_count s)) ns = false).
    { pose proof (build_neurons_inv _ _ _ H1) as (L & Hi). apply Bool.not_true_iff_false. intros E. apply existsb_exists in E as (x & Hx & E). apply In_nth_error in Hx as (i & Hx). apply Hi, rneuron_wf in Hx as [_ We]. rewrite We, Nat.eqb_refl in E. discriminate. }
    rewrite E0, (many_valid _ rec_isValid _ _ (Z.of_nat (cell_count s) + 2 <= million)%Z H1); [rewrite H0; tauto|]. intros i a Ha. exact (rec_valid _ _ _ _ (Hd i 0) Ha).
  - assert (E0 : existsb (fun n => negb (g_in n =? cell_count s)) ns = false).
    { pose proof (build_neurons_inv _ _ _ H1) as (L & Hi). apply Bool.not_true_iff_false. intros E. apply existsb_exists in E as (x & Hx & E). apply In_nth_error in Hx as (i & Hx). apply Hi, gru_wf in Hx as [We _]. rewrite We, Nat.eqb_refl in E. discriminate. }
    rewrite E0, (many_valid _ gru_isValid _ _ (Z.of_nat (cell_count s) + 2 <= million)%Z H1); [rewrite H0; tauto|]. intros i a Ha. exact (gru_valid _ _ _ Ha).
  - rewrite repeat_length, Nat.eqb_refl. cbn. tauto.
  - rewrite repeat_length, Nat.eqb_refl. cbn. tauto.
  - destruct (one_two s c x H0) as (E1 & E2 & E3). rewrite (plain_same _ _ _ _ H6). fold (cell_count [f; tiles x ks]). rewrite cells2, Nat.eqb_refl. cbn [negb]. rewrite (plain_valid _ _ _ _ H6). unfold expected_shape.
    rewrite H, E1, E2, H1, H2, !Nat2Z.id. cbn [map List.length]. rewrite cells2, pow1, <- tiles_covering by lia. pose proof (tiles_spec x ks H4 ltac:(lia)) as (T & _). assert (0 < f * tiles x ks) by nia. lia.
  - subst s. repeat match goal with Hf : Forall _ (_ :: _) |- _ => inversion Hf; clear Hf; subst end. rewrite (plain_same _ _ _ _ H7). fold (cell_count [f; tiles x ks; tiles y ks]). rewrite cells3, Nat.mul_assoc, Nat.eqb_refl. cbn [negb]. rewrite (plain_valid _ _ _ _ H7). unfold expected_shape.
    rewrite H, H1, H2, !Nat2Z.id. cbn [extents channels map List.length]. rewrite cells3, pow2, <- !tiles_covering by lia. pose proof (tiles_spec x ks H4 ltac:(lia)) as (T & _). pose proof (tiles_spec y ks H4 ltac:(lia)) as (T2 & _).
    rewrite Nat.mul_assoc. assert (0 < f * tiles x ks * tiles y ks) by (apply Nat.mul_pos_pos; [nia|lia]). lia.
  - destruct (one_two s c x H0) as (E1 & E2 & E3). rewrite (plain_same _ _ _ _ H5). fold (cell_count [f; x - ks + 1]). rewrite cells2, Nat.eqb_refl. cbn [negb]. rewrite (plain_valid _ _ _ _ H5).
    rewrite E1, E2, H1, H2, !Nat2Z.id. cbn [List.length]. rewrite pow1. lia.
  - subst s. repeat match goal with Hf : Forall _ (_ :: _) |- _ => inversion Hf; clear Hf; subst end. rewrite (plain_same _ _ _ _ H6). fold (cell_count [f; x - ks + 1; y - ks + 1]). rewrite cells3, Nat.mul_assoc, Nat.eqb_refl. cbn [negb]. rewrite (plain_valid _ _ _ _ H6).
    rewrite H1, H2, !Nat2Z.id. cbn [extents channels List.length]. rewrite pow2. lia.
Qed.

(* when the factory builds it *)
Definition buildable (s : list nat) : Prop :=
  let k := Z.to_nat (d_ksize d) in
  let outputs := Z.of_nat (cell_count (expected_shape d s)) in
  let fits := List.length s <= 3 /\ Forall (fun x => k <= x) (extents s) in
  s <> [] /\ (Z.of_nat (cell_count s) <= million)%Z /\
  match d_type d with
  | t_input => False
  | t_full | t_rec | t_gru => (0 <= d_neurons d)%Z
  | t_pool => fits /\ 1 <= k
  | t_local => fits /\ 1 <= k /\ (1 <= d_filters d)%Z /\ (outputs <= 2147483647)%Z
  | t_conv => fits /\ (1 <= d_filters d)%Z /\ (outputs <= 2147483647)%Z
  end.
Lemma conv1D_bound i c x l : build_conv1D draws masks d i c x = Ok l -> (d_filters d * (x - (d_ksize d - 1)) <= 2147483647)%Z.
Proof. unfold build_conv1D. intros H. destruct (_ <? _)%Z; [discriminate|]. apply bind_Ok_inv in H as (v & Ev & H). apply imul_bound in Ev as (E1 & ->). exact E1. Qed.
Lemma conv2D_bound i c x y l : build_conv2D draws masks d i c x y = Ok l -> (d_filters d * (x - (d_ksize d - 1)) * (y - (d_ksize d - 1)) <= 2147483647)%Z.
Proof. unfold build_conv2D. intros H. destruct (_ || _); [discriminate|]. apply bind_Ok_inv in H as (v & Ev & H). apply bind_Ok_inv in H as (w & Ew & H). apply imul_bound in Ev as (E1 & ->). apply imul_bound in Ew as (E2 & ->). exact E2. Qed.
Lemma loc1D_bound i c x l k : d_ksize d = Z.of_nat k -> build_loc1D draws masks d i c (Z.of_nat x) = Ok l -> (d_filters d * Z.of_nat (tiles x k) <= 2147483647)%Z.
Proof. unfold build_loc1D. intros K H. destruct (_ <? _)%Z; [discriminate|]. apply bind_Ok_inv in H as (u & Eu & H). rewrite K in Eu. apply cdiv_inv in Eu as (_ & ->). apply bind_Ok_inv in H as (v & Ev & H). apply imul_bound in Ev as (E1 & ->). exact E1. Qed.
Lemma loc2D_bound i c x y l k : d_ksize d = Z.of_nat k -> build_loc2D draws masks d i c (Z.of_nat x) (Z.of_nat y) = Ok l -> (d_filters d * Z.of_nat (tiles x k) * Z.of_nat (tiles y k) <= 2147483647)%Z.
Proof.
  unfold build_loc2D. intros K H. destruct (_ || _); [discriminate|]. apply bind_Ok_inv in H as (u & Eu & H). apply bind_Ok_inv in H as (u2 & Eu2 & H). rewrite K in Eu, Eu2. apply cdiv_inv in Eu as (_ & ->). apply cdiv_inv in Eu2 as (_ & ->).
  apply bind_Ok_inv in H as (v & Ev & H). apply bind_Ok_inv in H as (w & Ew & H). apply imul_bound in Ev as (E1 & ->). apply imul_bound in Ew as (E2 & ->). exact E2.
Qed.
Lemma product_nat s : Forall (fun x => 0 < x) s -> (Z.of_nat (cell_count s) <= 2147483647)%Z -> product (map Z.of_nat s) = Ok (Z.of_nat (cell_count s)).
Proof.
  intros Hs H. assert (E : fold_left Z.mul (map Z.of_nat s) 1%Z = Z.of_nat (cell_count s)) by (change 1%Z with (Z.of_nat 1); apply fold_mul_nat). unfold product. rewrite <- E in *. apply product_small; [lia| |exact H].
  apply Forall_map. eapply Forall_impl; [|exact Hs]. intros a Ha. cbn in Ha. lia.
Qed.
Lemma build_layer_unfold s : Forall (fun x => 0 < x) s -> s <> [] -> (Z.of_nat (cell_count s) <= million)%Z -> build_layer draws masks d (map Z.of_nat s) =
  match d_type d with
  | t_full => let* n := size (d_neurons d) in let* ns := build_neurons (mk_full draws (cell_count s) 1 (cell_count s + 1) d) n in Ok (finish masks (cell_count s) d (BFull ns))
  | t_rec => let* n := size (d_neurons d) in let* ns := build_neurons (fun i => rneuron_init (cell_count s) 1 (cell_count s + 2) (d_bias d) (d_act d) (draws i 0)) n in Ok (finish masks (cell_count s) d (BRec ns))
  | t_gru => let* n := size (d_neurons d) in let* ns := build_neurons (fun i => gru_init (cell_count s) 1 (cell_count s + 2) (d_bias d) (draws i)) n in Ok (finish masks (cell_count s) d (BGru ns))
  | t_pool => dims (map Z.of_nat s) (build_pool1D masks d (Z.of_nat (cell_count s))) (build_pool2D masks d (Z.of_nat (cell_count s)))
  | t_local => dims (map Z.of_nat s) (build_loc1D draws masks d (Z.of_nat (cell_count s))) (build_loc2D draws masks d (Z.of_nat (cell_count s)))
  | t_conv => dims (map Z.of_nat s) (build_conv1D draws masks d (Z.of_nat (cell_count s))) (build_conv2D draws masks d (Z.of_nat (cell_count s)))
  | t_input => Throw "Input LayerModel should be in first position."
  end.
Proof.
  intros Hs Hne Hm. unfold million in Hm. unfold build_layer. rewrite product_nat by (auto; lia). cbn [bind]. destruct s as [|a t]; [congruence|]. cbn [map]. destruct (Z.ltb_spec 1000000 (Z.of_nat (cell_count (a :: t)))); [lia|].
  assert (0 < cell_count (a :: t)) by (apply fold_mul_pos; [lia|exact Hs]). destruct (d_type d); auto; rewrite size_nat; cbn [bind]; auto. destruct (Z.leb_spec (Z.of_nat (cell_count (a :: t))) 0); [lia|reflexivity].
Qed.
Lemma build_necessary s l : Forall (fun x => 0 < x) s -> sane_kernel d -> build_layer draws masks d (map Z.of_nat s) = Ok l -> buildable s.
Proof.
  intros Hs Hk H. pose proof (build_layer_built draws masks d s l Hs Hk H) as B. unfold buildable.
  assert (Hne : s <> []). { intros ->. unfold build_layer in H. cbn in H. discriminate. }
  assert (Hm : (Z.of_nat (cell_count s) <= million)%Z).
  { pose proof H as H0. unfold build_layer in H0. apply bind_Ok_inv in H0 as (p & Hp & H0). apply product_inv in Hp. change 1%Z with (Z.of_nat 1) in Hp. rewrite fold_mul_nat in Hp. fold (cell_count s) in Hp. subst p. destruct s as [|a t]; [congruence|]. cbn [map] in H0.
    destruct (Z.ltb_spec 1000000 (Z.of_nat (cell_count (a :: t)))); [discriminate|]. unfold million. lia. }
  split; [exact Hne|]. split; [exact Hm|]. rewrite build_layer_unfold in H by auto. destruct B; match goal with T : d_type d = _ |- _ => rewrite T in H |- * end; try lia.
  - destruct (one_two s c x H1) as (E1 & E2 & E3). rewrite E1, H2, Nat2Z.id. split; [|lia]. split; [destruct H1 as [->|[-> _]]; cbn; lia|]. constructor; [lia|constructor].
  - subst s. rewrite H2, Nat2Z.id. cbn [extents List.length]. split; [|lia]. split; [lia|]. constructor; [lia|]. constructor; [lia|constructor].
  - destruct (one_two s c x H1) as (E1 & E2 & E3). assert (Bd : (d_filters d * Z.of_nat (tiles x ks) <= 2147483647)%Z).
    { destruct H1 as [->|[-> ->]]; cbn [map dims] in H; eapply loc1D_bound; eauto. }
    unfold expected_shape. rewrite H0, E1, H2, H3, !Nat2Z.id in *. cbn [map]. rewrite cells2, <- tiles_covering by lia. split; [split; [destruct H1 as [->|[-> _]]; cbn; lia|constructor; [lia|constructor]]|]. repeat split; lia.
  - subst s. repeat match goal with Hf : Forall _ (_ :: _) |- _ => inversion Hf; clear Hf; subst end. cbn [map dims] in H. apply (loc2D_bound _ _ _ _ _ ks H3) in H.
    unfold expected_shape. rewrite H0, H2, H3, !Nat2Z.id in *. cbn [extents map List.length]. rewrite cells3, <- !tiles_covering by lia. split; [split; [lia|constructor; [lia|constructor; [lia|constructor]]]|]. repeat split; lia.
  - destruct (one_two s c x H1) as (E1 & E2 & E3). assert (Bd : (d_filters d * (Z.of_nat x - (d_ksize d - 1)) <= 2147483647)%Z).
    { destruct H1 as [->|[-> ->]]; cbn [map dims] in H; eapply conv1D_bound; eauto. }
    unfold expected_shape. rewrite H0, E1, H2, H3, !Nat2Z.id in *. cbn [map]. rewrite cells2. split; [split; [destruct H1 as [->|[-> _]]; cbn; lia|constructor; [lia|constructor]]|]. split; [lia|].
    replace (Z.of_nat x - (Z.of_nat ks - 1))%Z with (Z.of_nat (x - ks + 1)) in Bd by lia. lia.
  - subst s. repeat match goal with Hf : Forall _ (_ :: _) |- _ => inversion Hf; clear Hf; subst end. cbn [map dims] in H. apply conv2D_bound in H.
    unfold expected_shape. rewrite H0, H2, H3, !Nat2Z.id in *. cbn [extents map List.length]. rewrite cells3. split; [split; [lia|constructor; [lia|constructor; [lia|constructor]]]|]. split; [lia|].
    replace (Z.of_nat x - (Z.of_nat ks - 1))%Z with (Z.of_nat (x - ks + 1)) in H by lia. replace (Z.of_nat y - (Z.of_nat ks - 1))%Z with (Z.of_nat (y - ks + 1)) in H by lia. lia.
Qed.
Lemma filter_neurons_total a b c : exists ns, filter_neurons draws d (Z.of_nat a) (Z.of_nat b) (Z.of_nat c) = Ok ns.
Proof. unfold filter_neurons. rewrite !size_nat. cbn [bind]. apply plain_total. Qed.
Lemma conv1D_total i c x k f : d_ksize d = Z.of_nat k -> d_filters d = Z.of_nat f -> 0 < f -> k <= x -> (Z.of_nat (f * (x - k + 1)) <= 2147483647)%Z -> (Z.of_nat (k * c) <= 2147483647)%Z ->
  exists l, build_conv1D draws masks d (Z.of_nat i) (Z.of_nat c) (Z.of_nat x) = Ok l.
Proof.
  intros Ek Ef Hf Hx B1 B2. unfold build_conv1D. rewrite Ek, Ef. destruct (Z.ltb_spec (Z.of_nat x) (Z.of_nat k)); [lia|]. replace (Z.of_nat x - (Z.of_nat k - 1))%Z with (Z.of_nat (x - k + 1)) by lia.
  rewrite imul_nat by exact B1. cbn [bind]. destruct (Z.eqb_spec (Z.of_nat f) 0); [lia|]. rewrite quot_nat by lia. rewrite imul_nat by exact B2. cbn [bind].
  destruct (filter_neurons_total f (k * c) (x - k + 1)) as (ns & ->). rewrite !size_nat. cbn [bind]. eauto.
Qed.
Lemma conv2D_total i c x y k f : d_ksize d = Z.of_nat k -> d_filters d = Z.of_nat f -> 0 < f -> k <= x -> k <= y -> (Z.of_nat (f * (x - k + 1) * (y - k + 1)) <= 2147483647)%Z -> (Z.of_nat (k * k * c) <= 2147483647)%Z -> (Z.of_nat (k * k) <= 2147483647)%Z ->
  exists l, build_conv2D draws masks d (Z.of_nat i) (Z.of_nat c) (Z.of_nat x) (Z.of_nat y) = Ok l.
Proof.
  intros Ek Ef Hf Hx Hy B1 B2 B3. unfold build_conv2D. rewrite Ek, Ef. destruct (Z.ltb_spec (Z.of_nat x) (Z.of_nat k)); [lia|]. destruct (Z.ltb_spec (Z.of_nat y) (Z.of_nat k)); [lia|]. cbn [orb].
  replace (Z.of_nat x - (Z.of_nat k - 1))%Z with (Z.of_nat (x - k + 1)) by lia. replace (Z.of_nat y - (Z.of_nat k - 1))%Z with (Z.of_nat (y - k + 1)) by lia.
  rewrite imul_nat by (assert (f * (x - k + 1) <= f * (x - k + 1) * (y - k + 1)) by nia; lia). cbn [bind]. rewrite imul_nat by exact B1. cbn [bind]. destruct (Z.eqb_spec (Z.of_nat f) 0); [lia|].
  rewrite <- Nat.mul_assoc, quot_nat by lia. rewrite imul_nat by exact B3. cbn [bind]. rewrite imul_nat by exact B2. cbn [bind].
  destruct (filter_neurons_total f (k * k * c) ((x - k + 1) * (y - k + 1))) as (ns & ->). rewrite !size_nat. cbn [bind]. eauto.
Qed.
Lemma loc1D_total i c x k f : d_ksize d = Z.of_nat k -> d_filters d = Z.of_nat f -> 0 < f -> 0 < k -> k <= x -> (Z.of_nat (f * tiles x k) <= 2147483647)%Z -> (Z.of_nat (k * c) <= 2147483647)%Z ->
  exists l, build_loc1D draws masks d (Z.of_nat i) (Z.of_nat c) (Z.of_nat x) = Ok l.
Proof.
  intros Ek Ef Hf Hk Hx B1 B2. unfold build_loc1D. rewrite Ek, Ef. destruct (Z.ltb_spec (Z.of_nat x) (Z.of_nat k)); [lia|]. rewrite cdiv_nat by lia. cbn [bind].
  rewrite imul_nat by exact B1. cbn [bind]. destruct (Z.eqb_spec (Z.of_nat f) 0); [lia|]. rewrite quot_nat by lia. rewrite imul_nat by exact B2. cbn [bind].
  destruct (filter_neurons_total (f * tiles x k) (k * c) 1) as (ns & E). change (Z.of_nat 1) with 1%Z in E. rewrite E. rewrite !size_nat. cbn [bind]. eauto.
Qed.
Lemma loc2D_total i c x y k f : d_ksize d = Z.of_nat k -> d_filters d = Z.of_nat f -> 0 < f -> 0 < k -> k <= x -> k <= y -> (Z.of_nat (f * tiles x k * tiles y k) <= 2147483647)%Z -> (Z.of_nat (k * k * c) <= 2147483647)%Z -> (Z.of_nat (k * k) <= 2147483647)%Z ->
  exists l, build_loc2D draws masks d (Z.of_nat i) (Z.of_nat c) (Z.of_nat x) (Z.of_nat y) = Ok l.
Proof.
  intros Ek Ef Hf Hk Hx Hy B1 B2 B3. unfold build_loc2D. rewrite Ek, Ef. destruct (Z.ltb_spec (Z.of_nat x) (Z.of_nat k)); [lia|]. destruct (Z.ltb_spec (Z.of_nat y) (Z.of_nat k)); [lia|]. cbn [orb].
  rewrite !cdiv_nat by lia. cbn [bind]. destruct (tiles_spec y k Hk ltac:(lia)) as (T & _).
  rewrite imul_nat by (assert (f * tiles x k <= f * tiles x k * tiles y k) by nia; lia). cbn [bind]. rewrite imul_nat by exact B1. cbn [bind]. destruct (Z.eqb_spec (Z.of_nat f) 0); [lia|].
  rewrite <- Nat.mul_assoc, quot_nat by lia. rewrite imul_nat by exact B3. cbn [bind]. rewrite imul_nat by exact B2. cbn [bind].
  destruct (filter_neurons_total (f * (tiles x k * tiles y k)) (k * k * c) 1) as (ns & E). change (Z.of_nat 1) with 1%Z in E. rewrite E. rewrite !size_nat. cbn [bind]. eauto.
Qed.
Lemma pool1D_total i c x k : d_ksize d = Z.of_nat k -> 0 < k -> k <= x -> exists l, build_pool1D masks d (Z.of_nat i) (Z.of_nat c) (Z.of_nat x) = Ok l.
Proof. intros Ek Hk Hx. unfold build_pool1D. rewrite Ek. destruct (Z.ltb_spec (Z.of_nat x) (Z.of_nat k)); [lia|]. rewrite cdiv_nat by lia. cbn [bind]. rewrite !size_nat. cbn [bind]. destruct (tiles x k =? 0); cbn [bind]; eauto. Qed.
Lemma pool2D_total i c x y k : d_ksize d = Z.of_nat k -> 0 < k -> k <= x -> k <= y -> (Z.of_nat (c * tiles x k * tiles y k) <= 2147483647)%Z -> (Z.of_nat (k * k) <= 2147483647)%Z ->
  exists l, build_pool2D masks d (Z.of_nat i) (Z.of_nat c) (Z.of_nat x) (Z.of_nat y) = Ok l.
Proof.
  intros Ek Hk Hx Hy B1 B2. unfold build_pool2D. rewrite Ek. destruct (Z.ltb_spec (Z.of_nat x) (Z.of_nat k)); [lia|]. destruct (Z.ltb_spec (Z.of_nat y) (Z.of_nat k)); [lia|]. cbn [orb].
  rewrite !cdiv_nat by lia. cbn [bind]. destruct (tiles_spec y k Hk ltac:(lia)) as (T & _). rewrite imul_nat by (assert (c * tiles x k <= c * tiles x k * tiles y k) by nia; lia). cbn [bind].
  rewrite imul_nat by exact B1. cbn [bind]. rewrite imul_nat by exact B2. cbn [bind]. rewrite !size_nat. cbn [bind]. eauto.
Qed.
Lemma mul_mono3 a b c a' b' c' : a <= a' -> b <= b' -> c <= c' -> a * b * c <= a' * b' * c'.
Proof. intros. apply Nat.mul_le_mono; [now apply Nat.mul_le_mono|assumption]. Qed.
Lemma shape_cases s : Forall (fun x => 0 < x) s -> s <> [] -> List.length s <= 3 ->
  (exists c x, (s = [c; x] \/ s = [x] /\ c = 1) /\ 0 < c /\ 0 < x) \/ (exists c x y, s = [c; x; y] /\ 0 < c /\ 0 < x /\ 0 < y).
Proof.
  intros Hs Hne Hl. destruct s as [|a [|b [|e [|g t]]]]; [congruence| | | |cbn in Hl; lia]; repeat match goal with Hf : Forall _ (_ :: _) |- _ => inversion Hf; clear Hf; subst end.
  - left. exists 1, a. split; [now right|]. lia.
  - left. exists a, b. split; [now left|]. lia.
  - right. exists a, b, e. auto.
Qed.
Lemma dims_one {A} s c x (one : Z -> Z -> outcome A) two : s = [c; x] \/ s = [x] /\ c = 1 -> dims (map Z.of_nat s) one two = one (Z.of_nat c) (Z.of_nat x).
Proof. intros [->|[-> ->]]; reflexivity. Qed.
Lemma build_sufficient s : Forall (fun x => 0 < x) s -> sane_kernel d -> buildable s -> exists l, build_layer draws masks d (map Z.of_nat s) = Ok l.
Proof.
  intros Hs Hk (Hne & Hm & HB). rewrite build_layer_unfold by auto. unfold sane_kernel in Hk. unfold million in Hm. destruct (d_type d) eqn:Et.
  - contradiction.
  - rewrite <- (Z2Nat.id (d_neurons d)) by lia. rewrite size_nat. cbn [bind]. destruct (plain_total (cell_count s) 1 (Z.to_nat (d_neurons d))) as (ns & ->). cbn [bind]. eauto.
  - rewrite <- (Z2Nat.id (d_neurons d)) by lia. rewrite size_nat. cbn [bind].
    destruct (omap_total (fun i => rneuron_init (cell_count s) 1 (cell_count s + 2) (d_bias d) (d_act d) (draws i 0)) (seq 0 (Z.to_nat (d_neurons d)))) as (ns & E).
    { intros i _. unfold rneuron_init. replace (cell_count s + 2) with (S (S (cell_count s))) by lia. cbn [neuron_init bind]. eauto. }
    unfold build_neurons. rewrite E. cbn [bind]. eauto.
  - rewrite <- (Z2Nat.id (d_neurons d)) by lia. rewrite size_nat. cbn [bind].
    destruct (omap_total (fun i => gru_init (cell_count s) 1 (cell_count s + 2) (d_bias d) (draws i)) (seq 0 (Z.to_nat (d_neurons d)))) as (ns & E).
    { intros i _. unfold gru_init, rneuron_init. replace (cell_count s + 2) with (S (S (cell_count s))) by lia. cbn [neuron_init bind]. eauto. }
    unfold build_neurons. rewrite E. cbn [bind]. eauto.
  - destruct HB as ((Hl & Hx) & H1). destruct (nonneg_nat _ Hk) as (k & Ek). rewrite Ek, Nat2Z.id in *. destruct (shape_cases s Hs Hne Hl) as [(c & x & E & Hc & Hx0)|(c & x & y & -> & Hc & Hx0 & Hy0)].
    + destruct (one_two s c x E) as (E1 & E2 & E3). rewrite E1 in Hx. inversion Hx as [|? ? Kx _]. rewrite (dims_one _ _ _ _ _ E). now apply (pool1D_total _ _ _ k).
    + cbn [extents] in Hx. inversion Hx as [|? ? Kx Hx2]; subst. inversion Hx2 as [|? ? Ky _]; subst. cbn [map dims]. rewrite cells3 in *. pose proof (tiles_le x k ltac:(lia) Hx0). pose proof (tiles_le y k ltac:(lia) Hy0).
      apply (pool2D_total _ _ _ _ k); auto; [pose proof (mul_mono3 c (tiles x k) (tiles y k) c x y ltac:(lia) ltac:(lia) ltac:(lia)); lia|pose proof (mul_mono3 1 k k c x y ltac:(lia) ltac:(lia) ltac:(lia)); lia].
  - destruct HB as ((Hl & Hx) & H1 & H2 & H3). destruct (nonneg_nat _ Hk) as (k & Ek). destruct (nonneg_nat (d_filters d)) as (f & Ef); [lia|]. unfold expected_shape in H3. rewrite Et in H3. rewrite Ek, Ef, !Nat2Z.id in *. destruct (shape_cases s Hs Hne Hl) as [(c & x & E & Hc & Hx0)|(c & x & y & -> & Hc & Hx0 & Hy0)].
    + destruct (one_two s c x E) as (E1 & E2 & E3). rewrite E1 in *. inversion Hx as [|? ? Kx _]. rewrite (dims_one _ _ _ _ _ E). cbn [map] in H3. rewrite cells2, <- tiles_covering in H3 by lia.
      apply (loc1D_total _ _ _ k f); auto; [lia|]. rewrite E3 in Hm. assert (k * c <= c * x) by nia. lia.
    + cbn [extents] in Hx. inversion Hx as [|? ? Kx Hx2]; subst. inversion Hx2 as [|? ? Ky _]; subst. cbn [map dims extents] in *. rewrite cells3 in *. rewrite <- !tiles_covering in H3 by lia.
      apply (loc2D_total _ _ _ _ k f); auto; [lia|pose proof (mul_mono3 c k k c x y ltac:(lia) ltac:(lia) ltac:(lia)); lia|pose proof (mul_mono3 1 k k c x y ltac:(lia) ltac:(lia) ltac:(lia)); lia].
  - destruct HB as ((Hl & Hx) & H2 & H3). destruct (nonneg_nat _ Hk) as (k & Ek). destruct (nonneg_nat (d_filters d)) as (f & Ef); [lia|]. unfold expected_shape in H3. rewrite Et in H3. rewrite Ek, Ef, !Nat2Z.id in *. destruct (shape_cases s Hs Hne Hl) as [(c & x & E & Hc & Hx0)|(c & x & y & -> & Hc & Hx0 & Hy0)].
    + destruct (one_two s c x E) as (E1 & E2 & E3). rewrite E1 in *. inversion Hx as [|? ? Kx _]. rewrite (dims_one _ _ _ _ _ E). cbn [map] in H3. rewrite cells2 in H3.
      apply (conv1D_total _ _ _ k f); auto; [lia|]. rewrite E3 in Hm. assert (k * c <= c * x) by nia. lia.
    + cbn [extents] in Hx. inversion Hx as [|? ? Kx Hx2]; subst. inversion Hx2 as [|? ? Ky _]; subst. cbn [map dims extents] in *. rewrite cells3 in *.
      apply (conv2D_total _ _ _ _ k f); auto; [lia|pose proof (mul_mono3 c k k c x y ltac:(lia) ltac:(lia) ltac:(lia)); lia|pose proof (mul_mono3 1 k k c x y ltac:(lia) ltac:(lia) ltac:(lia)); lia].
Qed.
Lemma right_split s : Forall (fun x => 0 < x) s -> sane_kernel d -> right_layer d s <-> buildable s /\ valid_size s.
Proof.
  intros Hs Hk. unfold right_layer, buildable, valid_size, million. destruct (d_type d); intuition lia.
Qed.
Lemma right_built s : Forall (fun x => 0 < x) s -> sane_kernel d ->
  right_layer d s <-> exists l, build_layer draws masks d (map Z.of_nat s) = Ok l /\ layer_isValid l = 0%Z.
Proof.
  intros Hs Hk. rewrite right_split by auto. split.
  - intros (HB & HV). destruct (build_sufficient s Hs Hk HB) as (l & E). exists l. split; [exact E|]. apply (built_valid s l Hs); [now apply build_layer_built|exact HV].
  - intros (l & E & V). split; [now apply (build_necessary s l)|]. apply (built_valid s l Hs); [now apply build_layer_built|exact V].
Qed.
End P.

Section Q.
Context {N : Num}.
Variables (draws : nat -> nat -> nat -> nat -> F) (masks : nat -> nat -> nat -> bool).
Hypothesis Hd : forall l i g w, in_range (draws l i g w) /\ in_range (fabs (draws l i g w)).
Lemma right_rest ds : forall i s, Forall (fun x => 0 < x) s -> Forall sane_kernel ds -> Forall (fun d => in_range (d_bias d)) ds ->
  right_layers ds s <-> exists ls, build_rest draws masks i ds (map Z.of_nat s) = Ok ls /\ Forall (fun l => layer_isValid l = 0%Z) ls.
Proof.
  induction ds as [|d t IH]; intros i s Hs Hk Hb; cbn [right_layers build_rest].
  - split; [intros _; exists []; split; [reflexivity|constructor]|auto].
  - inversion Hk; subst. inversion Hb; subst. rewrite (right_built (draws i) (masks i) d) by auto. split.
    + intros ((a & Ea & Va) & HR). pose proof (build_layer_built _ _ _ _ _ Hs ltac:(eassumption) Ea) as B. destruct (built_expected _ _ _ _ _ Hs B Va) as (E1 & _ & E3). rewrite E1 in E3.
      apply (IH (S i)) in HR as (ls & El & Vl); auto. exists (a :: ls). rewrite Ea. cbn [bind]. rewrite E1, El. split; [reflexivity|now constructor].
    + intros (ls & El & Vl). apply bind_Ok_inv in El as (a & Ea & El). apply bind_Ok_inv in El as (r & Er & El). injection El as <-. inversion Vl; subst.
      pose proof (build_layer_built _ _ _ _ _ Hs ltac:(eassumption) Ea) as B. destruct (built_expected _ _ _ _ _ Hs B ltac:(assumption)) as (E1 & _ & E3). rewrite E1 in *.
      split; [now exists a|]. apply (IH (S i)); auto. now exists r.
Qed.
End Q.
