(* The networks built, for C84. *)
From Coq Require Import Reals Lia Lra.
From Verif Require Import Base Num ActModel NeuronModel LayerModel NetModel FactoryModel LookSpec LookProofs PoolProofs AlikeProofs AlikeTrain BuildProofs NeutralSpec NeutralProofs RateSpec RateProofs RateNet.
Local Open Scope outcome_scope.
Local Open Scope list_scope.
Local Existing Instance RNum.
Local Open Scope nat_scope.

Section Built.
Variable c : R.
Definition post {A} (P : A -> Prop) (x : outcome A) : Prop := match x with Ok a => P a | _ => True end.
Lemma post_bind {A B} (P : A -> Prop) (Q : B -> Prop) x f : post P x -> (forall a, P a -> post Q (f a)) -> post Q (bind x f).
Proof. destruct x; cbn; auto. Qed.
Lemma post_any {A B} (Q : B -> Prop) (x : outcome A) f : (forall a, post Q (f a)) -> post Q (bind x f).
Proof. destruct x; cbn; auto. Qed.
Lemma post_if {B} (Q : B -> Prop) (b : bool) p q : post Q p -> post Q q -> post Q (if b then p else q).
Proof. now destruct b. Qed.
Lemma post_omap {A B} (P : B -> Prop) (f : A -> outcome B) l : (forall a, post P (f a)) -> post (Forall P) (omap f l).
Proof. intros H. induction l as [|a l IH]; cbn; [constructor|]. eapply post_bind; [apply H|]. intros b Hb. eapply post_bind; [exact IH|]. intros r Hr. cbn. now constructor. Qed.
Lemma nsc_init ni bs nw b a dr : post (fun n => nsc c n n) (neuron_init ni bs nw b a dr).
Proof. unfold neuron_init. destruct nw; cbn; [exact I|]. eexists. split; [reflexivity|]. cbn. apply F2_repeat, sc_zero. Qed.
Lemma rsc_init ni bs nw b a dr : post (fun n => rsc c n n) (rneuron_init ni bs nw b a dr).
Proof. unfold rneuron_init. eapply post_bind; [apply nsc_init|]. intros n Hn. cbn. repeat split; auto. apply sc_zero. Qed.
Lemma gsc_init ni bs nw b dr : post (fun n => gsc c n n) (gru_init ni bs nw b dr).
Proof.
  unfold gru_init. eapply post_bind; [apply rsc_init|]. intros x Hx. eapply post_bind; [apply rsc_init|]. intros y Hy. eapply post_bind; [apply rsc_init|]. intros z Hz. cbn.
  repeat split; auto; first [apply Hx|apply Hy|apply Hz].
Qed.
Lemma F2_self {A} (R : A -> A -> Prop) l : Forall (fun a => R a a) l -> Forall2 R l l.
Proof. induction 1; constructor; auto. Qed.
Definition fresh (d : LDesc) (masks : nat -> nat -> bool) (l : Layer) : Prop := bsc c (l_body l) (l_body l) /\ l_opts l = build_opts masks (getNumberOfNeurons l) (d_opts d).
Lemma fresh_post d masks nin b : bsc c b b -> post (fresh d masks) (Ok (finish masks nin d b)).
Proof. intros H. split; [exact H|reflexivity]. Qed.
Lemma build_neurons_sc {A} (R : A -> A -> Prop) mk n : (forall i, post (fun a => R a a) (mk i)) -> post (fun ns => Forall2 R ns ns) (build_neurons mk n).
Proof. intros H. pose proof (post_omap (fun a => R a a) mk (seq 0 n) H) as X. unfold build_neurons. destruct (omap mk (seq 0 n)); cbn in X |- *; auto. now apply F2_self. Qed.
Lemma filter_fresh draws d a b e : post (fun ns => Forall2 (nsc c) ns ns) (filter_neurons draws d a b e).
Proof. unfold filter_neurons. do 3 (apply post_any; intro). apply build_neurons_sc. intros i. apply nsc_init. Qed.
Ltac fr := repeat first [apply fresh_post; constructor; solve [assumption|constructor] | apply post_if | eapply post_bind; [apply filter_fresh|intros ? ?] | apply post_any; intro | exact I].
Lemma post_dims {B} (Q : B -> Prop) shape one two : (forall a b, post Q (one a b)) -> (forall a b e, post Q (two a b e)) -> post Q (dims shape one two).
Proof. intros H1 H2. unfold dims. destruct shape as [|x [|y [|z [|]]]]; cbn; auto. Qed.
Lemma build_layer_fresh draws masks d shape : post (fresh d masks) (build_layer draws masks d shape).
Proof.
  unfold build_layer. apply post_any. intros inputs. destruct shape as [|z t]; [exact I|]. apply post_if; [exact I|]. destruct (d_type d); try exact I.
  - apply post_if; [exact I|]. do 2 (apply post_any; intro). eapply post_bind; [apply (build_neurons_sc (nsc c)); intros i; apply nsc_init|]. intros ns H. apply fresh_post. now constructor.
  - do 2 (apply post_any; intro). eapply post_bind; [apply (build_neurons_sc (rsc c)); intros i; apply rsc_init|]. intros ns H. apply fresh_post. now constructor.
  - do 2 (apply post_any; intro). eapply post_bind; [apply (build_neurons_sc (gsc c)); intros i; apply gsc_init|]. intros ns H. apply fresh_post. now constructor.
  - apply post_dims; intros; unfold build_pool1D, build_pool2D; fr.
  - apply post_dims; intros; unfold build_loc1D, build_loc2D; fr.
  - apply post_dims; intros; unfold build_conv1D, build_conv2D; fr.
Qed.
(* a description with other options *)
Section Other.
Variables (draws : nat -> nat -> nat -> F) (masks masks' : nat -> nat -> bool) (d d' : LDesc).
Hypothesis Hd : d' = mkDesc (d_type d) (d_neurons d) (d_filters d) (d_ksize d) (d_shape d) (d_act d) (d_bias d) (d_opts d').
Definition also (p p' : outcome Layer) : Prop := orel (fun l l' => exists nin b, l = finish masks nin d b /\ l' = finish masks' nin d' b) p p'.
Lemma also_bind {A} (x : outcome A) f g : (forall a, also (f a) (g a)) -> also (bind x f) (bind x g).
Proof. intros H. destruct x; cbn; auto. Qed.
Lemma also_if (b : bool) p p' q q' : also p p' -> also q q' -> also (if b then p else q) (if b then p' else q').
Proof. now destruct b. Qed.
Lemma also_ok nin b : also (Ok (finish masks nin d b)) (Ok (finish masks' nin d' b)). Proof. cbn. eauto. Qed.
Lemma also_dims shape one one' two two' : (forall a b, also (one a b) (one' a b)) -> (forall a b e, also (two a b e) (two' a b e)) -> also (dims shape one two) (dims shape one' two').
Proof. intros H1 H2. unfold dims. destruct shape as [|x [|y [|z [|]]]]; cbn; auto. Qed.
Ltac al := repeat first [apply also_ok | apply also_if | apply also_bind; intro | reflexivity | exact I].
Lemma build_layer_also shape : also (build_layer draws masks d shape) (build_layer draws masks' d' shape).
Proof.
  assert (E1 : d_type d' = d_type d) by now rewrite Hd. assert (E2 : d_neurons d' = d_neurons d) by now rewrite Hd. assert (E3 : d_bias d' = d_bias d) by now rewrite Hd.
  assert (E4 : d_act d' = d_act d) by now rewrite Hd. assert (E5 : d_ksize d' = d_ksize d) by now rewrite Hd. assert (E6 : d_filters d' = d_filters d) by now rewrite Hd.
  assert (E7 : forall a b e, filter_neurons draws d' a b e = filter_neurons draws d a b e) by (intros; unfold filter_neurons, mk_full; now rewrite E3, E4).
  assert (E8 : forall a b e, mk_full draws a b e d' = mk_full draws a b e d) by (intros; unfold mk_full; now rewrite E3, E4).
  unfold build_layer. apply also_bind. intros inputs. destruct shape as [|z t]; [reflexivity|]. apply also_if; [reflexivity|].
  rewrite E1, E2, E3, E4. destruct (d_type d); try reflexivity.
  - apply also_if; [reflexivity|]. do 2 (apply also_bind; intro). rewrite E8. al.
  - al.
  - al.
  - apply also_dims; intros; unfold build_pool1D, build_pool2D; rewrite ?E5; al.
  - apply also_dims; intros; unfold build_loc1D, build_loc2D; rewrite ?E5, ?E6; repeat first [rewrite E7 | apply also_ok | apply also_if | apply also_bind; intro | reflexivity | exact I].
  - apply also_dims; intros; unfold build_conv1D, build_conv2D; rewrite ?E5, ?E6; repeat first [rewrite E7 | apply also_ok | apply also_if | apply also_bind; intro | reflexivity | exact I].
Qed.
End Other.
Lemma build_opts_regularized m n d : build_opts m n (d_opts (regularized c d)) = map (sopt c) (build_opts m n (d_opts d)).
Proof.
  unfold build_opts, regularized. cbn [d_opts]. rewrite map_length, map_map. generalize 0. induction (d_opts d) as [|op ops IH]; intros i; [reflexivity|]. cbn [List.length seq combine map].
  rewrite IH. f_equal. cbn [fst snd]. destruct op; reflexivity.
Qed.
Lemma body_fresh draws masks d shape nin b : build_layer draws masks d shape = Ok (finish masks nin d b) -> bsc c b b.
Proof. intros E. pose proof (build_layer_fresh draws masks d shape) as H. rewrite E in H. exact (proj1 H). Qed.
Section All.
Variables (draws : nat -> nat -> nat -> nat -> F) (masks masks' : nat -> nat -> nat -> bool) (dl : LDesc).
Variables L : nat.
Notation k := (List.length (d_opts dl)).
Hypothesis R1 : forall i, i <> L -> forall j y, masks' i j y = masks i j y.
Hypothesis R2 : forall j y, j < k -> masks' L j y = masks L j y.
Lemma build_rest_csc ds : forall i shape, i + List.length ds = L ->
  orel (csc c k (List.length ds)) (build_rest draws masks i (ds ++ [dl]) shape) (build_rest draws masks' i (map (regularized c) ds ++ [with_last_option (@d_mult RNum c) dl]) shape).
Proof.
  induction ds as [|d t IH]; intros i shape Hi; cbn [app map List.length build_rest] in *.
  - rewrite Nat.add_0_r in Hi. subst i. pose proof (build_layer_also (draws L) (masks L) (masks' L) dl (with_last_option (@d_mult RNum c) dl) eq_refl shape) as X. unfold also in X.
    destruct (build_layer (draws L) (masks L) dl shape) as [l|e|] eqn:E, (build_layer (draws L) (masks' L) _ shape) as [l'|e'|]; cbn [orel bind] in X |- *; auto; try contradiction.
    destruct X as (nin & b & -> & ->). apply csc_last. split; [reflexivity|]. split; [eapply body_fresh; exact E|]. cbn [l_opts finish]. split; [|apply build_opts_len].
    unfold with_last_option. cbn [d_opts]. rewrite build_opts_app. f_equal. apply build_opts_ext. intros o i Ho. now apply R2.
  - pose proof (build_layer_also (draws i) (masks i) (masks' i) d (regularized c d) eq_refl shape) as X. unfold also in X.
    destruct (build_layer (draws i) (masks i) d shape) as [l|e|] eqn:E, (build_layer (draws i) (masks' i) _ shape) as [l'|e'|]; cbn [orel bind] in X |- *; auto; try contradiction.
    destruct X as (nin & b & -> & ->).
    change (getShapeOfOutput (finish (masks' i) nin (@regularized RNum c d) b)) with (getShapeOfOutput (finish (masks i) nin d b)).
    specialize (IH (S i) (map Z.of_nat (getShapeOfOutput (finish (masks i) nin d b))) ltac:(lia)).
    destruct (build_rest draws masks (S i) (t ++ [dl]) _) as [ls|e|], (build_rest draws masks' (S i) _ _) as [ls'|e'|]; cbn [orel bind] in IH |- *; auto; try contradiction.
    apply csc_cons; [|exact IH]. split; [reflexivity|]. split; [eapply body_fresh; exact E|]. cbn [l_opts finish]. rewrite build_opts_regularized. f_equal.
    apply build_opts_ext. intros o x Ho. apply R1. lia.
Qed.
End All.
Lemma rate_rel draws masks masks' d0 ds dl l m n n' : same_draws (one_more (List.length ds) (List.length (d_opts dl))) masks masks' ->
  construct draws masks (d0 :: ds ++ [dl]) (c * l)%R m = Ok n -> construct draws masks' (d0 :: map (regularized c) ds ++ [with_last_option (d_mult c) dl]) l m = Ok n' ->
  nrel c (@mkSGD RNum (c * l)%R m) (@mkSGD RNum l m) (List.length ds) (List.length (d_opts dl)) n n'.
Proof.
  intros Hd E E'. apply draws_more in Hd as (R1 & R2).
  pose proof (construct_inv _ _ _ _ _ _ E) as (a0 & rest & X & Ht & Hb & _ & _ & En). injection X as <- <-.
  pose proof (construct_inv _ _ _ _ _ _ E') as (a0 & rest & X & Ht' & Hb' & _ & _ & En'). injection X as <- <-.
  pose proof (build_rest_csc draws masks masks' dl (List.length ds) R1 R2 ds 0 (d_shape d0) eq_refl) as X. rewrite Hb, Hb' in X. cbn [orel] in X.
  rewrite En, En'. split; [|cbn; auto]. exact X.
Qed.
Lemma rate_ends draws masks masks' d0 ds dl l m n n' : same_draws (one_more (List.length ds) (List.length (d_opts dl))) masks masks' ->
  construct draws masks (d0 :: ds ++ [dl]) (c * l)%R m = Ok n -> construct draws masks' (d0 :: map (regularized c) ds ++ [with_last_option (d_mult c) dl]) l m = Ok n' ->
  forall cs cs', Forall2 (same_call (one_more (List.length ds) (List.length (d_opts dl)))) cs cs' -> same_end (perform_all n cs) (perform_all n' cs').
Proof.
  intros Hd E E' cs cs' Hc. apply (nrel_same_end c (@mkSGD RNum (c * l)%R m) (@mkSGD RNum l m) (List.length ds) (List.length (d_opts dl))).
  apply (perform_all_sc c (@mkSGD RNum (c * l)%R m) (@mkSGD RNum l m) eq_refl eq_refl); [exact Hc|]. eapply rate_rel; eassumption.
Qed.
(* without regularization nothing is to be multiplied *)
Lemma regularized_none d : no_regularization d -> regularized c d = d.
Proof.
  intros H. destruct d as [t n f k s a b os]. unfold regularized, no_regularization in *. cbn in *. f_equal. induction os as [|op os IH]; [reflexivity|]. cbn. rewrite IH by (intros; apply H; now right).
  specialize (H op (or_introl eq_refl)). destruct op; try contradiction; reflexivity.
Qed.
Lemma regularized_all ds : Forall no_regularization ds -> map (regularized c) ds = ds.
Proof. induction 1 as [|d ds Hd _ IH]; cbn; [reflexivity|]. now rewrite IH, regularized_none. Qed.
End Built.
