(* Networks that only differ by what the archive does not keep (and by nothing else) do the same. *)
From Verif Require Import Base Num ActModel NeuronModel LayerModel NetModel StatModel WaitModel DataModel FactoryModel TrainModel SaveModel SaveSpec.
Local Open Scope outcome_scope.

(* two computations with the same exceptions and related results *)
Definition orel {A B} (R : A -> B -> Prop) (x : outcome A) (y : outcome B) : Prop :=
  match x, y with Ok a, Ok b => R a b | Throw m, Throw m' => m = m' | UB, UB => True | _, _ => False end.
Lemma orel_bind {A B C D} (R : A -> B -> Prop) (S : C -> D -> Prop) x y f g : orel R x y -> (forall a b, R a b -> orel S (f a) (g b)) -> orel S (bind x f) (bind y g).
Proof. destruct x, y; cbn; auto; try contradiction. Qed.
Lemma orel_eq {A} (x : outcome A) : orel eq x x. Proof. destruct x; cbn; auto. Qed.
Lemma orel_eq_inv {A} (x y : outcome A) : orel eq x y -> x = y.
Proof. destruct x, y; cbn; intros H; try contradiction; congruence. Qed.
Lemma orel_refl {A} (R : A -> A -> Prop) x : (forall a, R a a) -> orel R x x. Proof. destruct x; cbn; auto. Qed.
Lemma orel_impl {A B} (R S : A -> B -> Prop) x y : (forall a b, R a b -> S a b) -> orel R x y -> orel S x y.
Proof. destruct x, y; cbn; auto. Qed.
Definition with_out {A B C} (R : B -> C -> Prop) (p : A * B) (q : A * C) : Prop := fst p = fst q /\ R (snd p) (snd q).
Lemma each_from_rel {A A' B} (R : A -> A' -> Prop) (f : nat -> A -> outcome (B * A)) (g : nat -> A' -> outcome (B * A')) l l' :
  Forall2 R l l' -> (forall i a b, R a b -> orel (with_out R) (f i a) (g i b)) -> forall i, orel (with_out (Forall2 R)) (each_from f i l) (each_from g i l').
Proof.
  intros H Hf. induction H as [|a b l l' Hab Hl IH]; intros i; cbn [each_from]; [split; [reflexivity|constructor]|].
  eapply orel_bind; [apply (Hf i a b Hab)|]. intros p q (E1 & E2). eapply orel_bind; [apply IH|]. intros u v (E3 & E4). cbn. split; cbn; [congruence|now constructor].
Qed.
Lemma each_rel {A A' B} (R : A -> A' -> Prop) (f : nat -> A -> outcome (B * A)) (g : nat -> A' -> outcome (B * A')) l l' :
  Forall2 R l l' -> (forall i a b, R a b -> orel (with_out R) (f i a) (g i b)) -> orel (with_out (Forall2 R)) (each f l) (each g l').
Proof. intros; now apply each_from_rel. Qed.
Lemma Forall2_map_eq {A B} (f : A -> B) l l' : map f l = map f l' <-> Forall2 (fun a b => f a = f b) l l'.
Proof.
  split; [|induction 1; cbn; congruence]. revert l'. induction l as [|a l IH]; intros [|b l'] E; try discriminate; constructor; cbn in E; injection E; auto.
Qed.

Section P.
Context {N : Num}.
Definition gru_rel (a b : GNeuron) : Prop := bare_gru a = bare_gru b.
Lemma gru_rel_inv a b : gru_rel a b -> exists e, b = mkGNeuron (g_in a) e (g_prevOut a) (g_recErr a) (g_updOut a) (g_outOut a) (g_reset a) (g_update a) (g_output a).
Proof. destruct a, b. unfold gru_rel, bare_gru. cbn. intros E. injection E as -> -> -> -> -> -> -> ->. eexists. reflexivity. Qed.
Lemma gru_output_rel a b x t : gru_rel a b -> orel (with_out gru_rel) (gru_output a x t) (gru_output b x t).
Proof.
  intros H. apply gru_rel_inv in H as (e & ->). destruct a as [i e' p r u o g1 g2 g3]. unfold gru_output.
  destruct t; cbn [gru_reset g_in g_err g_prevOut g_recErr g_updOut g_outOut g_reset g_update g_output];
    (eapply orel_bind; [apply orel_eq|]; intros ? ? ->; destruct b as [o1 h1]; eapply orel_bind; [apply orel_eq|]; intros ? ? ->; destruct b as [o2 h2];
     eapply orel_bind; [apply orel_eq|]; intros ? ? ->; destruct b as [o3 h3]; split; reflexivity).
Qed.
Lemma gru_gates_rel o a b e : gru_rel a b -> orel eq (gru_gates o a e) (gru_gates o b e).
Proof. intros H. apply gru_rel_inv in H as (e' & ->). destruct a as [i e'' p r u oo g1 g2 g3]. apply orel_eq. Qed.
Lemma gru_back_rel o a b e : gru_rel a b -> orel (with_out gru_rel) (gru_backOutput o a e) (gru_backOutput o b e).
Proof. intros H. unfold gru_backOutput. eapply orel_bind; [now apply gru_gates_rel|]. intros ? ? ->. destruct b0 as (((e1 & e2) & e3) & g'). now split. Qed.
Lemma gru_train_rel o a b e : gru_rel a b -> orel gru_rel (gru_train o a e) (gru_train o b e).
Proof. intros H. unfold gru_train. eapply orel_bind; [now apply gru_gates_rel|]. intros ? ? ->. destruct b0 as (((e1 & e2) & e3) & g'). reflexivity. Qed.
Lemma gru_weights_rel a b : gru_rel a b -> gru_weights a = gru_weights b.
Proof. intros H. apply gru_rel_inv in H as (e' & ->). reflexivity. Qed.

Definition body_rel (a b : Body) : Prop := bare_body a = bare_body b.
Inductive body_view : Body -> Body -> Prop :=
| v_full ns : body_view (BFull ns) (BFull ns)
| v_rec ns : body_view (BRec ns) (BRec ns)
| v_gru x y : Forall2 gru_rel x y -> body_view (BGru x) (BGru y)
| v_filter k f g ns : bare_filter k f = bare_filter k g -> body_view (BFilter k f ns) (BFilter k g ns).
Lemma body_view_of a b : body_rel a b -> body_view a b.
Proof.
  unfold body_rel. destruct a, b; cbn; intros E; try discriminate; injection E; intros; subst; constructor; auto. now apply Forall2_map_eq.
Qed.
Lemma body_view_to a b : body_view a b -> body_rel a b.
Proof. destruct 1 as [| |x y H|k f g ns E]; unfold body_rel; cbn; try reflexivity; f_equal; auto. now apply Forall2_map_eq. Qed.
Lemma body_weights_rel a b : body_rel a b -> body_weights a = body_weights b.
Proof.
  intros H. apply body_view_of in H. destruct H as [| |x y H|]; cbn; try reflexivity. induction H as [|a b l l' E _ IH]; cbn; [reflexivity|]. now rewrite (gru_weights_rel _ _ E), IH.
Qed.
(* a filter that is not a max pooling only matters through its bare form *)
Lemma filter_fields k f g : bare_filter k f = bare_filter k g ->
  f_filters f = f_filters g /\ f_kernels f = f_kernels g /\ f_kpf f = f_kpf g /\ f_npf f = f_npf g /\ f_ksize f = f_ksize g /\ f_nin f = f_nin g /\
  f_shapeIn f = f_shapeIn g /\ f_shapeOut f = f_shapeOut g /\ f_index f = f_index g.
Proof. destruct f, g. destruct k; cbn; intros E; injection E; intros; subst; repeat split. Qed.
Lemma filter_pool k f g : is_pool k = true -> bare_filter k f = bare_filter k g -> f = g.
Proof. destruct k; cbn; try discriminate; auto. Qed.
Lemma body_output_rel a b x t : body_rel a b -> orel (with_out body_rel) (body_output a x t) (body_output b x t).
Proof.
  intros H. apply body_view_of in H. destruct H as [ns|ns|u v H|k f g ns E]; cbn [body_output].
  - apply orel_refl. intros. now split.
  - apply orel_refl. intros. now split.
  - eapply orel_bind; [apply each_rel; [exact H|]; intros i p q Hpq; now apply gru_output_rel|]. intros (o1 & n1) (o2 & n2) (E1 & E2). cbn in E1, E2. subst o2.
    split; [reflexivity|]. cbn. apply body_view_to. now constructor.
  - destruct (filter_fields k f g E) as (A1 & A2 & A3 & A4 & A5 & A6 & A7 & A8 & A9).
    assert (C : conv_output f ns x = conv_output g ns x) by (unfold conv_output, convWindow; now rewrite A2, A6, A9).
    assert (L : loc_output f ns x = loc_output g ns x) by (unfold loc_output, locWindow; now rewrite A1, A2, A6, A9).
    destruct (is_pool k) eqn:PK; [assert (FG : f = g) by (now apply (filter_pool k)); subst g; destruct k; discriminate PK || (apply orel_refl; intros; now split)|].
    destruct k; try discriminate PK; rewrite ?C, ?L; (eapply orel_bind; [apply orel_eq|]; intros ? (o1 & n1) ->; split; [reflexivity|]; cbn; apply body_view_to; now constructor).
Qed.
Lemma body_back_rel o nin a b x : body_rel a b -> orel (with_out body_rel) (body_back o nin a x) (body_back o nin b x).
Proof.
  intros H. apply body_view_of in H. destruct H as [ns|ns|u v H|k f g ns E]; cbn [body_back].
  - apply orel_refl. intros. now split.
  - apply orel_refl. intros. now split.
  - eapply orel_bind; [apply each_rel; [exact H|]; intros i p q Hpq; eapply orel_bind; [apply orel_eq|]; intros ? ? ->; now apply gru_back_rel|]. intros (o1 & n1) (o2 & n2) (E1 & E2). cbn in E1, E2. subst o2.
    eapply orel_bind; [apply orel_eq|]. intros ? ? ->. split; [reflexivity|]. cbn. apply body_view_to. now constructor.
  - destruct (filter_fields k f g E) as (A1 & A2 & A3 & A4 & A5 & A6 & A7 & A8 & A9).
    assert (C : conv_back o nin f ns x = conv_back o nin g ns x) by (unfold conv_back; now rewrite A9).
    assert (L : forall b, loc_back b o nin f ns x = loc_back b o nin g ns x) by (intros b; unfold loc_back; now rewrite A1, A3, A9).
    destruct (is_pool k) eqn:PK; [assert (FG : f = g) by (now apply (filter_pool k)); subst g; destruct k; discriminate PK || (apply orel_refl; intros; now split)|].
    destruct k; try discriminate PK; rewrite ?C, ?L; (eapply orel_bind; [apply orel_eq|]; intros ? (o1 & n1) ->; split; [reflexivity|]; cbn; apply body_view_to; now constructor).
Qed.
Lemma body_train_rel o a b x : body_rel a b -> orel body_rel (body_train o a x) (body_train o b x).
Proof.
  intros H. apply body_view_of in H. destruct H as [ns|ns|u v H|k f g ns E]; cbn [body_train].
  - apply orel_refl. reflexivity.
  - apply orel_refl. reflexivity.
  - eapply orel_bind; [apply each_rel; [exact H|]; intros i p q Hpq; unfold trained; eapply orel_bind; [apply orel_eq|]; intros ? ? ->; eapply orel_bind; [apply gru_train_rel; exact Hpq|]; intros; now split|].
    intros (o1 & n1) (o2 & n2) (E1 & E2). cbn. apply body_view_to. now constructor.
  - destruct (is_pool k) eqn:PK; [assert (FG : f = g) by (now apply (filter_pool k)); subst g; destruct k; discriminate PK || (apply orel_refl; reflexivity)|].
    destruct k; try discriminate PK; (eapply orel_bind; [apply orel_eq|]; intros ? (o1 & n1) ->; apply body_view_to; now constructor).
Qed.

Definition layer_rel (a b : Layer) : Prop := bare_layer a = bare_layer b.
Lemma layer_rel_inv a b : layer_rel a b <-> l_in a = l_in b /\ body_rel (l_body a) (l_body b) /\ l_opts a = l_opts b.
Proof.
  unfold layer_rel, body_rel, bare_layer. split; [|intros (-> & -> & ->); reflexivity]. intros E. injection E; auto.
Qed.
Lemma layer_weights_rel a b : layer_rel a b -> layer_weights a = layer_weights b.
Proof. intros H. apply layer_rel_inv in H as (_ & H & _). now apply body_weights_rel. Qed.
Lemma neurons_rel a b : layer_rel a b -> getNumberOfNeurons a = getNumberOfNeurons b.
Proof. intros H. unfold getNumberOfNeurons. now rewrite (layer_weights_rel _ _ H). Qed.
Lemma layer_output_rel a b x t : layer_rel a b -> orel (with_out layer_rel) (layer_output a x t) (layer_output b x t).
Proof.
  intros H. apply layer_rel_inv in H as (E1 & H & E2). unfold layer_output. eapply orel_bind; [apply body_output_rel; exact H|]. intros (o1 & b1) (o2 & b2) (E3 & E4). cbn in E3, E4. subst o2. rewrite E2.
  eapply orel_bind; [apply orel_eq|]. intros ? ? ->. split; [reflexivity|]. apply layer_rel_inv. cbn. auto.
Qed.
Lemma layer_training_rel r a b x t : layer_rel a b -> orel (with_out layer_rel) (layer_outputForTraining r a x t) (layer_outputForTraining r b x t).
Proof.
  intros H. apply layer_rel_inv in H as (E1 & H & E2). unfold layer_outputForTraining. eapply orel_bind; [apply body_output_rel; exact H|]. intros (o1 & b1) (o2 & b2) (E3 & E4). cbn in E3, E4. subst o2. rewrite E2.
  eapply orel_bind; [apply orel_eq|]. intros ? (u & v) ->. split; [reflexivity|]. apply layer_rel_inv. cbn. auto.
Qed.
Lemma layer_back_rel o a b x : layer_rel a b -> orel (with_out layer_rel) (layer_backOutput o a x) (layer_backOutput o b x).
Proof.
  intros H. pose proof (layer_weights_rel _ _ H) as W. apply layer_rel_inv in H as (E1 & H & E2). unfold layer_backOutput. rewrite W, E2, E1. eapply orel_bind; [apply body_back_rel; exact H|].
  intros (o1 & b1) (o2 & b2) (E3 & E4). cbn in E3, E4. subst o2. split; [reflexivity|]. apply layer_rel_inv. cbn. auto.
Qed.
Lemma layer_train_rel o a b x : layer_rel a b -> orel layer_rel (layer_train o a x) (layer_train o b x).
Proof.
  intros H. pose proof (layer_weights_rel _ _ H) as W. apply layer_rel_inv in H as (E1 & H & E2). unfold layer_train. rewrite W, E2, E1. eapply orel_bind; [apply body_train_rel; exact H|].
  intros b1 b2 E4. apply layer_rel_inv. cbn. auto.
Qed.
Lemma chain_rel (f : nat -> Layer -> list F -> outcome (list F * Layer)) : (forall i a b v, layer_rel a b -> orel (with_out layer_rel) (f i a v) (f i b v)) ->
  forall la lb, Forall2 layer_rel la lb -> forall i v, orel (with_out (Forall2 layer_rel)) (chain f i la v) (chain f i lb v).
Proof.
  intros Hf la lb H. induction H as [|a b la lb Hab Hl IH]; intros i v; cbn [chain]; [split; [reflexivity|constructor]|].
  eapply orel_bind; [apply Hf; exact Hab|]. intros (v1 & a1) (v2 & b1) (E1 & E2). cbn in E1, E2. subst v2.
  eapply orel_bind; [apply IH|]. intros (v2 & t1) (v3 & t2) (E3 & E4). cbn in E3, E4. subst v3. split; [reflexivity|]. now constructor.
Qed.
Lemma chain_back_rel o la lb : Forall2 layer_rel la lb -> forall v, orel (with_out (Forall2 layer_rel)) (chain_back o la v) (chain_back o lb v).
Proof.
  intros H. induction H as [|a b la lb Hab Hl IH]; intros v; cbn [chain_back]; [split; [reflexivity|constructor]|].
  eapply orel_bind; [apply IH|]. intros (v1 & t1) (v2 & t2) (E1 & E2). cbn in E1, E2. subst v2.
  eapply orel_bind; [apply layer_back_rel; exact Hab|]. intros (v3 & a1) (v4 & b1) (E3 & E4). cbn in E3, E4. subst v4. split; [reflexivity|]. now constructor.
Qed.
Definition net_rel (a b : Net) : Prop := bare_net a = bare_net b.
Lemma net_rel_inv a b : net_rel a b <-> Forall2 layer_rel (nn_layers a) (nn_layers b) /\ nn_opt a = nn_opt b /\ nn_nan a = nn_nan b /\ nn_trainings a = nn_trainings b.
Proof.
  unfold net_rel, bare_net. split.
  - intros E. injection E as E1 E2 E3 E4. apply Forall2_map_eq in E1. auto.
  - intros (H & -> & -> & ->). apply (proj2 (Forall2_map_eq bare_layer _ _)) in H. now rewrite H.
Qed.
Lemma net_output_rel a b x t : net_rel a b -> orel (with_out net_rel) (net_output a x t) (net_output b x t).
Proof.
  intros H. apply net_rel_inv in H as (H & E1 & E2 & E3). unfold net_output.
  assert (HC := chain_rel (fun _ l v => layer_output l v t) (fun i a b v => layer_output_rel a b v t) _ _ H 0 x).
  destruct H as [|la lb ta tb Hl Ht]; [exact I|]. eapply orel_bind; [exact HC|]. intros (v1 & l1) (v2 & l2) (E4 & E5). cbn in E4, E5. subst v2. split; [reflexivity|].
  apply net_rel_inv. cbn. rewrite E2. auto.
Qed.
Lemma net_training_rel r a b x t : net_rel a b -> orel (with_out net_rel) (net_outputForTraining r a x t) (net_outputForTraining r b x t).
Proof.
  intros H. apply net_rel_inv in H as (H & E1 & E2 & E3). unfold net_outputForTraining.
  assert (HC := chain_rel (fun i l v => layer_outputForTraining (r i) l v t) (fun i a b v => layer_training_rel (r i) a b v t) _ _ H 0 x).
  destruct H as [|la lb ta tb Hl Ht]; [exact I|]. eapply orel_bind; [exact HC|]. intros (v1 & l1) (v2 & l2) (E4 & E5). cbn in E4, E5. subst v2. split; [reflexivity|].
  apply net_rel_inv. cbn. rewrite E2. auto.
Qed.
Lemma last_rel la lb : Forall2 layer_rel la lb -> forall a b, layer_rel a b -> layer_rel (last la a) (last lb b).
Proof.
  induction 1 as [|x y la lb Hxy Hl IH]; intros a b Hab; [exact Hab|]. destruct Hl as [|x' y' la lb Hx' Hl]; [exact Hxy|]. exact (IH a b Hab).
Qed.
Lemma backpropagation_rel r a b x y t : net_rel a b -> orel net_rel (backpropagation r a x y t) (backpropagation r b x y t).
Proof.
  intros H. unfold backpropagation. eapply orel_bind; [apply net_training_rel; exact H|]. intros (v1 & n1) (v2 & n2) (E1 & E2). cbn in E1, E2. subst v2.
  pose proof E2 as HN. apply net_rel_inv in E2 as (HL & E3 & E4 & E5). rewrite <- E4. destruct (nn_nan n1) eqn:En; [exact HN|].
  rewrite <- E3. destruct HL as [|l1 l2 t1 t2 Hl Ht]; [exact I|]. rewrite (neurons_rel _ _ (last_rel (l1 :: t1) (l2 :: t2) (Forall2_cons _ _ Hl Ht) _ _ Hl)).
  eapply orel_bind; [apply orel_eq|]. intros ? e ->. eapply orel_bind; [apply chain_back_rel; exact Ht|]. intros (v3 & m1) (v4 & m2) (E6 & E7). cbn in E6, E7. subst v4.
  eapply orel_bind; [apply layer_train_rel; exact Hl|]. intros f1 f2 Hf. apply net_rel_inv. cbn. auto.
Qed.
Lemma trainOnce_rel r a b x y t : net_rel a b -> orel net_rel (trainOnce r a x y t) (trainOnce r b x y t).
Proof.
  intros H. unfold trainOnce. eapply orel_bind; [apply backpropagation_rel; exact H|]. intros n1 n2 E. apply net_rel_inv in E as (HL & E3 & E4 & E5). apply net_rel_inv. cbn. rewrite E5. auto.
Qed.
End P.
