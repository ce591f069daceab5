(* C74: predictions made between trainings do not change what a feed-forward network learns. *)
From Verif Require PureProps.
From Verif Require Import Base Num ActModel NeuronModel LayerModel NetModel FactoryModel FactorySpec FactoryProofs NeuronProofs SafeProofs BuildProofs AlikeProofs PureSpec LookSpec LookProofs.
Local Open Scope outcome_scope.

Section P.
Context {N : Num}.
Definition lrel (st : bool) (a b : Layer) : Prop := l_in a = l_in b /\ l_opts a = l_opts b /\ brel st (l_body a) (l_body b).
Lemma lrel_weights st a b : lrel st a b -> layer_weights a = layer_weights b.
Proof. intros (_ & _ & H). unfold layer_weights. now apply brel_weights with (st := st). Qed.
Lemma lrel_weak a b : lrel true a b -> lrel false a b.
Proof. intros (A & B & C). split; [exact A|]. split; [exact B|]. now apply brel_weak. Qed.
Lemma layer_test_rel a b x t : lrel false a b -> orel (with_out (lrel true)) (layer_output a x t) (layer_output b x t).
Proof.
  intros (A & B & C). unfold layer_output. eapply orel_bind; [apply (body_forward _ _ x t C)|]. intros [o1 b1] [o2 b2] (Eo & Hb). cbn in Eo, Hb. subst o2. rewrite <- B.
  eapply orel_bind; [apply orel_eq|]. intros o ? <-. split; [reflexivity|]. now split.
Qed.
Lemma layer_forward_rel rand a b x t : lrel false a b -> orel (with_out (lrel true)) (layer_outputForTraining rand a x t) (layer_outputForTraining rand b x t).
Proof.
  intros (A & B & C). unfold layer_outputForTraining. eapply orel_bind; [apply (body_forward _ _ x t C)|]. intros [o1 b1] [o2 b2] (Eo & Hb). cbn in Eo, Hb. subst o2. rewrite <- B.
  eapply orel_bind; [apply orel_eq|]. intros [o os] ? <-. split; [reflexivity|]. now split.
Qed.
Lemma layer_back_rel o a b e : lrel true a b -> orel (with_out (lrel true)) (layer_backOutput o a e) (layer_backOutput o b e).
Proof.
  intros H. pose proof H as (A & B & C). unfold layer_backOutput. rewrite <- (lrel_weights _ _ _ H), <- A, <- B. eapply orel_bind; [apply (body_backward o (l_in a) _ _ _ C)|]. intros [o1 b1] [o2 b2] (Eo & Hb). cbn in Eo, Hb. subst o2. split; [reflexivity|]. now split.
Qed.
Lemma layer_train_rel o a b e : lrel true a b -> orel (lrel true) (layer_train o a e) (layer_train o b e).
Proof.
  intros H. pose proof H as (A & B & C). unfold layer_train. rewrite <- (lrel_weights _ _ _ H), <- A, <- B. eapply orel_bind; [apply (body_trains o _ _ _ C)|]. intros b1 b2 Hb. now split.
Qed.
Lemma chain_rel (f : nat -> Layer -> list F -> outcome (list F * Layer)) : (forall i a b x, lrel false a b -> orel (with_out (lrel true)) (f i a x) (f i b x)) ->
  forall u v, Forall2 (lrel false) u v -> forall i x, orel (with_out (Forall2 (lrel true))) (chain f i u x) (chain f i v x).
Proof.
  intros Hf u v H. induction H as [|a b u v Hab _ IH]; intros i x; cbn [chain]; [split; [reflexivity|constructor]|].
  eapply orel_bind; [apply (Hf i a b x Hab)|]. intros [o1 a1] [o2 b1] (Eo & H1). cbn in Eo, H1. subst o2. eapply orel_bind; [apply IH|]. intros [o3 u1] [o4 v1] (Eo & H2). cbn in Eo, H2. subst o4. split; [reflexivity|]. now constructor.
Qed.
Lemma chain_back_rel o u v : Forall2 (lrel true) u v -> forall e, orel (with_out (Forall2 (lrel true))) (chain_back o u e) (chain_back o v e).
Proof.
  induction 1 as [|a b u v Hab _ IH]; intros e; cbn [chain_back]; [split; [reflexivity|constructor]|].
  eapply orel_bind; [apply IH|]. intros [o1 u1] [o2 v1] (Eo & H1). cbn in Eo, H1. subst o2. eapply orel_bind; [apply (layer_back_rel o a b o1 Hab)|]. intros [o3 a1] [o4 b1] (Eo & H2). cbn in Eo, H2. subst o4. split; [reflexivity|]. now constructor.
Qed.
Definition netrel (a b : Net) : Prop := Forall2 (lrel false) (nn_layers a) (nn_layers b) /\ nn_opt a = nn_opt b /\ nn_nan a = nn_nan b /\ nn_trainings a = nn_trainings b.
Lemma F2_weak u v : Forall2 (lrel true) u v -> Forall2 (lrel false) u v.
Proof. apply F2_imp. intros; now apply lrel_weak. Qed.
Lemma netrel_weights a b : netrel a b -> net_weights a = net_weights b.
Proof. intros (H & _). unfold net_weights. induction H as [|x y u v Hx _ IH]; [reflexivity|]. cbn. now rewrite (lrel_weights _ _ _ Hx), IH. Qed.
Lemma predict_rel a b x t : netrel a b -> orel (with_out netrel) (net_output a x t) (net_output b x t).
Proof.
  intros (H & A & B & C). unfold net_output. assert (X := chain_rel (fun _ l v => layer_output l v t) (fun _ p q z => layer_test_rel p q z t) _ _ H 0 x).
  destruct (nn_layers a) as [|a0 u], (nn_layers b) as [|b0 v]; try (inversion H; fail); [exact I|]. eapply orel_bind; [exact X|]. intros [o1 u1] [o2 v1] (Eo & H1). cbn in Eo, H1. subst o2. split; [reflexivity|]. cbn [snd]. rewrite A, B, C. repeat split. now apply F2_weak.
Qed.
Lemma inspect_rel a b x : netrel a b -> orel (with_out netrel) (getLayerOutputs a x) (getLayerOutputs b x).
Proof.
  intros (H & A & B & C). unfold getLayerOutputs. assert (X : forall z, orel (with_out (Forall2 (lrel true))) (chain_outputs (nn_layers a) z) (chain_outputs (nn_layers b) z)).
  { clear - H. induction H as [|p q u v Hab _ IH]; intros z; cbn [chain_outputs]; [split; [reflexivity|constructor]|]. eapply orel_bind; [apply (layer_test_rel p q z true Hab)|]. intros [o1 a1] [o2 b1] (Eo & H1). cbn in Eo, H1. subst o2. eapply orel_bind; [apply IH|]. intros [o3 u1] [o4 v1] (Eo & H2). cbn in Eo, H2. subst o4. split; [reflexivity|]. now constructor. }
  specialize (X x). destruct (nn_layers a) as [|a0 u], (nn_layers b) as [|b0 v]; try (inversion H; fail); [exact I|]. eapply orel_bind; [exact X|]. intros [o1 u1] [o2 v1] (Eo & H1). cbn in Eo, H1. subst o2. split; [reflexivity|]. cbn [snd]. rewrite A, B, C. repeat split. now apply F2_weak.
Qed.
Lemma getNumber st a b : lrel st a b -> getNumberOfNeurons a = getNumberOfNeurons b.
Proof. intros H. unfold getNumberOfNeurons. now rewrite (lrel_weights _ _ _ H). Qed.
Lemma last_rel {A} (R : A -> A -> Prop) u v : Forall2 R u v -> forall a b, R a b -> R (last u a) (last v b).
Proof. induction 1 as [|p q u v Hpq Huv IH]; intros a b Hab; [exact Hab|]. inversion Huv; subst; [exact Hpq|]. cbn [last] in *. apply IH. exact Hab. Qed.
Lemma train_once_rel rand a b x d t : netrel a b -> orel netrel (trainOnce rand a x d t) (trainOnce rand b x d t).
Proof.
  intros (H & A & B & C). unfold trainOnce. eapply orel_bind with (R := netrel).
  - unfold backpropagation. eapply orel_bind with (R := with_out (fun p q : Net => Forall2 (lrel true) (nn_layers p) (nn_layers q) /\ nn_opt p = nn_opt q /\ nn_nan p = nn_nan q /\ nn_trainings p = nn_trainings q)).
    + unfold net_outputForTraining. assert (X := chain_rel (fun i l v => layer_outputForTraining (rand i) l v t) (fun i p q z => layer_forward_rel (rand i) p q z t) _ _ H 0 x).
      destruct (nn_layers a) as [|a0 u], (nn_layers b) as [|b0 v]; try (inversion H; fail); [exact I|]. eapply orel_bind; [exact X|]. intros [o1 u1] [o2 v1] (Eo & H1). cbn in Eo, H1. subst o2. split; [reflexivity|]. cbn [snd nn_layers nn_opt nn_nan nn_trainings]. rewrite A, B, C. auto.
    + clear. intros [o1 a] [o2 b] (Eo & H & A & B & C). cbn in Eo, H, A, B, C. subst o2. rewrite <- B. destruct (nn_nan a) eqn:En; [cbn; split; [now apply F2_weak|]; split; [exact A|]; split; [congruence|exact C]|].
      inversion H as [E1 E2|p q u v Hpq Huv E1 E2]; [exact I|]. assert (El := last_rel (lrel true) _ _ (Forall2_cons _ _ Hpq Huv) _ _ Hpq). rewrite <- (getNumber _ _ _ El), <- A, <- C.
      eapply orel_bind; [apply orel_eq|]. intros errs ? <-. eapply orel_bind; [apply (chain_back_rel _ _ _ Huv)|]. intros [e1 u1] [e2 v1] (Ee & H1). cbn in Ee, H1. subst e2. eapply orel_bind; [apply (layer_train_rel _ _ _ e1 Hpq)|]. intros p1 q1 H2. split; [|auto]. apply F2_weak. now constructor.
  - intros p q (H1 & A1 & B1 & C1). cbn. split; [exact H1|]. cbn. rewrite C1. auto.
Qed.
Lemma perform_rel a b c : netrel a b -> orel (with_out netrel) (perform a c) (perform b c).
Proof.
  intros H. destruct c as [rand x d t|x t|x]; cbn [perform].
  - eapply orel_bind; [apply (train_once_rel rand a b x d t H)|]. intros; now split.
  - eapply orel_bind; [apply (predict_rel a b x t H)|]. intros [o1 p] [o2 q] (E & H1). cbn in E, H1. subst o2. now split.
  - eapply orel_bind; [apply (inspect_rel a b x H)|]. intros [o1 p] [o2 q] (E & H1). cbn in E, H1. subst o2. now split.
Qed.
Lemma perform_all_rel cs : forall a b, netrel a b -> orel (with_out netrel) (perform_all a cs) (perform_all b cs).
Proof.
  induction cs as [|c cs IH]; intros a b H; cbn [perform_all]; [now split|]. eapply orel_bind; [apply (perform_rel a b c H)|]. intros [x p] [y q] (E & H1). cbn in E, H1. subst y.
  eapply orel_bind; [apply (IH p q H1)|]. intros [r p2] [r2 q2] (E & H2). cbn in E, H2. subst r2. now split.
Qed.
Lemma netrel_indistinguishable a b : netrel a b -> indistinguishable a b.
Proof.
  intros H cs. assert (X := perform_all_rel cs a b H). destruct (perform_all a cs) as [[r p]| |], (perform_all b cs) as [[r2 q]| |]; cbn in X; try contradiction; auto. destruct X as (E & H1). cbn in E, H1. split; [exact E|]. split; [now apply netrel_weights|]. apply H1.
Qed.
(* ---------- calls that do not train ---------- *)
Lemma layer_idle a b x t o b' : lrel false a b -> layer_output b x t = Ok (o, b') -> lrel false a b'.
Proof.
  intros (A & B & C) H. unfold layer_output in H. destruct (body_output (l_body b) x t) as [[o1 b1]| |] eqn:E1; try discriminate. cbn [bind] in H. destruct (opts_testing (l_opts b) o1) as [o2| |]; try discriminate. cbn in H. injection H as _ <-.
  split; [exact A|]. split; [exact B|]. exact (body_idle _ _ x t o1 b1 C E1).
Qed.
Lemma chain_idle t u v : Forall2 (lrel false) u v -> forall i x o v', chain (fun _ l v => layer_output l v t) i v x = Ok (o, v') -> Forall2 (lrel false) u v'.
Proof.
  induction 1 as [|a b u v Hab _ IH]; intros i x o v' H; cbn [chain] in H; [injection H as _ <-; constructor|].
  destruct (layer_output b x t) as [[o1 b1]| |] eqn:E1; try discriminate. cbn [bind] in H. destruct (chain _ (S i) v o1) as [[o2 v2]| |] eqn:E2; try discriminate. cbn in H. injection H as _ <-. constructor; [exact (layer_idle _ _ _ _ _ _ Hab E1)|exact (IH _ _ _ _ E2)].
Qed.
Lemma outputs_idle u v : Forall2 (lrel false) u v -> forall x o v', chain_outputs v x = Ok (o, v') -> Forall2 (lrel false) u v'.
Proof.
  induction 1 as [|a b u v Hab _ IH]; intros x o v' H; cbn [chain_outputs] in H; [injection H as _ <-; constructor|].
  destruct (layer_output b x true) as [[o1 b1]| |] eqn:E1; try discriminate. cbn [bind] in H. destruct (chain_outputs v o1) as [[o2 v2]| |] eqn:E2; try discriminate. cbn in H. injection H as _ <-. constructor; [exact (layer_idle _ _ _ _ _ _ Hab E1)|exact (IH _ _ _ E2)].
Qed.
Lemma any_normal (o : list F) : (forall v, In v o -> fnormal v = true) -> anyAbnormal o = false.
Proof. intros H. unfold anyAbnormal. destruct (existsb _ o) eqn:E; [|reflexivity]. apply existsb_exists in E as (v & Hv & E). rewrite (H v Hv) in E. discriminate. Qed.
Lemma perform_idle a b c r b' : netrel a b -> trainings [c] = [] -> perform b c = Ok (r, b') -> normal_answers [r] -> netrel a b'.
Proof.
  intros (H & A & B & C) Hc E Hn. destruct c as [rand x d t|x t|x]; [discriminate| |]; cbn [perform] in E.
  - destruct (net_output b x t) as [[o b1]| |] eqn:E1; try discriminate. cbn in E. injection E as <- <-. unfold net_output in E1. destruct (nn_layers b) as [|b0 v] eqn:Eb; [discriminate|]. rewrite <- Eb in *. destruct (chain _ 0 (nn_layers b) x) as [[o2 ls]| |] eqn:E2; try discriminate. cbn [bind] in E1. injection E1 as <- <-.
    assert (X := chain_idle t _ _ H 0 x _ _ E2). split; [exact X|]. cbn. rewrite (any_normal o2), orb_false_r; [auto|]. intros w Hw. apply (Hn o2 w); [now left|exact Hw].
  - destruct (getLayerOutputs b x) as [[o b1]| |] eqn:E1; try discriminate. cbn in E. injection E as <- <-. unfold getLayerOutputs in E1. destruct (nn_layers b) as [|b0 v] eqn:Eb; [discriminate|]. rewrite <- Eb in *. destruct (chain_outputs (nn_layers b) x) as [[o2 ls]| |] eqn:E2; try discriminate. cbn [bind] in E1. injection E1 as <- <-.
    split; [exact (outputs_idle _ _ H x _ _ E2)|]. auto.
Qed.
Lemma perform_trainings cs : forall a b r b', netrel a b -> perform_all b cs = Ok (r, b') -> normal_answers r -> exists r' a', perform_all a (trainings cs) = Ok (r', a') /\ netrel a' b'.
Proof.
  induction cs as [|c cs IH]; intros a b r b' H E Hn; cbn [perform_all] in E; [injection E as <- <-; exists [], a; auto|].
  destruct (perform b c) as [[x b1]| |] eqn:E1; try discriminate. cbn [bind] in E. destruct (perform_all b1 cs) as [[r2 b2]| |] eqn:E2; try discriminate. cbn in E. injection E as <- <-.
  assert (Hn2 : normal_answers r2) by (intros o v Ho; apply Hn; now right). assert (Hn1 : normal_answers [x]) by (intros o v [Ho|[]]; apply Hn; now left).
  destruct (trainings [c]) as [|c' l] eqn:Ec.
  - assert (Et : trainings (c :: cs) = trainings cs) by (unfold trainings in *; cbn [filter] in *; destruct c; [discriminate|reflexivity|reflexivity]). rewrite Et. apply (IH a b1 r2 b2); auto. exact (perform_idle a b c x b1 H Ec E1 Hn1).
  - assert (Et : trainings (c :: cs) = c :: trainings cs) by (unfold trainings in *; cbn [filter] in *; destruct c; [reflexivity|discriminate|discriminate]). rewrite Et. cbn [perform_all]. assert (X := perform_rel a b c H). rewrite E1 in X. destruct (perform a c) as [[y a1]| |]; cbn in X; try contradiction. destruct X as (Ey & H1). cbn in Ey, H1. subst y. cbn [bind].
    destruct (IH a1 b1 r2 b2 H1 E2 Hn2) as (r' & a' & E3 & H3). rewrite E3. cbn [bind]. eauto.
Qed.
(* ---------- the networks the constructor makes ---------- *)
Lemma circ_self L d : crel 0 (circ_init L d) (circ_init L d).
Proof. repeat split. Qed.
Lemma init_self ni batch nw bias a draws n : neuron_init ni batch nw bias a draws = Ok n -> bq false batch n n.
Proof.
  unfold neuron_init. destruct nw as [|m]; [discriminate|]. intros E. injection E as <-. split; [|cbn; apply repeat_length]. split; [repeat split|]. split; [apply circ_self|reflexivity].
Qed.
Lemma F2_self {A} (R : A -> A -> Prop) l : (forall a, In a l -> R a a) -> Forall2 R l l.
Proof. induction l as [|a l IH]; intros H; constructor; [apply H; now left|apply IH; intros; apply H; now right]. Qed.
Lemma neurons_self ni batch nw draws d n ns : build_neurons (mk_full draws ni batch nw d) n = Ok ns -> Forall2 (bq false batch) ns ns /\ List.length ns = n.
Proof.
  intros H. apply build_neurons_inv in H as (L & Hi). split; [|exact L]. apply F2_self. intros a Ha. apply In_nth_error in Ha as (i & Ha). specialize (Hi i a Ha). unfold mk_full in Hi. now apply init_self in Hi.
Qed.
Lemma prel_self st f : prel st f f. Proof. repeat split. Qed.
Lemma built_self draws masks d s l : feed_forward d -> built draws masks d s l -> lrel false l l.
Proof.
  intros Hf H. unfold feed_forward in Hf. inversion H as [n ns Et Hn Hb E|n ns Et|n ns Et|c x ks Et Hs Hk H1 H2 E|c x y ks Et Hs Hk H1 H2 H3 E|c x ks f ns Et Hs Hff Hk H1 H2 H3 Hb E|c x y ks f ns Et Hs Hff Hk H1 H2 H3 H4 Hb E|c x ks f ns Et Hs Hff Hk H1 H2 Hb E|c x y ks f ns Et Hs Hff Hk H1 H2 H3 Hb E]; try (rewrite Et in Hf; contradiction);
    (split; [reflexivity|]; split; [reflexivity|]; unfold finish; cbn [l_body]).
  - apply br_full. now apply neurons_self in Hb.
  - apply br_pool; [now left|apply prel_self].
  - apply br_pool; [now right|apply prel_self].
  - apply neurons_self in Hb as (Hb & Ln). apply br_loc; [now left| |exact Hb]. cbn [f_index f_filters]. unfold loc1D_index. rewrite map_length, seq_length. lia.
  - apply neurons_self in Hb as (Hb & Ln). apply br_loc; [now right| |exact Hb]. cbn [f_index f_filters]. unfold loc2D_index. rewrite map_length, seq_length. lia.
  - apply neurons_self in Hb as (Hb & Ln). assert (Li : List.length (conv1D_index c ks (x - ks + 1)) = x - ks + 1) by (unfold conv1D_index; now rewrite map_length, seq_length). apply br_conv; [now left|cbn [f_index]; lia|]. cbn [f_index]. now rewrite Li.
  - apply neurons_self in Hb as (Hb & Ln). assert (Li : List.length (conv2D_index c x ks (x - ks + 1) ((x - ks + 1) * (y - ks + 1))) = (x - ks + 1) * (y - ks + 1)) by (unfold conv2D_index; now rewrite map_length, seq_length). apply br_conv; [now right|cbn [f_index]; rewrite Li; apply Nat.mul_pos_pos; lia|]. cbn [f_index]. now rewrite Li.
Qed.
Lemma built_shape draws masks d s l : Forall (fun x => 0 < x) s -> built draws masks d s l -> layer_isValid l = 0%Z -> Forall (fun x => 0 < x) (getShapeOfOutput l).
Proof.
  intros Hs B HV. assert (W : supported_pooling l -> Forall (fun x => 0 < x) (getShapeOfOutput l)).
  { intros HP. destruct (built_wf _ _ _ _ _ Hs B HV HP) as (_ & _ & Hm & _). unfold cell_count in Hm. now apply fold_mul_pos_inv in Hm. }
  destruct B as [n ns Et Hn Hb|n ns Et|n ns Et|c x ks Et Es Hk H1 H2|c x y ks Et Es Hk H1 H2 H3| | | | ]; try (apply W; exact I); unfold finish, getShapeOfOutput; cbn [l_body f_shapeOut].
  - assert (Hx : 0 < c /\ 0 < x). { destruct Es as [-> |[-> ->]]; inversion Hs as [|? ? P1 P2]; subst; [inversion P2; subst; auto|split; [lia|exact P1]]. } repeat constructor; [apply Hx|]. apply tiles_spec; [exact H1|apply Hx].
  - subst s. inversion Hs as [|? ? P1 P2]; subst. inversion P2 as [|? ? P3 P4]; subst. inversion P4; subst. repeat constructor; [exact P1| |]; apply tiles_spec; auto.
Qed.
Lemma rest_self draws masks ds : forall i s ls, Forall (fun x => 0 < x) s -> Forall sane_kernel ds -> Forall feed_forward ds -> build_rest draws masks i ds (map Z.of_nat s) = Ok ls -> Forall (fun l => layer_isValid l = 0%Z) ls -> Forall2 (lrel false) ls ls.
Proof.
  induction ds as [|d t IH]; intros i s ls Hs Hk Hf H HV; cbn [build_rest] in H; [injection H as <-; constructor|].
  destruct (build_layer (draws i) (masks i) d (map Z.of_nat s)) as [a| |] eqn:Ha; try discriminate. cbn [bind] in H. destruct (build_rest draws masks (S i) t _) as [r| |] eqn:Hr; try discriminate. cbn in H. injection H as <-. inversion Hk; inversion Hf; inversion HV; subst.
  apply build_layer_built in Ha; auto. constructor; [eapply built_self; eauto|]. eapply (IH (S i) (getShapeOfOutput a)); eauto. eapply built_shape; eauto.
Qed.
Lemma constructed_self draws masks lr m net shape rest : construct draws masks (Input (map Z.of_nat shape) :: rest) lr m = Ok net -> Forall (fun n => 0 < n) shape -> Forall sane_kernel rest -> Forall feed_forward rest -> netrel net net.
Proof.
  intros H Hs Hk Hf. apply construct_inv in H as (d0 & r & E & _ & Hb & HV & _). injection E as <- <-. cbn [d_shape Input] in Hb. split; [|auto]. exact (rest_self draws masks rest 0 shape _ Hs Hk Hf Hb HV).
Qed.
(* any calls, and the trainings among them alone, lead to networks nothing can tell apart *)
Theorem C74_only_trainings_matter_partial : forall draws masks lr m net shape rest cs answers net1,
  construct draws masks (Input (map Z.of_nat shape) :: rest) lr m = Ok net -> Forall (fun n => 0 < n) shape -> Forall sane_kernel rest -> Forall feed_forward rest ->
  perform_all net cs = Ok (answers, net1) -> normal_answers answers ->
  exists answers' net2, perform_all net (trainings cs) = Ok (answers', net2) /\ net_weights net2 = net_weights net1 /\ nn_trainings net2 = nn_trainings net1 /\ indistinguishable net2 net1.
Proof.
  intros draws masks lr m net shape rest cs answers net1 HC Hs Hk Hf E Hn. destruct (perform_trainings cs net net answers net1 (constructed_self _ _ _ _ _ _ _ HC Hs Hk Hf) E Hn) as (r & net2 & E2 & H2).
  exists r, net2. split; [exact E2|]. split; [now apply netrel_weights|]. split; [apply H2|]. now apply netrel_indistinguishable.
Qed.
(* hence two sequences of calls with the same trainings, whatever is predicted or inspected in between, learn the same *)
Theorem C74_same_trainings_same_network_partial : forall draws masks lr m net shape rest cs cs' answers answers' net1 net2,
  construct draws masks (Input (map Z.of_nat shape) :: rest) lr m = Ok net -> Forall (fun n => 0 < n) shape -> Forall sane_kernel rest -> Forall feed_forward rest ->
  trainings cs = trainings cs' -> perform_all net cs = Ok (answers, net1) -> perform_all net cs' = Ok (answers', net2) -> normal_answers answers -> normal_answers answers' ->
  net_weights net1 = net_weights net2 /\ forall x reset, match net_output net1 x reset, net_output net2 x reset with Ok (o1, _), Ok (o2, _) => o1 = o2 | Throw e1, Throw e2 => e1 = e2 | UB, UB => True | _, _ => False end.
Proof.
  intros draws masks lr m net shape rest cs cs' answers answers' net1 net2 HC Hs Hk Hf Et E1 E2 N1 N2.
  destruct (C74_only_trainings_matter_partial draws masks lr m net shape rest cs answers net1 HC Hs Hk Hf E1 N1) as (r & n & A & W1 & _ & I1). destruct (C74_only_trainings_matter_partial draws masks lr m net shape rest cs' answers' net2 HC Hs Hk Hf E2 N2) as (r' & n' & A' & W2 & _ & I2).
  rewrite Et in A. assert (n' = n) as -> by congruence. split; [congruence|]. intros x reset. specialize (I1 [Prediction x reset]). specialize (I2 [Prediction x reset]). cbn [perform_all perform] in I1, I2.
  destruct (net_output n x reset) as [[o n3]| |]; cbn [bind] in I1, I2; destruct (net_output net1 x reset) as [[o1 n4]| |]; cbn [bind] in I1; try contradiction; destruct (net_output net2 x reset) as [[o2 n5]| |]; cbn [bind] in I2; try contradiction; try (exact I); try congruence.
  destruct I1 as (X & _), I2 as (Y & _). congruence.
Qed.
(* one prediction with an infinite, NaN or subnormal output, and no training changes a weight any more, whatever the network *)
Theorem C74_abnormal_prediction_refuted : forall net x reset o net1 cs answers net2, net_output net x reset = Ok (o, net1) -> Exists (fun v => fnormal v = false) o ->
  perform_all net1 cs = Ok (answers, net2) -> net_weights net2 = net_weights net.
Proof.
  intros net x reset o net1 cs answers net2 E Ho H. assert (Hn : nn_nan net1 = true).
  { unfold net_output in E. destruct (nn_layers net) as [|a u]; [discriminate|]. destruct (chain _ 0 (a :: u) x) as [[o2 ls]| |]; try discriminate. cbn [bind] in E. assert (anyAbnormal o2 = true /\ net1 = mkNet ls (nn_opt net) (nn_nan net || anyAbnormal o2) (nn_trainings net)) as (Ha & ->).
    { injection E as <- <-. split; [|reflexivity]. unfold anyAbnormal. apply existsb_exists. apply Exists_exists in Ho as (v & Hv & Hf). exists v. split; [exact Hv|]. now rewrite Hf. } cbn [nn_nan]. rewrite Ha. apply orb_true_r. }
  assert (HW : net_weights net1 = net_weights net) by exact (proj1 (PureProps.net_output_w _ _ _ _ _ E)). rewrite <- HW. clear - H Hn. revert net1 answers H Hn. induction cs as [|c cs IH]; intros net1 answers H Hn; cbn [perform_all] in H; [now injection H as _ <-|].
  destruct (perform net1 c) as [[r n3]| |] eqn:E1; try discriminate. cbn [bind] in H. destruct (perform_all n3 cs) as [[rs n4]| |] eqn:E2; try discriminate. cbn in H. injection H as _ <-.
  assert (G : net_weights n3 = net_weights net1 /\ nn_nan n3 = true).
  { destruct c as [rand x d t|x t|x]; cbn [perform] in E1.
    - destruct (trainOnce rand net1 x d t) as [n5| |] eqn:E3; try discriminate. cbn in E1. injection E1 as _ <-. exact (PureProps.train_nan _ _ _ _ _ _ Hn E3).
    - destruct (net_output net1 x t) as [[o n5]| |] eqn:E3; try discriminate. cbn in E1. injection E1 as _ <-. split; [exact (proj1 (PureProps.net_output_w _ _ _ _ _ E3))|]. unfold net_output in E3. destruct (nn_layers net1); [discriminate|]. destruct (chain _ _ _ _) as [[o2 ls]| |]; try discriminate. cbn in E3. injection E3 as _ <-. cbn. now rewrite Hn.
    - destruct (getLayerOutputs net1 x) as [[o n5]| |] eqn:E3; try discriminate. cbn in E1. injection E1 as _ <-. unfold getLayerOutputs in E3. destruct (nn_layers net1) as [|a u] eqn:El; [discriminate|]. rewrite <- El in *. destruct (chain_outputs _ x) as [[o2 ls]| |] eqn:E4; try discriminate. cbn in E3. injection E3 as _ <-. split; [|exact Hn].
      unfold net_weights. cbn [nn_layers]. clear - E4. revert x o2 ls E4. induction (nn_layers net1) as [|b v IHv]; intros x o2 ls E4; cbn [chain_outputs] in E4; [now injection E4 as _ <-|]. destruct (layer_output b x true) as [[o3 b']| |] eqn:E5; try discriminate. cbn [bind] in E4. destruct (chain_outputs v o3) as [[o4 v']| |] eqn:E6; try discriminate. cbn in E4. injection E4 as _ <-. cbn. rewrite (PureProps.layer_output_w _ _ _ _ _ E5), (IHv _ _ _ E6). reflexivity. }
  destruct G as (G1 & G2). rewrite <- G1. exact (IH n3 rs E2 G2).
Qed.
End P.
Print Assumptions C74_only_trainings_matter_partial.
Print Assumptions C74_same_trainings_same_network_partial.
Print Assumptions C74_abnormal_prediction_refuted.

(* a recurrent network remembers what it predicted, temporalReset or not: one prediction before a training changes what is learned *)
From Verif Require Import Witness.
Definition wl_eqb (a b : list (list (list (@F N32)))) : bool := list_eqb (list_eqb sfl_eqb) a b.
Definition all_normal (l : list (@answer N32)) : bool := forallb (fun a => match a with Predicted o => forallb (@fnormal N32) o | _ => true end) l.
Lemma all_normal_ok l : all_normal l = true -> @normal_answers N32 l.
Proof. intros H o v Ho Hv. unfold all_normal in H. rewrite forallb_forall in H. specialize (H _ Ho). cbn in H. rewrite forallb_forall in H. exact (H v Hv). Qed.
Definition c74_one : @F N32 := fone. Definition c74_half : @F N32 := fdiv fone (fofZ 2).
Definition c74_calls (reset : bool) : list (@call N32) := [Prediction [c74_one] reset; Training (fun _ _ _ => true) [c74_one] [c74_half] reset].
Definition c74_check (reset : bool) (d : @LDesc N32) : bool :=
  run_check (construct (fun _ _ _ _ => c74_half) (fun _ _ _ => true) [Input [1%Z]; d] c74_half fzero) (fun net =>
  run_check (perform_all net (c74_calls reset)) (fun p => run_check (perform_all net (trainings (c74_calls reset))) (fun q => all_normal (fst p) && negb (wl_eqb (net_weights (snd p)) (net_weights (snd q)))))).
Theorem C74_recurrent_refuted : forall reset, exists net answers net1 answers' net2,
  construct (fun _ _ _ _ => c74_half) (fun _ _ _ => true) [Input [1%Z]; Recurrence 1 a_identity []] c74_half fzero = Ok net /\
  perform_all net (c74_calls reset) = Ok (answers, net1) /\ @normal_answers N32 answers /\ perform_all net (trainings (c74_calls reset)) = Ok (answers', net2) /\ net_weights net1 <> net_weights net2.
Proof.
  intros reset. assert (H : c74_check reset (@Recurrence N32 1 a_identity []) = true) by (destruct reset; vm_compute; reflexivity). unfold c74_check in H. apply run_check_ex in H as (net & E & H). apply run_check_ex in H as ([a1 n1] & E1 & H). apply run_check_ex in H as ([a2 n2] & E2 & H). apply andb_prop in H as [H1 H2].
  exists net, a1, n1, a2, n2. split; [exact E|]. split; [exact E1|]. split; [now apply all_normal_ok|]. split; [exact E2|]. intros W. cbn [snd] in H2. rewrite W in H2. unfold wl_eqb in H2. rewrite (proj2 (list_eqb_eq _ (list_eqb_eq _ sfl_eqb_eq) _ _) eq_refl) in H2. discriminate.
Qed.
Print Assumptions C74_recurrent_refuted.
(* a convolution, a locally connected layer and a dense layer with dropout, predictions between two trainings *)
Definition c74_rest : list (@LDesc N32) := [Convolution 2 2 a_identity []; LocallyConnected 1 2 a_ReLU []; FullyConnected 2 a_identity [d_dropout c74_half]].
Definition c74_mixed : list (@call N32) := [Prediction [c74_one; c74_half; c74_half; c74_one] false; Training (fun _ _ _ => true) [c74_one; c74_half; c74_half; c74_one] [c74_half; c74_one] true;
  Inspection [c74_one; c74_one; c74_one; c74_one]; Prediction [c74_half; c74_half; c74_half; c74_one] true; Training (fun _ _ _ => true) [c74_one; c74_half; c74_half; c74_one] [c74_half; c74_one] true].
Example C74_hypotheses_met : exists net answers net1, construct (fun _ _ _ _ => c74_half) (fun _ _ _ => true) (Input (map Z.of_nat [4]) :: c74_rest) c74_half fzero = Ok net /\ Forall (fun n => 0 < n) [4] /\ Forall sane_kernel c74_rest /\ Forall feed_forward c74_rest /\
  perform_all net c74_mixed = Ok (answers, net1) /\ @normal_answers N32 answers /\ List.length (trainings c74_mixed) = 2 /\ net_weights net1 <> net_weights net.
Proof.
  assert (H : run_check (construct (fun _ _ _ _ => c74_half) (fun _ _ _ => true) (Input (map Z.of_nat [4]) :: c74_rest) c74_half fzero) (fun net => run_check (perform_all net c74_mixed) (fun p => all_normal (fst p) && negb (wl_eqb (net_weights (snd p)) (net_weights net)))) = true) by (vm_compute; reflexivity).
  apply run_check_ex in H as (net & E & H). apply run_check_ex in H as ([a1 n1] & E1 & H). apply andb_prop in H as [H1 H2]. exists net, a1, n1. split; [exact E|]. split; [repeat constructor|]. split; [repeat constructor; cbn; lia|]. split; [repeat constructor|]. split; [exact E1|]. split; [now apply all_normal_ok|]. split; [reflexivity|].
  intros W. cbn [snd] in H2. rewrite W in H2. unfold wl_eqb in H2. rewrite (proj2 (list_eqb_eq _ (list_eqb_eq _ sfl_eqb_eq) _ _) eq_refl) in H2. discriminate.
Qed.
