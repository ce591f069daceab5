(* What the operations on a layer never change; histories of a network are histories of its layers. *)
From Verif Require Import Base Num ActModel NeuronModel LayerModel NetModel NeuronProofs LayerProofs SafeProofs SafeLayers FactoryModel FactorySpec FactoryProofs SafeNet BuildProofs FilterSpec.
Local Open Scope nat_scope.

Ltac binds H := repeat first [ apply bind_Ok_inv in H as (? & ? & H) | match type of H with (let '(_, _) := ?x in _) = Ok _ => destruct x end | match type of H with (match ?x with (_, _) => _ end) = Ok _ => destruct x end ].

Section P.
Context {N : Num}.
Definition nset (n : Neuron) := (n_act n, n_bias n).
Definition settings (b : Body) : list (activation * F) :=
  match b with
  | BFull ns | BFilter _ _ ns => map nset ns
  | BRec ns => map (fun r => nset (r_n r)) ns
  | BGru ns => flat_map (fun g => [nset (r_n (g_reset g)); nset (r_n (g_update g)); nset (r_n (g_output g))]) ns
  end.
Lemma simple_output_set n x v n' : simple_output n x = Ok (v, n') -> nset n' = nset n.
Proof. intros H. apply simple_output_inv in H as (_ & ? & _ & ->). reflexivity. Qed.
Lemma sgd_simple_set o n e n' : sgd_simple o n e = Ok n' -> nset n' = nset n.
Proof. unfold sgd_simple. intros H. binds H. injection H as <-. reflexivity. Qed.
Lemma simple_back_set o n e es n' : simple_backOutput o n e = Ok (es, n') -> nset n' = nset n.
Proof. unfold simple_backOutput. intros H. cbv zeta in H. binds H. injection H as <- <-. apply sgd_simple_set in H1. exact H1. Qed.
Lemma simple_train_set o n e n' : simple_train o n e = Ok n' -> nset n' = nset n.
Proof. apply sgd_simple_set. Qed.
Lemma rec_output_set r x b v r' : rec_output r x b = Ok (v, r') -> nset (r_n r') = nset (r_n r).
Proof. unfold rec_output. intros H. cbv zeta in H. binds H. injection H as _ <-. destruct b; reflexivity. Qed.
Lemma sgd_rec_set o r e r' : sgd_recurrent o r e = Ok r' -> nset (r_n r') = nset (r_n r).
Proof. unfold sgd_recurrent. intros H. cbv zeta in H. binds H. injection H as <-. reflexivity. Qed.
Lemma rec_back_set o r e es r' : rec_backOutput o r e = Ok (es, r') -> nset (r_n r') = nset (r_n r).
Proof. unfold rec_backOutput. intros H. cbv zeta in H. binds H. injection H as <- <-. apply sgd_rec_set in H1. exact H1. Qed.
Lemma rec_train_set o r e r' : rec_train o r e = Ok r' -> nset (r_n r') = nset (r_n r).
Proof. apply sgd_rec_set. Qed.
Definition gset (g : GNeuron) := [nset (r_n (g_reset g)); nset (r_n (g_update g)); nset (r_n (g_output g))].
Lemma gru_output_set g x b v g' : gru_output g x b = Ok (v, g') -> gset g' = gset g.
Proof.
  unfold gru_output. intros H. cbv zeta in H. binds H. injection H as _ <-. unfold gset; cbn [g_reset g_update g_output set_lastOut r_n].
  repeat match goal with E : rec_output _ _ _ = Ok _ |- _ => apply rec_output_set in E end. cbn [set_lastOut r_n] in *. destruct b; cbn [gru_reset g_reset g_update g_output] in *; congruence.
Qed.
Lemma gru_gates_set o g e a b c g' : gru_gates o g e = Ok (a, b, c, g') -> gset g' = gset g.
Proof.
  unfold gru_gates. intros H. cbv zeta in H. binds H. injection H as _ _ _ <-. unfold gset; cbn [g_reset g_update g_output].
  repeat match goal with E : rec_backOutput _ _ _ = Ok _ |- _ => apply rec_back_set in E end. congruence.
Qed.
Lemma gru_back_set o g e es g' : gru_backOutput o g e = Ok (es, g') -> gset g' = gset g.
Proof. unfold gru_backOutput. intros H. apply bind_Ok_inv in H as ([[[a b] c] g1] & E & H). injection H as _ <-. apply gru_gates_set in E. exact E. Qed.
Lemma gru_train_set o g e g' : gru_train o g e = Ok g' -> gset g' = gset g.
Proof. unfold gru_train. intros H. apply bind_Ok_inv in H as ([[[a b] c] g1] & E & H). injection H as <-. now apply gru_gates_set in E. Qed.

Lemma flat_gset ns : flat_map (fun g => [nset (r_n (g_reset g)); nset (r_n (g_update g)); nset (r_n (g_output g))]) ns = List.concat (map gset ns).
Proof. now rewrite flat_map_concat_map. Qed.
Lemma conv_output_set f ns x o ns' : conv_output f ns x = Ok (o, ns') -> map nset ns' = map nset ns.
Proof.
  unfold conv_output. intros H. apply bind_Ok_inv in H as ([outs n1] & E & H). apply bind_Ok_inv in H as (r & _ & H). injection H as _ <-. revert E.
  match goal with |- ofold ?st _ _ = _ -> _ => assert (G : forall rows acc ns0 r1 n2, ofold st rows (acc, ns0) = Ok (r1, n2) -> map nset n2 = map nset ns0) end; [|apply G].
  induction rows as [|row t IH]; intros acc ns0 r1 n2 E; cbn [ofold] in E; [injection E as _ <-; reflexivity|].
  apply bind_Ok_inv in E as ([a b] & Ea & E). apply IH in E. rewrite E. cbn [fst snd] in Ea. apply bind_Ok_inv in Ea as (win & _ & Ea). apply bind_Ok_inv in Ea as ([o1 n3] & E1 & Ea). injection Ea as _ <-.
  eapply each_keeps; [|exact E1]. intros ? ? ? ? E2. exact (simple_output_set _ _ _ _ E2).
Qed.
Lemma loc_output_set f ns x o ns' : loc_output f ns x = Ok (o, ns') -> map nset ns' = map nset ns.
Proof.
  unfold loc_output. intros H. cbv zeta in H. destruct (_ <? _); [discriminate|]. apply bind_Ok_inv in H as (w & _ & H). apply bind_Ok_inv in H as ([a b] & E & H). apply bind_Ok_inv in H as (r & _ & H). injection H as _ <-.
  rewrite map_app. assert (K : map nset b = map nset (firstn (List.length (f_index f) * f_filters f) ns)).
  { eapply each_keeps; [|exact E]. intros ? ? ? ? E0. cbn beta in E0. apply bind_Ok_inv in E0 as (? & _ & E0). exact (simple_output_set _ _ _ _ E0). }
  rewrite K.
  rewrite <- map_app, firstn_skipn. reflexivity.
Qed.
Lemma body_output_set b x r o b' : body_output b x r = Ok (o, b') -> settings b' = settings b.
Proof.
  destruct b as [ns|ns|ns|k f ns]; cbn [body_output]; intros H.
  - apply bind_Ok_inv in H as ([a c] & E & H). injection H as _ <-. cbn [settings]. eapply each_keeps; [|exact E]. intros ? ? ? ? E9; exact (simple_output_set _ _ _ _ E9).
  - apply bind_Ok_inv in H as ([a c] & E & H). injection H as _ <-. cbn [settings]. eapply (each_keeps _ (fun r => nset (r_n r))); [|exact E]. intros ? ? ? ? E9; exact (rec_output_set _ _ _ _ _ E9).
  - apply bind_Ok_inv in H as ([a c] & E & H). injection H as _ <-. cbn [settings]. rewrite !flat_gset. f_equal. eapply (each_keeps _ gset); [|exact E]. intros ? ? ? ? E9; exact (gru_output_set _ _ _ _ _ E9).
  - destruct k; apply bind_Ok_inv in H as ([a c] & E & H); injection H as _ <-; cbn [settings]; try reflexivity; first [now apply conv_output_set in E|now apply loc_output_set in E].
Qed.
Lemma conv_back_set o nin f ns e r ns' : conv_back o nin f ns e = Ok (r, ns') -> map nset ns' = map nset ns.
Proof.
  unfold conv_back. intros H. apply bind_Ok_inv in H as ([[er i] n1] & E & H). injection H as _ <-. revert E.
  match goal with |- ofold ?st _ _ = _ -> _ => assert (G : forall rows acc j ns0 r1 j1 n2, ofold st rows (acc, j, ns0) = Ok (r1, j1, n2) -> map nset n2 = map nset ns0) end; [|apply G].
  induction rows as [|row t IH]; intros acc j ns0 r1 j1 n2 E; cbn [ofold] in E; [injection E as _ _ <-; reflexivity|].
  apply bind_Ok_inv in E as ([[a b] c] & Ea & E). apply IH in E. rewrite E. apply bind_Ok_inv in Ea as ([es n3] & E1 & Ea). apply bind_Ok_inv in Ea as (? & _ & Ea). injection Ea as _ _ <-.
  eapply each_keeps; [|exact E1]. intros ? ? ? ? E2. cbn beta in E2. apply bind_Ok_inv in E2 as (? & _ & E2). eapply simple_back_set; exact E2.
Qed.
Lemma loc_back_set two o nin f ns e r ns' : loc_back two o nin f ns e = Ok (r, ns') -> map nset ns' = map nset ns.
Proof.
  unfold loc_back. intros H. apply bind_Ok_inv in H as ([es n1] & E & H). apply bind_Ok_inv in H as (? & _ & H). injection H as _ <-.
  eapply each_keeps; [|exact E]. intros ? ? ? ? E2. cbn beta in E2. apply bind_Ok_inv in E2 as (? & _ & E2). apply bind_Ok_inv in E2 as ([er n2] & E3 & E2). cbv zeta in E2.
  destruct (_ =? 0) in E2; [discriminate|]. apply bind_Ok_inv in E2 as (? & _ & E2). injection E2 as _ <-. eapply simple_back_set; exact E3.
Qed.
Lemma body_back_set o nin b e r b' : body_back o nin b e = Ok (r, b') -> settings b' = settings b.
Proof.
  destruct b as [ns|ns|ns|k f ns]; cbn [body_back]; intros H.
  - apply bind_Ok_inv in H as ([a c] & E & H). apply bind_Ok_inv in H as (? & _ & H). injection H as _ <-. cbn [settings]. eapply each_keeps; [|exact E]. intros ? ? ? ? E2; cbn beta in E2; apply bind_Ok_inv in E2 as (? & _ & E2); eapply simple_back_set; exact E2.
  - apply bind_Ok_inv in H as ([a c] & E & H). apply bind_Ok_inv in H as (? & _ & H). injection H as _ <-. cbn [settings]. eapply (each_keeps _ (fun r => nset (r_n r))); [|exact E]. intros ? ? ? ? E2; cbn beta in E2; apply bind_Ok_inv in E2 as (? & _ & E2); eapply rec_back_set; exact E2.
  - apply bind_Ok_inv in H as ([a c] & E & H). apply bind_Ok_inv in H as (? & _ & H). injection H as _ <-. cbn [settings]. rewrite !flat_gset. f_equal. eapply (each_keeps _ gset); [|exact E]. intros ? ? ? ? E2; cbn beta in E2; apply bind_Ok_inv in E2 as (? & _ & E2); eapply gru_back_set; exact E2.
  - destruct k; try (apply bind_Ok_inv in H as ([a c] & E & H); injection H as _ <-; cbn [settings]; first [now apply conv_back_set in E|now apply loc_back_set in E]);
      apply bind_Ok_inv in H as (a & E & H); injection H as _ <-; reflexivity.
Qed.
Lemma body_train_set o b e b' : body_train o b e = Ok b' -> settings b' = settings b.
Proof.
  assert (T : forall {A C} (f : A -> F -> outcome A) (g : A -> C) ns us ns', (forall a e a', f a e = Ok a' -> g a' = g a) -> each (trained f e) ns = Ok (us, ns') -> map g ns' = map g ns).
  { intros A C f g ns us ns' Hf E. eapply each_keeps; [|exact E]. intros ? ? ? ? E2. unfold trained in E2. apply bind_Ok_inv in E2 as (? & _ & E2). apply bind_Ok_inv in E2 as (? & E3 & E2). injection E2 as _ <-. eauto. }
  destruct b as [ns|ns|ns|k f ns]; cbn [body_train]; intros H.
  - apply bind_Ok_inv in H as ([a c] & E & H). injection H as <-. cbn [settings]. eapply T; [|exact E]. intros ? ? ? E9; exact (simple_train_set _ _ _ _ E9).
  - apply bind_Ok_inv in H as ([a c] & E & H). injection H as <-. cbn [settings]. eapply (T _ _ _ (fun r => nset (r_n r))); [|exact E]. intros ? ? ? E9; exact (rec_train_set _ _ _ _ E9).
  - apply bind_Ok_inv in H as ([a c] & E & H). injection H as <-. cbn [settings]. rewrite !flat_gset. f_equal. eapply (T _ _ _ gset); [|exact E]. intros ? ? ? E9; exact (gru_train_set _ _ _ _ E9).
  - destruct k; try (injection H as <-; reflexivity); apply bind_Ok_inv in H as ([a c] & E & H); injection H as <-; cbn [settings]; (eapply T; [|exact E]); intros ? ? ? E9; exact (simple_train_set _ _ _ _ E9).
Qed.

Lemma works_wf k m l l' : wf_layer k l m -> works l l' -> wf_layer k l' m /\ same_layer l l' /\ settings (l_body l') = settings (l_body l).
Proof.
  intros W H. induction H as [l|l x reset o l1 l2 Hx E _ IH|l rand x reset o l1 l2 Hx E _ IH|l opt e r l1 l2 He E _ IH|l opt e l1 l2 He E _ IH|l opt e r l1 l2 Hn He E _ IH].
  - split; [exact W|]. split; [|reflexivity]. split; [reflexivity|]. split; [|apply works_none]. split; [reflexivity|]. destruct (l_body l); auto. split; [reflexivity|apply set_maxIndex_id].
  - assert (Hk : l_in l = k) by apply W. rewrite Hk in Hx. destruct (test_layer_wf reset k l m x W Hx) as (o' & l1' & E' & _ & W1 & S1). rewrite E in E'. injection E' as <- <-.
    destruct (IH W1) as (W2 & S2 & Z2). split; [exact W2|]. split; [eapply same_layer_trans; eauto|]. rewrite Z2.
    unfold layer_output in E. apply bind_Ok_inv in E as ([a b] & Eb & E). apply bind_Ok_inv in E as (? & _ & E). injection E as _ <-. now apply body_output_set in Eb.
  - assert (Hk : l_in l = k) by apply W. rewrite Hk in Hx. destruct (training_layer_wf rand reset k l m x W Hx) as (o' & l1' & E' & _ & W1 & S1). rewrite E in E'. injection E' as <- <-.
    destruct (IH W1) as (W2 & S2 & Z2). split; [exact W2|]. split; [eapply same_layer_trans; eauto|]. rewrite Z2.
    unfold layer_outputForTraining in E. apply bind_Ok_inv in E as ([a b] & Eb & E). apply bind_Ok_inv in E as ([? ?] & _ & E). injection E as _ <-. now apply body_output_set in Eb.
  - assert (Hm : m = cell_count (getShapeOfOutput l)) by apply W. rewrite <- Hm in He. assert (WB : wf_body k (l_body l) m) by apply W.
    destruct (layer_back_wf opt k l m e W (backable_full _ _ _ _ WB He)) as (o' & l1' & E' & _ & W1 & S1). rewrite E in E'. injection E' as <- <-.
    destruct (IH W1) as (W2 & S2 & Z2). split; [exact W2|]. split; [eapply same_layer_trans; eauto|]. rewrite Z2.
    unfold layer_backOutput in E. apply bind_Ok_inv in E as ([a b] & Eb & E). injection E as _ <-. now apply body_back_set in Eb.
  - destruct (layer_train_wf opt k l m e W He) as (l1' & E' & W1 & S1). rewrite E in E'. injection E' as <-.
    destruct (IH W1) as (W2 & S2 & Z2). split; [exact W2|]. split; [eapply same_layer_trans; eauto|]. rewrite Z2.
    unfold layer_train in E. apply bind_Ok_inv in E as (b & Eb & E). injection E as <-. now apply body_train_set in Eb.
  - assert (Hm : m = cell_count (getShapeOfOutput l)) by apply W. rewrite <- Hm in He. pose proof W as (_ & _ & M0 & WB & _).
    assert (Hb : backable (l_body l) m e).
    { unfold getNumberOfNeurons, layer_weights in Hn. destruct (l_body l) as [ns|ns|ns|kd f ns]; cbn [body_weights wf_body backable] in *; try (rewrite map_length in Hn; destruct WB as [WB _]; lia).
      rewrite map_length in Hn. destruct ns as [|n0 ns]; [|discriminate]. destruct WB as [_ WB]. destruct kd; cbn [wf_filter] in WB; try exact He; exfalso; cbn [List.length] in WB; lia. }
    destruct (layer_back_wf opt k l m e W Hb) as (o' & l1' & E' & _ & W1 & S1). rewrite E in E'. injection E' as <- <-.
    destruct (IH W1) as (W2 & S2 & Z2). split; [exact W2|]. split; [eapply same_layer_trans; eauto|]. rewrite Z2.
    unfold layer_backOutput in E. apply bind_Ok_inv in E as ([a b] & Eb & E). injection E as _ <-. now apply body_back_set in Eb.
Qed.
End P.

Section Q.
Context {N : Num}.
Lemma mk_full_settings draws d nin batch m ns : build_neurons (mk_full draws nin batch (nin + 1) d) m = Ok ns -> map nset ns = repeat (d_act d, d_bias d) m.
Proof.
  intros H. apply build_neurons_inv in H as [L Hi]. rewrite <- L. clear L. apply nth_error_ext. intros i. rewrite nth_error_map. destruct (nth_error ns i) as [n|] eqn:E.
  - specialize (Hi i n E). unfold mk_full in Hi. rewrite Nat.add_1_r in Hi. cbn [neuron_init] in Hi. injection Hi as <-. cbn.
    assert (i < List.length ns) by (apply nth_error_Some; congruence). symmetry. rewrite nth_error_repeat; auto.
  - cbn. symmetry. apply nth_error_None. rewrite repeat_length. now apply nth_error_None in E.
Qed.
(* a layer in any state: built, well-formed, with the settings of its description *)
Lemma layer_of_wf d s l : layer_of d s l -> Forall (fun x => 0 < x) s -> sane_kernel d -> (forall draws masks l0, built draws masks d s l0 -> supported_pooling l0) ->
  exists draws masks l0, built draws masks d s l0 /\ wf_layer (cell_count s) l0 (cell_count (getShapeOfOutput l0)) /\
    wf_layer (cell_count s) l (cell_count (getShapeOfOutput l0)) /\ same_layer l0 l /\ settings (l_body l) = settings (l_body l0).
Proof.
  intros (draws & masks & l0 & Hb & HV & HW) Hs Hk HP. apply build_layer_built in Hb; auto. pose proof (built_wf _ _ _ _ _ Hs Hb HV (HP _ _ _ Hb)) as W0.
  destruct (works_wf _ _ _ _ W0 HW) as (W & SL & SS). exists draws, masks, l0. auto 6.
Qed.
(* what a convolution or locally connected layer looks like in any state *)
Lemma filter_state masks i d l kd f ns0 m h : same_layer (finish masks i d (BFilter kd f ns0)) l -> settings (l_body l) = settings (BFilter kd f ns0) -> wf_layer m l h ->
  match kd with Pool1D | Pool2D => False | _ => True end ->
  exists mi ns, l_body l = BFilter kd (set_maxIndex f mi) ns /\ List.length ns = List.length ns0 /\ map nset ns = map nset ns0 /\ Forall (wf_plain (f_nin f)) ns /\ layer_weights l = map n_w ns.
Proof.
  intros (_ & SK & _) SS W Hk. cbn [finish l_body] in SK. unfold layer_weights. destruct W as (_ & _ & _ & WB & _).
  destruct (l_body l) as [| | |kd' f' ns]; try (destruct SK as [_ SK]; contradiction). destruct SK as (L & -> & Ef). cbn [settings body_weights] in *. rewrite !map_length in L.
  exists (f_maxIndex f'), ns. rewrite <- Ef. split; [reflexivity|]. split; [exact L|]. split; [exact SS|]. split; [|reflexivity].
  destruct WB as (_ & WB). rewrite Ef in WB. destruct kd; try contradiction; cbn [wf_filter f_nin set_maxIndex] in WB; decompose [and] WB; assumption.
Qed.
Lemma settings_at ns a b m : map nset ns = repeat (a, b) m -> forall i n, nth_error ns i = Some n -> n_act n = a /\ n_bias n = b.
Proof.
  intros H i n Hn. assert (E : nth_error (map nset ns) i = Some (nset n)) by (rewrite nth_error_map, Hn; reflexivity). rewrite H in E. apply nth_error_In in E. apply repeat_spec in E. now injection E.
Qed.

(* the layers of a network in any state *)
Lemma rest_layers draws masks ds : forall i s ls ls', build_rest draws masks i ds (map Z.of_nat s) = Ok ls -> Forall (fun l => layer_isValid l = 0%Z) ls -> Forall2 same_layer ls ls' -> layers_of ds s ls'.
Proof.
  induction ds as [|d t IH]; intros i s ls ls' H V S; cbn [build_rest] in H.
  - injection H as <-. inversion S. exact I.
  - apply bind_Ok_inv in H as (a & Ha & H). apply bind_Ok_inv in H as (r & Hr & H). injection H as <-. inversion S as [|? a' ? t' Sa St]; subst. inversion V; subst.
    cbn [layers_of]. destruct (same_layer_shape _ _ Sa) as [E _]. rewrite E. split; [|eapply IH; eauto]. exists (draws i), (masks i), a. split; [exact Ha|]. split; [assumption|]. apply Sa.
Qed.
End Q.
