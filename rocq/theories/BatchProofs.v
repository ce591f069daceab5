(* The number of positions a neuron was made for (batchSize) never changes while a layer works. *)
From Verif Require Import Base Num ActModel NeuronModel LayerModel NetModel NeuronProofs LayerProofs SafeProofs SafeLayers FactoryModel FactorySpec FactoryProofs SafeNet BuildProofs FilterSpec HistProofs.
Local Open Scope nat_scope.

Section P.
Context {N : Num}.

Definition batches (b : Body) : list nat :=
  match b with
  | BFull ns | BFilter _ _ ns => map n_batch ns
  | BRec ns => map (fun r => n_batch (r_n r)) ns
  | BGru ns => flat_map (fun g => [n_batch (r_n (g_reset g)); n_batch (r_n (g_update g)); n_batch (r_n (g_output g))]) ns
  end.
Lemma simple_output_bat n x v n' : simple_output n x = Ok (v, n') -> n_batch n' = n_batch n.
Proof. intros H. apply simple_output_inv in H as (_ & ? & _ & ->). reflexivity. Qed.
Lemma sgd_simple_bat o n e n' : sgd_simple o n e = Ok n' -> n_batch n' = n_batch n.
Proof. unfold sgd_simple. intros H. binds H. injection H as <-. reflexivity. Qed.
Lemma simple_back_bat o n e es n' : simple_backOutput o n e = Ok (es, n') -> n_batch n' = n_batch n.
Proof. unfold simple_backOutput. intros H. cbv zeta in H. binds H. injection H as <- <-. apply sgd_simple_bat in H1. exact H1. Qed.
Lemma simple_train_bat o n e n' : simple_train o n e = Ok n' -> n_batch n' = n_batch n.
Proof. apply sgd_simple_bat. Qed.
Lemma rec_output_bat r x b v r' : rec_output r x b = Ok (v, r') -> n_batch (r_n r') = n_batch (r_n r).
Proof. unfold rec_output. intros H. cbv zeta in H. binds H. injection H as _ <-. destruct b; reflexivity. Qed.
Lemma sgd_rec_bat o r e r' : sgd_recurrent o r e = Ok r' -> n_batch (r_n r') = n_batch (r_n r).
Proof. unfold sgd_recurrent. intros H. cbv zeta in H. binds H. injection H as <-. reflexivity. Qed.
Lemma rec_back_bat o r e es r' : rec_backOutput o r e = Ok (es, r') -> n_batch (r_n r') = n_batch (r_n r).
Proof. unfold rec_backOutput. intros H. cbv zeta in H. binds H. injection H as <- <-. apply sgd_rec_bat in H1. exact H1. Qed.
Lemma rec_train_bat o r e r' : rec_train o r e = Ok r' -> n_batch (r_n r') = n_batch (r_n r).
Proof. apply sgd_rec_bat. Qed.
Definition gbat (g : GNeuron) := [n_batch (r_n (g_reset g)); n_batch (r_n (g_update g)); n_batch (r_n (g_output g))].
Lemma gru_output_bat g x b v g' : gru_output g x b = Ok (v, g') -> gbat g' = gbat g.
Proof.
  unfold gru_output. intros H. cbv zeta in H. binds H. injection H as _ <-. unfold gbat; cbn [g_reset g_update g_output set_lastOut r_n].
  repeat match goal with E : rec_output _ _ _ = Ok _ |- _ => apply rec_output_bat in E end. cbn [set_lastOut r_n] in *. destruct b; cbn [gru_reset g_reset g_update g_output] in *; congruence.
Qed.
Lemma gru_gates_bat o g e a b c g' : gru_gates o g e = Ok (a, b, c, g') -> gbat g' = gbat g.
Proof.
  unfold gru_gates. intros H. cbv zeta in H. binds H. injection H as _ _ _ <-. unfold gbat; cbn [g_reset g_update g_output].
  repeat match goal with E : rec_backOutput _ _ _ = Ok _ |- _ => apply rec_back_bat in E end. congruence.
Qed.
Lemma gru_back_bat o g e es g' : gru_backOutput o g e = Ok (es, g') -> gbat g' = gbat g.
Proof. unfold gru_backOutput. intros H. apply bind_Ok_inv in H as ([[[a b] c] g1] & E & H). injection H as _ <-. apply gru_gates_bat in E. exact E. Qed.
Lemma gru_train_bat o g e g' : gru_train o g e = Ok g' -> gbat g' = gbat g.
Proof. unfold gru_train. intros H. apply bind_Ok_inv in H as ([[[a b] c] g1] & E & H). injection H as <-. now apply gru_gates_bat in E. Qed.

Lemma flat_gbat ns : flat_map (fun g => [n_batch (r_n (g_reset g)); n_batch (r_n (g_update g)); n_batch (r_n (g_output g))]) ns = List.concat (map gbat ns).
Proof. now rewrite flat_map_concat_map. Qed.
Lemma conv_output_bat f ns x o ns' : conv_output f ns x = Ok (o, ns') -> map n_batch ns' = map n_batch ns.
Proof.
  unfold conv_output. intros H. apply bind_Ok_inv in H as ([outs n1] & E & H). apply bind_Ok_inv in H as (r & _ & H). injection H as _ <-. revert E.
  match goal with |- ofold ?st _ _ = _ -> _ => assert (G : forall rows acc ns0 r1 n2, ofold st rows (acc, ns0) = Ok (r1, n2) -> map n_batch n2 = map n_batch ns0) end; [|apply G].
  induction rows as [|row t IH]; intros acc ns0 r1 n2 E; cbn [ofold] in E; [injection E as _ <-; reflexivity|].
  apply bind_Ok_inv in E as ([a b] & Ea & E). apply IH in E. rewrite E. cbn [fst snd] in Ea. apply bind_Ok_inv in Ea as (win & _ & Ea). apply bind_Ok_inv in Ea as ([o1 n3] & E1 & Ea). injection Ea as _ <-.
  eapply each_keeps; [|exact E1]. intros ? ? ? ? E2. exact (simple_output_bat _ _ _ _ E2).
Qed.
Lemma loc_output_bat f ns x o ns' : loc_output f ns x = Ok (o, ns') -> map n_batch ns' = map n_batch ns.
Proof.
  unfold loc_output. intros H. cbv zeta in H. destruct (_ <? _); [discriminate|]. apply bind_Ok_inv in H as (w & _ & H). apply bind_Ok_inv in H as ([a b] & E & H). apply bind_Ok_inv in H as (r & _ & H). injection H as _ <-.
  rewrite map_app. assert (K : map n_batch b = map n_batch (firstn (List.length (f_index f) * f_filters f) ns)).
  { eapply each_keeps; [|exact E]. intros ? ? ? ? E0. cbn beta in E0. apply bind_Ok_inv in E0 as (? & _ & E0). exact (simple_output_bat _ _ _ _ E0). }
  rewrite K.
  rewrite <- map_app, firstn_skipn. reflexivity.
Qed.
Lemma body_output_bat b x r o b' : body_output b x r = Ok (o, b') -> batches b' = batches b.
Proof.
  destruct b as [ns|ns|ns|k f ns]; cbn [body_output]; intros H.
  - apply bind_Ok_inv in H as ([a c] & E & H). injection H as _ <-. cbn [batches]. eapply each_keeps; [|exact E]. intros ? ? ? ? E9; exact (simple_output_bat _ _ _ _ E9).
  - apply bind_Ok_inv in H as ([a c] & E & H). injection H as _ <-. cbn [batches]. eapply (each_keeps _ (fun r => n_batch (r_n r))); [|exact E]. intros ? ? ? ? E9; exact (rec_output_bat _ _ _ _ _ E9).
  - apply bind_Ok_inv in H as ([a c] & E & H). injection H as _ <-. cbn [batches]. rewrite !flat_gbat. f_equal. eapply (each_keeps _ gbat); [|exact E]. intros ? ? ? ? E9; exact (gru_output_bat _ _ _ _ _ E9).
  - destruct k; apply bind_Ok_inv in H as ([a c] & E & H); injection H as _ <-; cbn [batches]; try reflexivity; first [now apply conv_output_bat in E|now apply loc_output_bat in E].
Qed.
Lemma conv_back_bat o nin f ns e r ns' : conv_back o nin f ns e = Ok (r, ns') -> map n_batch ns' = map n_batch ns.
Proof.
  unfold conv_back. intros H. apply bind_Ok_inv in H as ([[er i] n1] & E & H). injection H as _ <-. revert E.
  match goal with |- ofold ?st _ _ = _ -> _ => assert (G : forall rows acc j ns0 r1 j1 n2, ofold st rows (acc, j, ns0) = Ok (r1, j1, n2) -> map n_batch n2 = map n_batch ns0) end; [|apply G].
  induction rows as [|row t IH]; intros acc j ns0 r1 j1 n2 E; cbn [ofold] in E; [injection E as _ _ <-; reflexivity|].
  apply bind_Ok_inv in E as ([[a b] c] & Ea & E). apply IH in E. rewrite E. apply bind_Ok_inv in Ea as ([es n3] & E1 & Ea). apply bind_Ok_inv in Ea as (? & _ & Ea). injection Ea as _ _ <-.
  eapply each_keeps; [|exact E1]. intros ? ? ? ? E2. cbn beta in E2. apply bind_Ok_inv in E2 as (? & _ & E2). eapply simple_back_bat; exact E2.
Qed.
Lemma loc_back_bat two o nin f ns e r ns' : loc_back two o nin f ns e = Ok (r, ns') -> map n_batch ns' = map n_batch ns.
Proof.
  unfold loc_back. intros H. apply bind_Ok_inv in H as ([es n1] & E & H). apply bind_Ok_inv in H as (? & _ & H). injection H as _ <-.
  eapply each_keeps; [|exact E]. intros ? ? ? ? E2. cbn beta in E2. apply bind_Ok_inv in E2 as (? & _ & E2). apply bind_Ok_inv in E2 as ([er n2] & E3 & E2). cbv zeta in E2.
  destruct (_ =? 0) in E2; [discriminate|]. apply bind_Ok_inv in E2 as (? & _ & E2). injection E2 as _ <-. eapply simple_back_bat; exact E3.
Qed.
Lemma body_back_bat o nin b e r b' : body_back o nin b e = Ok (r, b') -> batches b' = batches b.
Proof.
  destruct b as [ns|ns|ns|k f ns]; cbn [body_back]; intros H.
  - apply bind_Ok_inv in H as ([a c] & E & H). apply bind_Ok_inv in H as (? & _ & H). injection H as _ <-. cbn [batches]. eapply each_keeps; [|exact E]. intros ? ? ? ? E2; cbn beta in E2; apply bind_Ok_inv in E2 as (? & _ & E2); eapply simple_back_bat; exact E2.
  - apply bind_Ok_inv in H as ([a c] & E & H). apply bind_Ok_inv in H as (? & _ & H). injection H as _ <-. cbn [batches]. eapply (each_keeps _ (fun r => n_batch (r_n r))); [|exact E]. intros ? ? ? ? E2; cbn beta in E2; apply bind_Ok_inv in E2 as (? & _ & E2); eapply rec_back_bat; exact E2.
  - apply bind_Ok_inv in H as ([a c] & E & H). apply bind_Ok_inv in H as (? & _ & H). injection H as _ <-. cbn [batches]. rewrite !flat_gbat. f_equal. eapply (each_keeps _ gbat); [|exact E]. intros ? ? ? ? E2; cbn beta in E2; apply bind_Ok_inv in E2 as (? & _ & E2); eapply gru_back_bat; exact E2.
  - destruct k; try (apply bind_Ok_inv in H as ([a c] & E & H); injection H as _ <-; cbn [batches]; first [now apply conv_back_bat in E|now apply loc_back_bat in E]);
      apply bind_Ok_inv in H as (a & E & H); injection H as _ <-; reflexivity.
Qed.
Lemma body_train_bat o b e b' : body_train o b e = Ok b' -> batches b' = batches b.
Proof.
  assert (T : forall {A C} (f : A -> F -> outcome A) (g : A -> C) ns us ns', (forall a e a', f a e = Ok a' -> g a' = g a) -> each (trained f e) ns = Ok (us, ns') -> map g ns' = map g ns).
  { intros A C f g ns us ns' Hf E. eapply each_keeps; [|exact E]. intros ? ? ? ? E2. unfold trained in E2. apply bind_Ok_inv in E2 as (? & _ & E2). apply bind_Ok_inv in E2 as (? & E3 & E2). injection E2 as _ <-. eauto. }
  destruct b as [ns|ns|ns|k f ns]; cbn [body_train]; intros H.
  - apply bind_Ok_inv in H as ([a c] & E & H). injection H as <-. cbn [batches]. eapply T; [|exact E]. intros ? ? ? E9; exact (simple_train_bat _ _ _ _ E9).
  - apply bind_Ok_inv in H as ([a c] & E & H). injection H as <-. cbn [batches]. eapply (T _ _ _ (fun r => n_batch (r_n r))); [|exact E]. intros ? ? ? E9; exact (rec_train_bat _ _ _ _ E9).
  - apply bind_Ok_inv in H as ([a c] & E & H). injection H as <-. cbn [batches]. rewrite !flat_gbat. f_equal. eapply (T _ _ _ gbat); [|exact E]. intros ? ? ? E9; exact (gru_train_bat _ _ _ _ E9).
  - destruct k; try (injection H as <-; reflexivity); apply bind_Ok_inv in H as ([a c] & E & H); injection H as <-; cbn [batches]; (eapply T; [|exact E]); intros ? ? ? E9; exact (simple_train_bat _ _ _ _ E9).
Qed.

Lemma works_batches l l' : works l l' -> batches (l_body l') = batches (l_body l).
Proof.
  intros H. induction H as [l|l x reset o l1 l2 Hx E _ IH|l rand x reset o l1 l2 Hx E _ IH|l opt e r l1 l2 He E _ IH|l opt e l1 l2 He E _ IH|l opt e r l1 l2 Hn He E _ IH]; [reflexivity|..]; rewrite IH.
  - unfold layer_output in E. apply bind_Ok_inv in E as ([a b] & Eb & E). apply bind_Ok_inv in E as (? & _ & E). injection E as _ <-. now apply body_output_bat in Eb.
  - unfold layer_outputForTraining in E. apply bind_Ok_inv in E as ([a b] & Eb & E). apply bind_Ok_inv in E as ([? ?] & _ & E). injection E as _ <-. now apply body_output_bat in Eb.
  - unfold layer_backOutput in E. apply bind_Ok_inv in E as ([a b] & Eb & E). injection E as _ <-. now apply body_back_bat in Eb.
  - unfold layer_train in E. apply bind_Ok_inv in E as (b & Eb & E). injection E as <-. now apply body_train_bat in Eb.
  - unfold layer_backOutput in E. apply bind_Ok_inv in E as ([a b] & Eb & E). injection E as _ <-. now apply body_back_bat in Eb.
Qed.
Lemma made_batches draws d nin batch m ns : build_neurons (mk_full draws nin batch (nin + 1) d) m = Ok ns -> Forall (fun n => n_batch n = batch) ns.
Proof.
  intros H. apply build_neurons_inv in H as [_ Hi]. apply Forall_of_nth. intros i n Hn. specialize (Hi i n Hn). unfold mk_full in Hi. rewrite Nat.add_1_r in Hi. cbn [neuron_init] in Hi. injection Hi as <-. reflexivity.
Qed.
Lemma made_rec_batches nin batch bias a (draws : nat -> nat -> F) m ns : build_neurons (fun i => rneuron_init nin batch (nin + 2) bias a (draws i)) m = Ok ns -> Forall (fun r => n_batch (r_n r) = batch) ns.
Proof.
  intros H. apply build_neurons_inv in H as [_ Hi]. apply Forall_of_nth. intros i n Hn. specialize (Hi i n Hn). unfold rneuron_init in Hi. cbv beta in Hi. rewrite Nat.add_succ_r in Hi. cbn [neuron_init bind] in Hi. injection Hi as <-. reflexivity.
Qed.
Lemma same_batches {A} (g : A -> nat) b (ns ns0 : list A) : map g ns = map g ns0 -> Forall (fun n => g n = b) ns0 -> Forall (fun n => g n = b) ns.
Proof. intros E H. apply (Forall_map g (fun x => x = b)) in H. rewrite <- E in H. now apply (Forall_map g (fun x => x = b)) in H. Qed.
End P.
