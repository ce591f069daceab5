(* operator==: reflexive on numbers equal to themselves, symmetric, transitive. *)
From Coq Require Import String Reals SpecFloat.
From Verif Require Import Base Num NumOrder ActModel NeuronModel LayerModel NetModel StatModel TrainModel SaveModel SaveSpec EqModel.
Local Open Scope nat_scope.

(* == on numbers: symmetric, transitive; what can be read from a file is equal to itself *)
Record eq_laws (N : Num) : Prop := {
  el_sym : forall a b : @F N, feqb a b = feqb b a;
  el_trans : forall a b c : @F N, feqb a b = true -> feqb b c = true -> feqb a c = true;
  el_finite : forall a : @F N, ffinite a = true -> feqb a a = true }.
Lemma Reqb_eq a b : Reqb a b = true <-> a = b.
Proof. unfold Reqb. destruct (Req_EM_T a b); split; intros; auto; discriminate || contradiction. Qed.
Lemma eq_laws_R : eq_laws RNum.
Proof.
  constructor; cbn [feqb RNum].
  - intros a b. unfold Reqb. destruct (Req_EM_T a b), (Req_EM_T b a); auto; congruence.
  - intros a b c H1 H2. apply Reqb_eq in H1, H2. apply Reqb_eq. exact (eq_trans H1 H2).
  - intros a _. now apply Reqb_eq.
Qed.
Definition same32 (x y : f32) : Prop := match x, y with S754_nan, _ | _, S754_nan => False | S754_zero _, S754_zero _ => True | _, _ => x = y end.
Lemma SFeqb_same x y : SFeqb x y = true <-> same32 x y.
Proof.
  unfold SFeqb. destruct x as [s|s| |s m e], y as [s'|s'| |s' m' e']; cbn; try (now split; [discriminate|intros []]); try tauto;
    try (destruct s; cbn; now split; [discriminate|discriminate]); try (destruct s'; cbn; now split; [discriminate|discriminate]).
  - destruct s, s'; cbn; split; intros; congruence.
  - destruct s, s'; cbn; try (split; intros; discriminate).
    + destruct (Z.compare_spec e e') as [->|H|H]; [|split; intros E; [discriminate|injection E; lia]..]. rewrite <- Pos.compare_antisym. destruct (Pos.compare_spec m' m) as [->|H|H]; cbn; [now split|..]; split; intros E; try discriminate; injection E; lia.
    + destruct (Z.compare_spec e e') as [->|H|H]; [|split; intros E; [discriminate|injection E; lia]..]. change (Pos.compare_cont Eq m m') with (Pos.compare m m'). destruct (Pos.compare_spec m m') as [->|H|H]; cbn; [now split|..]; split; intros E; try discriminate; injection E; lia.
Qed.
Lemma same32_refl x : x <> S754_nan -> same32 x x. Proof. destruct x; cbn; auto. Qed.
Lemma eq_laws_32 expf tanhf : eq_laws (Num32 expf tanhf).
Proof.
  constructor; cbn [feqb Num32].
  - intros a b. apply Bool.eq_iff_eq_true. rewrite !SFeqb_same. destruct a, b; cbn; try tauto; split; congruence.
  - intros a b c. rewrite !SFeqb_same. destruct a, b, c; cbn; try tauto; congruence.
  - intros a H. apply SFeqb_same, same32_refl. intros ->. discriminate H.
Qed.

Lemma oand_true a b : oand a b = Ok true <-> a = Ok true /\ b = Ok true.
Proof. unfold oand. destruct a as [[|]|m|]; cbn; split; intros; try tauto; try discriminate; try (now destruct H; discriminate). Qed.
Lemma Ok_true b : Ok b = Ok true <-> b = true. Proof. split; [now intros [= ->]|now intros ->]. Qed.
Section V.
Context {A : Type} (eqb : A -> A -> bool).
Lemma vec_eqb_spec a b : vec_eqb eqb a b = true <-> Forall2 (fun x y => eqb x y = true) a b.
Proof.
  revert b. induction a as [|x a IH]; intros [|y b]; cbn; try (split; [discriminate|intros H; inversion H]); [split; constructor|].
  rewrite Bool.andb_true_iff, IH. split; [intros []; now constructor|intros H; now inversion H].
Qed.
Lemma vec_eqb_refl a : Forall (fun x => eqb x x = true) a -> vec_eqb eqb a a = true.
Proof. intros H. induction H as [|x a Hx _ IH]; cbn; [reflexivity|]. now rewrite Hx, IH. Qed.
Lemma vec_eqb_sym a b : (forall x y, eqb x y = eqb y x) -> vec_eqb eqb a b = vec_eqb eqb b a.
Proof. intros H. revert b. induction a as [|x a IH]; intros [|y b]; cbn; auto. now rewrite H, IH. Qed.
Lemma vec_eqb_trans a b c : (forall x y z, eqb x y = true -> eqb y z = true -> eqb x z = true) -> vec_eqb eqb a b = true -> vec_eqb eqb b c = true -> vec_eqb eqb a c = true.
Proof.
  intros H. revert b c. induction a as [|x a IH]; intros [|y b] [|z c]; cbn; auto; try discriminate. rewrite !Bool.andb_true_iff. intros [] []. split; eauto.
Qed.
End V.
Lemma vec_eqb_nat a b : vec_eqb Nat.eqb a b = true <-> a = b.
Proof. rewrite vec_eqb_spec. split; [induction 1 as [|x y a b E _ IH]; [reflexivity|]; apply Nat.eqb_eq in E; congruence|intros ->; induction b; constructor; auto; apply Nat.eqb_refl]. Qed.
Lemma vec_eqb_Z a b : vec_eqb Z.eqb a b = true <-> a = b.
Proof. rewrite vec_eqb_spec. split; [induction 1 as [|x y a b E _ IH]; [reflexivity|]; apply Z.eqb_eq in E; congruence|intros ->; induction b; constructor; auto; apply Z.eqb_refl]. Qed.
Lemma vec_eqb_ZZ a b : vec_eqb (vec_eqb Z.eqb) a b = true <-> a = b.
Proof. rewrite vec_eqb_spec. split; [induction 1 as [|x y a b E _ IH]; [reflexivity|]; apply vec_eqb_Z in E; congruence|intros ->; induction b; constructor; auto; now apply vec_eqb_Z]. Qed.
Lemma act_eqb_spec a b : act_eqb a b = true <-> a = b.
Proof. destruct a, b; cbn; split; intros; congruence || discriminate. Qed.
Lemma eq_iff_sym {T} (x y : T) (e e' : bool) : (e = true <-> x = y) -> (e' = true <-> y = x) -> e = e'.
Proof. intros H1 H2. apply Bool.eq_iff_eq_true. rewrite H1, H2. split; congruence. Qed.

Section P.
Context {N : Num}.
Definition selfs (l : list F) : Prop := Forall (fun x => feqb x x = true) l.
Lemma selfs_app a b : selfs (a ++ b) <-> selfs a /\ selfs b. Proof. apply Forall_app. Qed.
Lemma selfs_cons x l : selfs (x :: l) <-> feqb x x = true /\ selfs l. Proof. apply Forall_cons_iff. Qed.
Lemma selfs_concat l : selfs (List.concat l) <-> Forall selfs l.
Proof. induction l as [|x l IH]; cbn; [split; constructor|]. rewrite selfs_app, IH, Forall_cons_iff. tauto. Qed.
Lemma selfs_flat {A} (f : A -> list F) l : selfs (flat_map f l) <-> Forall (fun x => selfs (f x)) l.
Proof. induction l as [|x l IH]; cbn; [split; constructor|]. rewrite selfs_app, IH, Forall_cons_iff. tauto. Qed.
Lemma circ_refl c : selfs (circ_numbers c) -> circ_eqb c c = true.
Proof.
  intros H. apply selfs_concat in H. unfold circ_eqb. rewrite !Nat.eqb_refl, vec_eqb_refl; [reflexivity|]. eapply Forall_impl; [|exact H]. intros r Hr. now apply vec_eqb_refl.
Qed.
Lemma sgd_refl o : selfs (sgd_numbers o) -> sgd_eqb o o = true.
Proof. unfold sgd_numbers. rewrite !selfs_cons. intros (H1 & H2 & _). unfold sgd_eqb. now rewrite H1, H2. Qed.
Lemma neuron_refl o n : selfs (sgd_numbers o) -> selfs (neuron_numbers n) -> neuron_eqb o o n n = true.
Proof.
  intros Ho. unfold neuron_numbers. rewrite !selfs_app, !selfs_cons. intros (H1 & (H2 & _) & H3 & H4 & H5 & H6 & _). unfold neuron_eqb.
  rewrite Nat.eqb_refl, (vec_eqb_refl _ _ H1), H2, (circ_refl _ H3), (circ_refl _ H4), (vec_eqb_refl _ _ H5), H6, (proj2 (act_eqb_spec _ _) eq_refl), (sgd_refl o Ho). reflexivity.
Qed.
Lemma rneuron_refl o n : selfs (sgd_numbers o) -> selfs (rneuron_numbers n) -> rneuron_eqb o o n n = true.
Proof.
  intros Ho. unfold rneuron_numbers. rewrite !selfs_app, !selfs_cons. intros (H1 & H2 & H3 & H4 & H5 & _). unfold rneuron_eqb. now rewrite (neuron_refl o _ Ho H1), H2, H3, H4, H5.
Qed.
Lemma gneuron_refl o n n' : selfs (sgd_numbers o) -> selfs (gneuron_numbers n) -> bare_gru n = bare_gru n' -> gneuron_eqb o o n n' = true.
Proof.
  intros Ho. unfold gneuron_numbers. rewrite !selfs_app, !selfs_cons. intros ((H1 & H2 & H3 & H4 & _) & H5 & H6 & H7) E.
  destruct n as [a1 a2 a3 a4 a5 a6 a7 a8 a9], n' as [b1 b2 b3 b4 b5 b6 b7 b8 b9]. unfold bare_gru in E. cbn in *. injection E as <- <- <- <- <- <- <- <-. unfold gneuron_eqb. cbn [g_in g_prevOut g_recErr g_updOut g_outOut g_reset g_update g_output].
  now rewrite Nat.eqb_refl, H1, H2, H3, H4, (rneuron_refl o _ Ho H5), (rneuron_refl o _ Ho H6), (rneuron_refl o _ Ho H7).
Qed.
Lemma lopts_refl os : selfs (flat_map lopt_numbers os) -> lopts_eqb os os = Ok true.
Proof.
  induction os as [|o os IH]; cbn [flat_map lopts_eqb]; [reflexivity|]. rewrite selfs_app. intros (H & H').
  assert (E : lopt_eqb o o = true). { destruct o; cbn in *; rewrite ?selfs_cons in H; try reflexivity; try apply H. destruct H as (-> & -> & _). reflexivity. }
  rewrite E. now apply IH.
Qed.
Lemma fkind_eqb_spec k k' : fkind_eqb k k' = true <-> k = k'.
Proof. destruct k, k'; cbn; split; intros; congruence || discriminate. Qed.
Lemma filter_refl k f g : bare_filter k f = bare_filter k g -> filter_eqb f g = true /\ pool_eqb f g = true.
Proof.
  intros E. assert (X : f_filters f = f_filters g /\ f_kernels f = f_kernels g /\ f_kpf f = f_kpf g /\ f_npf f = f_npf g /\ f_ksize f = f_ksize g /\ f_nin f = f_nin g /\
    f_shapeIn f = f_shapeIn g /\ f_shapeOut f = f_shapeOut g /\ f_index f = f_index g) by (destruct f, g; destruct k; cbn in E; injection E; intros; subst; repeat split).
  destruct X as (A1 & A2 & A3 & A4 & A5 & A6 & A7 & A8 & A9). unfold filter_eqb, pool_eqb. rewrite A1, A2, A3, A4, A5, A6, !Nat.eqb_refl.
  apply vec_eqb_nat in A7, A8. apply vec_eqb_ZZ in A9. now rewrite A7, A8, A9.
Qed.
(* a layer with ordinary numbers is equal to any layer with the same content *)
Lemma layer_refl o l l' : selfs (sgd_numbers o) -> selfs (layer_numbers l) -> bare_layer l = bare_layer l' -> layer_eqb o o l l' = Ok true.
Proof.
  intros Ho H E. unfold layer_numbers in H. apply selfs_app in H as (H & HO). unfold bare_layer in E. injection E as E1 E2 E3. unfold layer_eqb. rewrite <- E1, <- E3, Nat.eqb_refl.
  destruct (l_body l) as [ns|ns|ns|k f ns], (l_body l') as [ns'|ns'|ns'|k' f' ns']; try discriminate E2; cbn [body_numbers] in H; rewrite selfs_flat in H; cbn [bare_body] in E2.
  - injection E2 as <-. rewrite (vec_eqb_refl (neuron_eqb o o) ns); [now apply lopts_refl|]. eapply Forall_impl; [|exact H]. intros n Hn. now apply neuron_refl.
  - injection E2 as <-. rewrite (vec_eqb_refl (rneuron_eqb o o) ns); [now apply lopts_refl|]. eapply Forall_impl; [|exact H]. intros n Hn. now apply rneuron_refl.
  - assert (X : vec_eqb (gneuron_eqb o o) ns ns' = true).
    { assert (E : map bare_gru ns = map bare_gru ns') by (now injection E2). clear E2. revert ns' E. induction H as [|n ns Hn _ IH]; intros [|n' ns'] E; try discriminate; [reflexivity|]. cbn in *.
      rewrite (gneuron_refl o n n' Ho Hn); [apply IH|]; [exact (f_equal (@tl _) E)|exact (f_equal (hd (bare_gru n)) E)]. }
    rewrite X. now apply lopts_refl.
  - assert (E : k = k' /\ bare_filter k f = bare_filter k' f' /\ ns = ns') by (injection E2; auto). destruct E as (<- & E & <-).
    rewrite (proj2 (fkind_eqb_spec k k) eq_refl). cbn [negb]. destruct (filter_refl k f f' E) as (F1 & F2).
    assert (X : vec_eqb (neuron_eqb o o) ns ns = true) by (apply vec_eqb_refl; eapply Forall_impl; [|exact H]; intros n Hn; now apply neuron_refl).
    rewrite X, F1, F2, (lopts_refl _ HO). now destruct k.
Qed.
Lemma layers_refl o la lb : selfs (sgd_numbers o) -> selfs (flat_map layer_numbers la) -> map bare_layer la = map bare_layer lb -> layers_eqb o o la lb = Ok true.
Proof.
  intros Ho H. revert lb. rewrite selfs_flat in H. induction H as [|l la Hl _ IH]; intros [|l' lb] E; try discriminate; [reflexivity|].
  assert (X : bare_layer l = bare_layer l' /\ map bare_layer la = map bare_layer lb) by (split; [exact (f_equal (hd l) E)|exact (f_equal (@tl _) E)]). destruct X as (X1 & X2).
  cbn [layers_eqb]. now rewrite (layer_refl o l l' Ho Hl X1), (IH lb X2).
Qed.
(* equality of networks does not look at what [bare] removes, nor at the statistics, nor at the NaN flag *)
Lemma snn_refl a b : selfs (net_numbers (sn_net a)) -> bare (no_nan a) = bare (no_nan b) -> snn_eqb a b = Ok true.
Proof.
  unfold net_numbers. rewrite selfs_app. intros (H1 & H2) E.
  pose proof (f_equal sn_net E) as E1. pose proof (f_equal sn_want E) as E3. pose proof (f_equal sn_idle E) as E4. pose proof (f_equal sn_index E) as E5.
  pose proof (f_equal sn_epoch E) as E6. pose proof (f_equal sn_ntrain E) as E7. pose proof (f_equal sn_auto E) as E8. pose proof (f_equal sn_path E) as E9. cbn in E1, E3, E4, E5, E6, E7, E8, E9.
  pose proof (f_equal nn_layers E1) as E10. pose proof (f_equal nn_opt E1) as E11. cbn in E10, E11.
  apply oand_true. split; [apply oand_true; split; [apply Ok_true; rewrite <- E11, (sgd_refl _ H2); cbn; rewrite <- (map_length bare_layer), E10, map_length; apply Nat.eqb_refl|rewrite <- E11; now apply layers_refl]|].
  apply Ok_true. now rewrite E3, E4, E5, E6, E7, E8, E9, !Bool.eqb_reflx, !Nat.eqb_refl, Z.eqb_refl, String.eqb_refl.
Qed.
Lemma finite_selfs l : eq_laws N -> all_finite l -> selfs l.
Proof. intros L H. eapply Forall_impl; [|exact H]. intros x. apply (el_finite N L). Qed.
End P.
