(* C39: equality of networks. *)
From Coq Require Import String Reals SpecFloat.
From Verif Require Import Base Num NumOrder ActModel NeuronModel LayerModel NetModel StatModel WaitModel DataModel FactoryModel FactorySpec FactoryProofs FilterSpec SafeNet BuildProofs HistProofs FilterProps PureProps
  TrainModel SaveModel SaveSpec EqModel EqProofs EqOutputs EqSame AlikeProofs.
From Verif Require Import FactoryProps DataProps Witness TrainProps.
Local Open Scope outcome_scope.
Local Open Scope nat_scope.

(* when no number of the network is NaN, the network is equal to itself *)
Theorem C39_reflexive_partial : forall (N : Num) (s : Snn), Forall (fun x => feqb x x = true) (net_numbers (sn_net s)) -> snn_eqb s s = Ok true.
Proof. intros N s H. now apply snn_refl. Qed.
Print Assumptions C39_reflexive_partial.
Theorem C39_reflexive_real : forall s : @Snn RNum, snn_eqb s s = Ok true.
Proof. intros s. apply C39_reflexive_partial. apply Forall_forall. intros x _. now apply Reqb_eq. Qed.
Print Assumptions C39_reflexive_real.
(* whichever is on the left, the answer is the same and nothing is read out of bounds, for networks whose layers have the same numbers of
   layer optimizers (Dropout, L1, L2, ErrorMultiplier, Softmax) *)
Definition same_optimizer_counts {N : Num} (a b : @Snn N) : Prop :=
  List.length (nn_layers (sn_net a)) = List.length (nn_layers (sn_net b)) -> map (fun l => List.length (l_opts l)) (nn_layers (sn_net a)) = map (fun l => List.length (l_opts l)) (nn_layers (sn_net b)).
Theorem C39_symmetric_partial : forall (N : Num), eq_laws N -> forall a b : Snn, same_optimizer_counts a b -> (exists r, snn_eqb a b = Ok r) /\ snn_eqb a b = snn_eqb b a.
Proof.
  intros N L a b H. assert (H' : List.length (nn_layers (sn_net a)) = List.length (nn_layers (sn_net b)) -> same_opt_counts (nn_layers (sn_net a)) (nn_layers (sn_net b))).
  { intros E. apply H in E. now apply Forall2_map_eq in E. }
  split; [now apply snn_defined|now apply snn_sym].
Qed.
Print Assumptions C39_symmetric_partial.
Theorem C39_transitive : forall (N : Num), eq_laws N -> forall a b c : Snn, snn_eqb a b = Ok true -> snn_eqb b c = Ok true -> snn_eqb a c = Ok true.
Proof. intros N L a b c. now apply snn_trans. Qed.
Print Assumptions C39_transitive.

(* Two networks, built from any descriptions and used in any way: if they are equal and their layers have the same numbers of layer
   optimizers, they give the same outputs for every sequence of predictions. [exact] holds of numbers for which == is identity. *)
Theorem C39_equal_same_outputs_partial : forall (N : Num) (exact : F -> Prop), (forall x y, exact x -> exact y -> feqb x y = true -> x = y) ->
  forall draws masks shape rest lr m net draws' masks' shape' rest' lr' m' net' (a b : Snn),
  construct draws masks (Input (map Z.of_nat shape) :: rest) lr m = Ok net -> construct draws' masks' (Input (map Z.of_nat shape') :: rest') lr' m' = Ok net' ->
  Forall (fun n => 0 < n) shape -> Forall (fun n => 0 < n) shape' -> Forall sane_kernel rest -> Forall sane_kernel rest' -> Forall plain_pooling rest -> Forall plain_pooling rest' ->
  Forall supported_pooling (nn_layers net) -> Forall supported_pooling (nn_layers net') ->
  uses (cell_count shape) net (sn_net a) -> uses (cell_count shape') net' (sn_net b) ->
  Forall exact (net_numbers (sn_net a)) -> Forall exact (net_numbers (sn_net b)) -> same_optimizer_counts a b -> snn_eqb a b = Ok true ->
  forall inputs : list (list F * bool), lives a (map (fun p => Predict (fst p) (snd p)) inputs) = lives b (map (fun p => Predict (fst p) (snd p)) inputs).
Proof.
  intros N exact HX draws masks shape rest lr m net draws' masks' shape' rest' lr' m' net' a b C1 C2 Hs1 Hs2 Hk1 Hk2 Hd1 Hd2 P1 P2 U1 U2 X1 X2 HC E.
  assert (PP : forall draws masks shape rest lr m net net', construct draws masks (Input (map Z.of_nat shape) :: rest) lr m = Ok net -> Forall (fun n => 0 < n) shape -> Forall sane_kernel rest ->
    Forall supported_pooling (nn_layers net) -> uses (cell_count shape) net net' -> Forall supported_pooling (nn_layers net')).
  { clear. intros draws masks shape rest lr m net1 net1' C1 Hs Hk P1 U1.
    assert (Hsane : sane_descriptions (Input (map Z.of_nat shape) :: rest)) by (split; [|exact Hk]; cbn [d_shape Input]; clear -Hs; induction Hs; cbn; constructor; auto; lia).
    destruct (construct_wf _ _ _ _ _ _ C1 Hsane P1) as (k & mm & W & Hp). cbn [hd d_shape Input] in Hp. unfold product in Hp. apply product_inv in Hp. change 1%Z with (Z.of_nat 1) in Hp. rewrite fold_mul_nat in Hp. apply Nat2Z.inj in Hp.
    change (k = cell_count shape) in Hp. subst k. destruct (uses_wf _ _ _ _ W U1) as [_ HS]. clear -HS P1. induction HS as [|a b ta tb Hab HS IH]; inversion P1; subst; constructor; auto.
    destruct Hab as (_ & _ & Hw). apply works_kind in Hw. unfold supported_pooling in *. destruct (l_body a), (l_body b); try contradiction; auto. destruct Hw as (-> & E1 & E2). destruct k; auto; congruence. }
  pose proof (PP _ _ _ _ _ _ _ _ C1 Hs1 Hk1 P1 U1) as Q1. pose proof (PP _ _ _ _ _ _ _ _ C2 Hs2 Hk2 P2 U2) as Q2.
  pose proof (network_layers _ _ _ _ _ _ _ _ C1 Hs1 Hk1 P1 U1) as L1. pose proof (network_layers _ _ _ _ _ _ _ _ C2 Hs2 Hk2 P2 U2) as L2.
  unfold snn_eqb in E. rewrite oand_true in E. destruct E as (E & _). unfold net_eqb in E. rewrite oand_true, Ok_true, Bool.andb_true_iff, Nat.eqb_eq in E. destruct E as ((_ & EL) & E).
  specialize (HC EL). apply Forall2_map_eq in HC. unfold net_numbers in X1, X2. rewrite Forall_app in X1, X2.
  assert (HS : Forall2 sim (nn_layers (sn_net a)) (nn_layers (sn_net b))).
  { eapply (layers_sim exact HX _ _ rest shape _ rest' shape'); try eassumption; tauto. }
  clear - HS. intros inputs. revert a b HS. induction inputs as [|(x & t) inputs IH]; intros a b HS; cbn [map lives fst snd]; [reflexivity|].
  pose proof (sim_net (sn_net a) (sn_net b) x t HS) as HO. unfold computeOutput.
  destruct (net_output (sn_net a) x t) as [(o1 & n1)|u|], (net_output (sn_net b) x t) as [(o2 & n2)|u'|]; cbn in HO; try contradiction; cbn [bind]; try congruence.
  destruct HO as (Eo & HS'). cbn in Eo, HS'. subst o2. now rewrite (IH (with_net a n1) (with_net b n2) HS').
Qed.
Print Assumptions C39_equal_same_outputs_partial.
(* the laws used above: on the reals == is identity, in binary32 it is on everything but negative zeros *)
Theorem C39_number_laws : (eq_laws RNum /\ forall expf tanhf, eq_laws (Num32 expf tanhf)) /\ (forall x y : @F RNum, feqb x y = true -> x = y) /\
  forall expf tanhf (x y : @F (Num32 expf tanhf)), x <> S754_zero true -> y <> S754_zero true -> feqb x y = true -> x = y.
Proof.
  split; [split; [exact eq_laws_R|exact eq_laws_32]|]. split; [intros x y; apply Reqb_eq|]. intros expf tanhf x y Hx Hy H. apply SFeqb_same in H. destruct x as [[|]| | |], y as [[|]| | |]; cbn in H; try contradiction; congruence.
Qed.
Print Assumptions C39_number_laws.

(* a pooling, a convolution, dense, recurrent and gated layers; built twice from the same draws, one prediction each *)
Definition not_neg0 (x : f32) : bool := match x with S754_zero true => false | _ => true end.
Example C39_hypotheses : exists net a b, @construct N32 zdraws nomasks demo (b32q 1 100) (b32q 9 10) = Ok net /\ Forall (@supported_pooling N32) (nn_layers net) /\ Forall (@plain_pooling N32) demo /\ Forall (@sane_kernel N32) demo /\
  uses 40 net (sn_net a) /\ uses 40 net (sn_net b) /\ Forall (fun x : @F N32 => x <> S754_zero true) (net_numbers (sn_net a)) /\ Forall (fun x : @F N32 => x <> S754_zero true) (net_numbers (sn_net b)) /\
  same_optimizer_counts a b /\ snn_eqb a b = Ok true.
Proof.
  by_compute (run_check (@newSnn N32 zdraws nomasks demo (b32q 1 100) (b32q 9 10)) (fun s0 => run_check (@computeOutput N32 s0 (repeat (b32 1) 40) true) (fun p =>
    forallb pool_okb (nn_layers (sn_net s0)) && forallb not_neg0 (net_numbers (sn_net (snd p))) && bool_is (snn_eqb (snd p) (snd p)) true))).
  unfold newSnn in E. apply bind_Ok_inv in E as (net & En & E). apply bind_Ok_inv in E as (o & Eo & E). injection E as <-. cbn [sn_net] in *.
  assert (U : uses 40 net (sn_net (snd w0))).
  { unfold computeOutput in E0. cbn [sn_net] in E0. apply bind_Ok_inv in E0 as ((o1 & n1) & E1 & E0). injection E0 as <-. cbn [snd sn_net with_net]. refine (uses_predict 40 _ _ true o1 n1 _ _ E1 (uses_none _ _)). now rewrite repeat_length. }
  assert (X : Forall (fun x : @F N32 => x <> S754_zero true) (net_numbers (sn_net (snd w0)))).
  { match goal with K : forallb not_neg0 _ = true |- _ => rewrite forallb_forall in K; apply Forall_forall; intros x Hx Ex; apply K in Hx; subst x; discriminate Hx end. }
  exists net, (snd w0), (snd w0). split; [exact En|]. split; [now apply pool_okb_ok|]. split; [repeat constructor; intros T; try reflexivity; discriminate T|]. split; [repeat constructor; cbn; lia|].
  split; [exact U|]. split; [exact U|]. split; [exact X|]. split; [exact X|]. split; [intros _; reflexivity|]. now apply bool_is_ok.
Qed.

(* after one prediction on an input that is not a number, a network is not equal to itself *)
Theorem C39_not_reflexive_refuted : exists s0 o s1, @newSnn N32 draws_t nomasks demo_t (b32q 1 100) (b32q 9 10) = Ok s0 /\ @computeOutput N32 s0 [S754_nan; b32 1] true = Ok (o, s1) /\ snn_eqb s1 s1 = Ok false.
Proof.
  by_compute (run_check (@newSnn N32 draws_t nomasks demo_t (b32q 1 100) (b32q 9 10)) (fun s0 => run_check (@computeOutput N32 s0 [S754_nan; b32 1] true) (fun p => bool_is (snn_eqb (snd p) (snd p)) false))).
  exists w, (fst w0), (snd w0). split; [exact E|]. split; [rewrite E0; now destruct w0|now apply bool_is_ok].
Qed.
Print Assumptions C39_not_reflexive_refuted.
(* a network and the same with a softmax on its last layer: equal when the first is on the left, although they compute different outputs;
   with the other on the left the comparison reads past the end of the list of optimizers *)
Definition plain_d : list (@LDesc N32) := [@Input N32 [1]%Z; @FullyConnected N32 2 a_identity []].
Definition soft_d : list (@LDesc N32) := [@Input N32 [1]%Z; @FullyConnected N32 2 a_identity [@d_softmax N32]].
Theorem C39_optimizers_refuted : exists a b o a1 o' b1, @newSnn N32 draws_t nomasks plain_d (b32q 1 100) (b32q 9 10) = Ok a /\ @newSnn N32 draws_t nomasks soft_d (b32q 1 100) (b32q 9 10) = Ok b /\
  snn_eqb a b = Ok true /\ snn_eqb b a = UB /\ @computeOutput N32 a [b32 1] true = Ok (o, a1) /\ @computeOutput N32 b [b32 1] true = Ok (o', b1) /\ o <> o'.
Proof.
  by_compute (run_check (@newSnn N32 draws_t nomasks plain_d (b32q 1 100) (b32q 9 10)) (fun a => run_check (@newSnn N32 draws_t nomasks soft_d (b32q 1 100) (b32q 9 10)) (fun b =>
    bool_is (snn_eqb a b) true && is_ub (snn_eqb b a) && run_check (@computeOutput N32 a [b32 1] true) (fun p => run_check (@computeOutput N32 b [b32 1] true) (fun q => negb (sfl_eqb (fst p) (fst q))))))).
  exists w, w0, (fst w1), (snd w1), (fst w2), (snd w2). split; [exact E|]. split; [exact E0|]. split; [now apply bool_is_ok|]. split; [now apply is_ub_ok|]. split; [rewrite E1; now destruct w1|]. split; [rewrite E2; now destruct w2|].
  intros Eo. rewrite (proj2 (sfl_eqb_eq _ _) Eo) in H. discriminate.
Qed.
Print Assumptions C39_optimizers_refuted.
