(* Values computed by the filter layers. *)
From Verif Require Import Base Num ActModel NeuronModel LayerModel NeuronProofs LayerProofs SafeProofs SafeLayers FactoryModel FactorySpec FactoryProofs SafeNet BuildProofs FilterSpec.
Local Open Scope nat_scope.

Lemma map_flat_map {A B C} (g : B -> C) (f : A -> list B) l : map g (flat_map f l) = flat_map (fun a => map g (f a)) l.
Proof. induction l as [|a t IH]; cbn; auto. now rewrite map_app, IH. Qed.
Lemma flat_map_ext_in {A B} (f g : A -> list B) l : (forall a, In a l -> f a = g a) -> flat_map f l = flat_map g l.
Proof. induction l as [|a t IH]; cbn; intros H; auto. rewrite H by now left. rewrite IH; auto. Qed.
Lemma flat_map_length_const {A B} (f : A -> list B) l c : (forall a, In a l -> List.length (f a) = c) -> List.length (flat_map f l) = List.length l * c.
Proof. induction l as [|a t IH]; cbn; intros H; auto. rewrite app_length, H, IH by auto. reflexivity. Qed.
Lemma nth_error_flat_map_const {A B} (f : A -> list B) l c : (forall a, In a l -> List.length (f a) = c) ->
  forall p n a, nth_error l p = Some a -> n < c -> nth_error (flat_map f l) (p * c + n) = nth_error (f a) n.
Proof.
  induction l as [|b t IH]; intros H p n a Hp Hn; [destruct p; discriminate|]. cbn [flat_map].
  assert (Hb : List.length (f b) = c) by (apply H; now left).
  destruct p as [|p]; cbn in Hp |- *.
  - injection Hp as ->. now rewrite nth_error_app1 by lia.
  - rewrite nth_error_app2 by lia. rewrite Hb. replace (c + p * c + n - c) with (p * c + n) by lia. eapply IH; eauto. intros; apply H; now right.
Qed.
Lemma nth_error_seq_map {A} (f : nat -> A) n p : p < n -> nth_error (map f (seq 0 n)) p = Some (f p).
Proof.
  intros H. rewrite nth_error_map, (nth_error_nth' _ 0) by (rewrite seq_length; auto). cbn. now rewrite seq_nth.
Qed.

Section P.
Context {N : Num}.
Lemma fires_value n x : neuron_value n x = fires (n_act n) (n_bias n) (n_w n) x. Proof. reflexivity. Qed.

(* what never changes during a prediction *)
Definition setup (n : Neuron) := (n_act n, n_bias n, n_w n).
Definition fires_of (s : activation * F * list F) (x : list F) : F := fires (fst (fst s)) (snd (fst s)) (snd s) x.

Lemma conv_values k f ns x : rowsOK 0 k (f_nin f) (f_index f) -> f_kernels f = List.length (f_index f) * List.length ns ->
  Forall (wf_plain (f_nin f)) ns -> List.length x = k ->
  exists ns', conv_output f ns x = Ok (flat_map (fun row => map (fun n => fires_of (setup n) (map (fun i => nth (Z.to_nat i) x fzero) row)) ns) (f_index f), ns').
Proof.
  intros HR Hk Hw Hx. unfold conv_output.
  match goal with |- context [ofold ?f0 _ _] => set (step := f0) end.
  assert (G : forall rows, rowsOK 0 k (f_nin f) rows -> forall outs ns0, Forall (wf_plain (f_nin f)) ns0 -> map setup ns0 = map setup ns ->
    exists ns', ofold step rows (outs, ns0) = Ok (outs ++ flat_map (fun row => map (fun n => fires_of (setup n) (map (fun i => nth (Z.to_nat i) x fzero) row)) ns) rows, ns')).
  { induction rows as [|row t IH]; intros Hrows outs ns0 H0 M0; cbn [ofold].
    - exists ns0. cbn. now rewrite app_nil_r.
    - inversion Hrows as [|? ? [Hl Hf] Ht]; subst. unfold step at 1. cbn [fst snd].
      rewrite (convWindow_ok f (List.length x) x row Hl Hf eq_refl). cbn [bind]. set (win := map (fun i => nth (Z.to_nat i) x fzero) row).
      destruct (each_wf (fun _ n => simple_output n win) (wf_plain (f_nin f)) (fun _ => True) ns0) as (bs & ns1 & E & L1 & L2 & F1 & _).
      { intros j a Ha. destruct (simple_output_wf (f_nin f) a win) as (v & n' & E & W & _); eauto.
        - eapply Forall_nth_error; eauto. - unfold win. now rewrite map_length. }
      rewrite E. cbn [bind].
      assert (Eb : bs = map (fun n => fires_of (setup n) win) ns).
      { transitivity (map (fun s => fires_of s win) (map setup ns0)).
        - apply each_inv in E as (La & _ & Hj). apply nth_error_ext. intros i. rewrite map_map, nth_error_map. destruct (nth_error ns0 i) as [a|] eqn:Ea.
          + destruct (Hj i a Ea) as (b & a' & -> & _ & Ef). apply simple_output_inv in Ef as (-> & _). reflexivity.
          + apply nth_error_None in Ea. cbn. apply nth_error_None. lia.
        - rewrite M0. now rewrite map_map. }
      destruct (IH Ht (outs ++ bs) ns1 F1) as (ns' & E').
      { rewrite <- M0. eapply each_keeps; [|exact E]. intros j a b a' Ea. apply simple_output_inv in Ea as (_ & ? & _ & ->). reflexivity. }
      exists ns'. rewrite E'. cbn [flat_map]. fold win. now rewrite <- app_assoc, Eb. }
  destruct (G (f_index f) HR [] ns Hw eq_refl) as (ns' & E). rewrite E. cbn [bind app].
  rewrite fill_ok. { exists ns'. reflexivity. } rewrite Hk. apply flat_map_length_const. intros; apply map_length.
Qed.
Lemma loc_values k f ns x : rowsOK (-1) k (f_nin f) (f_index f) -> 0 < f_filters f -> f_kernels f = List.length (f_index f) * f_filters f -> List.length ns = f_kernels f ->
  Forall (wf_plain (f_nin f)) ns -> List.length x = k ->
  exists out ns', loc_output f ns x = Ok (out, ns') /\ List.length out = f_kernels f /\
    forall j n row, nth_error ns j = Some n -> nth_error (f_index f) (j / f_filters f) = Some row -> nth_error out j = Some (fires_of (setup n) (map (valueAt x) row)).
Proof.
  intros HR Hf Hk Hn Hw Hx. unfold loc_output. cbv zeta. rewrite <- Hk. destruct (Nat.ltb_spec (List.length ns) (f_kernels f)); [lia|].
  rewrite (omap_all_ok (locWindow f x) (fun row => map (valueAt x) row) (f_index f)).
  2: { intros row Hin. destruct (rows_in _ _ _ _ _ HR Hin) as [Hl Hr]. now apply (locWindow_ok f k). }
  cbn [bind]. rewrite firstn_all2 by lia. rewrite skipn_all2 by lia.
  match goal with |- context [each ?f0 ns] => set (step := f0) end.
  destruct (each_wf step (wf_plain (f_nin f)) (fun _ => True) ns) as (bs & ns1 & E1 & L1 & L2 & F1 & _).
  { intros j a Ha. unfold step. assert (j < List.length ns) by (apply nth_error_Some; congruence).
    assert (Hj : j / f_filters f < List.length (f_index f)) by (apply Nat.div_lt_upper_bound; lia).
    destruct (lget_in_range (f_index f) _ Hj) as (row & Hrow). apply lget_Ok in Hrow.
    unfold lget. rewrite nth_error_map, Hrow. cbn [option_map bind].
    destruct (rows_in _ _ _ _ row HR) as [Hl _]; [eapply nth_error_In; eauto|].
    destruct (simple_output_wf (f_nin f) a (map (valueAt x) row)) as (v & n' & E' & W & _); eauto.
    - eapply Forall_nth_error; eauto.
    - now rewrite map_length. }
  rewrite E1. cbn [bind]. rewrite fill_ok by lia. cbn [bind]. eexists _, _. split; [reflexivity|]. split; [lia|].
  intros j n row Hj Hrow. apply each_inv in E1 as (_ & _ & Hi). destruct (Hi j n Hj) as (b & n' & -> & _ & E). unfold step in E.
  unfold lget in E. rewrite nth_error_map, Hrow in E. cbn [option_map bind] in E. apply simple_output_inv in E as (-> & _). reflexivity.
Qed.
End P.
